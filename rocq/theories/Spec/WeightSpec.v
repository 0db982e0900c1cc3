(** What the rows of the weight matrices should say.

    Independent of the code: the coefficient a variable was given last in a
    linear combination, and when no variable occurs twice. *)
From Coq Require Import ZArith List.
From Verif.Base Require Import Outcome Fp Params Algebra.
From Verif.Model Require Import LinComb.
Import ListNotations.

Section WeightSpec.
Context {P : Params}.
Local Open Scope fe_scope.

(** the coefficient in the last term on variable [v], 0 when there is none *)
Definition last_coeff (v : var) (l : lc) : F :=
  match find (fun t => var_eqb v (fst t)) (rev l) with
  | Some t => snd t
  | None => 0
  end.

(** apart from the constant, no variable occurs in two terms *)
Definition no_repeats (l : lc) : Prop :=
  NoDup (filter (fun v => negb (var_eqb v VOne)) (map fst l)).

(** [q] rows of [n] entries each, the entry in row [r] and column [i] being [f r i] *)
Definition is_matrix (q n : nat) (W : list (list F)) (f : nat -> nat -> F) : Prop :=
  length W = q /\
  forall r, (r < q)%nat ->
    length (nth r W []) = n /\ forall i, (i < n)%nat -> nth i (nth r W []) 0 = f r i.

End WeightSpec.
