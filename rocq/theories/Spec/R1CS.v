(** Specification vocabulary for rank-1 constraint systems.

    Independent of the code: what a variable stands for under an assignment,
    the value of a linear combination, and when a circuit (number of
    multiplication gates and list of linear constraints) is satisfied. *)
From Coq Require Import ZArith List.
From Verif.Base Require Import Outcome Fp Params Algebra.
From Verif.Model Require Import LinComb.
Import ListNotations.

Section Spec.
Context {P : Params}.
Local Open Scope fe_scope.

(** values of the committed variables and of the three wires of every gate *)
Record assignment : Type := Assignment {
  as_committed : nat -> F;
  as_left : nat -> F;
  as_right : nat -> F;
  as_out : nat -> F
}.

Definition var_value (s : assignment) (v : var) : F :=
  match v with
  | VCommitted i => as_committed s i
  | VLeft i => as_left s i
  | VRight i => as_right s i
  | VOut i => as_out s i
  | VOne => 1
  end.

(** the value of a linear combination: sum of coefficient times value *)
Fixpoint lc_value (s : assignment) (l : lc) : F :=
  match l with
  | [] => 0
  | (v, c) :: t => c * var_value s v + lc_value s t
  end.

(** total coefficient of a variable in a linear combination *)
Fixpoint coeff (v : var) (l : lc) : F :=
  match l with
  | [] => 0
  | (w, c) :: t => (if var_eqb v w then c else 0) + coeff v t
  end.

(** two linear combinations that give every variable the same coefficient *)
Definition lc_equiv (a b : lc) : Prop := forall v, coeff v a = coeff v b.

(** ... and mention the same variables *)
Definition lc_same (a b : lc) : Prop :=
  lc_equiv a b /\ (forall v, In v (map fst a) <-> In v (map fst b)).

(** gate [i]: left * right = out *)
Definition gate_ok (s : assignment) (i : nat) : Prop :=
  as_left s i * as_right s i = as_out s i.

(** a circuit with [n] gates and linear constraints [cs] is satisfied by [s] *)
Definition satisfies (s : assignment) (n : nat) (cs : list lc) : Prop :=
  (forall i, (i < n)%nat -> gate_ok s i) /\ (forall l, In l cs -> lc_value s l = 0).

(** the assignment given by lists of wire values (0 outside) *)
Definition assignment_of (v aL aR aO : list F) : assignment :=
  Assignment (fun i => nth i v 0) (fun i => nth i aL 0) (fun i => nth i aR 0) (fun i => nth i aO 0).

(** a variable of a circuit with [n] gates and [m] commitments *)
Definition var_in_range (n m : nat) (v : var) : Prop :=
  match v with
  | VCommitted i => (i < m)%nat
  | VLeft i | VRight i | VOut i => (i < n)%nat
  | VOne => True
  end.

Definition lc_in_range (n m : nat) (l : lc) : Prop := forall v c, In (v, c) l -> var_in_range n m v.

End Spec.
