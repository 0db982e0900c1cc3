(** src/r1cs/linear_combination.rs *)
From Coq Require Import ZArith List Bool.
From Verif.Base Require Import Outcome Fp Params.
Import ListNotations.

(** src/r1cs/linear_combination.rs 12-23 *)
Inductive var : Type :=
| VCommitted (i : nat)     (* Variable::Committed *)
| VLeft (i : nat)          (* Variable::MultiplierLeft *)
| VRight (i : nat)         (* Variable::MultiplierRight *)
| VOut (i : nat)           (* Variable::MultiplierOutput *)
| VOne.                    (* Variable::One *)

(** derived [PartialEq], src/r1cs/linear_combination.rs 11 *)
Definition var_eqb (a b : var) : bool :=
  match a, b with
  | VCommitted i, VCommitted j => Nat.eqb i j
  | VLeft i, VLeft j => Nat.eqb i j
  | VRight i, VRight j => Nat.eqb i j
  | VOut i, VOut j => Nat.eqb i j
  | VOne, VOne => true
  | _, _ => false
  end.

(** Iteration order of a Rust [HashMap]: any permutation of the entries.
    [permute code l] is [l] permuted according to [code] (a Lehmer code); every
    permutation of [l] is [permute code l] for some [code], and every [code]
    yields a permutation (LinCombProofs.v). *)
Fixpoint remove_nth {A} (i : nat) (l : list A) : list A :=
  match l, i with
  | [], _ => []
  | _ :: t, O => t
  | x :: t, S j => x :: remove_nth j t
  end.

Fixpoint permute {A} (code : list nat) (l : list A) : list A :=
  match code, l with
  | c :: code', _ :: _ =>
      match nth_error l c with
      | Some x => x :: permute code' (remove_nth c l)
      | None => l
      end
  | _, _ => l
  end.

Section LinComb.
Context {P : Params}.
Local Open Scope fe_scope.

(** src/r1cs/linear_combination.rs 35-37 *)
Definition lc : Type := list (var * F).

(** 39-43 [Default] *)
Definition lc_default : lc := [].

(** 74-81 [From<Variable>] *)
Definition lc_of_var (v : var) : lc := [(v, 1)].

(** 83-89 [From<FieldElement>] *)
Definition lc_of_fe (s : F) : lc := [(VOne, s)].

(** 115-139 [FieldElement * LinearCombination] *)
Definition fe_mul_lc (s : F) (l : lc) : lc := map (fun '(v, c) => (v, c * s)) l.

(** 141-150 [-LinearCombination] *)
Definition lc_neg (l : lc) : lc := map (fun '(v, c) => (v, - c)) l.

(** 152-159 and 175-179 [LinearCombination + L], [+=] *)
Definition lc_add (a b : lc) : lc := a ++ b.

(** 161-173 [LinearCombination - L] *)
Definition lc_sub (a b : lc) : lc := a ++ map (fun '(v, c) => (v, - c)) b.

(** 183-191 [FieldElement + Variable] *)
Definition fe_add_var (s : F) (v : var) : lc := [(VOne, s); (v, 1)].

(** 193-199 [Variable - L] *)
Definition var_sub_lc (v : var) (l : lc) : lc := lc_sub (lc_of_var v) l.

(** 201-207 [-Variable] *)
Definition var_neg (v : var) : lc := lc_neg (lc_of_var v).

(** 209-215 [Variable + L] *)
Definition var_add_lc (v : var) (l : lc) : lc := lc_add (lc_of_var v) l.

(** 219-227 [FieldElement - Variable] *)
Definition fe_sub_var (s : F) (v : var) : lc := [(VOne, s); (v, - (1))].

(** 229-237 [FieldElement * Variable] *)
Definition fe_mul_var (s : F) (v : var) : lc := [(v, s)].

(** 53-60, the [HashMap] accumulation of [simplify]:
    [*vars.entry(var).or_insert(FieldElement::zero()) += val] *)
Fixpoint hm_entry_add (m : list (var * F)) (v : var) (x : F) : list (var * F) :=
  match m with
  | [] => [(v, 0 + x)]
  | (w, y) :: t => if var_eqb v w then (w, y + x) :: t else (w, y) :: hm_entry_add t v x
  end.

Definition lc_accumulate (l : lc) : list (var * F) :=
  fold_left (fun m '(v, x) => hm_entry_add m v x) l [].

(** 53-67 [simplify]; [code] is the iteration order of the [HashMap] *)
Definition lc_simplify (code : list nat) (l : lc) : lc := permute code (lc_accumulate l).

End LinComb.
