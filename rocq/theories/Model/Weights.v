(** The debugging view of a circuit: one row of weights per constraint.

    Models the functions compiled only with [cfg(test)] in src/r1cs/prover.rs
    (186-281) and src/r1cs/verifier.rs (195-241). *)
From Coq Require Import ZArith String List.
From Verif.Base Require Import Outcome Fp Params Algebra.
From Verif.Model Require Import Transcript LinComb Prog VectorPoly IPP Prover Verifier.
Import ListNotations.

Section Weights.
Context {P : Params}.
Local Open Scope fe_scope.
Local Open Scope outcome_scope.

(** [W[r][i] = coeff]: prover.rs 206-222, verifier.rs 215-231.  The entry is
    overwritten, whatever it held before. *)
Definition set_cell (W : list (list F)) (r i : nat) (c : F) : outcome (list (list F)) :=
  row <- index W r ;;
  row <- set_nth row i c ;;
  set_nth W r row.

(** prover.rs 203-228: one term of constraint [r] *)
Definition prover_weight_term (r : nat)
    (w : list (list F) * list (list F) * list (list F) * list (list F)) (t : var * F)
  : outcome (list (list F) * list (list F) * list (list F) * list (list F)) :=
  let '(WL, WR, WO, WV) := w in
  let '(v, coeff) := t in
  match v with
  | VLeft i => WL <- set_cell WL r i coeff ;; Done (WL, WR, WO, WV)
  | VRight i => WR <- set_cell WR r i coeff ;; Done (WL, WR, WO, WV)
  | VOut i => WO <- set_cell WO r i coeff ;; Done (WL, WR, WO, WV)
  | VCommitted i => WV <- set_cell WV r i coeff ;; Done (WL, WR, WO, WV)
  | VOne => Done (WL, WR, WO, WV)
  end.

(** prover.rs 186-232, [get_weight_matrices] *)
Definition prover_weight_matrices (s : prover)
  : outcome (list (list F) * list (list F) * list (list F) * list (list F)) :=
  let n := length (p_aL s) in
  let m := length (p_v s) in
  let q := length (p_constraints s) in
  foldM (fun w '(r, l) => foldM (prover_weight_term r) l w)
    (combine (seq 0 q) (p_constraints s))
    (repeat (zeros n) q, repeat (zeros n) q, repeat (zeros n) q, repeat (zeros m) q).

(** verifier.rs 212-237: one term of constraint [r] *)
Definition verifier_weight_term (r : nat)
    (w : list (list F) * list (list F) * list (list F) * list (list F) * F) (t : var * F)
  : outcome (list (list F) * list (list F) * list (list F) * list (list F) * F) :=
  let '(WL, WR, WO, WV, wc) := w in
  let '(v, coeff) := t in
  match v with
  | VLeft i => WL <- set_cell WL r i coeff ;; Done (WL, WR, WO, WV, wc)
  | VRight i => WR <- set_cell WR r i coeff ;; Done (WL, WR, WO, WV, wc)
  | VOut i => WO <- set_cell WO r i coeff ;; Done (WL, WR, WO, WV, wc)
  | VCommitted i => WV <- set_cell WV r i coeff ;; Done (WL, WR, WO, WV, wc)
  | VOne => Done (WL, WR, WO, WV, wc - coeff)
  end.

(** verifier.rs 195-241, [get_weight_matrices] *)
Definition verifier_weight_matrices (s : verifier)
  : outcome (list (list F) * list (list F) * list (list F) * list (list F) * F) :=
  let n := v_num_vars s in
  let m := length (v_V s) in
  let q := length (v_constraints s) in
  foldM (fun w '(r, l) => foldM (verifier_weight_term r) l w)
    (combine (seq 0 q) (v_constraints s))
    (repeat (zeros n) q, repeat (zeros n) q, repeat (zeros n) q, repeat (zeros m) q, 0).

(** [multiply_row_vector_with_matrix(..).unwrap()] (prover.rs 266-269).  The
    function belongs to the [amcl_wrapper] crate, whose source is not in /repo;
    modelled as: fail unless there are as many rows as entries in the vector,
    take the number of columns from the first row (so a matrix without rows
    panics), and compute every entry of the product with checked indexing. *)
Definition multiply_row_vector_with_matrix (v : list F) (W : list (list F)) : outcome (list F) :=
  assertb (Nat.eqb (length v) (length W)) ;;;
  first <- index W 0 ;;
  mapM (fun i =>
      foldM (fun acc '(x, row) => y <- index row i ;; Done (acc + x * y)) (combine v W) 0)
    (seq 0 (length first)).

(** prover.rs 234-281, [flattened_constraints_elaborated] *)
Definition prover_flattened_elaborated (s : prover) (z : F)
  : outcome (list F * list F * list F * list F) :=
  '(WL, WR, WO, WV) <- prover_weight_matrices s ;;
  let q := length (p_constraints s) in
  let z_exp := skipn 1 (vandermonde z (q + 1)) in
  let minus_z_exp := map fopp z_exp in
  wL <- multiply_row_vector_with_matrix z_exp WL ;;
  wR <- multiply_row_vector_with_matrix z_exp WR ;;
  wO <- multiply_row_vector_with_matrix z_exp WO ;;
  wV <- multiply_row_vector_with_matrix minus_z_exp WV ;;
  Done (wL, wR, wO, wV).

End Weights.
