(** src/r1cs/gadgets: helper constraints and the gadgets that do not hash. *)
From Coq Require Import ZArith String List Bool.
From Verif.Base Require Import Outcome Fp Params Algebra.
From Verif.Model Require Import Transcript LinComb Prog Prover Verifier.
Import ListNotations.
Local Open Scope prog_scope.

(** A [u64] subtraction: in a build with overflow checks ([checks = true]) it
    panics on underflow, without them it wraps. *)
Definition u64_sub (checks : bool) (a b : Z) : outcome Z :=
  if Z.ltb a b then (if checks then Panic else Done (a - b + 2 ^ 64)%Z) else Done (a - b)%Z.

Section Gadgets.
Context {P : Params}.
Local Open Scope fe_scope.

(** src/r1cs/linear_combination.rs 25-29 *)
Record quantity : Type := Quantity { q_var : var; q_assignment : option F }.

(** [FieldElement::from(n)] for a [u64] *)
Definition fe_of (n : Z) : F := of_Z modulus n.

(** [q.shift_right(i).is_odd()]: bit [i] of the canonical integer *)
Definition fe_bit (q : F) (i : nat) : bool := Z.odd (Z.shiftr (fval q) (Z.of_nat i)).

(** *** Helper constraints, generic over the constraint system *)
Section Generic.
Context {CA CR : Type}.
Local Notation pg := (prog CA CR).

(** src/r1cs/gadgets/helper_constraints/mod.rs 16-22 *)
Definition constrain_lc_with_scalar (l : lc) (scalar : F) : pg unit :=
  cs_constrain (lc_sub l (lc_of_fe scalar)).

(** src/r1cs/gadgets/helper_constraints/bit.rs 7-33 *)
Definition bit_gadget (v : quantity) : pg (result unit) :=
  '(a, b, o) <-? cs_allocate_multiplier (option_map (fun bit => (1 - bit, bit)) (q_assignment v)) ;;
  cs_constrain (var_add_lc b [(q_var v, - (1))]) ;;;
  cs_constrain (lc_of_var o) ;;;
  cs_constrain (var_add_lc a (var_sub_lc b (lc_of_fe 1))) ;;;
  PRet (Ok tt).

(** src/r1cs/gadgets/helper_constraints/non_zero.rs 12-32 *)
Definition is_nonzero_gadget (x x_inv : var) : pg (result unit) :=
  let x_lc := lc_of_var x in
  let y_lc := lc_of_fe 1 in
  let one_minus_y_lc := lc_sub (lc_of_var VOne) y_lc in
  '(_, _, o1) <- cs_multiply x_lc one_minus_y_lc ;;
  cs_constrain (lc_of_var o1) ;;;
  '(_, _, o2) <- cs_multiply x_lc [(x_inv, 1)] ;;
  cs_constrain (var_sub_lc o2 y_lc) ;;;
  PRet (Ok tt).

(** src/r1cs/gadgets/helper_constraints/positive_no.rs 8-40; one iteration, with
    the local variables [constraint_v] and [exp_2] as state *)
Definition positive_no_step (v : quantity) (st : lc * F) (i : nat) : pg (result (lc * F)) :=
  let '(constraint_v, exp_2) := st in
  '(a, b, o) <-? cs_allocate_multiplier
      (option_map (fun q => if fe_bit q i then (0, 1) else (1, 0)) (q_assignment v)) ;;
  cs_constrain (lc_of_var o) ;;;
  cs_constrain (var_add_lc a (var_sub_lc b (lc_of_fe 1))) ;;;
  PRet (Ok (constraint_v ++ [(b, exp_2)], exp_2 + exp_2)).

Definition positive_no_gadget (v : quantity) (n : nat) : pg (result unit) :=
  st <-? p_try_fold (positive_no_step v) (seq 0 n) ([(q_var v, - (1))], 1) ;;
  cs_constrain (fst st) ;;;
  PRet (Ok tt).

(** src/r1cs/gadgets/helper_constraints/vector_sum.rs 6-19 *)
Definition vector_sum_constraints (vector : list var) (sum : Z) : pg (result unit) :=
  cs_constrain ((VOne, - (fe_of sum)) :: map (fun i => (i, 1)) vector) ;;;
  PRet (Ok tt).

(** src/r1cs/gadgets/bound_check.rs 13-39 *)
Definition bound_check_gadget (checks : bool) (v a b : quantity) (max min : Z) (n : nat) : pg (result unit) :=
  cs_constrain (lc_sub (var_sub_lc (q_var v) (lc_of_fe (fe_of min))) (lc_of_var (q_var a))) ;;;
  cs_constrain (lc_sub (lc_sub (lc_of_fe (fe_of max)) (lc_of_var (q_var v))) (lc_of_var (q_var b))) ;;;
  d <- p_lift (u64_sub checks max min) ;;
  constrain_lc_with_scalar (var_add_lc (q_var a) (lc_of_var (q_var b))) (fe_of d) ;;;
  positive_no_gadget a n ;;?
  positive_no_gadget b n ;;?
  PRet (Ok tt).

(** src/r1cs/gadgets/set_membership.rs 15-37 *)
Definition set_membership_gadget (v : quantity) (diff_vars : list quantity) (set : list F) : pg (result unit) :=
  product <- p_fold (fun product i =>
      d <- p_lift (index diff_vars i) ;;
      si <- p_lift (index set i) ;;
      constrain_lc_with_scalar (var_add_lc (q_var d) (lc_of_var (q_var v))) si ;;;
      '(_, _, o) <- cs_multiply product (lc_of_var (q_var d)) ;;
      PRet (lc_of_var o))
    (seq 0 (length set)) (lc_of_var VOne) ;;
  cs_constrain product ;;;
  PRet (Ok tt).

(** src/r1cs/gadgets/set_membership_alt.rs 56-87 *)
Definition vector_product_gadget (items : list Z) (vector : list quantity) (value : quantity) : pg (result unit) :=
  constraints <-? p_try_fold (fun constraints i =>
      vi <- p_lift (index vector i) ;;
      it <- p_lift (index items i) ;;
      '(bit_var, item_var, o1) <-? cs_allocate_multiplier
          (option_map (fun bit => (bit, fe_of it)) (q_assignment vi)) ;;
      constrain_lc_with_scalar (lc_of_var item_var) (fe_of it) ;;;
      '(_, _, o2) <- cs_multiply (lc_of_var bit_var) (lc_of_var (q_var value)) ;;
      cs_constrain (var_sub_lc o1 (lc_of_var o2)) ;;;
      PRet (Ok (constraints ++ [(o1, 1)])))
    (seq 0 (length items)) [(q_var value, - (1))] ;;
  cs_constrain constraints ;;;
  PRet (Ok tt).

(** src/r1cs/gadgets/set_non_membership.rs 16-33 *)
Definition set_non_membership_gadget (v : quantity) (diff_vars diff_inv_vars : list quantity) (set : list F)
  : pg (result unit) :=
  p_try_fold (fun _ i =>
      d <- p_lift (index diff_vars i) ;;
      si <- p_lift (index set i) ;;
      constrain_lc_with_scalar (var_add_lc (q_var d) (lc_of_var (q_var v))) si ;;;
      di <- p_lift (index diff_inv_vars i) ;;
      is_nonzero_gadget (q_var d) (q_var di))
    (seq 0 (length set)) tt.

(** src/r1cs/gadgets/hamming_distance.rs 17-56 *)
Definition hamming_distance_gadget (original : list quantity) (new : list F) (count_different : Z)
  : pg (result unit) :=
  if negb (Nat.eqb (length original) (length new))
  then PRet (Err (GadgetError "Original and new are of different lengths"))
  else
    res <-? p_try_fold (fun res i =>
        oi <- p_lift (index original i) ;;
        ni <- p_lift (index new i) ;;
        val_diff <- cs_evaluate (var_sub_lc (q_var oi) (lc_of_fe ni)) ;;
        let val_diff_inv := option_map (fun l => finv l) val_diff in
        '(var_diff, _) <-? cs_allocate_single val_diff ;;
        '(_, var_o) <-? cs_allocate_single val_diff_inv ;;
        var_1_or_0 <- p_lift (of_option var_o) ;;
        '(_, _, o) <- cs_multiply (lc_of_var var_diff) (var_sub_lc VOne (lc_of_var var_1_or_0)) ;;
        cs_constrain (lc_of_var o) ;;;
        PRet (Ok (res ++ [var_1_or_0])))
      (seq 0 (length new)) [] ;;
    vector_sum_constraints res count_different ;;?
    PRet (Ok tt).
End Generic.

(** *** Proving and verifying functions *)

(** src/errors.rs 31-42, the macro [check_for_randomness_or_rng!]; the generator
    is only known to be present or absent *)
Definition check_for_randomness_or_rng (randomness : option F) (rng : bool) : pprog (result unit) :=
  match randomness, rng with
  | None, false => PRet (Err (GadgetError "Since randomness is None, provide"))
  | _, _ => PRet (Ok tt)
  end.

(** [randomness.unwrap_or_else(|| FieldElement::random_using_rng(rng.unwrap()))] *)
Definition randomness_or_rng (randomness : option F) (rng : bool) : pprog F :=
  match randomness with
  | Some r => PRet r
  | None => if rng then p_random else PPanic
  end.

(** [commitments.remove(0)] *)
Definition remove0 (l : list G1) : vprog (G1 * list G1) :=
  match l with
  | [] => PPanic
  | x :: t => PRet (x, t)
  end.

(** src/r1cs/gadgets/bound_check.rs 41-92 *)
Definition prove_bounded_num (checks : bool) (val : Z) (randomness : option F) (lower upper : Z) (max_bits : nat) (rng : bool)
  : pprog (result (list G1)) :=
  check_for_randomness_or_rng randomness rng ;;?
  a <- p_lift (u64_sub checks val lower) ;;
  b <- p_lift (u64_sub checks upper val) ;;
  r <- randomness_or_rng randomness rng ;;
  '(com_v, var_v) <- cs_commit (fe_of val, r) ;;
  ra <- p_random ;;
  '(com_a, var_a) <- cs_commit (fe_of a, ra) ;;
  rb <- p_random ;;
  '(com_b, var_b) <- cs_commit (fe_of b, rb) ;;
  bound_check_gadget checks (Quantity var_v (Some (fe_of val))) (Quantity var_a (Some (fe_of a)))
    (Quantity var_b (Some (fe_of b))) upper lower max_bits ;;?
  PRet (Ok [com_v; com_a; com_b]).

(** src/r1cs/gadgets/bound_check.rs 94-129 *)
Definition verify_bounded_num (checks : bool) (lower upper : Z) (max_bits : nat) (commitments : list G1)
  : vprog (result unit) :=
  '(c, commitments) <- remove0 commitments ;;
  var_v <- cs_commit c ;;
  '(c, commitments) <- remove0 commitments ;;
  var_a <- cs_commit c ;;
  '(c, commitments) <- remove0 commitments ;;
  var_b <- cs_commit c ;;
  bound_check_gadget checks (Quantity var_v None) (Quantity var_a None) (Quantity var_b None) upper lower max_bits ;;?
  PRet (Ok tt).

(** src/r1cs/gadgets/non_zero.rs 11-42 *)
Definition prove_non_zero_val (value : F) (randomness : option F) (rng : bool) : pprog (result (list G1)) :=
  check_for_randomness_or_rng randomness rng ;;?
  let inv := finv value in
  r <- randomness_or_rng randomness rng ;;
  '(com_val, var_val) <- cs_commit (value, r) ;;
  ri <- p_random ;;
  '(com_val_inv, var_val_inv) <- cs_commit (inv, ri) ;;
  is_nonzero_gadget var_val var_val_inv ;;?
  PRet (Ok [com_val; com_val_inv]).

(** src/r1cs/gadgets/non_zero.rs 44-63 *)
Definition verify_non_zero_val (commitments : list G1) : vprog (result unit) :=
  '(c, commitments) <- remove0 commitments ;;
  var_val <- cs_commit c ;;
  '(c, commitments) <- remove0 commitments ;;
  var_val_inv <- cs_commit c ;;
  is_nonzero_gadget var_val var_val_inv ;;?
  PRet (Ok tt).

(** src/r1cs/gadgets/set_membership.rs 39-79 *)
Definition prove_set_membership (value : F) (randomness : option F) (set : list F) (rng : bool)
  : pprog (result (list G1)) :=
  check_for_randomness_or_rng randomness rng ;;?
  r <- randomness_or_rng randomness rng ;;
  '(com_value, var_value) <- cs_commit (value, r) ;;
  '(comms, diff_vars) <- p_fold (fun '(comms, diff_vars) i =>
      si <- p_lift (index set i) ;;
      let diff := si - value in
      rd <- p_random ;;
      '(com_diff, var_diff) <- cs_commit (diff, rd) ;;
      PRet (comms ++ [com_diff], diff_vars ++ [Quantity var_diff (Some diff)]))
    (seq 0 (length set)) ([com_value], []) ;;
  set_membership_gadget (Quantity var_value (Some value)) diff_vars set ;;?
  PRet (Ok comms).

(** src/r1cs/gadgets/set_membership.rs 81-108 *)
Definition verify_set_membership (set : list F) (commitments : list G1) : vprog (result unit) :=
  '(c, commitments) <- remove0 commitments ;;
  var_val <- cs_commit c ;;
  '(commitments, diff_vars) <- p_fold (fun '(commitments, diff_vars) _ =>
      '(c, commitments) <- remove0 commitments ;;
      var_diff <- cs_commit c ;;
      PRet (commitments, diff_vars ++ [Quantity var_diff None]))
    (seq 1 (length set)) (commitments, []) ;;
  set_membership_gadget (Quantity var_val None) diff_vars set ;;?
  PRet (Ok tt).

(** src/r1cs/gadgets/set_membership_alt.rs 91-141 *)
Definition prove_set_membership_alt (value : Z) (randomness : option F) (set : list Z) (rng : bool)
  : pprog (result (list G1)) :=
  check_for_randomness_or_rng randomness rng ;;?
  let bit_map := map (fun elem => if Z.eqb elem value then 1%Z else 0%Z) set in
  '(comms, bit_vars, bit_allocs) <-? p_try_fold (fun '(comms, bit_vars, bit_allocs) b =>
      let b := fe_of b in
      rb <- p_random ;;
      '(com, var) <- cs_commit (b, rb) ;;
      let quantity := Quantity var (Some b) in
      bit_gadget quantity ;;?
      PRet (Ok (comms ++ [com], bit_vars ++ [var], bit_allocs ++ [quantity])))
    bit_map ([], [], []) ;;
  vector_sum_constraints bit_vars 1 ;;?
  r <- randomness_or_rng randomness rng ;;
  '(com_value, var_value) <- cs_commit (fe_of value, r) ;;
  vector_product_gadget set bit_allocs (Quantity var_value (Some (fe_of value))) ;;?
  PRet (Ok (comms ++ [com_value])).

(** src/r1cs/gadgets/set_membership_alt.rs 143-176 *)
Definition verify_set_membership_alt (set : list Z) (commitments : list G1) : vprog (result unit) :=
  '(commitments, bit_vars, bit_allocs) <-? p_try_fold (fun '(commitments, bit_vars, bit_allocs) _ =>
      '(c, commitments) <- remove0 commitments ;;
      var <- cs_commit c ;;
      let quantity := Quantity var None in
      bit_gadget quantity ;;?
      PRet (Ok (commitments, bit_vars ++ [var], bit_allocs ++ [quantity])))
    (seq 0 (length set)) (commitments, [], []) ;;
  vector_sum_constraints bit_vars 1 ;;?
  '(c, commitments) <- remove0 commitments ;;
  var_val <- cs_commit c ;;
  vector_product_gadget set bit_allocs (Quantity var_val None) ;;?
  PRet (Ok tt).

(** src/r1cs/gadgets/set_non_membership.rs 35-87 *)
Definition prove_set_non_membership (value : F) (randomness : option F) (set : list F) (rng : bool)
  : pprog (result (list G1)) :=
  check_for_randomness_or_rng randomness rng ;;?
  r <- randomness_or_rng randomness rng ;;
  '(com_value, var_value) <- cs_commit (value, r) ;;
  '(comms, diff_vars, diff_inv_vars) <- p_fold (fun '(comms, diff_vars, diff_inv_vars) i =>
      si <- p_lift (index set i) ;;
      let diff := si - value in
      let diff_inv := finv diff in
      rd <- p_random ;;
      '(com_diff, var_diff) <- cs_commit (diff, rd) ;;
      ri <- p_random ;;
      '(com_diff_inv, var_diff_inv) <- cs_commit (diff_inv, ri) ;;
      PRet (comms ++ [com_diff; com_diff_inv], diff_vars ++ [Quantity var_diff (Some diff)],
            diff_inv_vars ++ [Quantity var_diff_inv (Some diff_inv)]))
    (seq 0 (length set)) ([com_value], [], []) ;;
  set_non_membership_gadget (Quantity var_value (Some value)) diff_vars diff_inv_vars set ;;?
  PRet (Ok comms).

(** src/r1cs/gadgets/set_non_membership.rs 89-124 *)
Definition verify_set_non_membership (set : list F) (commitments : list G1) : vprog (result unit) :=
  '(c, commitments) <- remove0 commitments ;;
  var_val <- cs_commit c ;;
  '(commitments, diff_vars, diff_inv_vars) <- p_fold (fun '(commitments, diff_vars, diff_inv_vars) _ =>
      '(c, commitments) <- remove0 commitments ;;
      var_diff <- cs_commit c ;;
      '(c, commitments) <- remove0 commitments ;;
      var_diff_inv <- cs_commit c ;;
      PRet (commitments, diff_vars ++ [Quantity var_diff None], diff_inv_vars ++ [Quantity var_diff_inv None]))
    (seq 1 (length set)) (commitments, [], []) ;;
  set_non_membership_gadget (Quantity var_val None) diff_vars diff_inv_vars set ;;?
  PRet (Ok tt).

(** src/r1cs/gadgets/hamming_distance.rs 58-84 *)
Definition prove_hamming_distance (original_vals new_vals : list F) (count_different : Z) : pprog (result (list G1)) :=
  if negb (Nat.eqb (length original_vals) (length new_vals))
  then PRet (Err (GadgetError "Original and new are of different lengths"))
  else
    '(comms, allocs) <- p_fold (fun '(comms, allocs) i =>
        o <- p_lift (index original_vals i) ;;
        r <- p_random ;;
        '(com, var) <- cs_commit (o, r) ;;
        PRet (comms ++ [com], allocs ++ [Quantity var (Some o)]))
      (seq 0 (length original_vals)) ([], []) ;;
    hamming_distance_gadget allocs new_vals count_different ;;?
    PRet (Ok comms).

(** src/r1cs/gadgets/hamming_distance.rs 86-106 *)
Definition verify_hamming_distance (new_vals : list F) (count_different : Z) (commitments : list G1)
  : vprog (result unit) :=
  allocs <- p_fold (fun allocs com =>
      var <- cs_commit com ;;
      PRet (allocs ++ [Quantity var None]))
    commitments [] ;;
  hamming_distance_gadget allocs new_vals count_different ;;?
  PRet (Ok tt).

(** *** Complete proofs.  The functions [gen_proof_of_*] and [verify_proof_of_*]
    differ only in the program they run: bound_check.rs 133-179, non_zero.rs
    67-100, set_membership.rs 110-146, set_membership_alt.rs 178-219,
    set_non_membership.rs 127-164, hamming_distance.rs 108-153 (where the
    result of [prove] is unwrapped, so an error becomes a panic; [println!] and
    timing are left out). *)
Definition gen_proof {A} (W : world) (label : list Z) (g h : G1) (G H : list G1) (pp : pprog (result A))
  : outcome (result (r1cs_proof * A)) :=
  match prun W false pp (prover_new g h (transcript_new label)) with
  | Panic => Panic
  | Done (Err e, _) => Done (Err e)
  | Done (Ok comms, prover) =>
      match prove W prover G H with
      | Panic => Panic
      | Done (Err e) => Done (Err e)
      | Done (Ok (proof, _)) => Done (Ok (proof, comms))
      end
  end.

Definition verify_proof (W : world) (label : list Z) (g h : G1) (G H : list G1) (proof : r1cs_proof)
  (vp : vprog (result unit)) : outcome (result unit) :=
  match vrun W false vp (verifier_new (transcript_new label)) with
  | Panic => Panic
  | Done (Err e, _) => Done (Err e)
  | Done (Ok _, verifier) =>
      match verify W verifier proof g h G H with
      | Panic => Panic
      | Done (Err e) => Done (Err e)
      | Done (Ok _) => Done (Ok tt)
      end
  end.

(** [prove(..).unwrap()] *)
Definition unwrap_prove {A} (o : outcome (result A)) : outcome (result A) :=
  match o with
  | Done (Err _) => Panic
  | _ => o
  end.

End Gadgets.
