(** Dishonest proving programs.  They are no part of the code base: they use the
    constraint-system calls open to any prover, with witnesses of their own, to
    show what the verifying functions of Model/Gadgets.v accept. *)
From Coq Require Import ZArith String List.
From Verif.Base Require Import Outcome Fp Params Algebra.
From Verif.Model Require Import Transcript LinComb Prog Prover Verifier Gadgets.
Import ListNotations.
Local Open Scope prog_scope.

Section Cheats.
Context {P : Params}.
Local Open Scope fe_scope.

(** A "proof" that [x] lies between [lower] and [upper]: commit to the differences
    as field elements and run the gadget. *)
Definition cheat_bounded_num (checks : bool) (x r : F) (lower upper : Z) (n : nat) : pprog (result (list G1)) :=
  '(com_v, var_v) <- cs_commit (x, r) ;;
  let a := x - fe_of lower in
  let b := fe_of upper - x in
  ra <- p_random ;;
  '(com_a, var_a) <- cs_commit (a, ra) ;;
  rb <- p_random ;;
  '(com_b, var_b) <- cs_commit (b, rb) ;;
  bound_check_gadget checks (Quantity var_v (Some x)) (Quantity var_a (Some a)) (Quantity var_b (Some b)) upper lower n ;;?
  PRet (Ok [com_v; com_a; com_b]).

(** A "proof" that 0 is in [set]: commit to the bit vector 1,0,...,0 and to the value 0,
    but use 0 for all the bits in the products. *)
Definition cheat_set_membership_alt (set : list Z) (r : F) : pprog (result (list G1)) :=
  '(comms, bit_vars, bit_allocs) <-? p_try_fold (fun '(comms, bit_vars, bit_allocs) b =>
      rb <- p_random ;;
      '(com, var) <- cs_commit (b, rb) ;;
      bit_gadget (Quantity var (Some b)) ;;?
      PRet (Ok (comms ++ [com], bit_vars ++ [var], bit_allocs ++ [Quantity var (Some 0)])))
    (match set with [] => [] | _ :: t => 1 :: map (fun _ => 0) t end) ([], [], []) ;;
  vector_sum_constraints bit_vars 1 ;;?
  '(com_value, var_value) <- cs_commit (0, r) ;;
  vector_product_gadget set bit_allocs (Quantity var_value (Some 0)) ;;?
  PRet (Ok (comms ++ [com_value])).

(** A "proof" about the Hamming distance of [original] and a public vector of the same
    length: commit to [original], then ignore it and allocate [diffs] as differences. *)
Definition cheat_hamming_gadget (diffs : list F) (count : Z) : pprog (result unit) :=
  res <-? p_try_fold (fun res d =>
      '(var_diff, _) <-? cs_allocate_single (Some d) ;;
      '(_, var_o) <-? cs_allocate_single (Some (finv d)) ;;
      var_1_or_0 <- p_lift (of_option var_o) ;;
      '(_, _, o) <- cs_multiply (lc_of_var var_diff) (var_sub_lc VOne (lc_of_var var_1_or_0)) ;;
      cs_constrain (lc_of_var o) ;;;
      PRet (Ok (res ++ [var_1_or_0])))
    diffs [] ;;
  vector_sum_constraints res count ;;?
  PRet (Ok tt).

Definition cheat_hamming_distance (original diffs : list F) (count : Z) : pprog (result (list G1)) :=
  comms <- p_fold (fun comms o =>
      r <- p_random ;;
      '(com, _) <- cs_commit (o, r) ;;
      PRet (comms ++ [com]))
    original [] ;;
  cheat_hamming_gadget diffs count ;;?
  PRet (Ok comms).
End Cheats.
