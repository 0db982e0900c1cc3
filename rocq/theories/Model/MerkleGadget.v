(** The Merkle membership gadgets: vanilla_merkle_merkle_tree_{4,8}_verif_gadget of
    src/r1cs/gadgets/helper_constraints/sparse_merkle_tree_{4,8}_ary.rs (below
    [t4.rs] and [t8.rs]), and src/r1cs/gadgets/sparse_merkle_tree_{4,8}_ary.rs
    (below [m4.rs] and [m8.rs]). *)
From Coq Require Import ZArith String List Bool.
From Verif.Base Require Import Outcome Fp Params Algebra.
From Verif.Model Require Import Transcript LinComb Prog Prover Verifier Gadgets Hash Merkle.
Import ListNotations.
Local Open Scope prog_scope.

Section MerkleGadget.
Context {P : Params}.
Local Open Scope fe_scope.

(** helper_constraints/mod.rs 43-51: [MODBYTES] bytes, least significant first *)
Definition allocated_leaf_index_to_bytes (leaf_index : quantity) : option (list Z) :=
  option_map (fun l => le_bytes modbytes (fval l)) (q_assignment leaf_index).

(** [(bit.into(), (1 - bit).into())] for bit [n] of the integer [b] *)
Definition bit_pair (b : Z) (n : nat) : F * F :=
  let bit := Z.b2z (Z.testbit b (Z.of_nat n)) in (fe_of bit, fe_of (1 - bit)%Z).

Section Generic.
Context {CA CR : Type}.
Local Notation pg := (prog CA CR).

(** [proof_nodes.pop().unwrap().into()] *)
Definition pop_node (nodes : list var) : pg (list var * lc) :=
  '(nodes, v) <- p_lift (vec_pop nodes) ;;
  PRet (nodes, lc_of_var v).

(** t4.rs 288-293, 295-300; t8.rs 329-331, 333-335, 337-339 *)
Definition bit_constraints (assignment : option (F * F)) : pg (result (var * var)) :=
  '(b, b_1, o) <-? cs_allocate_multiplier assignment ;;
  cs_constrain (lc_of_var o) ;;;
  cs_constrain (var_add_lc b (var_sub_lc b_1 (lc_of_fe 1))) ;;;
  PRet (Ok (b, b_1)).

(** t4.rs 314-361: the four children, of which the one at [2*b1 + b0] is [N] and the
    others are [N1], [N2], [N3] *)
Definition children_4 (b0 b0_1 b1 b1_1 : var) (N N1 N2 N3 : lc) : pg (list lc) :=
  '(_, _, b0_1_b1_1) <- cs_multiply (lc_of_var b0_1) (lc_of_var b1_1) ;;
  '(_, _, b0_1_b1) <- cs_multiply (lc_of_var b0_1) (lc_of_var b1) ;;
  '(_, _, b0_b1_1) <- cs_multiply (lc_of_var b0) (lc_of_var b1_1) ;;
  '(_, _, b0_b1) <- cs_multiply (lc_of_var b0) (lc_of_var b1) ;;
  '(_, _, c0_1) <- cs_multiply (lc_of_var b0_1_b1_1) N ;;
  '(_, _, c0_2) <- cs_multiply (var_sub_lc VOne (lc_of_var b0_1_b1_1)) N1 ;;
  let c0 := var_add_lc c0_1 (lc_of_var c0_2) in
  let c1_1 := lc_sub N1 (lc_of_var c0_2) in
  '(_, _, c1_2) <- cs_multiply (lc_of_var b0_b1_1) N ;;
  '(_, _, c1_3) <- cs_multiply (lc_of_var b1) N2 ;;
  let c1 := lc_add (lc_add c1_1 (lc_of_var c1_2)) (lc_of_var c1_3) in
  let c2_1 := lc_sub N2 (lc_of_var c1_3) in
  '(_, _, c2_2) <- cs_multiply (lc_of_var b0_1_b1) N ;;
  '(_, _, c2_3) <- cs_multiply (lc_of_var b0_b1) N3 ;;
  let c2 := lc_add (lc_add c2_1 (lc_of_var c2_2)) (lc_of_var c2_3) in
  '(_, _, c3_1) <- cs_multiply (lc_of_var b0_b1) N ;;
  let c3_2 := lc_sub N3 (lc_of_var c2_3) in
  let c3 := var_add_lc c3_1 c3_2 in
  PRet [c0; c1; c2; c3].

(** t8.rs 357-472: the eight children, of which the one at [4*b2 + 2*b1 + b0] is [N] *)
Definition children_8 (b0 b0_1 b1 b1_1 b2 b2_1 : var) (N N1 N2 N3 N4 N5 N6 N7 : lc) : pg (list lc) :=
  '(_, _, b0_1_b1_1) <- cs_multiply (lc_of_var b0_1) (lc_of_var b1_1) ;;
  '(_, _, b1_1_b2_1) <- cs_multiply (lc_of_var b1_1) (lc_of_var b2_1) ;;
  '(_, _, b0_b1) <- cs_multiply (lc_of_var b0) (lc_of_var b1) ;;
  '(_, _, b1_b2) <- cs_multiply (lc_of_var b1) (lc_of_var b2) ;;
  '(_, _, b0_b1_b2) <- cs_multiply (lc_of_var b0_b1) (lc_of_var b2) ;;
  '(_, _, b0_1_b1_1_b2_1) <- cs_multiply (lc_of_var b0_1_b1_1) (lc_of_var b2_1) ;;
  '(_, _, b01_1_b2_1) <- cs_multiply (var_sub_lc VOne (lc_of_var b0_b1)) (lc_of_var b2_1) ;;
  '(_, _, c0_1) <- cs_multiply (lc_of_var b0_1_b1_1_b2_1) N ;;
  '(_, _, c0_2) <- cs_multiply (var_sub_lc VOne (lc_of_var b0_1_b1_1_b2_1)) N1 ;;
  let c0 := var_add_lc c0_1 (lc_of_var c0_2) in
  '(_, _, c1_1) <- cs_multiply (var_sub_lc VOne (lc_of_var b1_1_b2_1)) N2 ;;
  '(_, _, c1_2) <- cs_multiply (lc_of_var b1_1_b2_1) (lc_of_var b0) ;;
  '(_, _, c1_3) <- cs_multiply (lc_of_var c1_2) N ;;
  let c1_4 := lc_sub N1 (lc_of_var c0_2) in
  let c1 := lc_add (var_add_lc c1_1 (lc_of_var c1_3)) c1_4 in
  let c2_1 := lc_sub N2 (lc_of_var c1_1) in
  '(_, _, c2_2) <- cs_multiply (lc_of_var b0_1) (lc_of_var b2_1) ;;
  '(_, _, c2_3) <- cs_multiply (lc_of_var c2_2) (lc_of_var b1) ;;
  '(_, _, c2_4) <- cs_multiply (lc_of_var c2_3) N ;;
  '(_, _, c2_5) <- cs_multiply (var_sub_lc VOne (lc_of_var b01_1_b2_1)) N3 ;;
  let c2 := lc_add (lc_add c2_1 (lc_of_var c2_4)) (lc_of_var c2_5) in
  let c3_1 := lc_sub N3 (lc_of_var c2_5) in
  '(_, _, c3_2) <- cs_multiply (lc_of_var b2_1) (lc_of_var b0_b1) ;;
  '(_, _, c3_3) <- cs_multiply (lc_of_var c3_2) N ;;
  '(_, _, c3_4) <- cs_multiply (lc_of_var b2) N4 ;;
  let c3 := lc_add (lc_add c3_1 (lc_of_var c3_3)) (lc_of_var c3_4) in
  let c4_1 := lc_sub N4 (lc_of_var c3_4) in
  '(_, _, c4_2) <- cs_multiply (lc_of_var b2) (lc_of_var b0_1_b1_1) ;;
  '(_, _, c4_3) <- cs_multiply (lc_of_var c4_2) N ;;
  '(_, _, c4_4) <- cs_multiply (lc_of_var b2) (var_sub_lc VOne (lc_of_var b0_1_b1_1)) ;;
  '(_, _, c4_5) <- cs_multiply (lc_of_var c4_4) N5 ;;
  let c4 := lc_add (lc_add c4_1 (lc_of_var c4_3)) (lc_of_var c4_5) in
  let c5_1 := lc_sub N5 (lc_of_var c4_5) in
  '(_, _, c5_2) <- cs_multiply (lc_of_var b1_b2) N6 ;;
  '(_, _, c5_3) <- cs_multiply (lc_of_var b2) (lc_of_var b1_1) ;;
  '(_, _, c5_4) <- cs_multiply (lc_of_var c5_3) (lc_of_var b0) ;;
  '(_, _, c5_5) <- cs_multiply (lc_of_var c5_4) N ;;
  let c5 := lc_add (lc_add c5_1 (lc_of_var c5_2)) (lc_of_var c5_5) in
  '(_, _, c6_1) <- cs_multiply (lc_of_var b0_b1_b2) N7 ;;
  '(_, _, c6_2) <- cs_multiply (lc_of_var b1_b2) (lc_of_var b0_1) ;;
  '(_, _, c6_3) <- cs_multiply (lc_of_var c6_2) N ;;
  let c6_4 := lc_sub N6 (lc_of_var c5_2) in
  let c6 := lc_add (var_add_lc c6_1 (lc_of_var c6_3)) c6_4 in
  '(_, _, c7_1) <- cs_multiply (lc_of_var b0_b1_b2) N ;;
  let c7_2 := lc_sub N7 (lc_of_var c6_1) in
  let c7 := var_add_lc c7_1 c7_2 in
  PRet [c0; c1; c2; c3; c4; c5; c6; c7].

Section Gadget.
Context (hash_params : poseidon_params) (sbox : sbox_type).

(** [prev_hash], [constraint_leaf_index], [exp_4] or [exp_8], [proof_nodes] *)
Definition level_state : Type := lc * lc * F * list var.

(** one iteration of the loops t4.rs 279-373.  The [break] leaves the inner loop only;
    as [proof_nodes] never grows, the later iterations do nothing either. *)
Definition level_4 (leaf_index_bytes : option (list Z)) (statics : list lc) (st : level_state) (ij : nat * nat)
  : pg (result level_state) :=
  let '(prev_hash, constraint_leaf_index, exp_4, proof_nodes) := st in
  let '(i, j) := ij in
  match proof_nodes with
  | [] => PRet (Ok st)
  | _ =>
      bit0 <- (match leaf_index_bytes with
               | Some l => b <- p_lift (index l i) ;; PRet (Some (bit_pair b (2 * j)))
               | None => PRet None
               end) ;;
      '(b0, b0_1) <-? bit_constraints bit0 ;;
      bit1 <- (match leaf_index_bytes with
               | Some l => b <- p_lift (index l i) ;; PRet (Some (bit_pair b (2 * j + 1)))
               | None => PRet None
               end) ;;
      '(b1, b1_1) <-? bit_constraints bit1 ;;
      let constraint_leaf_index := constraint_leaf_index ++ [(b1, fe_of 2 * exp_4)] in
      let constraint_leaf_index := constraint_leaf_index ++ [(b0, exp_4)] in
      '(proof_nodes, N3) <- pop_node proof_nodes ;;
      '(proof_nodes, N2) <- pop_node proof_nodes ;;
      '(proof_nodes, N1) <- pop_node proof_nodes ;;
      input <- children_4 b0 b0_1 b1 b1_1 prev_hash N1 N2 N3 ;;
      prev_hash <-? Poseidon_hash_4_constraints hash_params sbox input statics ;;
      prev_hash <- p_simplify prev_hash ;;
      PRet (Ok (prev_hash, constraint_leaf_index, exp_4 * fe_of 4, proof_nodes))
  end.

(** t4.rs 254-381 *)
Definition vanilla_merkle_merkle_tree_4_verif_gadget (depth : nat) (expected_root : F) (leaf_val : var)
  (leaf_index : quantity) (proof_nodes statics : list var) : pg (result unit) :=
  let prev_hash := lc_of_var leaf_val in
  let statics := map (fun s => lc_of_var s) statics in
  let leaf_index_bytes := allocated_leaf_index_to_bytes leaf_index in
  leaf_index_byte_size <- p_lift (get_byte_size depth 4) ;;
  '(prev_hash, constraint_leaf_index, _, _) <-? p_try_fold (level_4 leaf_index_bytes statics)
      (list_prod (seq 0 leaf_index_byte_size) (seq 0 4))
      (prev_hash, [(q_var leaf_index, - (1))], 1, proof_nodes) ;;
  cs_constrain constraint_leaf_index ;;;
  constrain_lc_with_scalar prev_hash expected_root ;;;
  PRet (Ok tt).

(** one iteration of the loop t8.rs 305-479; [i] counts the digits.  The [break] is
    rendered by iterations that do nothing. *)
Definition level_8 (leaf_index_octets : option (list nat)) (zero : var) (st : level_state) (i : nat)
  : pg (result level_state) :=
  let '(prev_hash, constraint_leaf_index, exp_8, proof_nodes) := st in
  match proof_nodes with
  | [] => PRet (Ok st)
  | _ =>
      bits <- (match leaf_index_octets with
               | Some l =>
                   octet <- p_lift (index l i) ;;
                   let octet := Z.of_nat octet in
                   PRet (Some (bit_pair octet 0), Some (bit_pair octet 1), Some (bit_pair octet 2))
               | None => PRet (None, None, None)
               end) ;;
      let '(bit0, bit1, bit2) := bits in
      '(b0, b0_1) <-? bit_constraints bit0 ;;
      '(b1, b1_1) <-? bit_constraints bit1 ;;
      '(b2, b2_1) <-? bit_constraints bit2 ;;
      let constraint_leaf_index := constraint_leaf_index ++ [(b0, exp_8)] in
      let constraint_leaf_index := constraint_leaf_index ++ [(b1, fe_of 2 * exp_8)] in
      let constraint_leaf_index := constraint_leaf_index ++ [(b2, fe_of 4 * exp_8)] in
      '(proof_nodes, N7) <- pop_node proof_nodes ;;
      '(proof_nodes, N6) <- pop_node proof_nodes ;;
      '(proof_nodes, N5) <- pop_node proof_nodes ;;
      '(proof_nodes, N4) <- pop_node proof_nodes ;;
      '(proof_nodes, N3) <- pop_node proof_nodes ;;
      '(proof_nodes, N2) <- pop_node proof_nodes ;;
      '(proof_nodes, N1) <- pop_node proof_nodes ;;
      input <- children_8 b0 b0_1 b1 b1_1 b2 b2_1 prev_hash N1 N2 N3 N4 N5 N6 N7 ;;
      prev_hash <-? Poseidon_hash_8_constraints hash_params sbox input (lc_of_var zero) ;;
      prev_hash <- p_simplify prev_hash ;;
      PRet (Ok (prev_hash, constraint_leaf_index, exp_8 * fe_of 8, proof_nodes))
  end.

(** t8.rs 278-486.  [get_bit_count(depth, 8)] is [3 * depth], so the loop, in steps of 3,
    runs over the [depth] digits. *)
Definition vanilla_merkle_merkle_tree_8_verif_gadget (depth : nat) (expected_root : F) (leaf_val : var)
  (leaf_index : quantity) (proof_nodes : list var) (zero : var) : pg (result unit) :=
  let prev_hash := lc_of_var leaf_val in
  leaf_index_octets <- (match q_assignment leaf_index with
      | Some l => b <- p_lift (get_base_8_repr l depth) ;; PRet (Some (rev b))
      | None => PRet None
      end) ;;
  leaf_index_bit_count <- p_lift (get_bit_count depth 8) ;;
  '(prev_hash, constraint_leaf_index, _, _) <-? p_try_fold (level_8 leaf_index_octets zero)
      (seq 0 ((leaf_index_bit_count + 2) / 3))
      (prev_hash, [(q_var leaf_index, - (1))], 1, proof_nodes) ;;
  cs_constrain constraint_leaf_index ;;;
  constrain_lc_with_scalar prev_hash expected_root ;;;
  PRet (Ok tt).
End Gadget.
End Generic.

(** the loops m4.rs 63-70 and m8.rs 63-70: every proof element is committed with a
    fresh [FieldElement::random()] *)
Definition commit_proof (merkle_proof : list (list F)) (comms : list G1) : pprog (list G1 * list var) :=
  p_fold (fun '(comms, proof_vars) x =>
      r <- p_random ;;
      '(c, v) <- cs_commit (x, r) ;;
      PRet (comms ++ [c], proof_vars ++ [v]))
    (concat merkle_proof) (comms, []).

(** m4.rs 34-61 and m8.rs 34-61: the checks and the commitments to leaf and index *)
Definition commit_leaf_and_index (leaf leaf_index : F) (randomness : option (list F)) (rng : bool)
  : pprog (result (list G1 * var * var)) :=
  check_for_randomness_or_rng_vec randomness rng ;;?
  rands <- randomness_or_rng_vec randomness rng 2 ;;
  if negb (Nat.eqb (length rands) 2)
  then PRet (Err (GadgetError "Provided randomness should have size 2"))
  else
    '(r, rands) <- pop0 rands ;;
    '(com_leaf, var_leaf) <- cs_commit (leaf, r) ;;
    '(r, rands) <- pop0 rands ;;
    '(com_leaf_idx, var_leaf_idx) <- cs_commit (leaf_index, r) ;;
    PRet (Ok ([com_leaf; com_leaf_idx], var_leaf, var_leaf_idx)).

(** m4.rs 22-88 *)
Definition prove_leaf_inclusion_4_ary_merkle_tree (leaf leaf_index : F) (randomness : option (list F))
  (merkle_proof : list (list F)) (root : F) (tree_depth : nat) (hash_params : poseidon_params) (sbox : sbox_type)
  (rng : bool) : pprog (result (list G1)) :=
  '(comms, var_leaf, var_leaf_idx) <-? commit_leaf_and_index leaf leaf_index randomness rng ;;
  '(comms, proof_vars) <- commit_proof merkle_proof comms ;;
  statics <- allocate_statics_for_prover 1 ;;
  vanilla_merkle_merkle_tree_4_verif_gadget hash_params sbox tree_depth root var_leaf
    (Quantity var_leaf_idx (Some leaf_index)) proof_vars statics ;;?
  PRet (Ok comms).

(** m8.rs 22-87 *)
Definition prove_leaf_inclusion_8_ary_merkle_tree (leaf leaf_index : F) (randomness : option (list F))
  (merkle_proof : list (list F)) (root : F) (tree_depth : nat) (hash_params : poseidon_params) (sbox : sbox_type)
  (rng : bool) : pprog (result (list G1)) :=
  '(comms, var_leaf, var_leaf_idx) <-? commit_leaf_and_index leaf leaf_index randomness rng ;;
  '(comms, proof_vars) <- commit_proof merkle_proof comms ;;
  statics <- allocate_statics_for_prover 1 ;;
  zero <- p_lift (index statics 0) ;;
  vanilla_merkle_merkle_tree_8_verif_gadget hash_params sbox tree_depth root var_leaf
    (Quantity var_leaf_idx (Some leaf_index)) proof_vars zero ;;?
  PRet (Ok comms).

(** the loops m4.rs 108-112 and m8.rs 107-111 over all remaining commitments *)
Definition commit_drain (commitments : list G1) : vprog (list var) :=
  p_fold (fun proof_vars c => v <- cs_commit c ;; PRet (proof_vars ++ [v])) commitments [].

(** m4.rs 90-130 *)
Definition verify_leaf_inclusion_4_ary_merkle_tree (root : F) (tree_depth : nat) (hash_params : poseidon_params)
  (sbox : sbox_type) (g h : G1) (commitments : list G1) : vprog (result unit) :=
  '(c, commitments) <- remove0 commitments ;;
  var_leaf <- cs_commit c ;;
  '(c, commitments) <- remove0 commitments ;;
  var_leaf_idx <- cs_commit c ;;
  proof_vars <- commit_drain commitments ;;
  statics <- allocate_statics_for_verifier 1 g h ;;
  vanilla_merkle_merkle_tree_4_verif_gadget hash_params sbox tree_depth root var_leaf
    (Quantity var_leaf_idx None) proof_vars statics ;;?
  PRet (Ok tt).

(** m8.rs 89-128 *)
Definition verify_leaf_inclusion_8_ary_merkle_tree (root : F) (tree_depth : nat) (hash_params : poseidon_params)
  (sbox : sbox_type) (g h : G1) (commitments : list G1) : vprog (result unit) :=
  '(c, commitments) <- remove0 commitments ;;
  var_leaf <- cs_commit c ;;
  '(c, commitments) <- remove0 commitments ;;
  var_leaf_idx <- cs_commit c ;;
  proof_vars <- commit_drain commitments ;;
  statics <- allocate_statics_for_verifier 1 g h ;;
  zero <- p_lift (index statics 0) ;;
  vanilla_merkle_merkle_tree_8_verif_gadget hash_params sbox tree_depth root var_leaf
    (Quantity var_leaf_idx None) proof_vars zero ;;?
  PRet (Ok tt).

(** The functions [gen_proof_of_leaf_inclusion_*] and
    [verify_proof_of_leaf_inclusion_*] (m4.rs 132-213, m8.rs 130-207) are [gen_proof]
    and [verify_proof] of Model/Gadgets.v applied to these programs; the former of
    m4.rs unwraps the result of [prove] ([unwrap_prove]).  [println!] is left out. *)
End MerkleGadget.
