(** src/r1cs/gadgets: the MiMC and Poseidon hash functions, their circuits, and
    the functions that prove knowledge of a preimage. *)
From Coq Require Import ZArith String List Bool DecimalString.
From Verif.Base Require Import Outcome Fp Params Algebra.
From Verif.Model Require Import Transcript LinComb Prog Prover Verifier Gadgets.
Import ListNotations.

Section Hash.
Context {P : Params}.
Local Open Scope fe_scope.

(** *** MiMC *)

(** src/r1cs/gadgets/helper_constraints/mimc.rs 10-30 *)
Section NativeMimc.
Local Open Scope outcome_scope.
Definition mimc (xl xr : F) (constants : list F) (mimc_rounds : nat) : outcome F :=
  assertb (Nat.eqb (length constants) mimc_rounds) ;;;
  '(xl, _) <- foldM (fun '(xl, xr) i =>
      c <- index constants i ;;
      let tmp1 := xl + c in
      let tmp2 := tmp1 * tmp1 * tmp1 in
      Done (tmp2 + xr, xl))
    (seq 0 mimc_rounds) (xl, xr) ;;
  Done xl.
End NativeMimc.

(** *** Poseidon *)

(** src/r1cs/gadgets/helper_constraints/poseidon.rs 10-22 *)
Record poseidon_params : Type := PoseidonParams {
  width : nat;
  full_rounds_beginning : nat;
  full_rounds_end : nat;
  partial_rounds : nat;
  round_keys : list F;
  MDS_matrix : list (list F)
}.

(** poseidon.rs 115-120 *)
Inductive sbox_type : Type := Cube | Inverse | Quint.

(** poseidon.rs 123-138; [FieldElement::inverse] is [finv] *)
Definition apply_sbox (sbox : sbox_type) (elem : F) : F :=
  match sbox with
  | Cube => elem * elem * elem
  | Inverse => finv elem
  | Quint => (elem * elem) * (elem * elem) * elem
  end.

Section NativePoseidon.
Local Open Scope outcome_scope.
Context (params : poseidon_params) (sbox : sbox_type).

(** poseidon.rs 222-226 and 272-276: one iteration of the loop over the state,
    which is replaced element by element *)
Definition full_sbox_step (st : list F * nat) (i : nat) : outcome (list F * nat) :=
  let '(current_state, round_keys_offset) := st in
  x <- index current_state i ;;
  k <- index (round_keys params) round_keys_offset ;;
  current_state <- set_nth current_state i (apply_sbox sbox (x + k)) ;;
  Done (current_state, S round_keys_offset).

(** poseidon.rs 244-247 *)
Definition add_key_step (st : list F * nat) (i : nat) : outcome (list F * nat) :=
  let '(current_state, round_keys_offset) := st in
  x <- index current_state i ;;
  k <- index (round_keys params) round_keys_offset ;;
  current_state <- set_nth current_state i (x + k) ;;
  Done (current_state, S round_keys_offset).

(** poseidon.rs 228-239, 253-264, 278-289: the linear layer; the vector
    [current_state_temp] of zeros is filled and becomes the new state *)
Definition linear_layer (current_state : list F) : outcome (list F) :=
  mapM (fun i =>
      foldM (fun acc j =>
          s <- index current_state j ;;
          row <- index (MDS_matrix params) j ;;
          m <- index row i ;;
          Done (acc + s * m))
        (seq 0 (width params)) 0)
    (seq 0 (width params)).

(** one iteration of the loops 220-240 and 270-290 *)
Definition full_round (st : list F * nat) (_ : nat) : outcome (list F * nat) :=
  '(current_state, round_keys_offset) <- foldM full_sbox_step (seq 0 (width params)) st ;;
  current_state <- linear_layer current_state ;;
  Done (current_state, round_keys_offset).

(** one iteration of the loop 243-265; for width 0 the index [width - 1]
    underflows or is out of bounds, a panic in both cases *)
Definition partial_round (st : list F * nat) (_ : nat) : outcome (list F * nat) :=
  '(current_state, round_keys_offset) <- foldM add_key_step (seq 0 (width params)) st ;;
  x <- index current_state (width params - 1) ;;
  current_state <- set_nth current_state (width params - 1) (apply_sbox sbox x) ;;
  current_state <- linear_layer current_state ;;
  Done (current_state, round_keys_offset).

(** poseidon.rs 202-293 *)
Definition Poseidon_permutation (input : list F) : outcome (list F) :=
  assertb (Nat.eqb (length input) (width params)) ;;;
  st <- foldM full_round (seq 0 (full_rounds_beginning params)) (input, O) ;;
  st <- foldM partial_round (seq 0 (partial_rounds params)) st ;;
  '(current_state, _) <- foldM full_round (seq 0 (full_rounds_end params)) st ;;
  Done current_state.

(** poseidon.rs 448-449 *)
Definition PADDING_CONST : Z := 101.
Definition ZERO_CONST : Z := 0.

(** poseidon.rs 451-465; [Vec::remove(1)] *)
Definition Poseidon_hash_2 (xl xr : F) : outcome F :=
  out <- Poseidon_permutation [fe_of ZERO_CONST; xl; xr] ;;
  index out 1.

(** poseidon.rs 518-532 *)
Definition Poseidon_hash_4 (inputs : list F) : outcome F :=
  assertb (Nat.eqb (length inputs) 4) ;;;
  out <- Poseidon_permutation (fe_of ZERO_CONST :: inputs) ;;
  index out 1.

(** poseidon.rs 587-599 *)
Definition Poseidon_hash_8 (inputs : list F) : outcome F :=
  assertb (Nat.eqb (length inputs) 8) ;;;
  out <- Poseidon_permutation (fe_of ZERO_CONST :: inputs) ;;
  index out 1.
End NativePoseidon.

(** *** Circuits *)
Local Open Scope prog_scope.
Section Generic.
Context {CA CR : Type}.
Local Notation pg := (prog CA CR).

(** mimc.rs 50-77 *)
Definition enforce_mimc_2_inputs (left right : lc) (mimc_rounds : nat) (mimc_constants : list F) : pg (result lc) :=
  '(left_v, _) <- p_fold (fun '(left_v, right_v) j =>
      c <- p_lift (index mimc_constants j) ;;
      let left_plus_const := lc_add left_v [(VOne, c)] in
      '(l, _, l_sqr) <- cs_multiply left_plus_const left_plus_const ;;
      '(_, _, l_cube) <- cs_multiply (lc_of_var l_sqr) (lc_of_var l) ;;
      PRet (var_add_lc l_cube right_v, left_v))
    (seq 0 mimc_rounds) (left, right) ;;
  PRet (Ok left_v).

(** mimc.rs 32-48 *)
Definition mimc_gadget (left right : quantity) (mimc_rounds : nat) (mimc_constants : list F) (image : F)
  : pg (result unit) :=
  res_v <-? enforce_mimc_2_inputs (lc_of_var (q_var left)) (lc_of_var (q_var right)) mimc_rounds mimc_constants ;;
  constrain_lc_with_scalar res_v image ;;;
  PRet (Ok tt).

(** poseidon.rs 154-163 *)
Definition synthesize_cube_sbox (input_var : lc) (round_key : F) : pg (result var) :=
  let inp_plus_const := lc_add input_var (lc_of_fe round_key) in
  '(i, _, sqr) <- cs_multiply inp_plus_const inp_plus_const ;;
  '(_, _, cube) <- cs_multiply (lc_of_var sqr) (lc_of_var i) ;;
  PRet (Ok cube).

(** poseidon.rs 166-176 *)
Definition synthesize_quint_sbox (input_var : lc) (round_key : F) : pg (result var) :=
  let inp_plus_const := lc_add input_var (lc_of_fe round_key) in
  '(i, _, sqr) <- cs_multiply inp_plus_const inp_plus_const ;;
  '(_, _, qr) <- cs_multiply (lc_of_var sqr) (lc_of_var sqr) ;;
  '(_, _, qi) <- cs_multiply (lc_of_var qr) (lc_of_var i) ;;
  PRet (Ok qi).

(** poseidon.rs 179-199 *)
Definition synthesize_inverse_sbox (input_var : lc) (round_key : F) : pg (result var) :=
  let inp_plus_const := lc_add input_var (lc_of_fe round_key) in
  val_l <- cs_evaluate inp_plus_const ;;
  let val_r := option_map (fun l => finv l) val_l in
  '(var_l, _) <-? cs_allocate_single val_l ;;
  '(var_r, var_o) <-? cs_allocate_single val_r ;;
  is_nonzero_gadget var_l var_r ;;?
  var_o <- p_lift (of_option var_o) ;;
  constrain_lc_with_scalar (lc_of_var var_o) 1 ;;;
  PRet (Ok var_r).

(** poseidon.rs 140-151 *)
Definition synthesize_sbox (sbox : sbox_type) (input_var : lc) (round_key : F) : pg (result var) :=
  match sbox with
  | Cube => synthesize_cube_sbox input_var round_key
  | Inverse => synthesize_inverse_sbox input_var round_key
  | Quint => synthesize_quint_sbox input_var round_key
  end.

Section Permutation.
Context (params : poseidon_params) (sbox : sbox_type).

(** poseidon.rs 304-315; [next_inputs] starts as empty linear combinations *)
Definition apply_linear_layer (sbox_outs : list lc) : outcome (list lc) :=
  mapM (fun i =>
      foldM (fun acc j =>
          obind (index (MDS_matrix params) j) (fun row =>
          obind (index row i) (fun m =>
          obind (index sbox_outs j) (fun s =>
          Done (lc_add acc (fe_mul_lc m s))))))
        (seq 0 (length sbox_outs)) [])
    (seq 0 (length sbox_outs)).

(** one iteration of the loops 331-338 and 398-405: the vector [sbox_outputs],
    preallocated in Rust, is rendered as the list of the elements set so far *)
Definition full_sbox_constraints (input_vars : list lc) (st : list lc * nat) (i : nat) : pg (result (list lc * nat)) :=
  let '(sbox_outputs, round_keys_offset) := st in
  round_key <- p_lift (index (round_keys params) round_keys_offset) ;;
  x <- p_lift (index input_vars i) ;;
  out <-? synthesize_sbox sbox x round_key ;;
  PRet (Ok (sbox_outputs ++ [lc_of_var out], S round_keys_offset)).

(** one iteration of the loops 327-348 and 392-417 *)
Definition full_round_constraints (st : list lc * nat) (_ : nat) : pg (result (list lc * nat)) :=
  let '(input_vars, round_keys_offset) := st in
  '(sbox_outputs, round_keys_offset) <-?
    p_try_fold (full_sbox_constraints input_vars) (seq 0 (width params)) ([], round_keys_offset) ;;
  next_input_vars <- p_lift (apply_linear_layer sbox_outputs) ;;
  PRet (Ok (next_input_vars, round_keys_offset)).

(** one iteration of the loop 358-373 *)
Definition partial_sbox_constraints (input_vars : list lc) (st : list lc * nat) (i : nat) : pg (result (list lc * nat)) :=
  let '(sbox_outputs, round_keys_offset) := st in
  round_key <- p_lift (index (round_keys params) round_keys_offset) ;;
  x <- p_lift (index input_vars i) ;;
  if Nat.eqb i (width params - 1)
  then
    out <-? synthesize_sbox sbox x round_key ;;
    PRet (Ok (sbox_outputs ++ [lc_of_var out], S round_keys_offset))
  else
    PRet (Ok (sbox_outputs ++ [lc_add x (lc_of_fe round_key)], S round_keys_offset)).

(** one iteration of the loop 354-385 *)
Definition partial_round_constraints (st : list lc * nat) (_ : nat) : pg (result (list lc * nat)) :=
  let '(input_vars, round_keys_offset) := st in
  '(sbox_outputs, round_keys_offset) <-?
    p_try_fold (partial_sbox_constraints input_vars) (seq 0 (width params)) ([], round_keys_offset) ;;
  next_input_vars <- p_lift (apply_linear_layer sbox_outputs) ;;
  input_vars <- p_fold (fun input_vars l =>
      l <- p_simplify l ;;
      PRet (input_vars ++ [l]))
    next_input_vars [] ;;
  PRet (Ok (input_vars, round_keys_offset)).

(** poseidon.rs 295-422 *)
Definition Poseidon_permutation_constraints (input : list lc) : pg (result (list lc)) :=
  p_lift (assertb (Nat.eqb (length input) (width params))) ;;;
  st <-? p_try_fold full_round_constraints (seq 0 (full_rounds_beginning params)) (input, O) ;;
  st <-? p_try_fold partial_round_constraints (seq 0 (partial_rounds params)) st ;;
  '(input_vars, _) <-? p_try_fold full_round_constraints (seq 0 (full_rounds_end params)) st ;;
  PRet (Ok input_vars).

(** poseidon.rs 424-443 *)
Definition Poseidon_permutation_gadget (input : list quantity) (output : list F) : pg (result unit) :=
  p_lift (assertb (Nat.eqb (length output) (width params))) ;;;
  permutation_output <-? Poseidon_permutation_constraints (map (fun e => lc_of_var (q_var e)) input) ;;
  p_fold (fun _ i =>
      l <- p_lift (index permutation_output i) ;;
      o <- p_lift (index output i) ;;
      constrain_lc_with_scalar l o)
    (seq 0 (width params)) tt ;;;
  PRet (Ok tt).

(** poseidon.rs 467-490; with width below 2, [width - 2] underflows, or the
    assertion or the access to [statics[0]] fails: a panic in all cases *)
Definition Poseidon_hash_2_constraints (xl xr : lc) (statics : list lc) : pg (result lc) :=
  p_lift (assertb (Nat.eqb (length statics) (width params - 2))) ;;;
  s0 <- p_lift (index statics 0) ;;
  permutation_output <-? Poseidon_permutation_constraints ([s0] ++ [xl] ++ [xr] ++ skipn 1 statics) ;;
  out <- p_lift (index permutation_output 1) ;;
  PRet (Ok out).

(** poseidon.rs 492-516 *)
Definition Poseidon_hash_2_gadget (xl xr : var) (statics : list var) (output : F) : pg (result unit) :=
  hash <-? Poseidon_hash_2_constraints (lc_of_var xl) (lc_of_var xr) (map (fun s => lc_of_var s) statics) ;;
  constrain_lc_with_scalar hash output ;;;
  PRet (Ok tt).

(** poseidon.rs 534-554; [statics.remove(0)] panics when there are none *)
Definition Poseidon_hash_4_constraints (inputs statics : list lc) : pg (result lc) :=
  p_lift (assertb (Nat.eqb (length inputs) 4)) ;;;
  p_lift (assertb (Nat.eqb (length statics) (width params - 4))) ;;;
  s0 <- p_lift (index statics 0) ;;
  permutation_output <-? Poseidon_permutation_constraints ([s0] ++ inputs ++ skipn 1 statics) ;;
  out <- p_lift (index permutation_output 1) ;;
  PRet (Ok out).

(** poseidon.rs 556-583 *)
Definition Poseidon_hash_4_gadget (input statics : list var) (output : F) : pg (result unit) :=
  p_lift (assertb (Nat.eqb (length input) 4)) ;;;
  hash <-? Poseidon_hash_4_constraints (map (fun s => lc_of_var s) input) (map (fun s => lc_of_var s) statics) ;;
  constrain_lc_with_scalar hash output ;;;
  PRet (Ok tt).

(** poseidon.rs 601-618 *)
Definition Poseidon_hash_8_constraints (input : list lc) (zero : lc) : pg (result lc) :=
  p_lift (assertb (Nat.eqb (length input) 8)) ;;;
  permutation_output <-? Poseidon_permutation_constraints ([zero] ++ input) ;;
  out <- p_lift (index permutation_output 1) ;;
  PRet (Ok out).

(** poseidon.rs 620-643 *)
Definition Poseidon_hash_8_gadget (input : list var) (zero : var) (output : F) : pg (result unit) :=
  p_lift (assertb (Nat.eqb (length input) 8)) ;;;
  hash <-? Poseidon_hash_8_constraints (map (fun s => lc_of_var s) input) (lc_of_var zero) ;;
  constrain_lc_with_scalar hash output ;;;
  PRet (Ok tt).
End Permutation.
End Generic.

(** *** Proving and verifying functions *)

(** src/errors.rs 31-42 for a vector of blindings *)
Definition check_for_randomness_or_rng_vec (randomness : option (list F)) (rng : bool) : pprog (result unit) :=
  match randomness, rng with
  | None, false => PRet (Err (GadgetError "Since randomness is None, provide"))
  | _, _ => PRet (Ok tt)
  end.

(** [randomness.unwrap_or_else(..)] with [n] calls of [random_using_rng] *)
Definition randomness_or_rng_vec (randomness : option (list F)) (rng : bool) (n : nat) : pprog (list F) :=
  match randomness with
  | Some rands => PRet rands
  | None =>
      if rng
      then p_fold (fun rands _ => r <- p_random ;; PRet (rands ++ [r])) (seq 0 n) []
      else PPanic
  end.

Definition decimal (n : nat) : string := NilZero.string_of_uint (Nat.to_uint n).

(** src/errors.rs 44-55, the macro [check_for_input_and_randomness_length!] *)
Definition length_message (expected input randomness : nat) : string :=
  "Both input and randomness should be of the same size " ++ decimal expected ++ " but input size is " ++
  decimal input ++ " and randomness size is " ++ decimal randomness.

Definition check_for_input_and_randomness_length (input randomness : list F) (expected : nat) : pprog (result unit) :=
  if negb (Nat.eqb (length input) expected) || negb (Nat.eqb (length randomness) expected)
  then PRet (Err (GadgetError (length_message expected (length input) (length randomness))))
  else PRet (Ok tt).

(** [Vec::remove(0)] of scalars *)
Definition pop0 (l : list F) : pprog (F * list F) :=
  match l with
  | [] => PPanic
  | x :: t => PRet (x, t)
  end.

(** src/r1cs/gadgets/mimc.rs 12-55 *)
Definition prove_mimc_preimage (inputs : list F) (randomness : option (list F)) (expected_output : F) (constants : list F)
  (mimc_rounds : nat) (rng : bool) : pprog (result (list G1)) :=
  check_for_randomness_or_rng_vec randomness rng ;;?
  rands <- randomness_or_rng_vec randomness rng 2 ;;
  check_for_input_and_randomness_length inputs rands 2 ;;?
  i0 <- p_lift (index inputs 0) ;;
  '(r, rands) <- pop0 rands ;;
  '(com_l, var_l) <- cs_commit (i0, r) ;;
  i1 <- p_lift (index inputs 1) ;;
  '(r, rands) <- pop0 rands ;;
  '(com_r, var_r) <- cs_commit (i1, r) ;;
  mimc_gadget (Quantity var_l (Some i0)) (Quantity var_r (Some i1)) mimc_rounds constants expected_output ;;?
  PRet (Ok [com_l; com_r]).

(** src/r1cs/gadgets/mimc.rs 57-88 *)
Definition verify_mimc_preimage (expected_output : F) (constants : list F) (mimc_rounds : nat) (commitments : list G1)
  : vprog (result unit) :=
  '(c, commitments) <- remove0 commitments ;;
  var_l <- cs_commit c ;;
  '(c, commitments) <- remove0 commitments ;;
  var_r <- cs_commit c ;;
  mimc_gadget (Quantity var_l None) (Quantity var_r None) mimc_rounds constants expected_output ;;?
  PRet (Ok tt).

(** src/r1cs/gadgets/poseidon_hash.rs 20-37 *)
Definition allocate_statics_for_prover (num_statics : nat) : pprog (list var) :=
  '(_, var) <- cs_commit (fe_of ZERO_CONST, 0) ;;
  let statics := [var] in
  statics <- (if Nat.ltb (length statics) num_statics
              then '(_, var) <- cs_commit (fe_of PADDING_CONST, 0) ;; PRet (statics ++ [var])
              else PRet statics) ;;
  p_fold (fun statics _ =>
      '(_, var) <- cs_commit (fe_of ZERO_CONST, 0) ;;
      PRet (statics ++ [var]))
    (seq (length statics) (num_statics - length statics)) statics.

(** src/r1cs/gadgets/poseidon_hash.rs 40-72 *)
Definition allocate_statics_for_verifier (num_statics : nat) (g h : G1) : vprog (list var) :=
  let zero_comm := commit g h (fe_of ZERO_CONST) 0 in
  v <- cs_commit zero_comm ;;
  let statics := [v] in
  statics <- (if Nat.ltb (length statics) num_statics
              then v <- cs_commit (commit g h (fe_of PADDING_CONST) 0) ;; PRet (statics ++ [v])
              else PRet statics) ;;
  p_fold (fun statics _ =>
      v <- cs_commit zero_comm ;;
      PRet (statics ++ [v]))
    (seq (length statics) (num_statics - length statics)) statics.

(** src/r1cs/gadgets/poseidon_hash.rs 74-118 *)
Definition prove_Poseidon_2 (inputs : list F) (randomness : option (list F)) (expected_output : F)
  (hash_params : poseidon_params) (sbox : sbox_type) (rng : bool) : pprog (result (list G1)) :=
  check_for_randomness_or_rng_vec randomness rng ;;?
  rands <- randomness_or_rng_vec randomness rng 2 ;;
  check_for_input_and_randomness_length inputs rands 2 ;;?
  '(input1, inputs) <- pop0 inputs ;;
  '(input2, inputs) <- pop0 inputs ;;
  '(r, rands) <- pop0 rands ;;
  '(com_l, var_l) <- cs_commit (input1, r) ;;
  '(r, rands) <- pop0 rands ;;
  '(com_r, var_r) <- cs_commit (input2, r) ;;
  statics <- allocate_statics_for_prover 1 ;;
  Poseidon_hash_2_gadget hash_params sbox var_l var_r statics expected_output ;;?
  PRet (Ok [com_l; com_r]).

(** src/r1cs/gadgets/poseidon_hash.rs 120-146 *)
Definition verify_Poseidon_2 (expected_output : F) (hash_params : poseidon_params) (sbox : sbox_type) (g h : G1)
  (commitments : list G1) : vprog (result unit) :=
  '(c, commitments) <- remove0 commitments ;;
  lv <- cs_commit c ;;
  '(c, commitments) <- remove0 commitments ;;
  rv <- cs_commit c ;;
  statics <- allocate_statics_for_verifier 1 g h ;;
  Poseidon_hash_2_gadget hash_params sbox lv rv statics expected_output ;;?
  PRet (Ok tt).

(** the loops poseidon_hash.rs 243-247 and 395-399 *)
Definition commit_inputs (inputs rands : list F) (n : nat) : pprog (list G1 * list var) :=
  '(_, _, comms, vars) <- p_fold (fun '(inputs, rands, comms, vars) (_ : nat) =>
      '(x, inputs) <- pop0 inputs ;;
      '(r, rands) <- pop0 rands ;;
      '(com, var) <- cs_commit (x, r) ;;
      PRet (inputs, rands, comms ++ [com], vars ++ [var]))
    (seq 0 n) (inputs, rands, [], []) ;;
  PRet (comms, vars).

(** the loops poseidon_hash.rs 275-278 and 418-421 *)
Definition commit_received (commitments : list G1) (n : nat) : vprog (list var) :=
  '(_, vars) <- p_fold (fun '(commitments, vars) (_ : nat) =>
      '(c, commitments) <- remove0 commitments ;;
      var <- cs_commit c ;;
      PRet (commitments, vars ++ [var]))
    (seq 0 n) (commitments, []) ;;
  PRet vars.

(** src/r1cs/gadgets/poseidon_hash.rs 217-262 *)
Definition prove_Poseidon_4 (inputs : list F) (randomness : option (list F)) (expected_output : F)
  (hash_params : poseidon_params) (sbox : sbox_type) (rng : bool) : pprog (result (list G1)) :=
  check_for_randomness_or_rng_vec randomness rng ;;?
  rands <- randomness_or_rng_vec randomness rng 4 ;;
  check_for_input_and_randomness_length inputs rands 4 ;;?
  '(comms, vars) <- commit_inputs inputs rands 4 ;;
  statics <- allocate_statics_for_prover 1 ;;
  Poseidon_hash_4_gadget hash_params sbox vars statics expected_output ;;?
  PRet (Ok comms).

(** src/r1cs/gadgets/poseidon_hash.rs 264-293 *)
Definition verify_Poseidon_4 (expected_output : F) (hash_params : poseidon_params) (sbox : sbox_type) (g h : G1)
  (commitments : list G1) : vprog (result unit) :=
  allocs <- commit_received commitments 4 ;;
  statics <- allocate_statics_for_verifier 1 g h ;;
  Poseidon_hash_4_gadget hash_params sbox allocs statics expected_output ;;?
  PRet (Ok tt).

(** src/r1cs/gadgets/poseidon_hash.rs 365-405 *)
Definition prove_Poseidon_8 (inputs : list F) (randomness : option (list F)) (expected_output : F)
  (hash_params : poseidon_params) (sbox : sbox_type) (rng : bool) : pprog (result (list G1)) :=
  check_for_randomness_or_rng_vec randomness rng ;;?
  rands <- randomness_or_rng_vec randomness rng 8 ;;
  check_for_input_and_randomness_length inputs rands 8 ;;?
  '(comms, vars) <- commit_inputs inputs rands 8 ;;
  '(_, var) <- cs_commit (fe_of ZERO_CONST, 0) ;;
  Poseidon_hash_8_gadget hash_params sbox vars var expected_output ;;?
  PRet (Ok comms).

(** src/r1cs/gadgets/poseidon_hash.rs 407-429 *)
Definition verify_Poseidon_8 (expected_output : F) (hash_params : poseidon_params) (sbox : sbox_type) (g h : G1)
  (commitments : list G1) : vprog (result unit) :=
  vars <- commit_received commitments 8 ;;
  v <- cs_commit (commit g h (fe_of ZERO_CONST) 0) ;;
  Poseidon_hash_8_gadget hash_params sbox vars v expected_output ;;?
  PRet (Ok tt).

(** The functions [gen_proof_of_knowledge_of_preimage_of_*] and
    [verify_*knowledge_of_preimage_of_*] (mimc.rs 90-150, poseidon_hash.rs
    148-215, 295-363, 431-499) are [gen_proof] and [verify_proof] of
    Model/Gadgets.v applied to these programs; their [println!] is left out. *)
End Hash.
