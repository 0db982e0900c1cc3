(** Properties C33-C35, and the parts of C42 and C43 about the hash gadgets.
    Vocabulary: Spec/R1CS.v, Spec/Session.v, Spec/Gadget.v, Spec/HashSpec.v. *)
From Coq Require Import ZArith String List Lia Bool.
From Verif.Base Require Import Outcome Fp Params Algebra Instances.
From Verif.Model Require Import Transcript LinComb Prog VectorPoly IPP Prover Verifier Gadgets Hash.
From Verif.Spec Require Import R1CS Session Protocol Verdict Gadget HashSpec HashCheats.
From Verif.Proofs Require Import GadgetTools GadgetMain HashTools HashComplete NoCommit HashMain.
From Verif.Props Require Import Demo GadgetProps.
Import ListNotations.

Section Props.
Context {P : Params} {OK : ParamsOk P}.
Local Open Scope fe_scope.

(** ** C33 MiMC *)
Theorem C33_mimc_native xl xr constants : mimc xl xr constants (length constants) = Done (mimc_value constants xl xr).
Proof. exact (mimc_native xl xr constants). Qed.
Theorem C33_mimc_wrong_round_count_panics xl xr constants n : length constants <> n -> mimc xl xr constants n = Panic.
Proof. exact (mimc_native_panic xl xr constants n). Qed.

Theorem C33_mimc_constraints W ph l r n constants vs :
  forces W ph (enforce_mimc_2_inputs l r n constants) vs (fun s out =>
    (n <= length constants)%nat /\ lc_value s out = mimc_value (firstn n constants) (lc_value s l) (lc_value s r)).
Proof. exact (enforce_mimc_forces W ph l r n constants vs). Qed.

Theorem C33_mimc_gadget W ph l r n constants image vs :
  forces W ph (mimc_gadget l r n constants image) vs (fun s _ =>
    (n <= length constants)%nat /\ mimc_value (firstn n constants) (var_value s (q_var l)) (var_value s (q_var r)) = image).
Proof. exact (mimc_gadget_forces W ph l r n constants image vs). Qed.

Theorem C33_mimc_gadget_honest W W' ph vl vr x y n constants ol orr ol' or' ps vs :
  session ph ps vs -> has_value ps vl x -> has_value ps vr y -> (n <= length constants)%nat ->
  let image := mimc_value (firstn n constants) x y in
  completes W W' ph (mimc_gadget (Quantity vl ol) (Quantity vr orr) n constants image)
    (mimc_gadget (Quantity vl ol') (Quantity vr or') n constants image) (2 * n) ps vs (Ok tt) (Ok tt).
Proof. exact (mimc_gadget_completes W W' ph vl vr x y n constants ol orr ol' or' ps vs). Qed.

Theorem C33_verify_mimc_preimage W image constants n comms vs :
  forces W false (verify_mimc_preimage image constants n comms) vs (fun s _ =>
    (n <= length constants)%nat /\
    mimc_value (firstn n constants) (as_committed s (length (v_V vs))) (as_committed s (length (v_V vs) + 1)) = image).
Proof. exact (verify_mimc_forces W image constants n comms vs). Qed.

(** ** C34 Poseidon with the cube and quint S-boxes *)
Theorem C34_permutation_native p sbox input : params_ok p -> length input = width p ->
  Poseidon_permutation p sbox input = Done (permutation_value p sbox input).
Proof. exact (permutation_native p sbox input). Qed.
Theorem C34_permutation_wrong_length_panics p sbox input : length input <> width p -> Poseidon_permutation p sbox input = Panic.
Proof. exact (permutation_wrong_length p sbox input). Qed.
Theorem C34_hash_native p sbox : params_ok p ->
  (forall x y, width p = 3%nat -> Poseidon_hash_2 p sbox x y = Done (hash_value p sbox [x; y])) /\
  (forall xs, width p = 5%nat -> length xs = 4%nat -> Poseidon_hash_4 p sbox xs = Done (hash_value p sbox xs)) /\
  (forall xs, width p = 9%nat -> length xs = 8%nat -> Poseidon_hash_8 p sbox xs = Done (hash_value p sbox xs)).
Proof.
  exact (fun H => conj (fun x y Hw => hash_2_native p sbox x y H Hw)
    (conj (fun xs Hw Hl => hash_4_native p sbox xs H Hw Hl) (fun xs Hw Hl => hash_8_native p sbox xs H Hw Hl))).
Qed.

Theorem C34_permutation_constraints p sbox W ph input vs : params_ok p -> sbox <> Inverse ->
  forces W ph (Poseidon_permutation_constraints p sbox input) vs (fun s out =>
    length input = width p /\ map (lc_value s) out = permutation_value p sbox (map (lc_value s) input)).
Proof. exact (fun H1 H2 => permutation_forces p sbox H1 H2 W ph input vs). Qed.

Theorem C34_permutation_gadget p sbox W ph input output vs : params_ok p -> sbox <> Inverse ->
  forces W ph (Poseidon_permutation_gadget p sbox input output) vs (fun s _ =>
    permutation_value p sbox (map (fun q => var_value s (q_var q)) input) = output).
Proof. exact (fun H1 H2 => permutation_gadget_forces p sbox H1 H2 W ph input output vs). Qed.

Theorem C34_hash_2_gadget p sbox W ph xl xr zero output vs : params_ok p -> sbox <> Inverse ->
  forces W ph (Poseidon_hash_2_gadget p sbox xl xr [zero] output) vs (fun s _ =>
    var_value s zero = 0 -> hash_value p sbox [var_value s xl; var_value s xr] = output).
Proof. exact (fun H1 H2 => hash_2_gadget_forces p sbox H1 H2 W ph xl xr zero output vs). Qed.
Theorem C34_hash_4_gadget p sbox W ph input zero output vs : params_ok p -> sbox <> Inverse ->
  forces W ph (Poseidon_hash_4_gadget p sbox input [zero] output) vs (fun s _ =>
    var_value s zero = 0 -> hash_value p sbox (map (var_value s) input) = output).
Proof. exact (fun H1 H2 => hash_4_gadget_forces p sbox H1 H2 W ph input zero output vs). Qed.
Theorem C34_hash_8_gadget p sbox W ph input zero output vs : params_ok p -> sbox <> Inverse ->
  forces W ph (Poseidon_hash_8_gadget p sbox input zero output) vs (fun s _ =>
    var_value s zero = 0 -> hash_value p sbox (map (var_value s) input) = output).
Proof. exact (fun H1 H2 => hash_8_gadget_forces p sbox H1 H2 W ph input zero output vs). Qed.

(** The verifying functions: the committed variable after the inputs is the
    verifier's own commitment to the constant 0 with blinding 0 (second part). *)
Theorem C34_verify_Poseidon p sbox W output g h comms vs : params_ok p -> sbox <> Inverse ->
  let n := length (v_V vs) in
  forces W false (verify_Poseidon_2 output p sbox g h comms) vs (fun s _ =>
    as_committed s (n + 2) = 0 -> hash_value p sbox (committed s n 2) = output) /\
  forces W false (verify_Poseidon_4 output p sbox g h comms) vs (fun s _ =>
    as_committed s (n + 4) = 0 -> hash_value p sbox (committed s n 4) = output) /\
  forces W false (verify_Poseidon_8 output p sbox g h comms) vs (fun s _ =>
    as_committed s (n + 8) = 0 -> hash_value p sbox (committed s n 8) = output).
Proof.
  exact (fun H1 H2 => conj (verify_2_forces p sbox H1 H2 W output g h comms vs)
    (conj (verify_4_forces p sbox H1 H2 W output g h comms vs) (verify_8_forces p sbox H1 H2 W output g h comms vs))).
Qed.
Theorem C34_verifier_commits_zero p sbox W output g h comms vs b vs' :
  let n := length (v_V vs) in
  (vrun W false (verify_Poseidon_2 output p sbox g h comms) vs = Done (b, vs') ->
   v_V vs' = v_V vs ++ firstn 2 comms ++ [commit g h 0 0] /\ (2 <= length comms)%nat) /\
  (vrun W false (verify_Poseidon_4 output p sbox g h comms) vs = Done (b, vs') ->
   v_V vs' = v_V vs ++ firstn 4 comms ++ [commit g h 0 0] /\ (4 <= length comms)%nat) /\
  (vrun W false (verify_Poseidon_8 output p sbox g h comms) vs = Done (b, vs') ->
   v_V vs' = v_V vs ++ firstn 8 comms ++ [commit g h 0 0] /\ (8 <= length comms)%nat).
Proof. exact (verify_commits W p sbox output g h comms vs b vs'). Qed.

Theorem C34_permutation_gadget_honest p sbox W W' ph ps vs input input' xs : params_ok p -> sbox <> Inverse ->
  session ph ps vs -> map q_var input = map q_var input' -> Forall2 (has_value ps) (map q_var input) xs -> length xs = width p ->
  let output := permutation_value p sbox xs in
  completes W W' ph (Poseidon_permutation_gadget p sbox input output) (Poseidon_permutation_gadget p sbox input' output)
    (permutation_cost p sbox) ps vs (Ok tt) (Ok tt).
Proof. exact (fun H1 H2 => permutation_gadget_completes p sbox H1 H2 W W' ph ps vs input input' xs). Qed.

(** ** C35 The inverse S-box *)

(** no satisfying assignment gives the S-box the output 0, its native value at 0 *)
Theorem C35_zero_unprovable W ph l k vs :
  forces W ph (synthesize_inverse_sbox l k) vs (fun s out => var_value s out <> 0).
Proof. exact (inverse_output_nonzero W ph l k vs). Qed.

(** any other output is possible, whatever the input: the cheating prover gets
    the verifier's circuit for the input [l], all of whose constraints it satisfies *)
Theorem C35_any_output_provable W W' ph l k y ps vs : session ph ps vs -> p_pending ps = None -> y <> 0 ->
  exists v ps' vs', prun W ph (cheat_inverse_sbox y) ps = Done (Ok v, ps') /\
    vrun W' ph (synthesize_inverse_sbox l k) vs = Done (Ok v, vs') /\
    same_circuit ps' vs' /\ honest ps' /\ (forall w x, has_value ps w x -> has_value ps' w x) /\ has_value ps' v y.
Proof. exact (inverse_output_any W W' ph l k y ps vs). Qed.

Theorem C35_pending_multiplier_panics W ph l k vs i : v_pending vs = Some i ->
  vrun W ph (synthesize_inverse_sbox l k) vs = Panic.
Proof. exact (inverse_pending W ph l k vs i). Qed.

(** ** C42 Randomness policy *)
Theorem C42_no_randomness_mimc W inputs out constants n s :
  prun W false (prove_mimc_preimage inputs None out constants n false) s =
  Done (Err (GadgetError "Since randomness is None, provide"), s).
Proof. exact eq_refl. Qed.
Theorem C42_no_randomness_Poseidon W inputs out p sbox s :
  prun W false (prove_Poseidon_2 inputs None out p sbox false) s = Done (Err (GadgetError "Since randomness is None, provide"), s) /\
  prun W false (prove_Poseidon_4 inputs None out p sbox false) s = Done (Err (GadgetError "Since randomness is None, provide"), s) /\
  prun W false (prove_Poseidon_8 inputs None out p sbox false) s = Done (Err (GadgetError "Since randomness is None, provide"), s).
Proof. exact (conj eq_refl (conj eq_refl eq_refl)). Qed.
Theorem C42_wrong_number_mimc W inputs rands out constants n rng s : length inputs <> 2%nat \/ length rands <> 2%nat ->
  prun W false (prove_mimc_preimage inputs (Some rands) out constants n rng) s =
  Done (Err (GadgetError (length_message 2 (length inputs) (length rands))), s).
Proof. exact (mimc_wrong_length W inputs rands out constants n rng s). Qed.
Theorem C42_wrong_number_Poseidon W inputs rands out p sbox rng s :
  (length inputs <> 2%nat \/ length rands <> 2%nat ->
   prun W false (prove_Poseidon_2 inputs (Some rands) out p sbox rng) s =
   Done (Err (GadgetError (length_message 2 (length inputs) (length rands))), s)) /\
  (length inputs <> 4%nat \/ length rands <> 4%nat ->
   prun W false (prove_Poseidon_4 inputs (Some rands) out p sbox rng) s =
   Done (Err (GadgetError (length_message 4 (length inputs) (length rands))), s)) /\
  (length inputs <> 8%nat \/ length rands <> 8%nat ->
   prun W false (prove_Poseidon_8 inputs (Some rands) out p sbox rng) s =
   Done (Err (GadgetError (length_message 8 (length inputs) (length rands))), s)).
Proof. exact (Poseidon_wrong_length W inputs rands out p sbox rng s). Qed.

(** ** C43 End-to-end proofs *)
Theorem C43_mimc W W' label g h G H x y randomness rng constants n :
  blindings_given randomness rng 2 -> (n <= length constants)%nat -> enough_generators (2 * n) G H ->
  let image := mimc_value (firstn n constants) x y in
  proves W W' label g h G H (prove_mimc_preimage [x; y] randomness image constants n rng)
    (verify_mimc_preimage image constants n) (fun comms => comms = commit_all g h [x; y] (blindings W randomness 2)).
Proof. exact (mimc_proves W W' label g h G H x y randomness rng constants n). Qed.
Theorem C43_Poseidon_2 p sbox W W' label g h G H x y randomness rng : params_ok p -> sbox <> Inverse ->
  width p = 3%nat -> blindings_given randomness rng 2 -> enough_generators (permutation_cost p sbox) G H ->
  let output := hash_value p sbox [x; y] in
  proves W W' label g h G H (prove_Poseidon_2 [x; y] randomness output p sbox rng)
    (verify_Poseidon_2 output p sbox g h) (fun comms => comms = commit_all g h [x; y] (blindings W randomness 2)).
Proof. exact (fun H1 H2 => hash_2_proves p sbox H1 H2 W W' label g h G H x y randomness rng). Qed.
Theorem C43_Poseidon_4 p sbox W W' label g h G H xs randomness rng : params_ok p -> sbox <> Inverse ->
  width p = 5%nat -> length xs = 4%nat -> blindings_given randomness rng 4 -> enough_generators (permutation_cost p sbox) G H ->
  let output := hash_value p sbox xs in
  proves W W' label g h G H (prove_Poseidon_4 xs randomness output p sbox rng)
    (verify_Poseidon_4 output p sbox g h) (fun comms => comms = commit_all g h xs (blindings W randomness 4)).
Proof. exact (fun H1 H2 => hash_4_proves p sbox H1 H2 W W' label g h G H xs randomness rng). Qed.
Theorem C43_Poseidon_8 p sbox W W' label g h G H xs randomness rng : params_ok p -> sbox <> Inverse ->
  width p = 9%nat -> length xs = 8%nat -> blindings_given randomness rng 8 -> enough_generators (permutation_cost p sbox) G H ->
  let output := hash_value p sbox xs in
  proves W W' label g h G H (prove_Poseidon_8 xs randomness output p sbox rng)
    (verify_Poseidon_8 output p sbox g h) (fun comms => comms = commit_all g h xs (blindings W randomness 8)).
Proof. exact (fun H1 H2 => hash_8_proves p sbox H1 H2 W W' label g h G H xs randomness rng). Qed.
End Props.

Print Assumptions C33_mimc_native.
Print Assumptions C33_mimc_wrong_round_count_panics.
Print Assumptions C33_mimc_constraints.
Print Assumptions C33_mimc_gadget.
Print Assumptions C33_mimc_gadget_honest.
Print Assumptions C33_verify_mimc_preimage.
Print Assumptions C34_permutation_native.
Print Assumptions C34_permutation_wrong_length_panics.
Print Assumptions C34_hash_native.
Print Assumptions C34_permutation_constraints.
Print Assumptions C34_permutation_gadget.
Print Assumptions C34_hash_2_gadget.
Print Assumptions C34_hash_4_gadget.
Print Assumptions C34_hash_8_gadget.
Print Assumptions C34_verify_Poseidon.
Print Assumptions C34_verifier_commits_zero.
Print Assumptions C34_permutation_gadget_honest.
Print Assumptions C35_zero_unprovable.
Print Assumptions C35_any_output_provable.
Print Assumptions C35_pending_multiplier_panics.
Print Assumptions C42_no_randomness_mimc.
Print Assumptions C42_no_randomness_Poseidon.
Print Assumptions C42_wrong_number_mimc.
Print Assumptions C42_wrong_number_Poseidon.
Print Assumptions C43_mimc.
Print Assumptions C43_Poseidon_2.
Print Assumptions C43_Poseidon_4.
Print Assumptions C43_Poseidon_8.

(** ** Concrete cases, over the toy backend *)
Section Examples.
#[local] Existing Instance toyP.
#[local] Existing Instance toyP_ok.
Local Open Scope fe_scope.

Definition toy_params (w fb pr fe' : nat) : poseidon_params := {|
  width := w; full_rounds_beginning := fb; full_rounds_end := fe'; partial_rounds := pr;
  round_keys := map (fun n => fe (Z.of_nat (7 * n + 3))) (seq 0 (w * (fb + pr + fe')));
  MDS_matrix := map (fun i => map (fun j => finv (fe (Z.of_nat (i + j + 1)))) (seq 0 w)) (seq 0 w) |}.
Definition toy3 := toy_params 3 1 1 1.
Definition toy5 := toy_params 5 1 1 0.
Definition toy9 := toy_params 9 1 0 0.
Definition toy_consts := [fe 5; fe 6; fe 77].

Example C34_params_ok : params_ok toy3 /\ params_ok toy5 /\ params_ok toy9.
Proof. repeat split; vm_compute; repeat constructor. Qed.
Example C34_sessions : exists ps vs vars,
  session false ps vs /\ p_pending ps = None /\ Forall2 (has_value ps) vars [fe 0; fe 6; fe 9].
Proof. exact (committed_session demo_g demo_h [] [(fe 0, fe 0); (fe 6, fe 3); (fe 9, fe 4)]). Qed.
Example C43_generators : enough_generators (2 * 3) ex_G ex_H /\ enough_generators (permutation_cost toy3 Quint) ex_G ex_H /\
  enough_generators (permutation_cost toy5 Cube) ex_G ex_H /\ enough_generators (permutation_cost toy9 Cube) ex_G ex_H.
Proof. repeat split; try (vm_compute; lia); left; vm_compute; lia. Qed.

Example C33_example :
  mimc (fe 4) (fe 9) toy_consts 3 = Done (fe 5384) /\
  roundtrip (prove_mimc_preimage [fe 4; fe 9] (Some [fe 11; fe 12]) (fe 5384) toy_consts 3 false)
    (verify_mimc_preimage (fe 5384) toy_consts 3) = Done (Ok tt) /\
  roundtrip (prove_mimc_preimage [fe 4; fe 8] (Some [fe 11; fe 12]) (fe 5384) toy_consts 3 false)
    (verify_mimc_preimage (fe 5384) toy_consts 3) = Done (Err VerificationError).
Proof. repeat split; vm_compute; reflexivity. Qed.

Example C34_example :
  let h2 := hash_value toy3 Quint [fe 4; fe 9] in
  let h4 := hash_value toy5 Cube [fe 4; fe 9; fe 6; fe 1] in
  let in8 := [fe 4; fe 9; fe 6; fe 1; fe 1; fe 2; fe 3; fe 4] in
  let h8 := hash_value toy9 Cube in8 in
  roundtrip (prove_Poseidon_2 [fe 4; fe 9] None h2 toy3 Quint true) (verify_Poseidon_2 h2 toy3 Quint demo_g demo_h) = Done (Ok tt) /\
  roundtrip (prove_Poseidon_2 [fe 4; fe 8] None h2 toy3 Quint true) (verify_Poseidon_2 h2 toy3 Quint demo_g demo_h) = Done (Err VerificationError) /\
  roundtrip (prove_Poseidon_4 [fe 4; fe 9; fe 6; fe 1] None h4 toy5 Cube true) (verify_Poseidon_4 h4 toy5 Cube demo_g demo_h) = Done (Ok tt) /\
  roundtrip (prove_Poseidon_8 in8 None h8 toy9 Cube true) (verify_Poseidon_8 h8 toy9 Cube demo_g demo_h) = Done (Ok tt).
Proof. repeat split; vm_compute; reflexivity. Qed.
End Examples.

(** ** Refuted: C34 for the inverse S-box *)
Definition toy_inverse : @poseidon_params toyP := toy_params 3 1 0 0.

(** a proof of knowledge of a preimage is accepted although the committed values are none *)
Theorem C35_soundness_refuted :
  let out := @hash_value toyP toy_inverse Inverse [fe 7; fe 8] in
  let pp := @cheat_Poseidon_2 toyP (fe 4) (fe 9) (fe 1) (fe 2) (fe 7) (fe 8) out toy_inverse in
  roundtrip pp (@verify_Poseidon_2 toyP out toy_inverse Inverse demo_g demo_h) = Done (Ok tt) /\
  comms_of pp = @commit_all toyP demo_g demo_h [fe 4; fe 9] [fe 1; fe 2] /\
  @hash_value toyP toy_inverse Inverse [fe 4; fe 9] <> out.
Proof.
  split; [vm_compute; reflexivity|split; [vm_compute; reflexivity|]].
  intros E; apply (f_equal (@fval _)) in E; vm_compute in E; discriminate E.
Qed.

(** the honest proof is rejected when an S-box sees 0 (the round key 10 plus the input -10) *)
Theorem C35_completeness_refuted :
  let x := @fe_of toyP (-10) in
  let out := @hash_value toyP toy_inverse Inverse [x; fe 8] in
  @Poseidon_hash_2 toyP toy_inverse Inverse x (fe 8) = Done out /\
  roundtrip (@prove_Poseidon_2 toyP [x; fe 8] None out toy_inverse Inverse true)
    (@verify_Poseidon_2 toyP out toy_inverse Inverse demo_g demo_h) = Done (Err VerificationError).
Proof. split; vm_compute; reflexivity. Qed.

Print Assumptions C35_soundness_refuted.
Print Assumptions C35_completeness_refuted.
