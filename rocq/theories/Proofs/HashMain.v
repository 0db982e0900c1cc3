(** What the MiMC and Poseidon gadgets force and prove, in terms of Spec/HashSpec.v. *)
From Coq Require Import ZArith String List Lia Bool Ring Field Arith.
From Verif.Base Require Import Outcome Fp Params Algebra.
From Verif.Model Require Import Transcript LinComb Prog VectorPoly IPP Prover Verifier Gadgets Hash.
From Verif.Spec Require Import R1CS Sim Session Protocol Verdict Gadget HashSpec HashCheats.
From Verif.Proofs Require Import IPPProofs LinCombProofs RunProofs SyncMore GadgetTools GadgetBasic GadgetComplete GadgetPrograms GadgetMain
  HashTools HashSound HashComplete HashPrograms.
Import ListNotations.

Section Main.
Context {P : Params} {OK : ParamsOk P}.
Local Open Scope fe_scope.
Add Field FFhm : (Fp_field_theory modulus modulus_prime).

(** *** MiMC *)
Lemma mimc_firstn x y n constants out : mimc x y (firstn n constants) n = Done out ->
  (n <= length constants)%nat /\ mimc_value (firstn n constants) x y = out.
Proof.
  intros E. destruct (le_lt_dec n (length constants)) as [H|H].
  - split; [exact H|]. pose proof (mimc_native x y (firstn n constants)) as E'. rewrite firstn_length, Nat.min_l in E' by exact H.
    rewrite E in E'. injection E' as ->. reflexivity.
  - rewrite mimc_native_panic in E; [discriminate|]. rewrite firstn_length. lia.
Qed.
Lemma mimc_firstn' x y n constants : (n <= length constants)%nat ->
  mimc x y (firstn n constants) n = Done (mimc_value (firstn n constants) x y).
Proof. intros H. rewrite <- mimc_native, firstn_length, Nat.min_l by exact H. reflexivity. Qed.

Lemma enforce_mimc_forces W ph l r n constants vs :
  forces W ph (enforce_mimc_2_inputs l r n constants) vs (fun s out =>
    (n <= length constants)%nat /\ lc_value s out = mimc_value (firstn n constants) (lc_value s l) (lc_value s r)).
Proof.
  apply vspec_forces. intros s. eapply vspec_conseq; [apply enforce_mimc_sound|]. intros o s' H b E. destruct (H b E) as [_ Hm].
  apply mimc_firstn in Hm as [Hn ->]. auto.
Qed.
Lemma mimc_gadget_forces W ph l r n constants image vs :
  forces W ph (mimc_gadget l r n constants image) vs (fun s _ =>
    (n <= length constants)%nat /\ mimc_value (firstn n constants) (var_value s (q_var l)) (var_value s (q_var r)) = image).
Proof.
  apply vspec_forces. intros s. eapply vspec_conseq; [apply mimc_gadget_sound|]. intros o s' H b E. destruct (H b E) as [_ Hm].
  exact (mimc_firstn _ _ _ _ _ Hm).
Qed.
Lemma verify_mimc_forces W image constants n comms vs :
  forces W false (verify_mimc_preimage image constants n comms) vs (fun s _ =>
    (n <= length constants)%nat /\
    mimc_value (firstn n constants) (as_committed s (length (v_V vs))) (as_committed s (length (v_V vs) + 1)) = image).
Proof.
  apply vspec_forces. intros s. eapply vspec_conseq; [apply verify_mimc_sound|]. intros o s' H b E. rewrite Nat.add_1_r.
  exact (mimc_firstn _ _ _ _ _ (H b E)).
Qed.
Lemma mimc_gadget_completes W W' ph vl vr x y n constants ol orr ol' or' ps vs :
  session ph ps vs -> has_value ps vl x -> has_value ps vr y -> (n <= length constants)%nat ->
  let image := mimc_value (firstn n constants) x y in
  completes W W' ph (mimc_gadget (Quantity vl ol) (Quantity vr orr) n constants image)
    (mimc_gadget (Quantity vl ol') (Quantity vr or') n constants image) (2 * n) ps vs (Ok tt) (Ok tt).
Proof.
  intros Hs H1 H2 Hn image. rewrite Nat.mul_comm. eapply both_completes; [exact Hs|]. eapply mimc_gadget_both; [exact H1|exact H2|].
  apply mimc_firstn'. exact Hn.
Qed.
Lemma mimc_proves W W' label g h G H x y randomness rng constants n :
  blindings_given randomness rng 2 -> (n <= length constants)%nat -> enough_generators (2 * n) G H ->
  let image := mimc_value (firstn n constants) x y in
  proves W W' label g h G H (prove_mimc_preimage [x; y] randomness image constants n rng)
    (verify_mimc_preimage image constants n) (fun comms => comms = commit_all g h [x; y] (blindings W randomness 2)).
Proof.
  intros Hb Hn Hg image. rewrite Nat.mul_comm in Hg.
  eapply both_proves; [apply (both_mimc_preimage W W' [x; y] randomness rng image n constants _ _ Hb)|exact Hg|reflexivity].
  exists x, y. split; [reflexivity|]. apply mimc_firstn'. exact Hn.
Qed.

(** *** Blindings of the wrong number *)
Lemma wrong_length inputs rands n : length inputs <> n \/ length rands <> n ->
  check_for_input_and_randomness_length inputs rands n =
  PRet (Err (GadgetError (length_message n (length inputs) (length rands)))).
Proof.
  unfold check_for_input_and_randomness_length. intros [H|H].
  - apply Nat.eqb_neq in H. rewrite H. reflexivity.
  - apply Nat.eqb_neq in H. rewrite H, orb_true_r. reflexivity.
Qed.
Lemma mimc_wrong_length W inputs rands out constants n rng s : length inputs <> 2%nat \/ length rands <> 2%nat ->
  prun W false (prove_mimc_preimage inputs (Some rands) out constants n rng) s =
  Done (Err (GadgetError (length_message 2 (length inputs) (length rands))), s).
Proof. intros H. unfold prove_mimc_preimage. cbn [check_for_randomness_or_rng_vec randomness_or_rng_vec ptry pbind]. rewrite (wrong_length _ _ _ H). reflexivity. Qed.
Lemma Poseidon_wrong_length W inputs rands out p sbox rng s :
  (length inputs <> 2%nat \/ length rands <> 2%nat ->
   prun W false (prove_Poseidon_2 inputs (Some rands) out p sbox rng) s =
   Done (Err (GadgetError (length_message 2 (length inputs) (length rands))), s)) /\
  (length inputs <> 4%nat \/ length rands <> 4%nat ->
   prun W false (prove_Poseidon_4 inputs (Some rands) out p sbox rng) s =
   Done (Err (GadgetError (length_message 4 (length inputs) (length rands))), s)) /\
  (length inputs <> 8%nat \/ length rands <> 8%nat ->
   prun W false (prove_Poseidon_8 inputs (Some rands) out p sbox rng) s =
   Done (Err (GadgetError (length_message 8 (length inputs) (length rands))), s)).
Proof.
  repeat split; intros H; [unfold prove_Poseidon_2|unfold prove_Poseidon_4|unfold prove_Poseidon_8];
    cbn [check_for_randomness_or_rng_vec randomness_or_rng_vec ptry pbind]; rewrite (wrong_length _ _ _ H); reflexivity.
Qed.

(** *** Poseidon *)
Context (p : poseidon_params) (sbox : sbox_type).

Lemma permutation_length_ok xs out : Poseidon_permutation p sbox xs = Done out -> length xs = width p.
Proof. unfold Poseidon_permutation. destruct (Nat.eqb_spec (length xs) (width p)); [auto|discriminate]. Qed.

Lemma hash_2_value x y out : params_ok p -> Poseidon_hash_2 p sbox x y = Done out -> width p = 3%nat /\ hash_value p sbox [x; y] = out.
Proof.
  intros Hp E. assert (Hw : width p = 3%nat).
  { unfold Poseidon_hash_2 in E. destruct (Poseidon_permutation p sbox _) eqn:EP; [|discriminate]. apply permutation_length_ok in EP. auto. }
  split; [exact Hw|]. rewrite hash_2_native in E by assumption. congruence.
Qed.
Lemma hash_4_value xs out : params_ok p -> Poseidon_hash_4 p sbox xs = Done out -> width p = 5%nat /\ hash_value p sbox xs = out.
Proof.
  intros Hp E. assert (Hl : length xs = 4%nat) by (unfold Poseidon_hash_4 in E; destruct (Nat.eqb_spec (length xs) 4); [assumption|discriminate]).
  assert (Hw : width p = 5%nat).
  { unfold Poseidon_hash_4 in E. rewrite Hl in E. cbn [Nat.eqb assertb obind] in E.
    destruct (Poseidon_permutation p sbox _) eqn:EP; [|discriminate]. apply permutation_length_ok in EP. cbn in EP. lia. }
  split; [exact Hw|]. rewrite hash_4_native in E by assumption. congruence.
Qed.
Lemma hash_8_value xs out : params_ok p -> Poseidon_hash_8 p sbox xs = Done out -> width p = 9%nat /\ hash_value p sbox xs = out.
Proof.
  intros Hp E. assert (Hl : length xs = 8%nat) by (unfold Poseidon_hash_8 in E; destruct (Nat.eqb_spec (length xs) 8); [assumption|discriminate]).
  assert (Hw : width p = 9%nat).
  { unfold Poseidon_hash_8 in E. rewrite Hl in E. cbn [Nat.eqb assertb obind] in E.
    destruct (Poseidon_permutation p sbox _) eqn:EP; [|discriminate]. apply permutation_length_ok in EP. cbn in EP. lia. }
  split; [exact Hw|]. rewrite hash_8_native in E by assumption. congruence.
Qed.

Section NotInverse.
Context (Hp : params_ok p) (Hsbox : sbox <> Inverse).

Lemma permutation_forces W ph input vs :
  forces W ph (Poseidon_permutation_constraints p sbox input) vs (fun s out =>
    length input = width p /\ map (lc_value s) out = permutation_value p sbox (map (lc_value s) input)).
Proof.
  intros b vs' s E Hs. pose proof (pk_width _ Hp) as Hw.
  assert (HL : length input = width p).
  { unfold Poseidon_permutation_constraints in E. destruct (Nat.eqb_spec (length input) (width p)); [assumption|discriminate]. }
  assert (H : forces W ph (Poseidon_permutation_constraints p sbox input) vs (fun s out =>
     Poseidon_permutation p sbox (map (lc_value s) input) = Done (map (lc_value s) out))).
  { apply vspec_forces. intros s0. eapply vspec_conseq; [apply permutation_sound; [assumption|left; lia]|].
    intros o s' H c Ec. apply (H c Ec). }
  specialize (H b vs' s E Hs). cbv beta in H. rewrite permutation_native in H by (auto; rewrite map_length; exact HL).
  injection H as H. auto.
Qed.

Lemma permutation_gadget_forces W ph input output vs :
  forces W ph (Poseidon_permutation_gadget p sbox input output) vs (fun s _ =>
    permutation_value p sbox (map (fun q => var_value s (q_var q)) input) = output).
Proof.
  intros b vs' s E Hs. pose proof (pk_width _ Hp) as Hw.
  assert (HL : length input = width p).
  { unfold Poseidon_permutation_gadget in E. destruct (Nat.eqb (length output) (width p)); [|discriminate].
    cbn [assertb p_lift pbind] in E. unfold ptry, Poseidon_permutation_constraints in E. rewrite map_length in E.
    destruct (Nat.eqb_spec (length input) (width p)); [assumption|discriminate]. }
  assert (H : forces W ph (Poseidon_permutation_gadget p sbox input output) vs (fun s _ =>
     Poseidon_permutation p sbox (map (fun q => var_value s (q_var q)) input) = Done output)).
  { apply vspec_forces. intros s0. eapply vspec_conseq; [apply permutation_gadget_sound; [assumption|left; lia]|].
    intros o s' H c Ec. apply (H c Ec). }
  specialize (H b vs' s E Hs). cbv beta in H. rewrite permutation_native in H by (auto; rewrite map_length; exact HL).
  injection H as H. auto.
Qed.

Lemma hash_2_gadget_forces W ph xl xr zero output vs :
  forces W ph (Poseidon_hash_2_gadget p sbox xl xr [zero] output) vs (fun s _ =>
    var_value s zero = 0 -> hash_value p sbox [var_value s xl; var_value s xr] = output).
Proof.
  apply vspec_forces. intros s. eapply vspec_conseq; [apply hash_2_gadget_sound; exact Hsbox|]. intros o s' H b E E0.
  apply (hash_2_value _ _ _ Hp). apply (H b E). exact E0.
Qed.
Lemma hash_4_gadget_forces W ph input zero output vs :
  forces W ph (Poseidon_hash_4_gadget p sbox input [zero] output) vs (fun s _ =>
    var_value s zero = 0 -> hash_value p sbox (map (var_value s) input) = output).
Proof.
  apply vspec_forces. intros s. eapply vspec_conseq; [apply hash_4_gadget_sound; exact Hsbox|]. intros o s' H b E E0.
  apply (hash_4_value _ _ Hp). apply (H b E). exact E0.
Qed.
Lemma hash_8_gadget_forces W ph input zero output vs :
  forces W ph (Poseidon_hash_8_gadget p sbox input zero output) vs (fun s _ =>
    var_value s zero = 0 -> hash_value p sbox (map (var_value s) input) = output).
Proof.
  apply vspec_forces. intros s. eapply vspec_conseq; [apply hash_8_gadget_sound; exact Hsbox|]. intros o s' H b E E0.
  apply (hash_8_value _ _ Hp). apply (H b E). exact E0.
Qed.

Lemma verify_2_forces W output g h comms vs :
  forces W false (verify_Poseidon_2 output p sbox g h comms) vs (fun s _ =>
    as_committed s (length (v_V vs) + 2) = 0 -> hash_value p sbox (committed s (length (v_V vs)) 2) = output).
Proof.
  apply vspec_forces. intros s. eapply vspec_conseq; [apply verify_2_sound; exact Hsbox|]. intros o s' H b E E0.
  apply (hash_2_value _ _ _ Hp). apply (H b E). exact E0.
Qed.
Lemma verify_4_forces W output g h comms vs :
  forces W false (verify_Poseidon_4 output p sbox g h comms) vs (fun s _ =>
    as_committed s (length (v_V vs) + 4) = 0 -> hash_value p sbox (committed s (length (v_V vs)) 4) = output).
Proof.
  apply vspec_forces. intros s. eapply vspec_conseq; [apply verify_4_sound; exact Hsbox|]. intros o s' H b E E0.
  apply (hash_4_value _ _ Hp). apply (H b E). exact E0.
Qed.
Lemma verify_8_forces W output g h comms vs :
  forces W false (verify_Poseidon_8 output p sbox g h comms) vs (fun s _ =>
    as_committed s (length (v_V vs) + 8) = 0 -> hash_value p sbox (committed s (length (v_V vs)) 8) = output).
Proof.
  apply vspec_forces. intros s. eapply vspec_conseq; [apply verify_8_sound; exact Hsbox|]. intros o s' H b E E0.
  apply (hash_8_value _ _ Hp). apply (H b E). exact E0.
Qed.

(** honest provers *)
Lemma permutation_gadget_completes W W' ph ps vs input input' xs :
  session ph ps vs -> map q_var input = map q_var input' -> Forall2 (has_value ps) (map q_var input) xs -> length xs = width p ->
  let output := permutation_value p sbox xs in
  completes W W' ph (Poseidon_permutation_gadget p sbox input output) (Poseidon_permutation_gadget p sbox input' output)
    (permutation_cost p sbox) ps vs (Ok tt) (Ok tt).
Proof.
  intros Hs Hq Hx HL output. eapply both_completes; [exact Hs|]. eapply permutation_gadget_both; [exact Hsbox|exact Hq|exact Hx| |].
  - apply permutation_native; assumption.
  - apply permutation_length. exact HL.
Qed.

Lemma hash_2_proves W W' label g h G H x y randomness rng :
  width p = 3%nat -> blindings_given randomness rng 2 -> enough_generators (permutation_cost p sbox) G H ->
  let output := hash_value p sbox [x; y] in
  proves W W' label g h G H (prove_Poseidon_2 [x; y] randomness output p sbox rng)
    (verify_Poseidon_2 output p sbox g h) (fun comms => comms = commit_all g h [x; y] (blindings W randomness 2)).
Proof.
  intros Hw Hb Hg output.
  eapply (both_proves W W' label g h G H _ (verify_Poseidon_2 output p sbox g h));
    [apply (both_Poseidon_2 W W' p sbox Hsbox [x; y] randomness rng output (prover_new g h (transcript_new label))
              (verifier_new (transcript_new label)) Hb)|exact Hg|reflexivity].
  exists x, y. split; [reflexivity|]. apply hash_2_native; assumption.
Qed.
Lemma hash_4_proves W W' label g h G H xs randomness rng :
  width p = 5%nat -> length xs = 4%nat -> blindings_given randomness rng 4 -> enough_generators (permutation_cost p sbox) G H ->
  let output := hash_value p sbox xs in
  proves W W' label g h G H (prove_Poseidon_4 xs randomness output p sbox rng)
    (verify_Poseidon_4 output p sbox g h) (fun comms => comms = commit_all g h xs (blindings W randomness 4)).
Proof.
  intros Hw Hl Hb Hg output.
  eapply (both_proves W W' label g h G H _ (verify_Poseidon_4 output p sbox g h));
    [apply (both_Poseidon_4 W W' p sbox Hsbox xs randomness rng output (prover_new g h (transcript_new label))
              (verifier_new (transcript_new label)) Hb Hl)|exact Hg|reflexivity].
  apply hash_4_native; assumption.
Qed.
Lemma hash_8_proves W W' label g h G H xs randomness rng :
  width p = 9%nat -> length xs = 8%nat -> blindings_given randomness rng 8 -> enough_generators (permutation_cost p sbox) G H ->
  let output := hash_value p sbox xs in
  proves W W' label g h G H (prove_Poseidon_8 xs randomness output p sbox rng)
    (verify_Poseidon_8 output p sbox g h) (fun comms => comms = commit_all g h xs (blindings W randomness 8)).
Proof.
  intros Hw Hl Hb Hg output.
  eapply (both_proves W W' label g h G H _ (verify_Poseidon_8 output p sbox g h));
    [apply (both_Poseidon_8 W W' p sbox Hsbox xs randomness rng output (prover_new g h (transcript_new label))
              (verifier_new (transcript_new label)) Hb Hl)|exact Hg|reflexivity].
  apply hash_8_native; assumption.
Qed.
End NotInverse.

(** *** The inverse S-box *)
Lemma inverse_pending W ph l k vs i : v_pending vs = Some i -> vrun W ph (synthesize_inverse_sbox l k) vs = Panic.
Proof.
  intros Hv. unfold synthesize_inverse_sbox. cbn [pbind cs_evaluate vrun option_map]. unfold ptry at 1. cbn [pbind cs_allocate_single vrun].
  unfold verifier_allocate_single at 1, verifier_allocate. rewrite Hv. cbn [obind].
  unfold ptry at 1. cbn [pbind cs_allocate_single vrun]. unfold verifier_allocate_single, verifier_allocate. cbn. reflexivity.
Qed.

Lemma inverse_output_nonzero W ph l k vs :
  forces W ph (synthesize_inverse_sbox l k) vs (fun s out => var_value s out <> 0).
Proof.
  destruct (v_pending vs) as [i|] eqn:Hv.
  { intros b vs' s E. rewrite (inverse_pending _ _ _ _ _ _ Hv) in E. discriminate. }
  apply vspec_forces. intros asg. unfold synthesize_inverse_sbox. apply ok_evaluate. cbn [option_map].
  unfold ptry at 1. cbn [pbind cs_allocate_single].
  eapply vspec_singles; [exact Hv|intros; reflexivity|]. intros i s1 K1 E1. cbn [pbind].
  eapply ok_try; [apply nonzero_sound|]. intros [] s2 [K2 E2]. apply ok_lift. intros vo Evo. unfold constrain_lc_with_scalar. apply ok_constrain. intros s3 K3 E3.
  apply ok_ret. intros E0. rewrite E0 in E2. apply F_one_neq_zero. rewrite <- E2. ring.
Qed.

Lemma b_eval_r W W' ph k r {A B} (m : pprog A) l (f' : option F -> vprog B) ps vs Q :
  both W W' ph k r m (f' None) ps vs Q -> both W W' ph k r m (pbind (cs_evaluate l) f') ps vs Q.
Proof. intros H. exact H. Qed.

Lemma inverse_output_any W W' ph l k y ps vs : session ph ps vs -> p_pending ps = None -> y <> 0 ->
  exists v ps' vs', prun W ph (cheat_inverse_sbox y) ps = Done (Ok v, ps') /\
    vrun W' ph (synthesize_inverse_sbox l k) vs = Done (Ok v, vs') /\
    same_circuit ps' vs' /\ honest ps' /\ (forall w x, has_value ps w x -> has_value ps' w x) /\ has_value ps' v y.
Proof.
  intros Hs Hn Hy.
  assert (Hb : both W W' ph 3 0 (cheat_inverse_sbox y) (synthesize_inverse_sbox l k) ps vs
    (fun a b ps' => exists v, a = Ok v /\ b = Ok v /\ has_value ps' v y)).
  { unfold cheat_inverse_sbox, synthesize_inverse_sbox. apply b_eval_r. cbn [option_map].
    unfold ptry at 1 3. cbn [pbind cs_allocate_single].
    eapply (both_singles W W' ph 2 0); [exact Hn|intros; reflexivity|intros; reflexivity|].
    intros i ps1 vs1 Hg1 V1 V2 V3. cbn [pbind].
    eapply both_cost; [eapply b_gadget with (k2 := O) (r2 := O)|..].
    - apply (nonzero_both W W' ph (VLeft i) (VRight i) (finv y)); [exact V1| |].
      + replace (finv (finv y)) with y; [exact V2|].
        assert (Hi : finv y <> 0) by (intros E; apply F_one_neq_zero; rewrite <- (finv_r y Hy), E; ring).
        transitivity (y * (finv y * finv (finv y))); [rewrite (finv_r _ Hi); ring|].
        transitivity (y * finv y * finv (finv y)); [ring|rewrite (finv_r _ Hy); ring].
      + intros E. apply F_one_neq_zero. rewrite <- (finv_r y Hy), E. ring.
    - intros ps2 vs2 Hg2. carry Hg2. cbn [p_lift of_option pbind].
      apply scalar_both; [apply lc_same_refl| |].
      + lch. rewrite <- (finv_r y Hy). ring.
      + intros ps3 vs3 Hg3. carry Hg3. apply both_ret. exists (VRight i). auto.
    - lia.
    - lia. }
  destruct (session_sync _ _ _ Hs) as [Hh Hy'].
  destruct (Hb Hh Hy') as (a & ps' & b & vs' & E & E' & Hg & Hh' & Hs' & Hd & v & -> & -> & Hv).
  exists v, ps', vs'. split; [exact E|]. split; [exact E'|]. split; [apply sync_same; exact Hs'|]. split; [exact Hh'|].
  split; [|exact Hv]. intros w x. apply (has_value_grew _ _ _ _ _ _ Hg).
Qed.
End Main.
