(** Verification on any commitments and any proof: what it can end with. *)
From Coq Require Import ZArith String List Lia Arith Permutation Bool.
From Verif.Base Require Import Outcome Fp Params Algebra.
From Verif.Model Require Import Transcript LinComb Prog IPP Prover Verifier Gadgets Hash Merkle MerkleGadget Randomizer.
From Verif.Spec Require Import R1CS HashSpec MerkleSpec Log Frame Verdict Compose CircuitSize Behaviour.
From Verif.Proofs Require Import Utils RunProofs IPPProofs VerifyProofs VerdictProofs R1CSMain SizeTools SizeGadgets SizeMerkle SizeMain TotalTools RandomizerMain TotalGadgets TotalOpenings TotalVerify TotalRandomizer.
Import ListNotations.
Local Open Scope nat_scope.
Local Notation length := List.length.
Local Notation lr := lc_in_range.

Section TotalMain.
Context {P : Params} {OK : ParamsOk P}.

Lemma run_crash {A} W (m : vprog A) s : ready s -> (forall n c, crash m n c) -> vrun W false m s = Panic.
Proof.
  intros [Hp Hr] H. destruct (vrun_wp W m None _ _ True _ s (H _ _) Hp eq_refl eq_refl Hr) as [[E _]|(a & s' & _ & [] & _)]. exact E.
Qed.
Lemma run_fine {A} W (m : vprog A) R s : ready s -> (forall n c, fine m n c R) ->
  exists a s', vrun W false m s = Done (a, s') /\ ready s' /\ R a (v_num_vars s') (length (v_V s')).
Proof.
  intros [Hp Hr] H. destruct (vrun_wp W m None _ _ False _ s (H _ _) Hp eq_refl eq_refl Hr) as [[_ []]|(a & s' & E & (H1 & _ & _ & H2) & H3)].
  exists a, s'. split; [exact E|]. split; [split; assumption|exact H2].
Qed.

Theorem too_few_panics W checks g h st comms s : length comms < needed st -> ready s -> vrun W false (verifies checks g h st comms) s = Panic.
Proof. intros HL Hs. apply run_crash; [exact Hs|]. intros n c. apply too_few, HL. Qed.

Theorem verifies_runs W checks g h st comms s : fitting st -> ready s ->
  match behaves checks st (length comms) with
  | Panics => vrun W false (verifies checks g h st comms) s = Panic
  | Refuses => exists s', vrun W false (verifies checks g h st comms) s = Done (Err (GadgetError "Original and new are of different lengths"), s')
  | Ends => exists s', vrun W false (verifies checks g h st comms) s = Done (Ok tt, s') /\ ready s'
  end.
Proof.
  intros HF Hs. pose proof (fun n c => verifies_behaves checks g h st comms n c HF) as H. destruct (behaves checks st (length comms)).
  - apply run_crash; assumption.
  - destruct (run_fine W _ _ s Hs H) as (a & s' & E & _ & ->). exists s'. exact E.
  - destruct (run_fine W _ _ s Hs H) as (a & s' & E & Hr & ([] & -> & _)). exists s'. auto.
Qed.

Lemma verify_all_runs W checks g h sts : forall commss s, Forall fitting sts -> ready s ->
  match all_behave checks (combine sts (map (@List.length G1) commss)) with
  | Panics => vrun W false (verify_all checks g h (combine sts commss)) s = Panic
  | Refuses => exists s', vrun W false (verify_all checks g h (combine sts commss)) s = Done (Err (GadgetError "Original and new are of different lengths"), s')
  | Ends => exists s', vrun W false (verify_all checks g h (combine sts commss)) s = Done (Ok tt, s') /\ ready s'
  end.
Proof.
  induction sts as [|st sts IH]; intros commss s HF Hs; [cbn; exists s; auto|].
  destruct commss as [|comms commss]; [cbn; exists s; auto|]. cbn [combine map all_behave verify_all].
  inversion HF as [|? ? HF1 HF2]; subst. pose proof (verifies_runs W checks g h st comms s HF1 Hs) as H. unfold ptry.
  destruct (behaves checks st (length comms)).
  - rewrite vrun_bind, H. reflexivity.
  - destruct H as [s' H]. rewrite vrun_bind, H. exists s'. reflexivity.
  - destruct H as (s' & H & Hs'). rewrite vrun_bind, H. apply IH; assumption.
Qed.

Lemma verify_empty W s s2 proof g h G H : v_second W proof s s2 -> next_power_of_two (v_num_vars s2) <= length G ->
  Forall (lr (v_num_vars s2) (length (v_V s2))) (v_constraints s2) -> ipp_L (proof_ipp proof) = [] ->
  next_power_of_two (v_num_vars s2) = 1 -> batch_invert_empty_panics = true -> verify W s proof g h G H = Panic.
Proof.
  intros E2 HG Hr HL HN Hb.
  destruct (verify_upto W s s2 proof g h G H E2 HG Hr) as (wV & wc & dl & a & b & u & x & w & r & gs & hs & LV & Lgh & Ev).
  rewrite Ev, HL. unfold verification_scalars. cbn [length Nat.leb]. rewrite HN. cbn [Nat.eqb Nat.pow negb].
  destruct (ipp_challenges [] _ _) as [us t'] eqn:E. cbn in E. injection E as <- _. cbn [batch_invert]. rewrite Hb. reflexivity.
Qed.

Lemma no_short W s s2 proof g h G H : v_second W proof s s2 -> next_power_of_two (v_num_vars s2) <= length G ->
  Forall (lr (v_num_vars s2) (length (v_V s2))) (v_constraints s2) -> verify W s proof g h G H <> Done (Err InvalidGeneratorsLength).
Proof.
  intros E2 HG Hr E.
  destruct (verify_upto W s s2 proof g h G H E2 HG Hr) as (wV & wc & dl & a & b & u & x & w & r & gs & hs & LV & Lgh & Ev).
  rewrite Ev in E. clear Ev.
  destruct (verification_scalars _ _ _ _) as [[[[[usq uisq] sv] t']|e']|]; [|discriminate E|discriminate E].
  cbn [obind] in E. destruct (slice_to _ _); [|discriminate]. cbn [obind] in E.
  destruct (verify_final _ _ _ _ _ _ _ _ _ _ _ _ _ _ _ _ _ _ _); [|discriminate]. cbn [obind] in E.
  destruct (g1_eqb _ _); discriminate.
Qed.
Lemma verify_in_class W s s2 proof g h G H : v_second W proof s s2 ->
  Forall (lr (v_num_vars s2) (length (v_V s2))) (v_constraints s2) ->
  in_class (match verify W s proof g h G H with Panic => Panic | Done (Err e) => Done (Err e) | Done (Ok _) => Done (Ok tt) end)
    (verify_class batch_invert_empty_panics (v_num_vars s2) (length G) (length H) (length (ipp_L (proof_ipp proof))) (length (ipp_R (proof_ipp proof)))).
Proof.
  intros E2 Hr. unfold verify_class. cbv zeta. destruct (verify_generators W s s2 proof g h G H E2) as (A1 & A2 & A3).
  destruct (Nat.ltb_spec (length G) (next_power_of_two (v_num_vars s2))) as [HG|HG]; [cbn [in_class]; rewrite (A1 HG); reflexivity|].
  destruct (Nat.leb 32 (length (ipp_L (proof_ipp proof))) || negb (Nat.eqb (next_power_of_two (v_num_vars s2)) (2 ^ length (ipp_L (proof_ipp proof))))) eqn:ER.
  { cbn [in_class]. rewrite (verify_wrong_rounds W s s2 proof g h G H E2 HG Hr); [reflexivity|].
    apply orb_true_iff in ER as [ER|ER]; [left; apply Nat.leb_le, ER|right; apply negb_true_iff, Nat.eqb_neq in ER; exact ER]. }
  apply orb_false_iff in ER as [H32 HN]. apply Nat.leb_gt in H32. apply negb_false_iff, Nat.eqb_eq in HN.
  destruct (Nat.ltb_spec (length H) (next_power_of_two (v_num_vars s2))) as [HH|HH]; cbn [orb].
  { cbn [in_class]. rewrite (A3 HG HH Hr H32 HN). reflexivity. }
  destruct (Nat.eqb_spec (length (ipp_L (proof_ipp proof))) (length (ipp_R (proof_ipp proof)))) as [EL|EL]; cbn [negb orb].
  2:{ cbn [in_class]. rewrite (verify_panics_on_mismatch W s s2 proof g h G H E2 HG HH Hr EL H32 HN). reflexivity. }
  destruct (Nat.eqb_spec (length (ipp_L (proof_ipp proof))) 0) as [EZ|EZ]; cbn [andb].
  - destruct batch_invert_empty_panics eqn:Eb.
    + cbn [in_class]. rewrite (verify_empty W s s2 proof g h G H E2 HG Hr); [reflexivity|apply length_zero_iff_nil, EZ| |exact Eb].
      rewrite HN, EZ. reflexivity.
    + cbn [in_class]. destruct (verify_never_panics W s s2 proof g h G H E2 HH Hr (or_intror Eb) EL) as [[t E]|(e & E & [-> | ->])]; rewrite E; auto.
      exfalso. exact (no_short W s s2 proof g h G H E2 HG Hr E).
  - cbn [in_class]. assert (1 < v_num_vars s2) as Hn.
    { destruct (v_num_vars s2) as [|[|n]]; [exfalso|exfalso|lia]; destruct (length (ipp_L (proof_ipp proof))) as [|k]; try lia;
        cbn in HN; pose proof (Nat.pow_nonzero 2 k ltac:(lia)); lia. }
    destruct (verify_never_panics W s s2 proof g h G H E2 HH Hr (or_introl Hn) EL) as [[t E]|(e & E & [-> | ->])]; rewrite E; auto.
    exfalso. exact (no_short W s s2 proof g h G H E2 HG Hr E).
Qed.

Theorem check_in_class W checks label g h sts commss proof G H : Forall fitting sts ->
  in_class (verify_proof W label g h G H proof (verify_all checks g h (combine sts commss)))
    (check_class checks batch_invert_empty_panics sts (map (@List.length G1) commss) (length G) (length H)
       (length (ipp_L (proof_ipp proof))) (length (ipp_R (proof_ipp proof)))).
Proof.
  intros HF. unfold verify_proof, check_class.
  assert (Hs : ready (verifier_new (transcript_new label))) by (split; [reflexivity|constructor]).
  pose proof (verify_all_runs W checks g h sts commss _ HF Hs) as H0.
  destruct (all_behave checks _).
  - rewrite H0. reflexivity.
  - destruct H0 as [s' ->]. reflexivity.
  - destruct H0 as (vs & E & _ & Hr). rewrite E.
    destruct (verify_all_size W checks g h sts commss _ _ E) as [En _]. cbn [v_num_vars verifier_new Nat.add] in En.
    pose proof (vrun_deferred W _ 0 0 _ _ _ _ (size_verify_all checks g h (combine sts commss) 0 0) E) as Hd. cbn [v_deferred verifier_new] in Hd.
    set (s2 := v_with_transcript (r1cs_1phase_domain_sep (v_transcript (v_with_pending None (v_absorb proof vs)))) (v_with_pending None (v_absorb proof vs))).
    assert (H2 : v_second W proof vs s2).
    { unfold v_second, verifier_create_randomized_constraints. cbv zeta.
      change (v_deferred (v_with_pending None (v_absorb proof vs))) with (v_deferred vs). rewrite Hd. reflexivity. }
    pose proof (verify_in_class W vs s2 proof g h G H H2 Hr) as X. change (v_num_vars s2) with (v_num_vars vs) in X. rewrite En in X. exact X.
Qed.

Theorem built_fits {ENC : EncodingOk P} p depth db0 us t db indices : params_ok p -> width p = 5 -> depth * 2 <= 8 * modbytes ->
  history (tree_4_new p) (tree_4_update p) depth db0 us t db -> collision_free 4 (hash_value p Quint) depth us ->
  fitting (Randomized p depth us t db indices) /\ Merkle.depth t = depth.
Proof.
  intros Hp Hw Hd Hh Hc. destruct (RandomizerMain.built p Hp Hw depth Hd _ _ _ _ Hh Hc) as [Ht Hdb].
  split; [|rewrite Ht; reflexivity]. split; [exact Hp|]. split; [exact Hw|]. split; [exact Hd|]. split; [rewrite Ht; reflexivity|exact Hdb].
Qed.
Lemma all_end checks l : Forall (fun '(st, m) => behaves checks st m = Ends) l -> all_behave checks l = Ends.
Proof. induction l as [|[st m] l IH]; intros H; [reflexivity|]. inversion H as [|? ? H1 H2]; subst. cbn [all_behave]. rewrite H1. apply IH, H2. Qed.
Theorem check_never_panics W checks label g h sts commss proof G H : Forall fitting sts ->
  Forall (fun '(st, m) => behaves checks st m = Ends) (combine sts (map (@List.length G1) commss)) ->
  let n := total_of gates sts (map (@List.length G1) commss) in
  next_power_of_two n <= length H -> 1 < n \/ batch_invert_empty_panics = false ->
  length (ipp_L (proof_ipp proof)) = length (ipp_R (proof_ipp proof)) ->
  verify_proof W label g h G H proof (verify_all checks g h (combine sts commss)) <> Panic.
Proof.
  intros HF HB n HH Hn HLR Ep. pose proof (check_in_class W checks label g h sts commss proof G H HF) as X. rewrite Ep in X.
  unfold check_class in X. rewrite (all_end _ _ HB) in X. fold n in X. unfold verify_class in X. cbv zeta in X.
  destruct (Nat.ltb (length G) _); [discriminate X|].
  destruct (Nat.leb 32 (length (ipp_L (proof_ipp proof))) || negb (Nat.eqb (next_power_of_two n) (2 ^ length (ipp_L (proof_ipp proof))))) eqn:ER; [discriminate X|].
  destruct (Nat.ltb_spec (length H) (next_power_of_two n)); [lia|]. rewrite HLR, Nat.eqb_refl in X. cbn [orb negb] in X.
  apply orb_false_iff in ER as [_ HN]. apply negb_false_iff, Nat.eqb_eq in HN. rewrite HLR in HN.
  destruct (Nat.eqb_spec (length (ipp_R (proof_ipp proof))) 0) as [EZ|EZ]; cbn [andb] in X.
  - destruct Hn as [Hn|Hn].
    + rewrite EZ in HN. cbn in HN. pose proof (next_power_of_two_ge n). lia.
    + rewrite Hn in X. destruct X; discriminate.
  - destruct X; discriminate.
Qed.
End TotalMain.
