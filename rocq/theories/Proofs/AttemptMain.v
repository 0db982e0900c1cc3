(** A whole proof is produced, or refused, or panics, by the arguments. *)
From Coq Require Import ZArith String List Lia Arith Permutation Bool.
From Verif.Base Require Import Outcome Fp Params Algebra.
From Verif.Model Require Import Transcript LinComb Prog IPP Prover Verifier Gadgets Hash Merkle MerkleGadget Randomizer.
From Verif.Spec Require Import R1CS Protocol HashSpec MerkleSpec Compose CircuitSize Behaviour Attempt.
From Verif.Proofs Require Import Utils IPPProofs RunProofs CircuitProofs ProveProofs VerdictProofs R1CSMain SizeMain TotalTools TotalMain AttemptTools AttemptProve.
Import ListNotations.
Local Open Scope nat_scope.
Local Notation length := List.length.

Section AttemptMain.
Context {P : Params} {OK : ParamsOk P}.

Lemma ready_at s : ready_prover s -> at_size s None (length (p_aL s)) (length (p_v s)).
Proof. intros [H1 H2 H3 H4 H5 H6]. split; try assumption; try reflexivity. split; try assumption. intros i E. rewrite H1 in E. discriminate. Qed.
Lemma at_ready s n c : at_size s None n c -> ready_prover s.
Proof. intros [[H1 H2 H3 H4 H5] H6 <- <- H7]. split; assumption. Qed.
Lemma ready_new g h t : ready_prover (prover_new g h t).
Proof. split; cbn; try reflexivity; [intros i Hi; lia|constructor]. Qed.

Theorem calls_run W checks c s : apt c -> ready_prover s ->
  match attempts checks c with
  | WillPanic => prun W false (calls checks c) s = Panic
  | WillFail e => exists s', prun W false (calls checks c) s = Done (Err e, s')
  | WillGo => exists comms s', prun W false (calls checks c) s = Done (Ok comms, s') /\ length comms = sent c /\ ready_prover s'
  end.
Proof.
  intros HA Hs. apply ready_at in Hs. pose proof (calls_attempt checks c (length (p_aL s)) (length (p_v s)) HA) as H.
  destruct (attempts checks c).
  - eapply AttemptTools.run_crash; eassumption.
  - destruct (AttemptTools.run_fine W _ _ s _ _ Hs H) as (a & s' & n' & c' & E & _ & ->). exists s'. exact E.
  - destruct (AttemptTools.run_fine W _ _ s _ _ Hs H) as (a & s' & n' & c' & E & Hs' & (comms & -> & HL)). exists comms, s'.
    split; [exact E|]. split; [exact HL|eapply at_ready, Hs'].
Qed.

Theorem prove_all_runs W checks : forall l s, Forall apt l -> ready_prover s ->
  match all_attempt checks l with
  | WillPanic => prun W false (prove_all checks l) s = Panic
  | WillFail e => exists s', prun W false (prove_all checks l) s = Done (Err e, s')
  | WillGo => exists commss s', prun W false (prove_all checks l) s = Done (Ok commss, s') /\ map (@List.length G1) commss = map sent l /\ ready_prover s'
  end.
Proof.
  induction l as [|c l IH]; intros s HA Hs; cbn [all_attempt prove_all].
  - exists [], s. auto.
  - inversion HA as [|? ? HA1 HA2]; subst. pose proof (calls_run W checks c s HA1 Hs) as H. unfold ptry. destruct (attempts checks c).
    + rewrite prun_bind, H. reflexivity.
    + destruct H as [s' H]. rewrite prun_bind, H. exists s'. reflexivity.
    + destruct H as (comms & s' & H & HL & Hs'). rewrite prun_bind, H. cbn [obind]. specialize (IH s' HA2 Hs'). destruct (all_attempt checks l).
      * rewrite prun_bind, IH. reflexivity.
      * destruct IH as [s2 IH]. rewrite prun_bind, IH. exists s2. reflexivity.
      * destruct IH as (commss & s2 & IH & HL2 & Hs2). rewrite prun_bind, IH. exists (comms :: commss), s2. split; [reflexivity|].
        split; [cbn [map]; rewrite HL, HL2; reflexivity|exact Hs2].
Qed.

(** too few points for the second vector, once padded *)
Lemma prove_short_padded W s G H : pwf s -> length (p_aL s) <= length G -> length (p_aL s) <= length H ->
  forall s2, prover_create_randomized_constraints W (hp_state1 W s G H) = Done (Ok s2) ->
  next_power_of_two (length (p_aL s2)) <= length G -> length H < next_power_of_two (length (p_aL s2)) -> prove W s G H = Panic.
Proof.
  intros Hwf HG HH s2 E HG2 HH2. unfold prove.
  cbn [p_with_transcript p_with_nrand p_transcript p_aL p_aR p_aO p_g p_h p_v p_v_blinding p_nrand].
  pose proof (pwf_aR _ Hwf) as LaR. pose proof (pwf_aO _ Hwf) as LaO.
  set (n1 := length (p_aL s)) in *.
  destruct (Nat.ltb_spec (length G) n1); [lia|].
  rewrite (slice_to_ok s n1 G), (slice_to_ok s n1 H) by lia. cbn [obind].
  rewrite commit_vectors_ok by (rewrite firstn_length; fold n1; lia). cbn [obind].
  rewrite msm_checked_ok by (rewrite firstn_length; lia). cbn [obind].
  rewrite commit_vectors_ok by (rewrite firstn_length, randoms_length; lia). cbn [obind].
  match goal with |- context [prover_create_randomized_constraints W ?e] => change e with (hp_state1 W s G H) end.
  rewrite E. cbn [orbind]. set (N := next_power_of_two (length (p_aL s2))) in *.
  destruct (Nat.ltb_spec (length G) N); [lia|].
  assert (HN : slice_to N H = Panic) by (unfold slice_to; destruct (Nat.leb_spec N (length H)); [lia|reflexivity]). rewrite HN. clear HN.
  unfold challenge_scalar at 1 2. cbn [fst snd].
  repeat match goal with
  | |- Panic = Panic => reflexivity
  | |- obind ?e _ = Panic => let a := fresh "a" in destruct e as [a|]; cbn [obind]; [|reflexivity]
  | |- context [let (_, _) := ?x in _] => is_var x; destruct x
  | |- context [let (_, _) := challenge_scalar ?l ?t in _] => unfold challenge_scalar at 1
  end.
Qed.

Theorem prove_runs W s G H : ready_prover s -> p_deferred s = [] ->
  match prove_attempt (length (p_aL s)) (length G) (length H) with
  | WillPanic => prove W s G H = Panic
  | WillFail e => prove W s G H = Done (Err e)
  | WillGo => exists proof t, prove W s G H = Done (Ok (proof, t)) /\
      length (ipp_L (proof_ipp proof)) = Nat.log2_up (length (p_aL s)) /\ length (ipp_R (proof_ipp proof)) = Nat.log2_up (length (p_aL s))
  end.
Proof.
  intros Hs Hd. pose proof (at_wf _ _ _ _ (ready_at _ Hs)) as Hwf.
  assert (E2 : prover_create_randomized_constraints W (hp_state1 W s G H) =
     Done (Ok (p_with_transcript (r1cs_1phase_domain_sep (p_transcript (hp_state1 W s G H))) (p_with_pending None (hp_state1 W s G H))))).
  { exact (proj1 (prover_second_phase_spec W (hp_state1 W s G H)) Hd). }
  set (s2 := p_with_transcript _ _) in E2. unfold prove_attempt.
  destruct (Nat.ltb_spec (length G) (length (p_aL s))) as [H1|H1]; [apply prove_short_G, H1|].
  destruct (Nat.ltb_spec (length H) (length (p_aL s))) as [H2|H2]; [apply prove_short_H; assumption|].
  destruct (Nat.ltb_spec (length G) (next_power_of_two (length (p_aL s)))) as [H3|H3].
  { pose proof (prove_phase2_eq W s G H Hwf H1 H2 _ E2) as X. exact (X H3). }
  destruct (Nat.ltb_spec (length H) (next_power_of_two (length (p_aL s)))) as [H4|H4].
  { exact (prove_short_padded W s G H Hwf H1 H2 s2 E2 H3 H4). }
  destruct (prove_char W s G H s2 Hwf E2 H3 H4 (rp_range _ Hs)) as (proof & t' & us & E & _ & HL & HR & _).
  exists proof, t'. split; [exact E|]. split; [exact HL|exact HR].
Qed.

Theorem proof_runs W checks label g h G H l : Forall apt l ->
  match proof_attempt checks l (length G) (length H) with
  | WillPanic => gen_proof W label g h G H (prove_all checks l) = Panic
  | WillFail e => gen_proof W label g h G H (prove_all checks l) = Done (Err e)
  | WillGo => exists proof commss, gen_proof W label g h G H (prove_all checks l) = Done (Ok (proof, commss)) /\
      map (@List.length G1) commss = map sent l /\
      length (ipp_L (proof_ipp proof)) = Nat.log2_up (gates_of l) /\ length (ipp_R (proof_ipp proof)) = Nat.log2_up (gates_of l)
  end.
Proof.
  intros HA. pose proof (prove_all_runs W checks l _ HA (ready_new g h (transcript_new label))) as E. unfold proof_attempt, gen_proof.
  destruct (all_attempt checks l).
  - rewrite E. reflexivity.
  - destruct E as [s' ->]. reflexivity.
  - destruct E as (commss & s & E & HL & Hs). rewrite E.
    destruct (prove_all_size W checks l _ _ _ E) as (_ & En & _). cbn [p_aL prover_new length Nat.add] in En. rewrite HL in En. fold (gates_of l) in En.
    pose proof (prove_all_deferred W checks l _ _ _ E) as Hd. cbn in Hd.
    pose proof (prove_runs W s G H Hs Hd) as X. rewrite En in X. destruct (prove_attempt (gates_of l) (length G) (length H)).
    + rewrite X. reflexivity.
    + rewrite X. reflexivity.
    + destruct X as (proof & t & X & X1 & X2). rewrite X. exists proof, commss. auto.
Qed.

Lemma built_apt {ENC : EncodingOk P} p depth db0 us t db db0' us' t' db' indices values : params_ok p -> width p = 5 -> depth * 2 <= 8 * modbytes ->
  history (tree_4_new p) (tree_4_update p) depth db0 us t db -> collision_free 4 (hash_value p Quint) depth us ->
  history (tree_4_new p) (tree_4_update p) depth db0' us' t' db' -> collision_free 4 (hash_value p Quint) depth us' ->
  apt (PRandomized us t db us' t' db' indices values depth p).
Proof.
  intros HP Hw Hd H1 C1 H2 C2.
  destruct (built_fits p depth db0 us t db indices HP Hw Hd H1 C1) as [(_ & _ & _ & S1) D1].
  destruct (built_fits p depth db0' us' t' db' indices HP Hw Hd H2 C2) as [(_ & _ & _ & S2) D2].
  cbn [apt]. repeat (split; [assumption|]). exact S2.
Qed.
End AttemptMain.
