(** The proof of an honest prover with a second phase as the Fiat-Shamir transform of
    strategies, and how often it is rejected. *)
From Coq Require Import ZArith String List Lia Bool Arith Ring Field.
From Verif.Base Require Import Outcome Fp Params Algebra.
From Verif.Model Require Import Transcript LinComb Prog VectorPoly IPP Prover Verifier.
From Verif.Spec Require Import R1CS Sim Protocol IPPSpec Session Verdict Indist Simulator R1CSTree Games RomSim TwoPhase RomTwo RomComplete Challenges RomCompleteTwo.
From Verif.Proofs Require Import RunProofs ExtProofs SyncMore IPPProofs IPPMain FlattenProofs VerifyProofs ProveProofs RoundTrip WICore WIShift WIMain ZKMain
  TreeBuild OracleVerify QueryProofs QueryTwo TreeCount OracleCount GameInteractive OracleCode RomLink RomCount RomZK HonestStrategy HonestRounds OracleHonest OracleWeight OracleZero
  TwoPhaseCode TwoPhaseHonest RomTwo RomComplete ChallengeBytes.
Import ListNotations.
Local Notation length := List.length.

(** *** [verify] on a proof of [prove], from the states after the second phase *)
Section After.
Context {P : Params} {OK : ParamsOk P}.
Local Open Scope fe_scope.
Add Field FFra : (Fp_field_theory modulus modulus_prime).
Context (W W' : world) (G H : list G1).

Lemma verify_after s vs s2 vs2 proof tp :
  let g := p_g s in
  let h := p_h s in
  let n := length (p_aL s2) in
  let c := protocol_challenges (p_transcript s2) proof in
  pwf s -> prover_create_randomized_constraints W (hp_state1 W s G H) = Done (Ok s2) ->
  (next_power_of_two n <= length G)%nat -> (next_power_of_two n <= length H)%nat ->
  Forall (lc_in_range n (length (p_v s2))) (p_constraints s2) ->
  prove W s G H = Done (Ok (proof, tp)) ->
  verifier_create_randomized_constraints W'
    (v_with_transcript (first_phase_transcript proof (length (v_V vs)) (v_transcript vs)) vs) = Done (Ok vs2) ->
  v_num_vars vs = length (p_aL s) -> pwf s2 -> p_transcript s2 = v_transcript vs2 ->
  Forall2 lc_same (p_constraints s2) (v_constraints vs2) -> v_num_vars vs2 = n ->
  v_V vs2 = zipw (commit (p_g s2) (p_h s2)) (p_v s2) (p_v_blinding s2) ->
  satisfies (prover_assignment s2) n (p_constraints s2) ->
  (Nat.log2_up n < 32)%nat -> (1 < n)%nat \/ batch_invert_empty_panics = false -> c_y c <> 0 ->
  Forall (fun u => u <> 0) (fst (ipp_challenges (ipp_L (proof_ipp proof)) (ipp_R (proof_ipp proof))
           (innerproduct_domain_sep (next_power_of_two n) (c_t c)))) ->
  verify W' vs proof g h G H = Done (Ok tp).
Proof.
  intros g h n c Hwf E2 HG HH Hr Eprove Ev2 En1 Hwf2 Etr Ecs En EV Hsat H32 Hbi Hy Hus.
  destruct (prove_char W s G H s2 Hwf E2 HG HH Hr) as
    (proof' & t' & us & Eprove' & Efp & EL & ER & Ech & Eipp & Et).
  rewrite Eprove in Eprove'. injection Eprove' as <- <-.
  fold n in EL, ER, Ech, Eipp, Et. fold c in Ech, Eipp, Et.
  rewrite Ech in Hus. cbn [fst] in Hus.
  set (N := next_power_of_two n) in *.
  specialize (Eipp Hy Hus). specialize (Et Hy).
  assert (HmV : length (v_V vs2) = length (p_v s2)).
  { rewrite EV, zipw_length, (pwf_vb _ Hwf2), Nat.min_id. reflexivity. }
  assert (Hlog : (1 < n)%nat -> (1 <= Nat.log2_up n)%nat).
  { intros Hn. change 1%nat with (Nat.log2_up 2). apply Nat.log2_up_le_mono. lia. }
  assert (Evs : verification_scalars (ipp_L (proof_ipp proof)) (ipp_R (proof_ipp proof)) N (c_t c) =
     Done (Ok (map (fun u => u * u) us, map (fun u => finv u * finv u) us, svec us, tp))).
  { apply verification_scalars_ok; try assumption; try congruence.
    - unfold N, next_power_of_two. congruence.
    - destruct Hbi as [Hn|]; [left|right; assumption].
      specialize (Hlog Hn). intros E0. rewrite E0 in EL. simpl in EL. lia. }
  assert (Hlus : length us = Nat.log2_up n).
  { pose proof (ipp_challenges_length (ipp_L (proof_ipp proof)) (ipp_R (proof_ipp proof)) (innerproduct_domain_sep N (c_t c))) as L.
    rewrite Ech in L. cbn [fst] in L. lia. }
  rewrite (verify_char W' vs vs2 proof g h G H (map (fun u => u * u) us) (map (fun u => finv u * finv u) us) (svec us) tp).
  - rewrite ipp_check_point_expected by congruence.
    unfold v_point, v_G_factors, v_H_factors, v_check_t.
    rewrite En, En1. rewrite <- Etr. fold c. fold N.
    rewrite <- (ipp_point_same proof g h G H _ n N _ _ (c_y c) (c_z c) (c_u c) (c_x c) (c_w c) Ecs).
    fold g h in Eipp, Et. rewrite Eipp.
    rewrite <- (delta_same n _ _ (c_y c) (c_z c) Ecs).
    rewrite <- (weight_equiv _ _ (c_z c) VOne Ecs).
    assert (Etab : tab (length (v_V vs2)) (fun j => - weight (v_constraints vs2) (c_z c) (VCommitted j)) =
                   tab (length (v_V vs2)) (fun j => - weight (p_constraints s2) (c_z c) (VCommitted j))).
    { apply map_ext. intros j. rewrite <- (weight_equiv _ _ (c_z c) _ Ecs). reflexivity. }
    rewrite Etab, EV, Et.
    rewrite (zsum_satisfied (prover_assignment s2) (p_constraints s2) (c_z c) (proj2 Hsat)).
    set (X := ipp_expected _ _ _ _ _ _ _ _). set (r := w_random _ _).
    assert (Efin : g1_add (g1_add X (g1_neg X)) (g1_mul r (g1_mul (- (c_x c * c_x c * 0)) g)) = g1_mul 0 g) by (gnorm; ring).
    match goal with |- context [g1_eqb ?a ?b] => replace (g1_eqb a b) with true; [reflexivity|symmetry] end.
    apply g1_eqb_spec. rewrite Efin. apply g1_mul_zero.
  - exact Ev2.
  - rewrite En. exact HG.
  - rewrite En. exact HH.
  - rewrite En, HmV. eapply in_range_same_all; [exact Ecs|exact Hr].
  - congruence.
  - rewrite En, <- Etr. exact Evs.
Qed.
End After.

Section Main.
Context {P : Params} {OK : ParamsOk P}.
Context (s : @prover P) (cbs : forall O : query -> Fp (@modulus P), list (@pprog (@backend P O) (result unit)))
  (labels : list string) (n : nat) (circ cps : list (Fp (@modulus P)) -> list (@lc P))
  (aLs aRs aOs : list (Fp (@modulus P)) -> list (Fp (@modulus P)))
  (G H : list (@G1 P)) (k : nat) (tape : list (Fp (@modulus P))).
Let n1 := length (p_aL s).
Let N := next_power_of_two n.
Let g := p_g s.
Let h := p_h s.
Let V := zipw (commit (p_g s) (p_h s)) (p_v s) (p_v_blinding s).
Let t0 := p_transcript s.
Local Notation r := (length labels).
Context (Hwf : pwf s) (Hsec : prover_second_phase s cbs labels n circ) (Hval : prover_second_values s cbs labels cps aLs aRs aOs)
  (Hk : N = 2 ^ k) (HG : N <= length G) (HH : N <= length H).
Let qs (pf : @r1cs_proof P) := two_phase_queries labels (length V) n t0 pf.
Let tr (pf : @r1cs_proof P) := r1cs_2phase_domain_sep (first_phase_transcript pf (length V) t0) ++ map (fun l => TChallenge l modbytes) labels.

(** the random values that [prove] draws *)
Let WP : @world P := @with_tape P (@World P (fun _ => fzero _) (fun _ => [])) (p_nrand s) tape.
Let mk : @masks P := @draw P WP (p_nrand s) (p_nrand s + 3 + n1 + n1) n1 n.
Let wt (e : list (Fp (@modulus P))) : @wit P := Wit (aLs e) (aRs e) (aOs e) (p_v_blinding s).
Let wf (e : list (Fp (@modulus P))) := @weight P (cps e).

Definition honest_start2 e (y z u x : Fp (@modulus P)) : @ipp_state P :=
  (scale_points (@tab P N (phase_factor n1 u)) (firstn N G),
   scale_points (@tab P N (fun i => fmul (fpow (finv y) i) (phase_factor n1 u i))) (firstn N H),
   @tab P N (padded n (c_lx (wf e) (wt e) mk y z u x)), @tab P N (c_rx n (wf e) (wt e) mk y z u x)).
(** the strategy after the challenges [e] of the second phase *)
Definition real_strategy2 (e : list (Fp (@modulus P))) : strategy := Strategy
  (FirstMessage (first_point h G H n1 (p_aL s) (p_aR s) (m_i1 mk)) (first_point_o h G n1 (p_aO s) (m_o1 mk))
     (first_point h G H n1 (m_sL mk) (m_sR mk) (m_b1 mk)) (second_point h G H n1 n (aLs e) (aRs e) (m_i2 mk))
     (second_point_o h G n1 n (aOs e) (m_o2 mk)) (second_point h G H n1 n (m_sL mk) (m_sR mk) (m_b2 mk)))
  (c_TT g h n (wf e) (wt e) mk)
  (fun y z u x => (c_tx n (wf e) (wt e) mk y z u x, c_txb (wf e) (wt e) mk y z u x, c_eb mk y z u x))
  (fun y z u x w us => ipp_message (g1_mul w g) (fold_left ipp_step us (honest_start2 e y z u x)))
  (fun y z u x w us => ipp_final (fold_left ipp_step us (honest_start2 e y z u x))).

Let WT (O : query -> Fp modulus) : @world (@backend P O) :=
  @with_tape (@backend P O) (@World (@backend P O) (fun _ => fzero _) (fun _ => [])) (p_nrand s) tape.
Let s0 (O : query -> Fp modulus) : @prover (@backend P O) := two_phase_prover O s (cbs O).

Lemma V_len2 : length V = length (p_v s).
Proof. unfold V. rewrite zipw_length. destruct Hwf as [_ _ Hb _ _]. rewrite Hb. apply Nat.min_id. Qed.
Lemma wf_at2 O : @pwf (@backend P O) (s0 O).
Proof. destruct Hwf as [a b c d e]. constructor; assumption. Qed.

Lemma real_facts2 O : exists pf tp s2, two_phase_real s cbs G H O tape = Some (pf, tp) /\
  @prove (@backend P O) (WT O) (s0 O) G H = Done (Ok (same_proof O pf, tp)) /\
  shaped k pf /\
  let c := map O (qs pf) in
  @prover_create_randomized_constraints (@backend P O) (WT O) (@hp_state1 (@backend P O) (WT O) (s0 O) G H) = Done (Ok s2) /\
  @p_transcript (@backend P O) s2 = tr pf /\ length (@p_aL (@backend P O) s2) = n /\ length (@p_v (@backend P O) s2) = length (p_v s) /\
  @pwf (@backend P O) s2 /\ zipw (@commit (@backend P O) (@p_g (@backend P O) s2) (@p_h (@backend P O) s2)) (@p_v (@backend P O) s2) (@p_v_blinding (@backend P O) s2) = V /\
  Forall2 (@lc_same (@backend P O)) (@p_constraints (@backend P O) s2) (circ (firstn r c)) /\
  Forall (@lc_in_range (@backend P O) n (length (p_v s))) (@p_constraints (@backend P O) s2) /\
  @satisfies (@backend P O) (@prover_assignment (@backend P O) s2) n (@p_constraints (@backend P O) s2) /\
  pf = sp2 labels real_strategy2 c.
Proof.
  set (k1 := p_nrand s + 3 + n1 + n1).
  set (h1 := @hp_state1 (@backend P O) (WT O) (s0 O) G H).
  destruct (Hsec O (@p_transcript (@backend P O) h1)) as (Hne & s2 & Hrun & Et & En & Ec & Hr & Hs).
  cbv zeta in Hrun, Et, Ec, Hr, Hs.
  pose proof (Hrun (@w_random (@backend P O) (WT O)) k1) as Hr1.
  destruct (Hval O (@p_transcript (@backend P O) h1) _ _ _ Hr1) as (Vc & VL & VR & VO).
  cbn [p_with_nrand p_constraints p_aL p_aR p_aO] in Vc, VL, VR, VO.
  set (e := map O (callback_queries labels (r1cs_2phase_domain_sep (@p_transcript (@backend P O) h1)))) in *.
  set (s2' := @p_with_nrand (@backend P O) k1 s2).
  assert (E2 : @prover_create_randomized_constraints (@backend P O) (WT O) h1 = Done (Ok s2')).
  { assert (X : forall st : @prover (@backend P O), @p_deferred (@backend P O) st <> [] -> @prover_create_randomized_constraints (@backend P O) (WT O) st =
      @prover_run_callbacks (@backend P O) (WT O) (@p_deferred (@backend P O) st) (@p_with_deferred (@backend P O) [] (@p_with_transcript (@backend P O)
        (r1cs_2phase_domain_sep (@p_transcript (@backend P O) st)) (@p_with_pending (@backend P O) None st)))).
    { intros st Hd. unfold prover_create_randomized_constraints. cbn [p_with_pending p_deferred p_with_transcript p_transcript]. destruct (@p_deferred (@backend P O) st); [congruence|reflexivity]. }
    rewrite (X h1 Hne). exact Hr1. }
  pose proof (wf_at2 O) as Hwf'.
  assert (Hwf1 : @pwf (@backend P O) h1) by (destruct Hwf' as [a b c d e0]; constructor; assumption).
  destruct (@prover_second_phase_ext (@backend P O) (backend_ok O) _ _ _ Hwf1 E2) as
    (Hwf2 & Eg & Eh & Ev & Evb & Hle & EaL & EaR & EaO & _ & _ & _).
  assert (HG2 : next_power_of_two (length (@p_aL (@backend P O) s2')) <= length G) by (cbn [s2' p_with_nrand p_aL]; rewrite En; exact HG).
  assert (HH2 : next_power_of_two (length (@p_aL (@backend P O) s2')) <= length H) by (cbn [s2' p_with_nrand p_aL]; rewrite En; exact HH).
  assert (Ev' : length (@p_v (@backend P O) s2') = length (p_v s)) by (rewrite Ev; reflexivity).
  assert (Hr2 : Forall (@lc_in_range (@backend P O) (length (@p_aL (@backend P O) s2')) (length (@p_v (@backend P O) s2'))) (@p_constraints (@backend P O) s2')).
  { rewrite Ev'. cbn [s2' p_with_nrand p_aL p_constraints]. rewrite En. exact Hr. }
  pose proof (@prove_core (@backend P O) (backend_ok O) (WT O) (s0 O) G H s2' Hwf' E2 HG2 HH2 Hr2) as Ecr. cbv zeta in Ecr.
  destruct (@prove_char (@backend P O) (backend_ok O) (WT O) (s0 O) G H s2' Hwf' E2 HG2 HH2 Hr2) as (pf' & tp & us & Ep & Etf & Hrest).
  cbv zeta in Hrest. destruct Hrest as (HL & HR & Ech & _).
  exists (own_proof O pf'), tp, s2'. set (pf := own_proof O pf').
  assert (E' : pf' = same_proof O pf) by (symmetry; apply same_own).
  assert (Elog : Nat.log2_up n = k) by (apply (Nat.pow_inj_r 2); [lia|exact Hk]).
  cbn [s2' p_with_nrand p_aL p_transcript] in HL, HR, Ech. rewrite En in HL, HR, Ech.
  assert (Et1 : @p_transcript (@backend P O) h1 = first_phase_transcript pf (length V) t0).
  { rewrite V_len2. rewrite E' in Etf. exact (eq_sym Etf). }
  assert (Htr : @p_transcript (@backend P O) s2 = tr pf) by (rewrite Et, Et1; reflexivity).
  assert (Ee : firstn r (map O (qs pf)) = e).
  { unfold qs. rewrite (chal2_e V n labels t0 O pf). unfold e. rewrite Et1. reflexivity. }
  split. { unfold two_phase_real. fold (WT O). fold (s0 O). rewrite Ep. reflexivity. }
  split. { rewrite <- E'. exact Ep. }
  split. { split; [rewrite <- Elog; rewrite E' in HL; exact HL|rewrite <- Elog; rewrite E' in HR; exact HR]. }
  cbv zeta. split; [exact E2|]. split; [exact Htr|]. split; [exact En|]. split; [exact Ev'|]. split; [exact Hwf2|].
  split. { rewrite Eg, Eh, Ev, Evb. reflexivity. }
  rewrite Ee. split; [exact Ec|]. split; [exact Hr|]. split; [exact Hs|].
  unfold sp2. rewrite Ee.
  pose proof (eq_trans (eq_sym Ecr) Ep) as Ef. unfold core in Ef.
  pose proof (proj1 (@finish_iff (@backend P O) _ _ _ _ _ _ _ _ _ _ _ _ _ _ _ _ _ _ _ _) Ef) as I. clear Ef Ecr Ep.
  cbn [s2' p_with_nrand p_transcript p_aL p_constraints p_nrand wit_of p_aR p_aO p_v_blinding] in I.
  rewrite Htr, E' in I. rewrite Htr, E' in Ech. rewrite En in I.
  pose proof (chal2_at V n labels t0 O pf) as C. cbv zeta in C. fold (qs pf) (tr pf) in C. fold (tr pf) in C.
  set (c := @protocol_challenges (@backend P O) (tr pf) (same_proof O pf)) in *.
  destruct I as (F1 & F2 & F3 & F4 & F5 & F6 & ET & Etx & Etxb & Eeb & EI).
  assert (Lf : forall (X : list (@G1 P)), N <= length X -> length (firstn N X) = 2 ^ k).
  { intros X HX. rewrite <- Hk, firstn_length. lia. }
  assert (Lt : forall f, length (@tab P N f) = 2 ^ k).
  { intros f. rewrite <- Hk. unfold tab. rewrite map_length. apply seq_length. }
  pose proof (@create_ipp_rounds (@backend P O) (backend_ok O) _ _ _ _ _ _ _ _ k _ _ (Lf G HG) (Lf H HH) (Lt _) (Lt _) (Lt _) (Lt _) EI) as R.
  cbv zeta in R. clear EI.
  assert (Er : map O (round_queries (ipp_L (proof_ipp pf)) (ipp_R (proof_ipp pf)) (innerproduct_domain_sep N (@c_t (@backend P O) c))) =
     fst (@ipp_challenges (@backend P O) (ipp_L (proof_ipp pf)) (ipp_R (proof_ipp pf)) (innerproduct_domain_sep (2 ^ k) (@c_t (@backend P O) c)))).
  { refine (eq_trans (map_ext _ _ (fun q => eq_sym (backend_oracle O q)) _) _). rewrite Hk.
    exact (@round_queries_challenges (@backend P O) (ipp_L (proof_ipp pf)) (ipp_R (proof_ipp pf)) (innerproduct_domain_sep (2 ^ k) (@c_t (@backend P O) c))). }
  set (us' := fst _) in *.
  assert (C' : skipn r (map O (qs pf)) = @c_y (@backend P O) c :: @c_z (@backend P O) c :: @c_u (@backend P O) c :: @c_x (@backend P O) c :: @c_w (@backend P O) c :: us').
  { refine (eq_trans C _). do 5 apply (f_equal (cons _)). exact Er. }
  rewrite C'. clear C C' Er.
  destruct R as (_ & RL & RR & Rf).
  assert (Hwt : @wit_of (@backend P O) s2' = @Wit (@backend P O) (aLs e) (aRs e) (aOs e) (p_v_blinding s)).
  { unfold wit_of, s2'. cbn [p_with_nrand p_aL p_aR p_aO p_v_blinding]. rewrite VL, VR, VO.
    pose proof (eq_trans Evb eq_refl : @p_v_blinding (@backend P O) s2 = p_v_blinding s) as Eb. rewrite Eb. reflexivity. }
  rewrite Hwt in *. rewrite Vc in *. cbn [wit_aL wit_aR wit_aO] in F1, F2, F4, F5.
  assert (DL : firstn n1 (aLs e) = firstn n1 (p_aL s)).
  { rewrite <- VL. refine (eq_trans EaL _). symmetry. apply firstn_all. }
  assert (DR : firstn n1 (aRs e) = firstn n1 (p_aR s)).
  { rewrite <- VR. refine (eq_trans EaR _). symmetry. apply firstn_all2, Nat.eq_le_incl. exact (pwf_aR _ Hwf). }
  assert (DO : firstn n1 (aOs e) = firstn n1 (p_aO s)).
  { rewrite <- VO. refine (eq_trans EaO _). symmetry. apply firstn_all2, Nat.eq_le_incl. exact (pwf_aO _ Hwf). }
  apply (strategy_proof_eq (real_strategy2 e) pf (@c_y (@backend P O) c) (@c_z (@backend P O) c) (@c_u (@backend P O) c) (@c_x (@backend P O) c) (@c_w (@backend P O) c) us').
  - unfold first_of. cbn [real_strategy2 st_first].
    change (A_I1 pf) with (@A_I1 (@backend P O) (same_proof O pf)). change (A_O1 pf) with (@A_O1 (@backend P O) (same_proof O pf)).
    change (S1 pf) with (@S1 (@backend P O) (same_proof O pf)). change (A_I2 pf) with (@A_I2 (@backend P O) (same_proof O pf)).
    change (A_O2 pf) with (@A_O2 (@backend P O) (same_proof O pf)). change (S2 pf) with (@S2 (@backend P O) (same_proof O pf)).
    assert (P1 : first_point h G H n1 (aLs e) (aRs e) (m_i1 mk) = first_point h G H n1 (p_aL s) (p_aR s) (m_i1 mk)) by (unfold first_point; rewrite DL, DR; reflexivity).
    assert (P2 : first_point_o h G n1 (aOs e) (m_o1 mk) = first_point_o h G n1 (p_aO s) (m_o1 mk)) by (unfold first_point_o; rewrite DO; reflexivity).
    rewrite <- P1, <- P2. rewrite F1, F2, F3, F4, F5, F6. reflexivity.
  - exact ET.
  - cbn [real_strategy2 st_open]. exact (f_equal2 pair (f_equal2 pair Etx Etxb) Eeb).
  - exact RL.
  - exact RR.
  - exact Rf.
Qed.

Lemma strategy2_first e : length e = r ->
  f_AI1 (st_first (real_strategy2 e)) = f_AI1 (st_first (real_strategy2 [])) /\
  f_AO1 (st_first (real_strategy2 e)) = f_AO1 (st_first (real_strategy2 [])) /\
  f_S1 (st_first (real_strategy2 e)) = f_S1 (st_first (real_strategy2 [])).
Proof. intros _. repeat split. Qed.

Lemma fixed_point_unique2 O c c' : length c = r + (5 + k) -> length c' = r + (5 + k) ->
  map O (qs (sp2 labels real_strategy2 c)) = c -> map O (qs (sp2 labels real_strategy2 c')) = c' -> c = c'.
Proof.
  intros Lc Lc' E E'.
  assert (X : forall i, i <= r + (5 + k) -> firstn i c = firstn i c').
  { induction i as [|i IH]; intros Hi; [reflexivity|]. specialize (IH ltac:(lia)).
    rewrite (firstn_S_nth c i (fzero _)), (firstn_S_nth c' i (fzero _)) by lia. f_equal; [exact IH|]. f_equal.
    pose proof (point2_strategy labels (length V) n k t0 real_strategy2 strategy2_first c c' i Lc Lc' ltac:(lia) IH) as Ep.
    assert (Q : forall c, length c = r + (5 + k) -> map O (qs (sp2 labels real_strategy2 c)) = c ->
      nth i c (fzero _) = O (point2 labels (length V) n t0 i (sp2 labels real_strategy2 c))).
    { intros c0 L0 E0. rewrite <- E0 at 1. unfold point2. rewrite <- (map_nth O). apply nth_indep.
      rewrite map_length. unfold qs. rewrite (two_phase_length labels _ _ _ k) by (apply sp2_shaped; exact L0). lia. }
    rewrite (Q c Lc E), (Q c' Lc' E'), Ep. reflexivity. }
  specialize (X (r + (5 + k)) (le_n _)). rewrite !firstn_all2 in X by lia. exact X.
Qed.

Lemma real_output2 O pf tp : two_phase_real s cbs G H O tape = Some (pf, tp) ->
  pf = output O (fs2_prover labels (length V) n t0 real_strategy2 (r + (5 + k)) []).
Proof.
  destruct (real_facts2 O) as (pf' & tp' & s2 & E & _ & Hs & _ & _ & _ & _ & _ & _ & _ & _ & _ & Es). cbv zeta in Es.
  intros E1. rewrite E in E1. injection E1 as <- <-.
  destruct (fs2_prover_ok labels (length V) n k t0 real_strategy2 strategy2_first O) as (c & Lc & Eo & Ec). rewrite Eo.
  assert (Lm : length (map O (qs pf')) = r + (5 + k)) by (rewrite map_length; apply two_phase_length, Hs).
  rewrite Es at 1. f_equal. apply (fixed_point_unique2 O); [exact Lm|exact Lc| |exact Ec].
  rewrite <- Es. reflexivity.
Qed.

(** *** When it is accepted *)
Context (vcbs : forall O : query -> Fp (@modulus P), list (@vprog (@backend P O) (result unit))) (cs1 : list (@lc P))
  (HP2 : TwoPhase.second_phase n1 cs1 V vcbs labels n circ) (H32 : k < 32) (Hb : 1 < n \/ batch_invert_empty_panics = false).

Lemma real_accepted2 O x : exists pf tp, two_phase_real s cbs G H O tape = Some (pf, tp) /\
  let c := map O (qs pf) in
  (nth r c (fzero _) <> fzero _ -> Forall (fun u => u <> fzero _) (skipn (r + 5) c) -> two_phase_rejected s cbs vcbs cs1 G H O tape x = false).
Proof.
  destruct (real_facts2 O) as (pf & tp & s2 & E & Ep & Hs & E2 & Htr & En & Ev & Hwf2 & EV & Ec & Hr & Hsat & _). cbv zeta in Ec.
  exists pf, tp. split; [exact E|]. intros c Hy Hu. fold c in Ec.
  unfold two_phase_rejected. rewrite E. fold V n1 t0.
  destruct (TwoPhaseCode.second_state V n1 cs1 vcbs labels n circ HP2 O t0 pf) as (vs2 & Hvs & Evt & Evc & Evn & EvV & _).
  pose proof (chal2_at V n labels t0 O pf) as C. cbv zeta in C. fold (qs pf) (tr pf) in C. fold (tr pf) in C. fold c in C.
  assert (Ee : firstn r c = map O (second_queries V labels t0 pf)) by exact (chal2_e V n labels t0 O pf).
  assert (Elog : Nat.log2_up n = k) by (apply (Nat.pow_inj_r 2); [lia|exact Hk]).
  set (vs := @two_phase_verifier P O V n1 cs1 (vcbs O) t0).
  pose proof (@verify_after (@backend P O) (backend_ok O) (WT O) (@World (@backend P O) (fun _ => x) (fun _ => [])) G H
    (s0 O) vs s2 vs2 (same_proof O pf) tp (wf_at2 O) E2) as X. cbv zeta in X.
  rewrite En, Htr, Ev in X. rewrite Ee in Ec. rewrite <- Evc in Ec.
  specialize (X HG HH Hr Ep (Hvs x) eq_refl Hwf2 (eq_sym Evt) Ec Evn (eq_trans EvV (eq_sym EV)) Hsat).
  match type of X with ?a -> _ => assert (h1 : a) by exact (eq_ind_r (fun x => x < 32) H32 Elog) end. specialize (X h1 Hb). clear h1.
  match type of X with ?a -> _ => assert (h1 : a) end.
  { intros E0. apply Hy. pose proof (f_equal (fun l => nth 0 l (fzero _)) C) as C0. cbn [nth] in C0. rewrite nth_skip, Nat.add_0_r in C0.
    refine (eq_trans C0 _). exact E0. }
  specialize (X h1). clear h1.
  match type of X with ?a -> _ => assert (h1 : a) end.
  { set (cc := @protocol_challenges (@backend P O) (tr pf) (same_proof O pf)) in *.
    assert (Er : map O (round_queries (ipp_L (proof_ipp pf)) (ipp_R (proof_ipp pf)) (innerproduct_domain_sep N (@c_t (@backend P O) cc))) =
     fst (@ipp_challenges (@backend P O) (ipp_L (proof_ipp pf)) (ipp_R (proof_ipp pf)) (innerproduct_domain_sep N (@c_t (@backend P O) cc)))).
    { refine (eq_trans (map_ext _ _ (fun q => eq_sym (backend_oracle O q)) _) _).
      exact (@round_queries_challenges (@backend P O) (ipp_L (proof_ipp pf)) (ipp_R (proof_ipp pf)) (innerproduct_domain_sep N (@c_t (@backend P O) cc))). }
    pose proof (eq_trans (f_equal (skipn 5) C) Er) as Y. rewrite <- Utils.skipn_skipn' in Hu.
    exact (eq_ind _ (fun l => Forall (fun u => u <> fzero _) l) Hu _ Y). }
  specialize (X h1). clear h1.
  match goal with |- context [@verify ?a ?b ?c ?d ?e ?f ?g ?h] => replace (@verify a b c d e f g h) with (@Done (result transcript) (Ok tp)) by (symmetry; exact X) end.
  reflexivity.
Qed.
End Main.

(** *** The questions whose answer must not be 0: the first after the second phase and the rounds *)
Section Count.
Context {P : Params} {OK : ParamsOk P}.
Context (labels : list string) (m n k : nat) (t0 : transcript) (st : list (Fp (@modulus P)) -> @strategy P) (C : list (Fp (@modulus P))).
Local Notation r := (length labels).
Hypothesis Hst : forall e, length e = r ->
  f_AI1 (st_first (st e)) = f_AI1 (st_first (st [])) /\ f_AO1 (st_first (st e)) = f_AO1 (st_first (st [])) /\
  f_S1 (st_first (st e)) = f_S1 (st_first (st [])).
Local Notation pnt := (point2 labels m n t0).
Local Notation sp := (sp2 labels st).
Local Notation L := (r + (5 + k)).

Definition sensitive2 (q : query) : bool :=
  let i := challenges_in (fst q) - challenges_in t0 in (i =? r) || (r + 5 <=? i).
Definition zero_there2 (q : query) (O : @oracle P) (x : Fp (@modulus P)) : bool := sensitive2 q && (if Fp_eq_dec _ x (fzero _) then true else false).
Let Z0 := times C (fzero _).
Definition weight_of2 (q : query) : nat := (if sensitive2 q then 1 else 0) * Z0.

Lemma sensitive2_point i pf : shaped k pf -> i < L -> sensitive2 (pnt i pf) = (i =? r) || (r + 5 <=? i).
Proof.
  intros Hp Hi. unfold sensitive2. rewrite (point2_prefix labels m n t0 k) by assumption. cbn [fst]. rewrite challenges_app, (events2_at labels m n k) by assumption.
  replace (challenges_in t0 + i - challenges_in t0) with i by lia. reflexivity.
Qed.
Lemma zero2_fresh q x : looks_at (fun q' => q' <> q) (fun O => zero_there2 q O x).
Proof. intros O O' _. reflexivity. Qed.
Lemma zero2_few q O : length (filter (zero_there2 q O) C) <= weight_of2 q.
Proof.
  unfold zero_there2, weight_of2. destruct (sensitive2 q); cbn [andb].
  - rewrite Nat.mul_1_l. apply Nat.eq_le_incl. exact (zeros_times C).
  - clear. induction C as [|a l IH]; [cbn; lia|exact IH].
Qed.

Definition still2 (j : nat) : nat := if 5 + k <=? j then 1 + k else Nat.min j k.
Lemma fs2_budget j : forall c, length c + j = L -> budget weight_of2 (still2 j * Z0) (fs2_prover labels m n t0 st j c).
Proof.
  induction j as [|j IH]; intros c Hc; cbn [fs2_prover budget]; [exact I|].
  assert (Hs : shaped k (sp (c ++ repeat (fzero _) (S j)))) by (apply sp2_shaped; rewrite app_length, repeat_length; lia).
  unfold weight_of2. rewrite (sensitive2_point (length c)) by (exact Hs || lia).
  assert (X : (if (length c =? r) || (r + 5 <=? length c) then 1 else 0) <= still2 (S j) /\
    still2 (S j) - (if (length c =? r) || (r + 5 <=? length c) then 1 else 0) = still2 j).
  { unfold still2. destruct (Nat.eqb_spec (length c) r), (Nat.leb_spec (r + 5) (length c)), (Nat.leb_spec (5 + k) (S j)), (Nat.leb_spec (5 + k) j); cbn [orb]; lia. }
  destruct X as [X1 X2]. split; [apply Nat.mul_le_mono_r, X1|]. intros a. rewrite <- Nat.mul_sub_distr_r, X2. apply IH. rewrite app_length. cbn [length]. lia.
Qed.

Lemma fs2_asks O j : forall c, length c + j = L ->
  exists d, length d = j /\ output O (fs2_prover labels m n t0 st j c) = sp (c ++ d) /\
    forall i, length c <= i < L -> In (pnt i (sp (c ++ d))) (asked O (fs2_prover labels m n t0 st j c)).
Proof.
  induction j as [|j IH]; intros c Hc.
  - exists []. rewrite app_nil_r. split; [reflexivity|]. split; [reflexivity|]. intros i Hi. lia.
  - cbn [fs2_prover output asked]. set (q := pnt (length c) (sp (c ++ repeat (fzero _) (S j)))).
    destruct (IH (c ++ [O q])) as (d & Hd & Eo & Hi); [rewrite app_length; cbn; lia|].
    rewrite <- app_assoc in Eo, Hi. cbn [app] in Eo, Hi. exists (O q :: d). split; [cbn; lia|]. split; [exact Eo|].
    intros i Hle. destruct (Nat.eq_dec i (length c)) as [->|Hne].
    + left. unfold q. apply (point2_strategy labels m n k t0 st Hst).
      * rewrite app_length, repeat_length. lia.
      * rewrite app_length. cbn [length]. lia.
      * lia.
      * rewrite !firstn_app, Nat.sub_diag. cbn [firstn]. rewrite !app_nil_r. reflexivity.
    + right. apply Hi. rewrite app_length. cbn [length]. lia.
Qed.

Lemma few_zeros2 D O0 : NoDup D -> (forall pf, shaped k pf -> incl (two_phase_queries labels m n t0 pf) D) ->
  let A := fs2_prover labels m n t0 st L [] in
  let bad O := let c := map O (two_phase_queries labels m n t0 (output O A)) in
    existsb (fun x => if Fp_eq_dec _ x (fzero _) then true else false) (nth r c (fzero _) :: skipn (r + 5) c) in
  length C * length (filter bad (oracles_from O0 D C)) <= (1 + k) * Z0 * length (oracles_from O0 D C).
Proof.
  intros HD Hcov A bad. rewrite oracles_length.
  assert (Hb : budget weight_of2 ((1 + k) * Z0) A).
  { pose proof (fs2_budget L [] eq_refl) as X. unfold still2 in X. destruct (Nat.leb_spec (5 + k) L); [exact X|lia]. }
  etransitivity; [|apply (hits_weighted C zero_there2 weight_of2 zero2_fresh zero2_few A ((1 + k) * Z0) D O0 Hb HD)].
  apply Nat.mul_le_mono_l. apply (cnt_le C O0 D bad). intros O _ Hbad. unfold bad in Hbad.
  destruct (fs2_asks O L [] eq_refl) as (c & Lc & Eo & Ha). cbn [app length] in Eo, Ha. fold A in Eo, Ha. rewrite Eo in Hbad.
  assert (Hs : shaped k (sp c)) by (apply sp2_shaped; exact Lc).
  pose proof (two_phase_length labels m n t0 k (sp c) Hs) as Lq.
  assert (X : exists i, i < L /\ (i =? r) || (r + 5 <=? i) = true /\ O (pnt i (sp c)) = fzero _).
  { apply existsb_exists in Hbad as (x & Hin & Hx). destruct (Fp_eq_dec _ x (fzero _)) as [->|]; [|discriminate]. clear Hx.
    assert (Q : forall i, i < L -> nth i (map O (two_phase_queries labels m n t0 (sp c))) (fzero _) = O (pnt i (sp c))).
    { intros i Hi. unfold point2. rewrite <- (map_nth O). apply nth_indep. rewrite map_length, Lq. exact Hi. }
    destruct Hin as [E|Hin].
    - exists r. split; [lia|]. split; [rewrite Nat.eqb_refl; reflexivity|]. rewrite <- Q by lia. exact E.
    - apply (In_nth _ _ (fzero _)) in Hin as (i & Hi & E). rewrite skipn_length, map_length, Lq in Hi.
      exists (r + 5 + i). split; [lia|]. split; [apply orb_true_iff; right; apply Nat.leb_le; lia|]. rewrite <- Q by lia. rewrite nth_skip in E. exact E. }
  destruct X as (i & Hi & Hsens & E). unfold hits. apply existsb_exists. exists (pnt i (sp c)). split; [apply Ha; lia|].
  apply andb_true_iff. split.
  - apply mem_ok. apply (Hcov (sp c) Hs). unfold point2. apply nth_In. lia.
  - unfold zero_there2. rewrite (sensitive2_point i (sp c) Hs Hi), Hsens, E. cbn [andb].
    destruct (Fp_eq_dec _ (fzero _) (fzero _)); [reflexivity|congruence].
Qed.
End Count.

Section Stated.
Context {P : Params} {OK : ParamsOk P}.

Lemma completeness_two_phase (s : prover) pcbs vcbs cs1 labels n circ cps aLs aRs aOs G H k (tape : list F) (x : F) (C : list F) D :
  let V := zipw (commit (p_g s) (p_h s)) (p_v s) (p_v_blinding s) in
  p_reachable false s -> prover_second_phase s pcbs labels n circ -> prover_second_values s pcbs labels cps aLs aRs aOs ->
  TwoPhase.second_phase (length (p_aL s)) cs1 V vcbs labels n circ ->
  next_power_of_two n = 2 ^ k -> 2 ^ k <= length G -> 2 ^ k <= length H -> k < 32 -> 1 < n \/ batch_invert_empty_panics = false ->
  NoDup D ->
  (forall pf, length (ipp_L (proof_ipp pf)) = k -> length (ipp_R (proof_ipp pf)) = k ->
     incl (two_phase_queries labels (length V) n (p_transcript s) pf) D) ->
  length C * length (filter (fun O => two_phase_rejected s pcbs vcbs cs1 G H O tape x) (oracles D C)) <=
    (1 + k) * times C (fzero _) * length (oracles D C).
Proof.
  intros V Hreach Hsec Hval HP2 Hk HG HH H32 Hb HD Hcov.
  assert (HG' : next_power_of_two n <= length G) by (rewrite Hk; exact HG).
  assert (HH' : next_power_of_two n <= length H) by (rewrite Hk; exact HH).
  pose proof (reachable_pwf _ _ Hreach) as Hwf.
  etransitivity; [|apply (few_zeros2 labels (length V) n k (p_transcript s) (real_strategy2 s n cps aLs aRs aOs G H tape) C
    (strategy2_first s labels n cps aLs aRs aOs G H tape) D (fun _ => fzero _) HD (fun pf Hp => Hcov pf (proj1 Hp) (proj2 Hp)))].
  apply Nat.mul_le_mono_l. apply (cnt_le C (fun _ => fzero _) D (fun O => two_phase_rejected s pcbs vcbs cs1 G H O tape x)). intros O _ Hrej.
  destruct (real_accepted2 s pcbs labels n circ cps aLs aRs aOs G H k tape Hwf Hsec Hval Hk HG' HH' vcbs cs1 HP2 H32 Hb O x) as (pf & tp & E & Hacc).
  pose proof (real_output2 s pcbs labels n circ cps aLs aRs aOs G H k tape Hwf Hsec Hval Hk HG' HH' O pf tp E) as Eo.
  cbv beta zeta. fold V in Eo, Hacc. rewrite <- Eo. cbv zeta in Hacc.
  set (c := map O _) in *.
  match goal with |- existsb ?f ?l = true => destruct (existsb f l) eqn:Ex; [reflexivity|] end. exfalso.
  assert (Hall : forall a, In a (nth (length labels) c (fzero _) :: skipn (length labels + 5) c) -> a <> fzero _).
  { intros a Hin Ez. assert (Y : existsb (fun x => if Fp_eq_dec _ x (fzero _) then true else false) (nth (length labels) c (fzero _) :: skipn (length labels + 5) c) = true).
    { apply existsb_exists. exists a. split; [exact Hin|]. destruct (Fp_eq_dec _ a (fzero _)); congruence. }
    rewrite Y in Ex. discriminate. }
  rewrite Hacc in Hrej; [discriminate|apply Hall; left; reflexivity|].
  apply Forall_forall. intros u Hu. apply Hall. right. exact Hu.
Qed.
Lemma completeness_two_phase_nodup (s : prover) pcbs vcbs cs1 labels n circ cps aLs aRs aOs G H k (tape : list F) (x : F) (C : list F) D :
  let V := zipw (commit (p_g s) (p_h s)) (p_v s) (p_v_blinding s) in
  p_reachable false s ->
  prover_second_phase s pcbs labels n circ -> prover_second_values s pcbs labels cps aLs aRs aOs ->
  TwoPhase.second_phase (length (p_aL s)) cs1 V vcbs labels n circ ->
  next_power_of_two n = 2 ^ k -> 2 ^ k <= length G -> 2 ^ k <= length H -> k < 32 -> 1 < n \/ batch_invert_empty_panics = false ->
  NoDup C -> NoDup D ->
  (forall pf, length (ipp_L (proof_ipp pf)) = k -> length (ipp_R (proof_ipp pf)) = k ->
     incl (two_phase_queries labels (length V) n (p_transcript s) pf) D) ->
  length C * length (filter (fun O => two_phase_rejected s pcbs vcbs cs1 G H O tape x) (oracles D C)) <= (1 + k) * length (oracles D C).
Proof.
  intros V Hr Hp Hv Hs Hk HG HH H32 Hbi HC HD Hcov.
  etransitivity; [apply (completeness_two_phase s pcbs vcbs cs1 labels n circ cps aLs aRs aOs G H k tape x C D); assumption|].
  apply Nat.mul_le_mono_r. rewrite <- (Nat.mul_1_r (1 + k)) at 2. apply Nat.mul_le_mono_l. apply (repeats_once C HC).
Qed.

Lemma completeness_two_phase_code (s : prover) pcbs vcbs cs1 labels n circ cps aLs aRs aOs G H k (tape : list F) (x : F) D :
  let V := zipw (commit (p_g s) (p_h s)) (p_v s) (p_v_blinding s) in
  let C := code_challenges in
  p_reachable false s ->
  prover_second_phase s pcbs labels n circ -> prover_second_values s pcbs labels cps aLs aRs aOs ->
  TwoPhase.second_phase (length (p_aL s)) cs1 V vcbs labels n circ ->
  next_power_of_two n = 2 ^ k -> 2 ^ k <= length G -> 2 ^ k <= length H -> k < 32 -> 1 < n \/ batch_invert_empty_panics = false ->
  NoDup D ->
  (forall pf, length (ipp_L (proof_ipp pf)) = k -> length (ipp_R (proof_ipp pf)) = k ->
     incl (two_phase_queries labels (length V) n (p_transcript s) pf) D) ->
  (modulus * byte_strings * Z.of_nat (length (filter (fun O => two_phase_rejected s pcbs vcbs cs1 G H O tape x) (oracles D C))) <=
   Z.of_nat (1 + k) * (byte_strings + modulus) * Z.of_nat (length (oracles D C)))%Z.
Proof.
  intros V C Hr Hp Hv Hs Hk HG HH H32 Hbi HD Hcov.
  apply code_zero_bound. apply (completeness_two_phase s pcbs vcbs cs1 labels n circ cps aLs aRs aOs G H k tape x C D); assumption.
Qed.
End Stated.
