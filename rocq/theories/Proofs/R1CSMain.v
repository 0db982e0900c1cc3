(** Final forms of the protocol properties (C17-C24). *)
From Coq Require Import ZArith String List Lia Bool Ring Field Arith.
From Verif.Base Require Import Outcome Fp Params Algebra.
From Verif.Model Require Import Transcript LinComb Prog VectorPoly IPP Prover Verifier.
From Verif.Spec Require Import R1CS Sim Session Protocol Verdict Log Frame.
From Verif.Proofs Require Import IPPProofs LinCombProofs RunProofs ExtProofs FlattenProofs VerifyProofs ProveProofs RoundTrip
  CircuitProofs VerdictProofs LogProofs FrozenHeart SyncMore CircuitMain.
Import ListNotations.

Section R1CSMain.
Context {P : Params} {OK : ParamsOk P}.
Local Open Scope fe_scope.
Add Field FFrm : (Fp_field_theory modulus modulus_prime).

(** *** C17 *)
Lemma completeness W W' g h t {A B} (R : A -> B -> Prop) pp vp G H a s s2 :
  sim g h R pp vp ->
  prun W false pp (prover_new g h t) = Done (a, s) ->
  prover_create_randomized_constraints W (hp_state1 W s G H) = Done (Ok s2) ->
  let n := length (p_aL s2) in
  (next_power_of_two n <= length G)%nat -> (next_power_of_two n <= length H)%nat ->
  Forall (lc_in_range n (length (p_v s2))) (p_constraints s2) ->
  satisfies (prover_assignment s2) n (p_constraints s2) ->
  (Nat.log2_up n < 32)%nat -> (1 < n)%nat \/ batch_invert_empty_panics = false ->
  exists proof tp b vs,
    prove W s G H = Done (Ok (proof, tp)) /\
    vrun W' false vp (verifier_new t) = Done (b, vs) /\ R a b /\
    v_V vs = zipw (commit g h) (p_v s) (p_v_blinding s) /\
    let c := protocol_challenges (p_transcript s2) proof in
    (c_y c <> 0 -> all_nonzero (round_challenges n c proof) ->
     verify W' vs proof g h G H = Done (Ok tp)).
Proof.
  intros Hsim E E2 n HG HH Hr [_ Hsat] H32 Hb.
  assert (Hwf : pwf s) by (eapply reachable_pwf; econstructor; exact E).
  destruct (prove_char W s G H s2 Hwf E2 HG HH Hr) as (proof & tp & us & Ep & _).
  destruct (round_trip W W' g h G H t R pp vp a s proof tp Hsim E Ep)
    as (b & vs & s2' & vs2 & Ev & HR & Hs & E2' & Ev2 & Hs2 & Hrest).
  rewrite E2 in E2'. injection E2' as <-.
  exists proof, tp, b, vs. split; [exact Ep|]. split; [exact Ev|]. split; [exact HR|].
  assert (Hgh : p_g s = g /\ p_h s = h).
  { pose proof (sync_new W W' g h t) as H0.
    destruct (sim_related W W' R g h pp vp Hsim (prover_new g h t) (verifier_new t) _ _ eq_refl eq_refl H0 E) as (? & ? & _ & _ & _ & ? & ?); auto. }
  split.
  { rewrite (sy_V _ _ Hs). destruct Hgh as [-> ->]. reflexivity. }
  cbv zeta in Hrest. destruct Hrest as (_ & _ & _ & _ & _ & _ & Hv).
  intros c Hy Hu. rewrite (Hv H32 Hb Hy Hu).
  rewrite (zsum_satisfied (prover_assignment s2) (p_constraints s2)) by exact Hsat.
  match goal with |- context [g1_eqb ?x ?y] => replace (g1_eqb x y) with true; [reflexivity|symmetry; apply g1_eqb_spec] end.
  transitivity (g1_mul 0 g); [f_equal; ring|apply g1_mul_zero].
Qed.

(** *** C18 *)
Lemma g1_mul_zero_inv (c : F) (g : G1) : g <> g1_id -> g1_mul c g = g1_id -> c = 0.
Proof.
  intros Hg E. destruct (Fp_eq_dec _ c 0) as [->|Hc]; [reflexivity|]. exfalso. apply Hg.
  rewrite <- (g1_mul_one g). replace (1 : F) with (finv c * c) by (field; exact Hc).
  rewrite <- g1_mul_mul, E. apply g1_mul_id.
Qed.

Lemma soundness_of_honest W W' g h t {A B} (R : A -> B -> Prop) pp vp G H a s s2 proof tp b vs vs2 t' :
  g <> g1_id ->
  sim g h R pp vp ->
  prun W false pp (prover_new g h t) = Done (a, s) ->
  prover_create_randomized_constraints W (hp_state1 W s G H) = Done (Ok s2) ->
  prove W s G H = Done (Ok (proof, tp)) ->
  vrun W' false vp (verifier_new t) = Done (b, vs) ->
  v_second W' proof vs vs2 ->
  let n := length (p_aL s2) in
  let c := protocol_challenges (p_transcript s2) proof in
  (1 < n)%nat \/ batch_invert_empty_panics = false ->
  c_y c <> 0 -> all_nonzero (round_challenges n c proof) ->
  verify W' vs proof g h G H = Done (Ok t') ->
  w_random W' (v_nrand vs2) = 0 \/ c_x c = 0 \/ zsum (prover_assignment s2) (p_constraints s2) (c_z c) = 0.
Proof.
  intros Hg Hsim E E2 Ep Ev Ev2 n c Hb Hy Hu Hacc.
  destruct (round_trip W W' g h G H t R pp vp a s proof tp Hsim E Ep)
    as (b' & vs' & s2' & vs2' & Ev' & HR & Hs & E2' & Ev2' & Hs2 & Hrest).
  rewrite E2 in E2'. injection E2' as <-. rewrite Ev in Ev'. injection Ev' as <- <-.
  unfold v_second, v_absorb in Ev2. rewrite Ev2 in Ev2'. injection Ev2' as <-.
  cbv zeta in Hrest. destruct Hrest as (_ & _ & _ & HL & _ & _ & Hv).
  assert (H32 : (Nat.log2_up (length (p_aL s2)) < 32)%nat).
  { destruct (verify_inv W' vs proof g h G H t' Hacc) as (v2 & Ev2'' & Hi). cbv zeta in Hi. destruct Hi as (_ & _ & _ & _ & H32 & _). rewrite <- HL. exact H32. }
  rewrite (Hv H32 Hb Hy Hu) in Hacc.
  match type of Hacc with context [g1_eqb ?x ?y] => destruct (g1_eqb x y) eqn:Eg; [|discriminate] end.
  apply g1_eqb_spec in Eg. apply g1_mul_zero_inv in Eg; [|exact Hg].
  set (r := w_random W' (v_nrand vs2)) in *. change (protocol_challenges (p_transcript s2) proof) with c in Eg.
  set (zs := zsum (prover_assignment s2) (p_constraints s2) (c_z c)) in *.
  destruct (Fp_eq_dec _ r 0) as [|Hr']; [auto|]. destruct (Fp_eq_dec _ (c_x c) 0) as [|Hx]; [auto|].
  right; right. destruct (Fp_eq_dec _ zs 0) as [Hz|Hz]; [exact Hz|exfalso].
  assert (r * (c_x c * c_x c) * zs <> 0) by (repeat apply F_mul_nonzero; assumption).
  apply H0. transitivity (- - (r * (c_x c * c_x c) * zs)); [ring|]. rewrite Eg. ring.
Qed.

(** *** C20 *)
Lemma synchrony W W' g h t {A B} (R : A -> B -> Prop) pp vp G H a s proof tp :
  sim g h R pp vp ->
  prun W false pp (prover_new g h t) = Done (a, s) ->
  prove W s G H = Done (Ok (proof, tp)) ->
  exists b vs s2 vs2,
    vrun W' false vp (verifier_new t) = Done (b, vs) /\
    prover_create_randomized_constraints W (hp_state1 W s G H) = Done (Ok s2) /\
    v_second W' proof vs vs2 /\
    p_transcript s = v_transcript vs /\
    p_transcript (hp_state1 W s G H) = v_transcript (v_absorb proof vs) /\
    p_transcript s2 = v_transcript vs2 /\
    tp = snd (ipp_challenges (ipp_L (proof_ipp proof)) (ipp_R (proof_ipp proof))
           (innerproduct_domain_sep (next_power_of_two (v_num_vars vs2)) (c_t (protocol_challenges (v_transcript vs2) proof)))) /\
    forall t', verify W' vs proof g h G H = Done (Ok t') -> t' = tp.
Proof.
  intros Hsim E Ep.
  assert (Hwf : pwf s) by (eapply reachable_pwf; econstructor; exact E).
  destruct (round_trip W W' g h G H t R pp vp a s proof tp Hsim E Ep)
    as (b & vs & s2 & vs2 & Ev & HR & Hs & E2 & Ev2 & Hs2 & Hrest).
  cbv zeta in Hrest. destruct Hrest as (HG & HH & Hr & _ & _ & Etp & _).
  destruct (prove_char W s G H s2 Hwf E2 HG HH Hr) as (proof' & tp' & us & Ep' & Ef & _).
  rewrite Ep in Ep'. injection Ep' as <- <-.
  assert (Htp : tp = snd (ipp_challenges (ipp_L (proof_ipp proof)) (ipp_R (proof_ipp proof))
           (innerproduct_domain_sep (next_power_of_two (v_num_vars vs2)) (c_t (protocol_challenges (v_transcript vs2) proof))))).
  { rewrite <- (sy_transcript _ _ Hs2), (sy_num_vars _ _ Hs2). symmetry. exact Etp. }
  exists b, vs, s2, vs2. do 3 (split; [assumption|]). split; [apply (sy_transcript _ _ Hs)|]. split.
  { rewrite <- Ef. unfold v_absorb. cbn [v_transcript v_with_transcript]. rewrite <- (sy_transcript _ _ Hs).
    f_equal. pose proof (same_commitments_number _ _ (sync_same _ _ Hs)). congruence. }
  split; [apply (sy_transcript _ _ Hs2)|]. split; [exact Htp|].
  intros t' Ha. destruct (verify_inv W' vs proof g h G H t' Ha) as (v2 & Ev2' & Hi). cbv zeta in Hi.
  rewrite Ev2 in Ev2'. injection Ev2' as <-. rewrite Htp. apply Hi.
Qed.


(** *** C19 *)
(** Random values that have not been drawn yet do not matter. *)
Lemma vrun_later W W' ph {A} (m : vprog A) s a s' :
  w_order W = w_order W' ->
  vrun W ph m s = Done (a, s') ->
  (v_nrand s <= v_nrand s')%nat /\
  ((forall i, (i < v_nrand s')%nat -> w_random W i = w_random W' i) -> vrun W' ph m s = Done (a, s')).
Proof.
  intros Ho. revert s a s'. induction m as [| | | | | | ? c IHc k IH | | | | ? x k IH | |]; intros s a0 s'; cbn [vrun].
  - intros E. injection E as <- <-. auto.
  - discriminate.
  - intros E. apply H in E. exact E.
  - unfold verifier_allocate. destruct (v_pending s); intros E; apply H in E; exact E.
  - intros E. apply H in E. exact E.
  - intros E. apply H in E. exact E.
  - destruct ph.
    + destruct (vrun W true c s) as [[r s1]|] eqn:E; [|discriminate]. simpl. intros E'.
      apply IHc in E. destruct E as [Hle Hc]. apply IH in E'. destruct E' as [Hle' Hk].
      split; [lia|]. intros Hr. rewrite Hc by (intros; apply Hr; lia). simpl. auto.
    + intros E. apply IH in E. exact E.
  - eauto.
  - unfold verifier_allocate_single, verifier_allocate.
    destruct (v_pending s); intros E; apply H in E; exact E.
  - destruct ph; [|discriminate]. intros E. apply H in E. exact E.
  - destruct ph; [discriminate|]. intros E. apply IH in E. exact E.
  - intros E. apply H in E. rewrite <- Ho. exact E.
  - intros E. apply H in E. destruct E as [Hle Hk]. cbn [v_with_nrand v_nrand] in *. split; [lia|].
    intros Hr. rewrite <- Hr by lia. auto.
Qed.

Lemma callbacks_later W W' cbs s s' :
  w_order W = w_order W' ->
  verifier_run_callbacks W cbs s = Done (Ok s') ->
  (v_nrand s <= v_nrand s')%nat /\
  ((forall i, (i < v_nrand s')%nat -> w_random W i = w_random W' i) ->
   verifier_run_callbacks W' cbs s = Done (Ok s')).
Proof.
  intros Ho. revert s; induction cbs as [|cb cbs IH]; intros s; simpl.
  - intros E. injection E as <-. auto.
  - destruct (vrun W true cb s) as [[r s1]|] eqn:E; [|discriminate]. simpl.
    destruct r; [|discriminate]. intros E'. destruct (vrun_later W W' _ _ _ _ _ Ho E) as [H1 H2].
    destruct (IH _ E') as [H3 H4]. split; [lia|]. intros Hr.
    rewrite H2 by (intros; apply Hr; lia). simpl. auto.
Qed.

Lemma second_later W k r proof s s2 : (v_nrand s2 <= k)%nat -> v_second W proof s s2 -> v_second (with_random W k r) proof s s2.
Proof.
  intros Hk. unfold v_second, verifier_create_randomized_constraints, v_absorb. cbn [v_deferred v_with_transcript v_with_pending].
  destruct (v_deferred s) as [|cb cbs]; [auto|].
  intros E. destruct (callbacks_later W (with_random W k r) _ _ _ eq_refl E) as [_ Hc]. apply Hc.
  intros i Hi. cbn. destruct (Nat.eqb_spec i k); [lia|reflexivity].
Qed.

Lemma batching W s s2 proof g h G H :
  v_second W proof s s2 -> proof_fits s2 proof G H ->
  let accepts r := exists t, verify (with_random W (v_nrand s2) r) s proof g h G H = Done (Ok t) in
  (equation_ipp s s2 proof g h G H /\ equation_t s2 proof g h <-> forall r, accepts r) /\
  (~ (equation_ipp s s2 proof g h G H /\ equation_t s2 proof g h) ->
   forall r r', accepts r -> accepts r' -> r = r').
Proof.
  intros H2 [HG HH Hr HLR H32 HN Hb] accepts.
  assert (Hsec : forall r, v_second (with_random W (v_nrand s2) r) proof s s2) by (intros; apply second_later; auto).
  assert (Hrand : forall r, w_random (with_random W (v_nrand s2) r) (v_nrand s2) = r) by (intros; cbn; rewrite Nat.eqb_refl; reflexivity).
  assert (Htwo : forall r r', accepts r -> accepts r' -> r <> r' ->
    equation_ipp s s2 proof g h G H /\ equation_t s2 proof g h).
  { intros r r' [t1 E1] [t2 E3] Hne.
    apply (batch_two_r s s2 proof g h G H HG HH Hr HLR H32 HN Hb _ _ t1 t2 (Hsec r) (Hsec r')); auto.
    rewrite !Hrand. exact Hne. }
  split; [split|].
  - intros [Hi Ht] r. destruct (batch_accepts_all s s2 proof g h G H HG HH Hr HLR H32 HN Hb Hi Ht) as [t' Ha].
    exists t'. apply Ha, Hsec.
  - intros Ha. apply (Htwo 0 1); auto. intros E. symmetry in E. exact (F_one_neq_zero E).
  - intros Hn r r' Ha Ha'. destruct (Fp_eq_dec _ r r') as [|Hne]; [assumption|]. destruct (Hn (Htwo r r' Ha Ha' Hne)).
Qed.

(** *** C21 *)
Lemma round_challenge_log n t pf j L R :
  nth_error (combine (ipp_L (proof_ipp pf)) (ipp_R (proof_ipp pf))) j = Some (L, R) ->
  nth_error (round_challenges n (protocol_challenges t pf) pf) j =
  Some (challenge_value "u" (at_round (next_power_of_two n)
    (firstn j (combine (ipp_L (proof_ipp pf)) (ipp_R (proof_ipp pf)))) L R t pf)).
Proof.
  intros E. unfold round_challenges. rewrite (ipp_challenges_value _ _ _ _ _ _ E). do 2 f_equal.
  destruct (challenges_log t pf) as (_ & _ & _ & _ & _ & ->).
  unfold at_round, after_rounds, innerproduct_domain_sep, append_u64, append_message. rewrite <- !app_assoc. reflexivity.
Qed.

(** *** C22 *)
Lemma frozen_heart' W W' g h t v b G H s0 pf0 tp0 c1 :
  prun W false (prove_equals v b []) (prover_new g h t) = Done (tt, s0) ->
  prove W s0 G H = Done (Ok (pf0, tp0)) ->
  let t0 := r1cs_1phase_domain_sep (first_phase_transcript pf0 1 (p_transcript s0)) in
  let z := c_z (protocol_challenges t0 pf0) in
  z <> 0 -> z <> - (1) -> c1 <> v ->
  let c2 := v + (v - c1) / z in
  (forall a, ~ (lc_value a (equals (VCommitted 0) c1) = 0 /\ lc_value a (equals (VCommitted 0) c2) = 0)) /\
  exists s pf tp vs,
    prun W false (prove_equals v b [c1; c2]) (prover_new g h t) = Done (tt, s) /\
    prove W s G H = Done (Ok (pf, tp)) /\
    vrun W' false (verify_equals (commit g h v b) [c1; c2]) (verifier_new t) = Done (tt, vs) /\
    (let c := protocol_challenges t0 pf in
     c_y c <> 0 -> all_nonzero (round_challenges 2 c pf) ->
     verify W' vs pf g h G H = Done (Ok tp)).
Proof.
  intros E1 E2 t0 z Hz Hz1 Hc c2.
  destruct (frozen_heart W W' g h t v b G H s0 pf0 tp0 c1 E1 E2 Hz) as (s & pf & tp & vs & A1 & A2 & A3 & A4 & A5).
  split; [apply A5; assumption|]. exists s, pf, tp, vs. repeat (split; [assumption|]). exact A4.
Qed.

Lemma equals_functional a v c1 c2 : c1 <> c2 ->
  ~ (lc_value a (equals v c1) = 0 /\ lc_value a (equals v c2) = 0).
Proof.
  intros Hc [H1 H2]. apply Hc. cbn in H1, H2. set (x := var_value a v) in *.
  transitivity (x - (1 * x + (- c1 * 1 + 0))); [ring|]. rewrite H1. rewrite <- H2. ring.
Qed.

Lemma yz_ignore_constraints W s cs G H pf tp pf' tp' :
  p_reachable false s -> p_deferred s = [] ->
  prove W s G H = Done (Ok (pf, tp)) ->
  prove W (p_with_constraints cs s) G H = Done (Ok (pf', tp')) ->
  let t0 := r1cs_1phase_domain_sep (first_phase_transcript pf (length (p_v s)) (p_transcript s)) in
  let t0' := r1cs_1phase_domain_sep (first_phase_transcript pf' (length (p_v s)) (p_transcript s)) in
  c_y (protocol_challenges t0 pf) = c_y (protocol_challenges t0' pf') /\
  c_z (protocol_challenges t0 pf) = c_z (protocol_challenges t0' pf').
Proof.
  intros Hr Hd E E'. apply reachable_pwf in Hr.
  destruct (yz_independent W s cs G H pf tp pf' tp' Hr Hd E E') as (H1 & H2 & H3). cbv zeta in *.
  rewrite H1, H2, H3. auto.
Qed.

(** *** C23, C24 *)
Lemma prove_generators W g h t {A} (m : pprog A) a s G H :
  prun W false m (prover_new g h t) = Done (a, s) ->
  let n1 := length (p_aL s) in
  ((length G < n1)%nat -> prove W s G H = Done (Err InvalidGeneratorsLength)) /\
  ((n1 <= length G)%nat -> (length H < n1)%nat -> prove W s G H = Panic) /\
  ((n1 <= length G)%nat -> (n1 <= length H)%nat -> forall s2,
    prover_create_randomized_constraints W (hp_state1 W s G H) = Done (Ok s2) ->
    let N := next_power_of_two (length (p_aL s2)) in
    ((length G < N)%nat -> prove W s G H = Done (Err InvalidGeneratorsLength)) /\
    (forall r, prove W s G H = Done (Ok r) -> (N <= length G)%nat /\ (N <= length H)%nat)).
Proof.
  intros E n1. assert (Hwf : pwf s) by (eapply reachable_pwf; econstructor; exact E).
  split; [apply prove_short_G|]. split; [apply prove_short_H|].
  intros HG HH s2 E2 N. split.
  - pose proof (prove_phase2_eq W s G H Hwf HG HH _ E2) as X. exact X.
  - intros r Er. destruct (prove_inv _ _ _ _ _ Hwf Er) as (s2' & E2' & Hg & Hh & _).
    rewrite E2 in E2'. injection E2' as <-. auto.
Qed.

Lemma verify_generators W s s2 proof g h G H :
  v_second W proof s s2 ->
  let N := next_power_of_two (v_num_vars s2) in
  ((length G < N)%nat -> verify W s proof g h G H = Done (Err InvalidGeneratorsLength)) /\
  ((length H < N)%nat -> forall t, verify W s proof g h G H <> Done (Ok t)) /\
  ((N <= length G)%nat -> (length H < N)%nat ->
   Forall (lc_in_range (v_num_vars s2) (length (v_V s2))) (v_constraints s2) ->
   (length (ipp_L (proof_ipp proof)) < 32)%nat -> N = (2 ^ length (ipp_L (proof_ipp proof)))%nat ->
   verify W s proof g h G H = Panic).
Proof.
  intros E2 N. split; [|split].
  - pose proof (verify_phase2_eq W s proof g h G H _ E2) as X. exact X.
  - intros HH t E. destruct (verify_inv W s proof g h G H t E) as (s2' & E2' & Hi). cbv zeta in Hi.
    unfold v_second, v_absorb in E2. rewrite E2 in E2'. injection E2' as <-. destruct Hi as (_ & Hi & _). unfold N in HH. lia.
  - intros. eapply verify_panics_on_short_H; eassumption.
Qed.

Lemma verify_never_panics W s s2 proof g h G H :
  v_second W proof s s2 ->
  (next_power_of_two (v_num_vars s2) <= length H)%nat ->
  Forall (lc_in_range (v_num_vars s2) (length (v_V s2))) (v_constraints s2) ->
  (1 < v_num_vars s2)%nat \/ batch_invert_empty_panics = false ->
  length (ipp_L (proof_ipp proof)) = length (ipp_R (proof_ipp proof)) ->
  (exists t, verify W s proof g h G H = Done (Ok t)) \/
  exists e, verify W s proof g h G H = Done (Err e) /\ (e = VerificationError \/ e = InvalidGeneratorsLength).
Proof.
  intros E2 HH Hr Hb HLR.
  destruct (verify_total W s s2 proof g h G H E2 HH Hr HLR Hb) as [[t|e] E]; [eauto|]. right. exists e. split; [exact E|].
  destruct (Nat.lt_ge_cases (length G) (next_power_of_two (v_num_vars s2))) as [HG|HG].
  - pose proof (verify_phase2_eq W s proof g h G H _ E2 HG) as X. rewrite X in E. injection E as <-. auto.
  - left. destruct (verify_upto W s s2 proof g h G H E2 HG Hr) as (wV & wc & dl & a & b & u & x & w & r & gs & hs & LV & Lgh & Ev).
    rewrite Ev in E. clear Ev.
    destruct (verification_scalars _ _ _ _) as [[[[[usq uisq] sv] t']|e']|]; [| |discriminate E].
    2:{ cbn [obind] in E. injection E as <-. reflexivity. }
    cbn [obind] in E.
    destruct (slice_to _ _); [|discriminate]. cbn [obind] in E.
    destruct (verify_final _ _ _ _ _ _ _ _ _ _ _ _ _ _ _ _ _ _ _); [|discriminate]. cbn [obind] in E.
    destruct (g1_eqb _ _); [discriminate|]. injection E as <-. reflexivity.
Qed.
End R1CSMain.
