(** The verdict of [Verifier::verify] on arbitrary proofs: errors, panics, and
    the role of the verifier's randomness. *)
From Coq Require Import ZArith String List Lia Bool Ring Field Permutation.
From Verif.Base Require Import Outcome Fp Params Algebra.
From Verif.Model Require Import Transcript LinComb Prog VectorPoly IPP Prover Verifier.
From Verif.Spec Require Import R1CS Sim Protocol.
From Verif.Proofs Require Import LinCombProofs RunProofs ExtProofs FlattenProofs IPPProofs VerifyProofs ProveProofs
  RoundTrip CircuitProofs IPPMore.
Import ListNotations.

Section VerdictProofs.
Context {P : Params} {OK : ParamsOk P}.
Local Open Scope fe_scope.
Add Field FFvd : (Fp_field_theory modulus modulus_prime).

Lemma verifier_flattened_done s z r : verifier_flattened_constraints s z = Done r ->
  Forall (lc_in_range (v_num_vars s) (length (v_V s))) (v_constraints s).
Proof.
  intros E. apply Forall_forall. intros l Hl v c Hv.
  destruct (var_in_range_dec (v_num_vars s) (length (v_V s)) v) as [|N]; [assumption|].
  rewrite (verifier_flattened_panic s z l v c Hl Hv N) in E. discriminate.
Qed.

(** *** [verify] up to the inner-product scalars *)
Section Upto.
Context (W : world) (s s2 : verifier) (proof : r1cs_proof) (g h : G1) (G H : list G1).
Let n := v_num_vars s2.
Let N := next_power_of_two n.
Let c := protocol_challenges (v_transcript s2) proof.
Let Ls := ipp_L (proof_ipp proof).
Let Rs := ipp_R (proof_ipp proof).
Hypothesis E2 : verifier_create_randomized_constraints W
    (v_with_transcript (first_phase_transcript proof (length (v_V s)) (v_transcript s)) s) = Done (Ok s2).

Lemma verify_upto :
  (N <= length G)%nat -> Forall (lc_in_range n (length (v_V s2))) (v_constraints s2) ->
  exists wV wc dl a b u x w r (gs hs : list F -> list F),
    length wV = length (v_V s2) /\
    (forall sv, length sv = N -> length (gs sv) = N /\ length (hs sv) = N) /\
    verify W s proof g h G H =
    obind (verification_scalars Ls Rs N (c_t c)) (fun vs =>
      match vs with
      | Err _ => Done (Err VerificationError)
      | Ok (usq, uisq, sv, t) =>
          obind (slice_to N H) (fun Hp =>
          obind (verify_final proof g h (firstn N G) Hp (v_V s2) wV wc dl a b u x w r (gs sv) (hs sv) usq uisq)
            (fun res => if g1_eqb res g1_id then Done (Ok t) else Done (Err VerificationError)))
      end).
Proof.
  intros HG Hr. unfold verify. unfold first_phase_transcript in E2. rewrite E2. cbn [orbind].
  apply verifier_second_phase_ext in E2 as (Hn1 & HV & _ & _). cbn [v_num_vars v_with_transcript v_V] in Hn1, HV.
  fold n. fold N. destruct (Nat.ltb_spec (length G) N); [lia|].
  unfold challenge_scalar. cbn [fst snd].
  rewrite (verifier_flattened_ok s2 _ Hr). cbn [obind].
  pose proof (next_power_of_two_ge n : n <= N)%nat as HnN.
  set (y := challenge_value "y" _). set (z := challenge_value "z" _). set (u := challenge_value "u" _).
  set (x := challenge_value "x" _). set (w := challenge_value "w" _).
  rewrite tab_vandermonde, (zipw_tab_le _ n N) by assumption.
  rewrite !tab_app_zeros by assumption. fold n.
  unfold slice_to at 1. rewrite tab_length. destruct (Nat.leb_spec n N); [|lia]. cbn [obind].
  rewrite inner_product_ok by (rewrite firstn_length, !tab_length; lia). cbn [obind].
  unfold slice_to at 1. destruct (Nat.leb_spec N (length G)); [|lia].
  rewrite (phase_factors_tab (v_num_vars s) n N u) by assumption. cbn [obind].
  eexists (tab (length (v_V s2)) _), _, _, _, _, u, x, w, _.
  exists (fun sv => zipw3 (g_scalar x (ipp_a (proof_ipp proof)))
      (tab N (padded n (fun i => weight (v_constraints s2) z (VRight i) * fpow (finv y) i))) (tab N (phase_factor (v_num_vars s) u)) (firstn N sv)).
  exists (fun sv => zipw5 (h_scalar x (ipp_b (proof_ipp proof))) (tab N (fpow (finv y))) (tab N (phase_factor (v_num_vars s) u)) (firstn N (rev sv))
      (tab N (padded n (fun j => weight (v_constraints s2) z (VLeft j)))) (tab N (padded n (fun j => weight (v_constraints s2) z (VOut j))))).
  split; [|split; [|reflexivity]].
  - apply tab_length.
  - intros sv Hsv. unfold zipw3, zipw5. rewrite !zipw_length, !firstn_length, rev_length, !tab_length. lia.
Qed.

(** a proof whose lists disagree in length makes the verifier panic *)
Lemma s_values_short lg n' first sq : (length sq < lg)%nat -> (2 <= n')%nat -> s_values lg n' first sq = Panic.
Proof.
  intros Hl Hn. unfold s_values. destruct n' as [|[|n']]; [lia|lia|].
  cbn [Nat.sub seq foldM]. rewrite (index_out sq); [reflexivity|]. change (Nat.log2 1) with 0%nat. lia.
Qed.

Theorem verification_scalars_short Ls' Rs' n' t :
  (length Rs' < length Ls')%nat -> (length Ls' < 32)%nat -> n' = (2 ^ length Ls')%nat ->
  verification_scalars Ls' Rs' n' t = Panic.
Proof.
  intros HLR H32 Hn. unfold verification_scalars.
  destruct (Nat.leb_spec 32 (length Ls')); [lia|].
  rewrite Hn, Nat.eqb_refl. cbn [negb].
  destruct (ipp_challenges Ls' Rs' _) as [us t'] eqn:E.
  assert (Hl : length us = Nat.min (length Ls') (length Rs')).
  { pose proof (ipp_challenges_length Ls' Rs' (innerproduct_domain_sep (2 ^ length Ls') t)) as L. rewrite E in L. exact L. }
  destruct (batch_invert us) as [[inv p]|]; [|reflexivity]. cbn [obind].
  rewrite s_values_short; [reflexivity| |].
  - rewrite map_length. lia.
  - destruct Ls' as [|? Ls']; [simpl in HLR; lia|]. simpl. pose proof (pow2_pos (length Ls')). lia.
Qed.

Theorem verify_panics_on_mismatch :
  (N <= length G)%nat -> (N <= length H)%nat -> Forall (lc_in_range n (length (v_V s2))) (v_constraints s2) ->
  length Ls <> length Rs -> (length Ls < 32)%nat -> N = (2 ^ length Ls)%nat ->
  verify W s proof g h G H = Panic.
Proof.
  intros HG HH Hr HLR H32 HN.
  destruct (verify_upto HG Hr) as (wV & wc & dl & a & b & u & x & w & r & gs & hs & LV & Lgh & ->).
  destruct (Nat.lt_ge_cases (length Rs) (length Ls)) as [Hlt|Hge].
  - rewrite verification_scalars_short by assumption. reflexivity.
  - destruct (verification_scalars Ls Rs N (c_t c)) as [[[[[usq uisq] sv] t]|e]|] eqn:Evs; [| |reflexivity].
    + cbn [obind]. apply verification_scalars_shape in Evs as (_ & _ & Lsv & L1 & L2).
      unfold slice_to. destruct (Nat.leb_spec N (length H)); [|lia]. cbn [obind].
      destruct (Lgh sv Lsv) as [Lg Lh].
      unfold verify_final, msm_checked.
      match goal with |- context [Nat.eqb ?p ?q] => destruct (Nat.eqb_spec p q) as [Eq|]; [exfalso|reflexivity] end.
      rewrite !app_length, vscale_length, !firstn_length in Eq. fold Ls Rs in Eq. cbn [length] in Eq. lia.
    + exfalso. destruct (verification_scalars_err Ls Rs N (c_t c)) as [[D _] De].
      pose proof (De _ Evs) as ->. destruct (D Evs); [lia|congruence].
Qed.

Theorem verify_panics_on_short_H :
  (N <= length G)%nat -> (length H < N)%nat -> Forall (lc_in_range n (length (v_V s2))) (v_constraints s2) ->
  (length Ls < 32)%nat -> N = (2 ^ length Ls)%nat ->
  verify W s proof g h G H = Panic.
Proof.
  intros HG HH Hr H32 HN.
  destruct (verify_upto HG Hr) as (wV & wc & dl & a & b & u & x & w & r & gs & hs & LV & Lgh & ->).
  destruct (verification_scalars Ls Rs N (c_t c)) as [[[[[usq uisq] sv] t]|e]|] eqn:Evs; [| |reflexivity].
  - cbn [obind]. unfold slice_to. destruct (Nat.leb_spec N (length H)); [lia|]. reflexivity.
  - exfalso. destruct (verification_scalars_err Ls Rs N (c_t c)) as [[D _] De].
    pose proof (De _ Evs) as ->. destruct (D Evs); [lia|congruence].
Qed.

Theorem verify_wrong_rounds :
  (N <= length G)%nat -> Forall (lc_in_range n (length (v_V s2))) (v_constraints s2) ->
  (32 <= length Ls)%nat \/ N <> (2 ^ length Ls)%nat ->
  verify W s proof g h G H = Done (Err VerificationError).
Proof.
  intros HG Hr Hb.
  destruct (verify_upto HG Hr) as (wV & wc & dl & a & b & u & x & w & r & gs & hs & LV & Lgh & ->).
  rewrite (proj2 (proj1 (verification_scalars_err Ls Rs N (c_t c))) Hb). reflexivity.
Qed.

Theorem verify_panics_out_of_range l v cf : (N <= length G)%nat ->
  In l (v_constraints s2) -> In (v, cf) l -> ~ var_in_range n (length (v_V s2)) v ->
  verify W s proof g h G H = Panic.
Proof.
  intros HG Hl Hv Hr. unfold verify. unfold first_phase_transcript in E2. rewrite E2. cbn [orbind].
  fold n. fold N. destruct (Nat.ltb_spec (length G) N); [lia|].
  unfold challenge_scalar. rewrite (verifier_flattened_panic s2 _ l v cf Hl Hv Hr). reflexivity.
Qed.

(** no panic on well-shaped proofs *)
Theorem verify_total :
  (N <= length H)%nat -> Forall (lc_in_range n (length (v_V s2))) (v_constraints s2) ->
  length Ls = length Rs -> (1 < n)%nat \/ batch_invert_empty_panics = false ->
  exists r, verify W s proof g h G H = Done r.
Proof.
  intros HH Hr HLR Hbi. destruct (Nat.lt_ge_cases (length G) N) as [HG|HG].
  - pose proof (verify_phase2_eq W s proof g h G H _ E2) as Ev. cbn in Ev. rewrite Ev by assumption. eauto.
  - destruct (Nat.le_gt_cases 32 (length Ls)) as [H32|H32]; [rewrite verify_wrong_rounds by auto; eauto|].
    destruct (Nat.eq_dec N (2 ^ length Ls)) as [HN|HN]; [|rewrite verify_wrong_rounds by auto; eauto].
    destruct (verification_scalars_total Ls Rs N (c_t c) HLR H32 HN) as (usq & uisq & sv & t' & Evs & _).
    { destruct Hbi as [Hn|Hb]; [left|right; assumption]. intros E. rewrite E in HN.
      pose proof (next_power_of_two_ge n). fold N in H0. simpl in HN. lia. }
    rewrite (verify_char W s s2 proof g h G H usq uisq sv t') by assumption.
    destruct (g1_eqb _ _); eauto.
Qed.

(** *** The batching factor [r] *)
Let Gp := firstn N G.
Let Hp := firstn N H.
Definition ipp_holds : Prop :=
  exists t', verify_ipp N (c_t c) (v_G_factors s s2 proof) (v_H_factors s s2 proof)
    (v_point s s2 proof g h G H) (g1_mul (c_w c) g) Gp Hp
    (ipp_a (proof_ipp proof)) (ipp_b (proof_ipp proof)) Ls Rs = Done (Ok tt, t').
Definition t_holds : Prop :=
  t_equation proof g h (v_V s2) n (v_constraints s2) (c_y c) (c_z c) (c_x c).
End Upto.

Lemma g1_sub_zero (a b : G1) : g1_add a (g1_neg b) = g1_id <-> b = a.
Proof.
  split; intros E.
  - apply (g1_add_cancel_l (g1_neg b)). rewrite g1_add_neg, g1_add_comm, E. reflexivity.
  - subst. rewrite g1_add_comm. apply g1_add_neg.
Qed.

Section Batch.
Context (s s2 : verifier) (proof : r1cs_proof) (g h : G1) (G H : list G1).
Let n := v_num_vars s2.
Let N := next_power_of_two n.
Let c := protocol_challenges (v_transcript s2) proof.
Let Ls := ipp_L (proof_ipp proof).
Let Rs := ipp_R (proof_ipp proof).
Let phase2 W := verifier_create_randomized_constraints W
    (v_with_transcript (first_phase_transcript proof (length (v_V s)) (v_transcript s)) s) = Done (Ok s2).
Hypothesis HG : (N <= length G)%nat.
Hypothesis HH : (N <= length H)%nat.
Hypothesis Hr : Forall (lc_in_range n (length (v_V s2))) (v_constraints s2).
Hypothesis HLR : length Ls = length Rs.
Hypothesis H32 : (length Ls < 32)%nat.
Hypothesis HN : N = (2 ^ length Ls)%nat.
Hypothesis Hbi : (1 < n)%nat \/ batch_invert_empty_panics = false.

Lemma batch_setup : exists E t',
  (ipp_holds s s2 proof g h G H <-> E = g1_id) /\
  (forall W, phase2 W -> verify W s proof g h G H =
     Done (if g1_eqb (g1_add E (g1_mul (w_random W (v_nrand s2)) (v_check_t s2 proof g h))) g1_id
           then Ok t' else Err VerificationError)).
Proof.
  destruct (verification_scalars_total Ls Rs N (c_t c) HLR H32 HN) as (usq & uisq & sv & t' & Evs & _).
  { destruct Hbi as [Hn|Hb]; [left|right; assumption]. intros E. rewrite E in HN.
    pose proof (next_power_of_two_ge n) as Hge. fold N in Hge. simpl in HN. lia. }
  eexists _, t'. split.
  2:{ intros W HW. apply (verify_char W s s2 proof g h G H usq uisq sv t'); assumption. }
  unfold ipp_holds.
  rewrite (verify_ipp_gen N (c_t c) (v_G_factors s s2 proof) (v_H_factors s s2 proof) _ _ _ _ _ _ _ _ usq uisq sv t' HLR).
  - rewrite g1_sub_zero. destruct (g1_eqb _ _) eqn:E.
    + apply g1_eqb_spec in E. split; [auto|eauto].
    + split; [intros (? & X); discriminate|]. intros X. apply g1_eqb_spec in X. destruct (eq_true_false_abs _ X E).
  - rewrite firstn_length. fold N. fold n. lia.
  - rewrite firstn_length. fold N. fold n. lia.
  - apply tab_length.
  - apply tab_length.
  - exact Evs.
Qed.

Theorem batch_accepts_all : ipp_holds s s2 proof g h G H -> t_holds s2 proof g h ->
  exists t', forall W, phase2 W -> verify W s proof g h G H = Done (Ok t').
Proof.
  destruct batch_setup as (E & t' & HE & HV). intros Hi Ht. exists t'. intros W HW. rewrite (HV W HW).
  apply v_check_t_equation in Ht. rewrite Ht. rewrite (proj1 HE Hi), g1_mul_id, g1_add_id.
  rewrite (proj2 (g1_eqb_spec _ _) eq_refl). reflexivity.
Qed.

Theorem batch_two_r W W' t1 t2 : phase2 W -> phase2 W' ->
  w_random W (v_nrand s2) <> w_random W' (v_nrand s2) ->
  verify W s proof g h G H = Done (Ok t1) -> verify W' s proof g h G H = Done (Ok t2) ->
  ipp_holds s s2 proof g h G H /\ t_holds s2 proof g h.
Proof.
  destruct batch_setup as (E & t' & HE & HV). intros HW HW' Hne. rewrite (HV W HW), (HV W' HW').
  set (r := w_random W (v_nrand s2)) in *. set (r' := w_random W' (v_nrand s2)) in *.
  set (T := v_check_t s2 proof g h).
  destruct (g1_eqb (g1_add E (g1_mul r T)) g1_id) eqn:E1; [|discriminate].
  destruct (g1_eqb (g1_add E (g1_mul r' T)) g1_id) eqn:E3; [|discriminate].
  apply g1_eqb_spec in E1. apply g1_eqb_spec in E3. intros _ _.
  assert (ET : T = g1_id).
  { assert (D : g1_mul (r - r') T = g1_id).
    { transitivity (g1_add (g1_add E (g1_mul r T)) (g1_neg (g1_add E (g1_mul r' T)))); [gnorm; ring|].
      rewrite E1, E3. gnorm; ring. }
    assert (Hd : r - r' <> 0) by (intros X; apply Hne; apply F_sub_zero; assumption).
    transitivity (g1_mul (finv (r - r')) (g1_mul (r - r') T)).
    - rewrite g1_mul_mul, finv_r_comm by assumption. rewrite g1_mul_one. reflexivity.
    - rewrite D. apply g1_mul_id. }
  split.
  - apply HE. rewrite ET, g1_mul_id, g1_id_r in E1. assumption.
  - unfold t_holds. apply v_check_t_equation. exact ET.
Qed.
End Batch.

(** *** What acceptance says about the shape of a proof *)
Theorem verify_inv W s proof g h G H t : verify W s proof g h G H = Done (Ok t) ->
  exists s2, verifier_create_randomized_constraints W
    (v_with_transcript (first_phase_transcript proof (length (v_V s)) (v_transcript s)) s) = Done (Ok s2) /\
    let N := next_power_of_two (v_num_vars s2) in
    let Ls := ipp_L (proof_ipp proof) in
    let Rs := ipp_R (proof_ipp proof) in
    (N <= length G)%nat /\ (N <= length H)%nat /\
    Forall (lc_in_range (v_num_vars s2) (length (v_V s2))) (v_constraints s2) /\
    length Ls = length Rs /\ (length Ls < 32)%nat /\ N = (2 ^ length Ls)%nat /\
    t = snd (ipp_challenges Ls Rs (innerproduct_domain_sep N (c_t (protocol_challenges (v_transcript s2) proof)))).
Proof.
  intros E.
  destruct (verifier_create_randomized_constraints W
    (v_with_transcript (first_phase_transcript proof (length (v_V s)) (v_transcript s)) s)) as [[s2|e]|] eqn:E2.
  2:{ pose proof (verify_phase2_eq W s proof g h G H _ E2) as Ev. cbn in Ev. congruence. }
  2:{ pose proof (verify_phase2_eq W s proof g h G H _ E2) as Ev. cbn in Ev. congruence. }
  exists s2. split; [reflexivity|]. cbn zeta.
  set (n := v_num_vars s2). set (N := next_power_of_two n).
  destruct (Nat.lt_ge_cases (length G) N) as [HG|HG].
  { pose proof (verify_phase2_eq W s proof g h G H _ E2) as Ev. cbn in Ev. rewrite Ev in E by assumption. discriminate. }
  assert (Hr : Forall (lc_in_range n (length (v_V s2))) (v_constraints s2)).
  { apply Forall_forall. intros l Hl v cf Hv.
    destruct (var_in_range_dec n (length (v_V s2)) v) as [|Hn]; [assumption|].
    rewrite (verify_panics_out_of_range W s s2 proof g h G H E2 l v cf HG Hl Hv Hn) in E. discriminate. }
  destruct (Nat.le_gt_cases 32 (length (ipp_L (proof_ipp proof)))) as [H32|H32].
  { rewrite (verify_wrong_rounds W s s2 proof g h G H E2 HG Hr) in E by auto. discriminate. }
  destruct (Nat.eq_dec N (2 ^ length (ipp_L (proof_ipp proof)))) as [HN|HN].
  2:{ rewrite (verify_wrong_rounds W s s2 proof g h G H E2 HG Hr) in E by auto. discriminate. }
  destruct (Nat.lt_ge_cases (length H) N) as [HH|HH].
  { rewrite (verify_panics_on_short_H W s s2 proof g h G H E2 HG HH Hr H32 HN) in E. discriminate. }
  destruct (Nat.eq_dec (length (ipp_L (proof_ipp proof))) (length (ipp_R (proof_ipp proof)))) as [HLR|HLR].
  2:{ rewrite (verify_panics_on_mismatch W s s2 proof g h G H E2 HG HH Hr HLR H32 HN) in E. discriminate. }
  repeat split; try assumption.
  destruct (verify_upto W s s2 proof g h G H E2 HG Hr) as (wV & wc & dl & a & b & u & x & w & r & gs & hs & LV & Lgh & Ev).
  rewrite Ev in E. clear Ev. fold n in E. fold N in E.
  unfold verification_scalars in E. destruct (Nat.leb 32 _); [discriminate|]. destruct (negb _); [discriminate|].
  destruct (ipp_challenges _ _ _) as [us t'] eqn:Ech.
  destruct (batch_invert us) as [[inv p]|]; [|discriminate]. cbn [obind] in E.
  destruct (s_values _ _ _ _); [|discriminate]. cbn [obind] in E.
  destruct (slice_to _ _); [|discriminate]. cbn [obind] in E.
  destruct (verify_final _ _ _ _ _ _ _ _ _ _ _ _ _ _ _ _ _ _ _); [|discriminate]. cbn [obind] in E.
  destruct (g1_eqb _ _); [|discriminate]. injection E as <-. reflexivity.
Qed.

Theorem verify_ipp_panics n t Gf Hf Pt Q G H a b Ls Rs :
  (32 <= length Ls)%nat \/ n <> (2 ^ length Ls)%nat -> verify_ipp n t Gf Hf Pt Q G H a b Ls Rs = Panic.
Proof.
  intros Hb. unfold verify_ipp. rewrite (proj2 (proj1 (verification_scalars_err Ls Rs n t)) Hb). reflexivity.
Qed.

(** *** Generators *)
Lemma prove_short_G W s G H : (length G < length (p_aL s))%nat -> prove W s G H = Done (Err InvalidGeneratorsLength).
Proof.
  intros Hl. unfold prove. cbn [p_with_transcript p_aL].
  destruct (Nat.ltb_spec (length G) (length (p_aL s))); [reflexivity|lia].
Qed.

Lemma prove_short_H W s G H : (length (p_aL s) <= length G)%nat -> (length H < length (p_aL s))%nat -> prove W s G H = Panic.
Proof.
  intros HG HH. unfold prove. cbn [p_with_transcript p_with_nrand p_aL].
  destruct (Nat.ltb_spec (length G) (length (p_aL s))); [lia|].
  rewrite (slice_to_ok s) by lia. cbn [obind]. unfold slice_to at 1.
  destruct (Nat.leb_spec (length (p_aL s)) (length H)); [lia|]. reflexivity.
Qed.
End VerdictProofs.
