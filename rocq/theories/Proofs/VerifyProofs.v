(** What [Verifier::verify] (verifier.rs 267-457) checks. *)
From Coq Require Import ZArith String List Lia Bool Ring Field Permutation.
From Verif.Base Require Import Outcome Fp Params Algebra.
From Verif.Model Require Import Transcript LinComb Prog VectorPoly IPP Prover Verifier.
From Verif.Spec Require Import R1CS Sim Protocol.
From Verif.Proofs Require Import LinCombProofs RunProofs ExtProofs FlattenProofs IPPProofs.
Import ListNotations.

Section VerifyProofs.
Context {P : Params} {OK : ParamsOk P}.
Local Open Scope fe_scope.
Add Field FFver : (Fp_field_theory modulus modulus_prime).

(** *** [s_values] and [verification_scalars] never fail on proofs with |L| = |R| *)
Lemma s_values_shape lg n first sq s : s_values lg n first sq = Done s -> (1 <= n)%nat -> length s = n.
Proof.
  unfold s_values. intros E Hn.
  assert (Hgo : forall l s0 s1, foldM (fun s i => obind (index sq (lg - 1 - Nat.log2 i))
      (fun u_lg_i_sq => obind (index s (i - 2 ^ Nat.log2 i)) (fun s_ik => Done (s ++ [s_ik * u_lg_i_sq])))) l s0
      = Done s1 -> length s1 = (length s0 + length l)%nat).
  { induction l as [|i l IH]; intros s0 s1; simpl.
    - intros E'. injection E' as <-. lia.
    - destruct (index sq _); simpl; [|discriminate]. destruct (index s0 _); simpl; [|discriminate].
      intros E'. apply IH in E'. rewrite app_length in E'. simpl in E'. lia. }
  apply Hgo in E. rewrite seq_length in E. simpl in E. lia.
Qed.

Lemma s_values_total lg first sq : length sq = lg ->
  exists s, s_values lg (2 ^ lg) first sq = Done s /\ length s = (2 ^ lg)%nat.
Proof.
  intros Hsq. unfold s_values. pose proof (pow2_pos lg) as Hp.
  assert (Hgo : forall k, (k <= 2 ^ lg - 1)%nat -> exists s1, foldM (fun s i => obind (index sq (lg - 1 - Nat.log2 i))
      (fun u_lg_i_sq => obind (index s (i - 2 ^ Nat.log2 i)) (fun s_ik => Done (s ++ [s_ik * u_lg_i_sq])))) (seq 1 k) [first]
      = Done s1 /\ length s1 = S k).
  { induction k as [|k IH]; intros Hk; [exists [first]; auto|].
    destruct IH as (s1 & E1 & L1); [lia|].
    rewrite seq_S. assert (Happ : forall {A S} (f : S -> A -> outcome S) l1 l2 s,
      foldM f (l1 ++ l2) s = obind (foldM f l1 s) (fun s' => foldM f l2 s')).
    { clear. intros A S f l1 l2. induction l1; intros s; simpl; [reflexivity|]. destruct (f s a); simpl; auto. }
    rewrite Happ, E1. cbn [obind foldM].
    assert (Hlog : (Nat.log2 (1 + k) < lg)%nat) by (apply log2_pow2_lt; lia).
    assert (Hlt : (2 ^ Nat.log2 (1 + k) > 0)%nat) by (apply pow2_pos).
    rewrite (index_ok sq _ 0) by lia. cbn [obind]. rewrite (index_ok s1 _ 0) by lia. cbn [obind].
    eexists. split; [reflexivity|]. rewrite app_length. simpl. lia. }
  destruct (Hgo (2 ^ lg - 1)%nat) as (s1 & E1 & L1); [lia|].
  exists s1. split; [assumption|]. lia.
Qed.

Lemma batch_invert_go_length pre l : length (fst (batch_invert_go pre l)) = length l.
Proof.
  revert pre; induction l as [|a t IH]; intros pre; simpl; [reflexivity|].
  specialize (IH (pre * a)). destruct (batch_invert_go (pre * a) t). simpl in *. congruence.
Qed.

Lemma batch_invert_total l : l <> [] \/ batch_invert_empty_panics = false ->
  exists r, batch_invert l = Done r /\ length (fst r) = length l.
Proof.
  intros H. unfold batch_invert. destruct l as [|a t].
  - destruct H as [H|H]; [congruence|]. rewrite H. eauto.
  - eexists. split; [reflexivity|]. cbn [fst]. apply batch_invert_go_length.
Qed.

Lemma verification_scalars_total Ls Rs n t :
  length Ls = length Rs -> (length Ls < 32)%nat -> n = (2 ^ length Ls)%nat ->
  (Ls <> [] \/ batch_invert_empty_panics = false) ->
  exists usq uisq s t', verification_scalars Ls Rs n t = Done (Ok (usq, uisq, s, t')) /\
    length usq = length Ls /\ length uisq = length Ls /\ length s = n.
Proof.
  intros HLR H32 Hn Hbi. unfold verification_scalars.
  destruct (Nat.leb_spec 32 (length Ls)); [lia|].
  rewrite Hn, Nat.eqb_refl. cbn [negb].
  destruct (ipp_challenges Ls Rs _) as [us t'] eqn:E.
  assert (Hl : length us = length Ls).
  { pose proof (ipp_challenges_length Ls Rs (innerproduct_domain_sep (2 ^ length Ls) t)) as L.
    rewrite E in L. simpl in L. lia. }
  destruct (batch_invert_total us) as ([inv p] & Ebi & Linv).
  { destruct Hbi; [left; destruct us, Ls; simpl in *; congruence|auto]. }
  rewrite Ebi. cbn [obind].
  destruct (s_values_total (length Ls) p (map (fun c => c * c) us)) as (s & Es & Ls').
  { rewrite map_length. assumption. }
  rewrite Es. cbn [obind]. eexists _, _, _, _. split; [reflexivity|].
  simpl in Linv. rewrite !map_length. repeat split; auto. congruence.
Qed.

Lemma verification_scalars_shape Ls Rs n t usq uisq s t' :
  verification_scalars Ls Rs n t = Done (Ok (usq, uisq, s, t')) ->
  n = (2 ^ length Ls)%nat /\ (length Ls < 32)%nat /\ length s = n /\
  length usq = Nat.min (length Ls) (length Rs) /\ length uisq = Nat.min (length Ls) (length Rs).
Proof.
  unfold verification_scalars. destruct (Nat.leb_spec 32 (length Ls)); [discriminate|].
  destruct (Nat.eqb_spec n (2 ^ length Ls)) as [Hn|]; [|discriminate]. cbn [negb].
  destruct (ipp_challenges Ls Rs _) as [us t''] eqn:E.
  assert (Hl : length us = Nat.min (length Ls) (length Rs)).
  { pose proof (ipp_challenges_length Ls Rs (innerproduct_domain_sep n t)) as L.
    rewrite E in L. assumption. }
  destruct (batch_invert us) as [[inv p]|] eqn:Ebi; [|discriminate]. cbn [obind].
  destruct (s_values _ _ _ _) as [s0|] eqn:Es; [|discriminate]. cbn [obind].
  intros E'. injection E' as <- <- <- <-. rewrite !map_length.
  apply s_values_shape in Es; [|pose proof (pow2_pos (length Ls)); lia].
  repeat split; auto.
  unfold batch_invert in Ebi. destruct us; [destruct batch_invert_empty_panics; [discriminate|]|].
  - injection Ebi as <- _. assumption.
  - apply (f_equal (fun o => match o with Done r => length (fst r) | Panic => 0%nat end)) in Ebi.
    cbn [fst] in Ebi. rewrite <- Ebi, batch_invert_go_length. assumption.
Qed.

(** *** [verify_ipp] in general *)
Definition ipp_check_point (a b : F) (Q : G1) (Gf Hf : list F) (G H : list G1)
    (usq uisq s : list F) (Ls Rs : list G1) : G1 :=
  g1_add (g1_mul (a * b) Q)
  (g1_add (msm (vmul (vscale a s) Gf) G)
  (g1_add (msm (vmul (vscale b (rev s)) Hf) H)
  (g1_add (g1_neg (msm usq Ls)) (g1_neg (msm uisq Rs))))).

Lemma msm_map_opp l g : msm (map fopp l) g = g1_neg (msm l g).
Proof.
  replace (map fopp l) with (vscale (- (1)) l).
  - rewrite msm_vscale, g1_neg_mul. reflexivity.
  - apply map_ext. intros. ring.
Qed.

Lemma verify_ipp_gen n t Gf Hf Pt Q G H a b Ls Rs usq uisq s t' :
  length Ls = length Rs -> length G = n -> length H = n -> length Gf = n -> length Hf = n ->
  verification_scalars Ls Rs n t = Done (Ok (usq, uisq, s, t')) ->
  verify_ipp n t Gf Hf Pt Q G H a b Ls Rs =
  Done (if g1_eqb (ipp_check_point a b Q Gf Hf G H usq uisq s Ls Rs) Pt
        then Ok tt else Err VerificationError, t').
Proof.
  intros HLR HG HH HGf HHf E. unfold verify_ipp. rewrite E. cbn [obind unwrap_result].
  apply verification_scalars_shape in E as (Hn & H32 & Ls' & L1 & L2).
  rewrite firstn_all2 by (rewrite zipw_length; lia).
  rewrite msm_checked_ok.
  2:{ rewrite !app_length, !zipw_length, rev_length, !map_length. simpl. lia. }
  cbn [obind]. repeat f_equal. unfold ipp_check_point.
  rewrite !msm_app by (rewrite ?zipw_length, ?rev_length, ?map_length; simpl; lia).
  assert (Z : forall c f s, zipw (fun g_i s_i => (c * s_i) * g_i) f s = vmul (vscale c s) f).
  { intros c f s0. unfold vmul, vscale. clear. revert s0; induction f; destruct s0; simpl; try reflexivity.
    rewrite IHf. reflexivity. }
  rewrite !Z, !msm_map_opp. simpl. rewrite g1_id_r. reflexivity.
Qed.

(** *** The final multi-scalar multiplication is [E1 + r E2] *)
Definition check_ipp (proof : r1cs_proof) (g h : G1) (G_p H_p : list G1) (a b u x w : F)
    (gs hs usq uisq : list F) : G1 :=
  g1_add (g1_mul x (g1_add (A_I1 proof) (g1_mul u (A_I2 proof))))
  (g1_add (g1_mul (x * x) (g1_add (A_O1 proof) (g1_mul u (A_O2 proof))))
  (g1_add (g1_mul (x * x * x) (g1_add (S1 proof) (g1_mul u (S2 proof))))
  (g1_add (g1_mul (- e_blinding proof) h)
  (g1_add (g1_mul (w * (t_x proof - a * b)) g)
  (g1_add (msm gs G_p) (g1_add (msm hs H_p)
  (g1_add (msm usq (ipp_L (proof_ipp proof))) (msm uisq (ipp_R (proof_ipp proof)))))))))).

Definition check_t (proof : r1cs_proof) (g h : G1) (V : list G1) (wV : list F) (wc delta x : F) : G1 :=
  g1_add (g1_mul (x * x) (msm wV V))
  (g1_add (g1_mul x (T_1 proof))
  (g1_add (g1_mul (x * x * x) (T_3 proof))
  (g1_add (g1_mul (x * x * x * x) (T_4 proof))
  (g1_add (g1_mul (x * x * x * x * x) (T_5 proof))
  (g1_add (g1_mul (x * x * x * x * x * x) (T_6 proof))
  (g1_add (g1_mul (x * x * (wc + delta) - t_x proof) g) (g1_mul (- t_x_blinding proof) h))))))).

Lemma verify_final_eq proof g h G_p H_p V wV wc delta a b u x w r gs hs usq uisq :
  length wV = length V -> length gs = length G_p -> length hs = length H_p ->
  length usq = length (ipp_L (proof_ipp proof)) -> length uisq = length (ipp_R (proof_ipp proof)) ->
  verify_final proof g h G_p H_p V wV wc delta a b u x w r gs hs usq uisq =
  Done (g1_add (check_ipp proof g h G_p H_p a b u x w gs hs usq uisq)
               (g1_mul r (check_t proof g h V wV wc delta x))).
Proof.
  intros H1 H2 H3 H4 H5. unfold verify_final. rewrite msm_checked_ok.
  2:{ rewrite !app_length, vscale_length. simpl. lia. }
  f_equal. unfold check_ipp, check_t.
  rewrite !msm_app by (rewrite ?vscale_length; auto).
  rewrite msm_vscale. simpl msm.
  gnorm; ring.
Qed.

(** *** Padded vectors *)
Lemma nth_tab_padded n f i : nth i (tab n f) 0 = padded n f i.
Proof.
  unfold padded. destruct (Nat.ltb_spec i n); [apply tab_nth|apply tab_nth_out]; assumption.
Qed.

Lemma tab_app_zeros n N f : (n <= N)%nat -> tab n f ++ zeros (N - n) = tab N (padded n f).
Proof.
  intros H. apply nth_ext with (d := 0) (d' := 0).
  - rewrite app_length, !tab_length, zeros_length. lia.
  - rewrite app_length, tab_length, zeros_length. intros i Hi. rewrite (tab_nth N) by lia.
    unfold padded. destruct (Nat.ltb_spec i n).
    + rewrite app_nth1 by (rewrite tab_length; lia). apply tab_nth. assumption.
    + rewrite app_nth2 by (rewrite tab_length; lia). unfold zeros. apply nth_repeat.
Qed.

Lemma zipw_tab {A} (f : F -> F -> A) n a b : zipw f (tab n a) (tab n b) = map (fun i => f (a i) (b i)) (seq 0 n).
Proof. apply zipw_map. Qed.

Lemma zipw_tab_le (f : F -> F -> F) n N a b : (n <= N)%nat ->
  zipw f (tab n a) (tab N b) = tab n (fun i => f (a i) (b i)).
Proof.
  intros H. apply nth_ext with (d := 0) (d' := 0).
  - rewrite zipw_length, !tab_length. lia.
  - rewrite zipw_length, !tab_length. intros i Hi.
    rewrite (zipw_nth f _ _ _ 0 0) by (rewrite tab_length; lia).
    rewrite !tab_nth by lia. reflexivity.
Qed.

Lemma nth_repeat_lt {A} (a d : A) n i : (i < n)%nat -> nth i (repeat a n) d = a.
Proof. revert i; induction n; intros i H; [lia|]. destruct i; simpl; [reflexivity|]. apply IHn. lia. Qed.

Lemma phase_factors_tab n1 n N u : (n1 <= n)%nat -> (n <= N)%nat ->
  repeat (1 : F) n1 ++ repeat u ((n - n1) + (N - n)) = tab N (phase_factor n1 u).
Proof.
  intros H1 H2. apply nth_ext with (d := 0) (d' := 0).
  - rewrite app_length, !repeat_length, tab_length. lia.
  - rewrite app_length, !repeat_length. intros i Hi. rewrite tab_nth by lia. unfold phase_factor.
    destruct (Nat.ltb_spec i n1).
    + rewrite app_nth1 by (rewrite repeat_length; lia). apply nth_repeat_lt. assumption.
    + rewrite app_nth2 by (rewrite repeat_length; lia). rewrite repeat_length. apply nth_repeat_lt. lia.
Qed.

Lemma tab_vandermonde y N : vandermonde y N = tab N (fpow y).
Proof. reflexivity. Qed.

Lemma gsum_n_msm n f G : length G = n -> gsum_n n f G = msm (tab n f) G.
Proof.
  intros H. rewrite (msm_sum_nth (tab n f) G n (tab_length n f) H). unfold gsum_n.
  apply gsum_map_ext. intros i Hi. apply in_seq in Hi. rewrite tab_nth by lia. reflexivity.
Qed.

Lemma gsum_n_firstn n f G : (n <= length G)%nat -> gsum_n n f G = msm (tab n f) (firstn n G).
Proof.
  intros H. rewrite <- (gsum_n_msm n f (firstn n G)) by (rewrite firstn_length; lia).
  unfold gsum_n. apply gsum_map_ext. intros i Hi. apply in_seq in Hi.
  rewrite nth_firstn_lt by lia. reflexivity.
Qed.

Lemma next_power_of_two_ge n : (n <= next_power_of_two n)%nat.
Proof.
  unfold next_power_of_two. destruct n; [simpl; lia|].
  destruct (Nat.le_gt_cases n 0) as [H|H]; [assert (n = 0)%nat by lia; subst; simpl; lia|].
  apply Nat.log2_up_spec. lia.
Qed.

Lemma fpow_2 (x : F) : fpow x 2 = x * x. Proof. simpl. ring. Qed.
Lemma fpow_3 (x : F) : fpow x 3 = x * x * x. Proof. simpl. ring. Qed.
Lemma fpow_4 (x : F) : fpow x 4 = x * x * x * x. Proof. simpl. ring. Qed.
Lemma fpow_5 (x : F) : fpow x 5 = x * x * x * x * x. Proof. simpl. ring. Qed.
Lemma fpow_6 (x : F) : fpow x 6 = x * x * x * x * x * x. Proof. simpl. ring. Qed.

(** *** The verdict of [verify], for any proof with |L| = |R| *)
Section Char.
Context (W : world) (s s2 : verifier) (proof : r1cs_proof) (g h : G1) (G H : list G1).
Let n1 := v_num_vars s.
Let n := v_num_vars s2.
Let N := next_power_of_two n.
Let cs := v_constraints s2.
Let c := protocol_challenges (v_transcript s2) proof.
Let Ls := ipp_L (proof_ipp proof).
Let Rs := ipp_R (proof_ipp proof).

(** the P for which the inner-product argument has to hold *)
Definition v_point : G1 :=
  ipp_point proof g h G H n1 n N cs (c_y c) (c_z c) (c_u c) (c_x c) (c_w c).
Definition v_G_factors : list F := tab N (phase_factor n1 (c_u c)).
Definition v_H_factors : list F := tab N (fun i => fpow (finv (c_y c)) i * phase_factor n1 (c_u c) i).

Definition v_check_t : G1 :=
  check_t proof g h (v_V s2) (tab (length (v_V s2)) (fun j => - weight cs (c_z c) (VCommitted j)))
    (- weight cs (c_z c) VOne) (delta n cs (c_y c) (c_z c)) (c_x c).

Lemma v_check_t_equation :
  v_check_t = g1_id <-> t_equation proof g h (v_V s2) n cs (c_y c) (c_z c) (c_x c).
Proof.
  unfold v_check_t, check_t, t_equation. rewrite gsum_n_msm by reflexivity.
  rewrite fpow_2, fpow_3, fpow_4, fpow_5, fpow_6.
  set (M := msm _ _). set (x := c_x c). set (D := delta n cs (c_y c) (c_z c)). set (o := weight cs (c_z c) VOne).
  assert (Hcancel : forall a b : G1, g1_add b (g1_neg a) = g1_id <-> a = b).
  { intros a b. split; intros E.
    - apply (g1_add_cancel_l (g1_neg a)). rewrite (g1_add_comm _ b), E. apply g1_add_neg.
    - subst. rewrite g1_add_comm. apply g1_add_neg. }
  etransitivity; [|apply Hcancel].
  match goal with |- ?a = _ <-> ?b = _ => assert (E : a = b) by (gnorm; ring); rewrite E; reflexivity end.
Qed.

Theorem verify_char usq uisq sv t' :
  verifier_create_randomized_constraints W
    (v_with_transcript (first_phase_transcript proof (length (v_V s)) (v_transcript s)) s) = Done (Ok s2) ->
  (N <= length G)%nat -> (N <= length H)%nat ->
  Forall (lc_in_range n (length (v_V s2))) cs ->
  length Ls = length Rs ->
  verification_scalars Ls Rs N (c_t c) = Done (Ok (usq, uisq, sv, t')) ->
  verify W s proof g h G H =
  Done (if g1_eqb (g1_add (g1_add v_point
            (g1_neg (ipp_check_point (ipp_a (proof_ipp proof)) (ipp_b (proof_ipp proof)) (g1_mul (c_w c) g)
               v_G_factors v_H_factors (firstn N G) (firstn N H) usq uisq sv Ls Rs)))
            (g1_mul (w_random W (v_nrand s2)) v_check_t)) g1_id
        then Ok t' else Err VerificationError).
Proof.
  intros E2 HG HH Hr HLR Evs. unfold verify.
  unfold first_phase_transcript in E2. rewrite E2. cbn [orbind].
  apply verifier_second_phase_ext in E2 as (Hn1 & HV & _ & _). cbn [v_num_vars v_with_transcript v_V] in Hn1, HV.
  fold n. fold N. destruct (Nat.ltb_spec (length G) N); [lia|].
  unfold challenge_scalar. cbn [fst snd].
  rewrite (verifier_flattened_ok s2 _ Hr). cbn [obind].
  pose proof (next_power_of_two_ge n : n <= N)%nat as HnN.
  set (y := challenge_value "y" _). set (z := challenge_value "z" _). set (u := challenge_value "u" _).
  set (x := challenge_value "x" _). set (w := challenge_value "w" _).
  change (c_t c) with (c_t (protocol_challenges (v_transcript s2) proof)) in Evs. cbn [c_t protocol_challenges] in Evs.
  rewrite tab_vandermonde, (zipw_tab_le _ n N) by assumption.
  rewrite !tab_app_zeros by assumption. fold n n1 cs.
  unfold slice_to at 1. rewrite tab_length. destruct (Nat.leb_spec n N); [|lia]. cbn [obind].
  assert (Efst : firstn n (tab N (padded n (fun i => weight cs z (VRight i) * fpow (finv y) i))) =
                 tab n (fun i => weight cs z (VRight i) * fpow (finv y) i)).
  { apply nth_ext with (d := 0) (d' := 0).
    - rewrite firstn_length, !tab_length. lia.
    - rewrite firstn_length, tab_length. intros i Hi. rewrite nth_firstn_lt, !tab_nth by lia.
      unfold padded. destruct (Nat.ltb_spec i n); [reflexivity|lia]. }
  rewrite Efst. rewrite inner_product_ok by (rewrite !tab_length; reflexivity). cbn [obind].
  fold Ls Rs. rewrite Evs. cbn [obind].
  pose proof (verification_scalars_shape _ _ _ _ _ _ _ _ Evs) as (HN & H32 & Lsv & Lusq & Luisq).
  unfold slice_to. destruct (Nat.leb_spec N (length G)); [|lia]. destruct (Nat.leb_spec N (length H)); [|lia].
  cbn [obind]. rewrite (phase_factors_tab n1 n N u) by assumption.
  rewrite (firstn_all2 sv) by lia. rewrite (firstn_all2 (rev sv)) by (rewrite rev_length; lia).
  assert (Esv : forall l : list F, length l = N -> l = tab N (fun i => nth i l 0))
    by (intros l Hl; apply tab_of_list; assumption).
  assert (Egs : zipw3 (g_scalar x (ipp_a (proof_ipp proof)))
      (tab N (padded n (fun i => weight cs z (VRight i) * fpow (finv y) i))) (tab N (phase_factor n1 u)) sv =
    tab N (fun i => phase_factor n1 u i * (x * (fpow (finv y) i * padded n (fun i => weight cs z (VRight i)) i)
                     - ipp_a (proof_ipp proof) * nth i sv 0))).
  { rewrite (Esv sv Lsv) at 1. unfold zipw3, tab. rewrite !zipw_map. apply map_ext. intros i.
    unfold g_scalar, padded. cbn [fst snd]. destruct (Nat.ltb i n); ring. }
  assert (Ehs : zipw5 (h_scalar x (ipp_b (proof_ipp proof))) (tab N (fpow (finv y))) (tab N (phase_factor n1 u)) (rev sv)
      (tab N (padded n (fun j => weight cs z (VLeft j)))) (tab N (padded n (fun j => weight cs z (VOut j)))) =
    tab N (fun i => phase_factor n1 u i * (fpow (finv y) i * (x * padded n (fun i => weight cs z (VLeft i)) i
              + padded n (fun i => weight cs z (VOut i)) i - ipp_b (proof_ipp proof) * nth i (rev sv) 0) - 1))).
  { rewrite (Esv (rev sv)) at 1 by (rewrite rev_length; assumption). unfold zipw5, tab. rewrite !zipw_map.
    apply map_ext. intros i. unfold h_scalar. reflexivity. }
  rewrite Egs, Ehs.
  rewrite verify_final_eq.
  2:{ apply tab_length. }
  2,3: rewrite tab_length, firstn_length; lia.
  2:{ fold Ls. lia. }
  2:{ fold Rs. lia. }
  cbn [obind].
  match goal with |- (if g1_eqb (g1_add ?a ?b) _ then _ else _) = Done (if g1_eqb (g1_add ?a' ?b') _ then _ else _) =>
    assert (Ea : a = a'); [|assert (Eb : b = b'); [|rewrite Ea, Eb; destruct (g1_eqb _ _); reflexivity]] end.
  - unfold check_ipp, v_point, ipp_point, ipp_check_point.
    change (c_y c) with y. change (c_z c) with z. change (c_u c) with u. change (c_x c) with x. change (c_w c) with w.
    rewrite !gsum_n_firstn by assumption. cbn zeta.
    fold Ls Rs.
    assert (Evm1 : vmul (vscale (ipp_a (proof_ipp proof)) sv) v_G_factors =
      tab N (fun i => ipp_a (proof_ipp proof) * nth i sv 0 * phase_factor n1 u i)).
    { rewrite (Esv sv Lsv) at 1. unfold v_G_factors, vmul, vscale, tab. rewrite map_map, zipw_map. reflexivity. }
    assert (Evm2 : vmul (vscale (ipp_b (proof_ipp proof)) (rev sv)) v_H_factors =
      tab N (fun i => ipp_b (proof_ipp proof) * nth i (rev sv) 0 * (fpow (finv y) i * phase_factor n1 u i))).
    { rewrite (Esv (rev sv)) at 1 by (rewrite rev_length; assumption).
      unfold v_H_factors, vmul, vscale, tab. rewrite map_map, zipw_map. reflexivity. }
    rewrite Evm1, Evm2.
    assert (Split : forall (f a b : nat -> F) K, (forall i, f i = a i - b i) ->
      msm (tab N f) K = g1_add (msm (tab N a) K) (g1_neg (msm (tab N b) K))).
    { intros f a b K Hf. rewrite <- msm_map_opp, <- msm_vadd by (rewrite map_length, !tab_length; reflexivity).
      f_equal. unfold vadd, tab. rewrite map_map, zipw_map. apply map_ext. intros i. rewrite Hf. ring. }
    rewrite (Split _ (fun i => phase_factor n1 u i * (x * (fpow (finv y) i * padded n (fun i => weight cs z (VRight i)) i)))
      (fun i => ipp_a (proof_ipp proof) * nth i sv 0 * phase_factor n1 u i)) by (intros; ring).
    rewrite (Split _ (fun i => phase_factor n1 u i * (fpow (finv y) i * (x * padded n (fun i => weight cs z (VLeft i)) i
              + padded n (fun i => weight cs z (VOut i)) i) - 1))
      (fun i => ipp_b (proof_ipp proof) * nth i (rev sv) 0 * (fpow (finv y) i * phase_factor n1 u i)) (firstn N H)) by (intros; ring).
    rewrite fpow_2, fpow_3. unfold Ls, Rs. gnorm; ring.
  - f_equal. unfold v_check_t. change (c_z c) with z. change (c_y c) with y. change (c_x c) with x. f_equal.
    unfold delta, sum_n. unfold tab. rewrite ip_map. apply fsum_map_ext. intros i _. ring.
Qed.

End Char.

End VerifyProofs.
