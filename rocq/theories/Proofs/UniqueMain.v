(** Accepted answers to the same challenges are the same, or yield a relation. *)
From Coq Require Import ZArith String List Lia Arith Ring Field.
From Verif.Base Require Import Outcome Fp Params Algebra.
From Verif.Model Require Import Transcript LinComb Prog IPP Prover Verifier.
From Verif.Spec Require Import R1CS Protocol IPPSpec R1CSTree Verdict Unique.
From Verif.Proofs Require Import IPPProofs IPPMain FlattenProofs VerifyProofs VerdictProofs R1CSMain.
Import ListNotations.

Section UniqueMain.
Context {P : Params} {OK : ParamsOk P}.
Local Open Scope fe_scope.
Add Field FFuq : (Fp_field_theory modulus modulus_prime).

Lemma rev_tab n (f : nat -> F) : rev (map f (seq 0 n)) = map (fun i => f (n - 1 - i)%nat) (seq 0 n).
Proof.
  rewrite <- map_rev. apply nth_ext with (d := f 0%nat) (d' := f 0%nat); [rewrite !map_length, rev_length; reflexivity|].
  rewrite map_length, rev_length, seq_length. intros i Hi. rewrite (map_nth f).
  rewrite (nth_indep _ (f 0%nat) ((fun i => f (n - 1 - i)%nat) n)) by (rewrite map_length, seq_length; exact Hi).
  rewrite (map_nth (fun i => f (n - 1 - i)%nat)), rev_nth, !seq_nth by (rewrite ?seq_length; lia). rewrite seq_length. f_equal. lia.
Qed.
Lemma vmul_tab n (f : nat -> F) l c : length l = n -> vmul (vscale c (map f (seq 0 n))) l = map (fun i => c * (f i * nth i l 0)) (seq 0 n).
Proof.
  intros HL. rewrite (tab_of_list l n HL) at 1. unfold vmul, vscale, tab. rewrite map_map, zipw_map. apply map_ext. intros i. ring.
Qed.

Lemma check_difference a b a' b' Q Gf Hf G H usq uisq us n Ls Rs : length Gf = n -> length Hf = n ->
  ipp_check_point a b Q Gf Hf G H usq uisq (map (s_entry us) (seq 0 n)) Ls Rs =
  ipp_check_point a' b' Q Gf Hf G H usq uisq (map (s_entry us) (seq 0 n)) Ls Rs ->
  g1_add (g1_add (msm (difference_G n us Gf a a') G) (msm (difference_H n us Hf b b') H)) (g1_mul (difference_Q a b a' b') Q) = g1_id.
Proof.
  intros LG LH E. unfold ipp_check_point in E. rewrite rev_tab in E. rewrite !vmul_tab in E by assumption. unfold difference_G, difference_H, difference_Q.
  assert (X : forall c (f : nat -> F) l, msm (map (fun i => c * (f i * nth i l 0)) (seq 0 n)) G = g1_mul c (msm (map (fun i => f i * nth i l 0) (seq 0 n)) G)).
  { intros c f l. rewrite <- msm_vscale. f_equal. unfold vscale. rewrite map_map. reflexivity. }
  assert (Y : forall c (f : nat -> F) l, msm (map (fun i => c * (f i * nth i l 0)) (seq 0 n)) H = g1_mul c (msm (map (fun i => f i * nth i l 0) (seq 0 n)) H)).
  { intros c f l. rewrite <- msm_vscale. f_equal. unfold vscale. rewrite map_map. reflexivity. }
  rewrite (X (a - a') (s_entry us)), (Y (b - b') (fun i => s_entry us (n - 1 - i))).
  rewrite (X a (s_entry us)), (X a' (s_entry us)), (Y b (fun i => s_entry us (n - 1 - i))), (Y b' (fun i => s_entry us (n - 1 - i))) in E.
  set (A := msm _ G) in *. set (B := msm _ H) in *. set (L := msm usq Ls) in *. set (R := msm uisq Rs) in *.
  match type of E with ?x = ?y => transitivity (g1_add x (g1_neg y)); [gnorm; ring|rewrite E; gnorm; ring] end.
Qed.
Lemma tab_in n (f : nat -> F) i : (i < n)%nat -> In (f i) (map f (seq 0 n)).
Proof. intros Hi. apply in_map_iff. exists i. split; [reflexivity|]. apply in_seq. lia. Qed.
Lemma difference_nonzero n us Gf Hf a b a' b' : (0 < n)%nat ->
  (forall i, (i < n)%nat -> s_entry us i * s_entry us (n - 1 - i) = 1) -> nth 0 Gf 0 <> 0 -> nth 0 Hf 0 <> 0 ->
  (a = a' /\ b = b') \/ exists x, In x (difference_G n us Gf a a' ++ difference_H n us Hf b b') /\ x <> 0.
Proof.
  intros Hn Hs HG HH.
  assert (S1 : s_entry us 0 <> 0). { intros E. specialize (Hs 0%nat Hn). rewrite E in Hs. apply F_one_neq_zero. rewrite <- Hs. ring. }
  assert (S2 : s_entry us (n - 1 - 0) <> 0). { intros E. specialize (Hs 0%nat Hn). rewrite E in Hs. apply F_one_neq_zero. rewrite <- Hs. ring. }
  assert (Hsub : forall x y : F, x <> y -> x - y <> 0). { intros x y Hne E. apply Hne. apply F_sub_zero, E. }
  destruct (Fp_eq_dec _ a a') as [Ea|Ea].
  - destruct (Fp_eq_dec _ b b') as [Eb|Eb]; [left; auto|right]. eexists. split; [apply in_or_app; right; apply (tab_in n _ 0%nat Hn)|].
    cbv beta. repeat apply F_mul_nonzero; auto.
  - right. eexists. split; [apply in_or_app; left; apply (tab_in n _ 0%nat Hn)|]. cbv beta. repeat apply F_mul_nonzero; auto.
Qed.

Theorem ipp_unique n t Gf Hf Pt Q G H a b a' b' Ls Rs us t0 t1 t2 :
  length Ls = length Rs -> (length Ls < 32)%nat -> n = (2 ^ length Ls)%nat -> Ls <> [] \/ batch_invert_empty_panics = false ->
  length G = n -> length H = n -> length Gf = n -> length Hf = n -> all_nonzero Gf -> all_nonzero Hf ->
  ipp_challenges Ls Rs (innerproduct_domain_sep n t) = (us, t0) -> all_nonzero us ->
  verify_ipp n t Gf Hf Pt Q G H a b Ls Rs = Done (Ok tt, t1) ->
  verify_ipp n t Gf Hf Pt Q G H a' b' Ls Rs = Done (Ok tt, t2) ->
  (a = a' /\ b = b') \/ relation Q G H (difference_G n us Gf a a') (difference_H n us Hf b b') (difference_Q a b a' b').
Proof.
  intros HLR H32 Hn Hbi LG LH LGf LHf NG NH Ech Hus V1 V2.
  destruct (scalars_closed Ls Rs n t us t0 HLR H32 Hn Hbi Ech Hus) as [Evs Hs].
  rewrite (verify_ipp_gen _ _ _ _ _ _ _ _ _ _ _ _ _ _ _ _ HLR LG LH LGf LHf Evs) in V1.
  rewrite (verify_ipp_gen _ _ _ _ _ _ _ _ _ _ _ _ _ _ _ _ HLR LG LH LGf LHf Evs) in V2.
  destruct (g1_eqb _ Pt) eqn:E1 in V1; [|discriminate]. destruct (g1_eqb _ Pt) eqn:E2 in V2; [|discriminate].
  apply g1_eqb_spec in E1. apply g1_eqb_spec in E2.
  assert (Hn0 : (0 < n)%nat). { rewrite Hn. clear. pose proof (Nat.pow_nonzero 2 (length Ls)). lia. }
  assert (Hx : forall l, length l = n -> all_nonzero l -> nth 0 l 0 <> 0).
  { intros l HL Hl. unfold all_nonzero in Hl. rewrite Forall_forall in Hl. apply Hl, nth_In. lia. }
  destruct (difference_nonzero n us Gf Hf a b a' b' Hn0 Hs (Hx _ LGf NG) (Hx _ LHf NH)) as [E|E]; [left; exact E|right].
  split; [|split; [|split]].
  - unfold difference_G. rewrite map_length, seq_length. auto.
  - unfold difference_H. rewrite map_length, seq_length. auto.
  - eapply check_difference; try eassumption. rewrite E1, E2. reflexivity.
  - left. exact E.
Qed.

Section Whole.
Context (s s2 : verifier) (pf : r1cs_proof) (a' b' : F) (g h : G1) (G H : list G1).
Local Notation pf' := (with_last a' b' pf).
Local Notation n := (v_num_vars s2).
Local Notation N := (next_power_of_two n).
Local Notation c := (protocol_challenges (v_transcript s2) pf).
Local Notation us := (round_challenges n c pf).

Lemma phase_factor_nonzero n1 (u : F) i : u <> 0 -> phase_factor n1 u i <> 0.
Proof. intros Hu. unfold phase_factor. destruct (Nat.ltb i n1); [apply F_one_neq_zero|exact Hu]. Qed.

Lemma whole_relation usq uisq Ls Rs : (0 < N)%nat -> (N <= length G)%nat -> (N <= length H)%nat -> c_y c <> 0 -> c_u c <> 0 ->
  (forall i, (i < N)%nat -> s_entry us i * s_entry us (N - 1 - i) = 1) ->
  ipp_check_point (ipp_a (proof_ipp pf)) (ipp_b (proof_ipp pf)) (g1_mul (c_w c) g) (v_G_factors s s2 pf) (v_H_factors s s2 pf) (firstn N G) (firstn N H)
    usq uisq (map (s_entry us) (seq 0 N)) Ls Rs =
  ipp_check_point a' b' (g1_mul (c_w c) g) (v_G_factors s s2 pf) (v_H_factors s s2 pf) (firstn N G) (firstn N H) usq uisq (map (s_entry us) (seq 0 N)) Ls Rs ->
  (ipp_a (proof_ipp pf) = a' /\ ipp_b (proof_ipp pf) = b') \/
  generator_relation (g :: firstn N G ++ firstn N H) (last_difference s s2 pf a' b').
Proof.
  intros HN HG HH Hy Hu Hs E. unfold last_difference. cbv zeta.
  set (Gf := map (phase_factor (v_num_vars s) (c_u c)) (seq 0 N)). set (Hf := map (fun i => fpow (finv (c_y c)) i * phase_factor (v_num_vars s) (c_u c) i) (seq 0 N)).
  assert (LG : length Gf = N) by (unfold Gf; rewrite map_length, seq_length; reflexivity).
  assert (LH : length Hf = N) by (unfold Hf; rewrite map_length, seq_length; reflexivity).
  destruct (difference_nonzero N us Gf Hf (ipp_a (proof_ipp pf)) (ipp_b (proof_ipp pf)) a' b' HN Hs) as [X|(x & X & Hx)].
  - unfold Gf. rewrite (nth_map_seq _ N 0) by exact HN. apply phase_factor_nonzero, Hu.
  - unfold Hf. rewrite (nth_map_seq _ N 0) by exact HN. apply F_mul_nonzero; [apply fpow_nonzero, finv_nonzero, Hy|apply phase_factor_nonzero, Hu].
  - left. exact X.
  - right. split; [|split].
    + cbn [length]. rewrite !app_length, !firstn_length. unfold difference_G, difference_H. rewrite !map_length, !seq_length. lia.
    + cbn [msm]. rewrite msm_app by (unfold difference_G; rewrite map_length, seq_length, firstn_length; lia).
      pose proof (check_difference _ _ _ _ _ _ _ _ _ _ _ us N _ _ LG LH E) as D.
      rewrite g1_mul_mul in D. etransitivity; [|exact D]. rewrite (g1_add_comm (g1_mul _ g)). f_equal. f_equal. ring.
    + exists x. split; [right; exact X|exact Hx].
Qed.

(** under the same random value *)
Theorem last_unique W t t' : v_second W pf s s2 ->
  verify W s pf g h G H = Done (Ok t) -> verify W s pf' g h G H = Done (Ok t') ->
  c_y c <> 0 -> c_u c <> 0 -> all_nonzero us -> (1 < n)%nat \/ batch_invert_empty_panics = false ->
  (ipp_a (proof_ipp pf) = a' /\ ipp_b (proof_ipp pf) = b') \/
  generator_relation (g :: firstn N G ++ firstn N H) (last_difference s s2 pf a' b').
Proof.
  intros E2 V V' Hy Hu Hus Hbi. destruct (verify_inv _ _ _ _ _ _ _ _ V) as (s2' & E2' & HG & HH & Hr & HLR & H32 & HN & _).
  assert (s2' = s2) as ->. { unfold v_second, v_absorb in E2. rewrite E2 in E2'. injection E2' as <-. reflexivity. }
  assert (Hb : ipp_L (proof_ipp pf) <> [] \/ batch_invert_empty_panics = false).
  { destruct Hbi as [Hn|Hb]; [left|right; exact Hb]. intros E. rewrite E in HN. pose proof (next_power_of_two_ge n) as Hge. cbn in HN. lia. }
  destruct (ipp_challenges (ipp_L (proof_ipp pf)) (ipp_R (proof_ipp pf)) (innerproduct_domain_sep N (c_t c))) as [us0 t0] eqn:Ech.
  assert (us0 = us) as -> by (unfold round_challenges; rewrite Ech; reflexivity).
  destruct (scalars_closed _ _ _ _ _ _ HLR H32 HN Hb Ech Hus) as [Evs Hs].
  pose proof (verify_char W s s2 pf g h G H _ _ _ _ E2 HG HH Hr HLR Evs) as C1.
  pose proof (verify_char W s s2 pf' g h G H _ _ _ _ E2 HG HH Hr HLR Evs) as C2.
  rewrite V in C1. rewrite V' in C2. destruct (g1_eqb _ _) eqn:E1 in C1; [|discriminate]. destruct (g1_eqb _ _) eqn:E3 in C2; [|discriminate].
  apply g1_eqb_spec in E1. apply g1_eqb_spec in E3.
  apply (whole_relation (map (fun u => u * u) us) (map (fun u => finv u * finv u) us) (ipp_L (proof_ipp pf)) (ipp_R (proof_ipp pf))); try assumption; [rewrite HN; pose proof (Nat.pow_nonzero 2 (length (ipp_L (proof_ipp pf)))); lia|].
  rewrite <- E3 in E1.
  change (v_point s s2 pf' g h G H) with (v_point s s2 pf g h G H) in E1. change (v_check_t s2 pf' g h) with (v_check_t s2 pf g h) in E1.
  change (v_G_factors s s2 pf') with (v_G_factors s s2 pf) in E1. change (v_H_factors s s2 pf') with (v_H_factors s s2 pf) in E1.
  change (ipp_a (proof_ipp pf')) with a' in E1. change (ipp_b (proof_ipp pf')) with b' in E1.
  change (protocol_challenges (v_transcript s2) pf') with c in E1.
  change (ipp_L (proof_ipp pf')) with (ipp_L (proof_ipp pf)) in E1. change (ipp_R (proof_ipp pf')) with (ipp_R (proof_ipp pf)) in E1.
  match type of E1 with g1_add (g1_add ?p (g1_neg ?x)) ?r = g1_add (g1_add ?p (g1_neg ?y)) ?r => set (X := x) in *; set (Y := y) in *; set (PP := p) in *; set (RR := r) in * end.
  transitivity (g1_add (g1_add PP RR) (g1_neg (g1_add (g1_add PP (g1_neg X)) RR))); [gnorm; ring|]. rewrite E1. gnorm; ring.
Qed.
(** when the equations hold *)
Theorem last_unique_equations :
  equation_ipp s s2 pf g h G H -> equation_ipp s s2 pf' g h G H -> proof_fits s2 pf G H ->
  c_y c <> 0 -> c_u c <> 0 -> all_nonzero us ->
  (ipp_a (proof_ipp pf) = a' /\ ipp_b (proof_ipp pf) = b') \/
  generator_relation (g :: firstn N G ++ firstn N H) (last_difference s s2 pf a' b').
Proof.
  intros (t & V) (t' & V') [HG HH Hr HLR H32 HN Hbi] Hy Hu Hus.
  assert (Hb : ipp_L (proof_ipp pf) <> [] \/ batch_invert_empty_panics = false).
  { destruct Hbi as [Hn|Hb]; [left|right; exact Hb]. intros E. rewrite E in HN. pose proof (next_power_of_two_ge n) as Hge. cbn in HN. lia. }
  destruct (ipp_challenges (ipp_L (proof_ipp pf)) (ipp_R (proof_ipp pf)) (innerproduct_domain_sep N (c_t c))) as [us0 t0] eqn:Ech.
  assert (us0 = us) as -> by (unfold round_challenges; rewrite Ech; reflexivity).
  destruct (scalars_closed _ _ _ _ _ _ HLR H32 HN Hb Ech Hus) as [Evs Hs].
  assert (LG : length (firstn N G) = N) by (rewrite firstn_length; lia). assert (LH : length (firstn N H) = N) by (rewrite firstn_length; lia).
  assert (L1 : length (v_G_factors s s2 pf) = N) by apply tab_length. assert (L2 : length (v_H_factors s s2 pf) = N) by apply tab_length.
  pose proof (verify_ipp_gen N (c_t c) (v_G_factors s s2 pf) (v_H_factors s s2 pf) (v_point s s2 pf g h G H) (g1_mul (c_w c) g) _ _
    (ipp_a (proof_ipp pf)) (ipp_b (proof_ipp pf)) _ _ _ _ _ _ HLR LG LH L1 L2 Evs) as C1.
  pose proof (verify_ipp_gen N (c_t c) (v_G_factors s s2 pf) (v_H_factors s s2 pf) (v_point s s2 pf g h G H) (g1_mul (c_w c) g) _ _
    a' b' _ _ _ _ _ _ HLR LG LH L1 L2 Evs) as C2.
  rewrite (V : verify_ipp _ _ (v_G_factors s s2 pf) (v_H_factors s s2 pf) (v_point s s2 pf g h G H) _ _ _ _ _ _ _ = _) in C1.
  change (verify_ipp N (c_t c) (v_G_factors s s2 pf) (v_H_factors s s2 pf) (v_point s s2 pf g h G H) (g1_mul (c_w c) g) (firstn N G) (firstn N H)
    a' b' (ipp_L (proof_ipp pf)) (ipp_R (proof_ipp pf)) = Done (Ok tt, t')) in V'. rewrite V' in C2.
  destruct (g1_eqb _ _) eqn:E1 in C1; [|discriminate]. destruct (g1_eqb _ _) eqn:E3 in C2; [|discriminate].
  apply g1_eqb_spec in E1. apply g1_eqb_spec in E3.
  apply (whole_relation (map (fun u => u * u) us) (map (fun u => finv u * finv u) us) (ipp_L (proof_ipp pf)) (ipp_R (proof_ipp pf))); try assumption; [rewrite HN; pose proof (Nat.pow_nonzero 2 (length (ipp_L (proof_ipp pf)))); lia|].
  rewrite E1, E3. reflexivity.
Qed.
End Whole.

(** the evaluation *)
Lemma same_second W pf pf' s s2 : same_points pf pf' -> v_second W pf s s2 -> v_second W pf' s s2.
Proof.
  intros (E1 & E2 & E3 & _) V. unfold v_second in *. replace (v_absorb pf' s) with (v_absorb pf s); [exact V|].
  unfold v_absorb, first_phase_transcript. rewrite E1, E2, E3. reflexivity.
Qed.
Theorem evaluation_unique s2 pf pf' g h : same_points pf pf' -> equation_t s2 pf g h -> equation_t s2 pf' g h ->
  (t_x pf = t_x pf' /\ t_x_blinding pf = t_x_blinding pf') \/
  generator_relation [g; h] [t_x pf - t_x pf'; t_x_blinding pf - t_x_blinding pf'].
Proof.
  intros (E1 & E2 & E3 & E4 & E5 & E6 & E7 & E8 & E9 & E10 & E11) V V'.
  unfold equation_t in V, V'. cbv zeta in V, V'.
  unfold t_equation in V, V'. unfold protocol_challenges in V, V'. rewrite <- E4, <- E5, <- E6, <- E7, <- E8, <- E9, <- E10, <- E11 in V'. cbn [c_y c_z c_x] in V, V'.
  rewrite <- V' in V. clear V'.
  destruct (Fp_eq_dec _ (t_x pf) (t_x pf')) as [Ex|Ex]; [destruct (Fp_eq_dec _ (t_x_blinding pf) (t_x_blinding pf')) as [Eb|Eb]; [left; auto|]|]; right;
    (split; [reflexivity|split; [|eexists; split; [|intros X; apply F_sub_zero in X; first [exact (Eb X)|exact (Ex X)]]; cbn; auto]]);
    cbn [msm];
    (match type of V with ?x = ?y => transitivity (g1_add x (g1_neg y)); [gnorm; ring|rewrite V; gnorm; ring] end).
Qed.
End UniqueMain.
