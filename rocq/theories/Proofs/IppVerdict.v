(** Exactly when [verify_ipp] panics, and what it accepts otherwise. *)
From Coq Require Import ZArith String List Lia Bool Arith.
From Verif.Base Require Import Outcome Fp Params Algebra.
From Verif.Model Require Import Transcript LinComb IPP Prover Verifier.
From Verif.Spec Require Import IPPSpec IPPVerdict.
From Verif.Proofs Require Import IPPProofs VerifyProofs VerdictProofs.
Import ListNotations.
Local Notation length := List.length.

Section Verdict.
Context {P : Params} {OK : ParamsOk P}.
Local Open Scope fe_scope.
Add Field FFiv : (Fp_field_theory modulus modulus_prime).

Lemma ipp_challenges_firstn : forall Ls Rs t, ipp_challenges Ls (firstn (length Ls) Rs) t = ipp_challenges Ls Rs t.
Proof.
  induction Ls as [|L Ls IH]; intros [|R Rs] t; try reflexivity.
  cbn [length firstn ipp_challenges]. destruct (challenge_scalar _ _) as [u t1]. rewrite IH. reflexivity.
Qed.
Lemma verification_scalars_firstn Ls Rs n t :
  verification_scalars Ls (firstn (length Ls) Rs) n t = verification_scalars Ls Rs n t.
Proof. unfold verification_scalars. rewrite ipp_challenges_firstn. reflexivity. Qed.

Lemma verification_scalars_decides Ls Rs n t :
  (length Ls < 32)%nat -> n = (2 ^ length Ls)%nat -> (length Ls <= length Rs)%nat ->
  (length Ls = 0%nat -> batch_invert_empty_panics = false) ->
  exists usq uisq s t', verification_scalars Ls Rs n t = Done (Ok (usq, uisq, s, t')) /\
    length usq = length Ls /\ length uisq = length Ls /\ length s = n.
Proof.
  intros H32 Hn HLR Hb. rewrite <- verification_scalars_firstn. apply verification_scalars_total; auto.
  - rewrite firstn_length. lia.
  - destruct Ls; [right; apply Hb; reflexivity|left; discriminate].
Qed.

Theorem verify_ipp_decides n t Ls Rs : exists t', forall Gf Hf Q G H a b,
  ipp_counts batch_invert_empty_panics n (length G) (length H) (length Gf) (length Hf) (length Ls) (length Rs) ->
  exists P0, forall Pt,
    (Pt = P0 -> verify_ipp n t Gf Hf Pt Q G H a b Ls Rs = Done (Ok tt, t')) /\
    (Pt <> P0 -> verify_ipp n t Gf Hf Pt Q G H a b Ls Rs = Done (Err VerificationError, t')).
Proof.
  destruct (verification_scalars Ls Rs n t) as [[[[[usq uisq] s] t']|e]|] eqn:E.
  2,3: exists t; intros Gf Hf Q G H a b (H32 & Hn & HLR & Hb & _);
    destruct (verification_scalars_decides Ls Rs n t H32 Hn HLR Hb) as (? & ? & ? & ? & E' & _); congruence.
  exists t'. intros Gf Hf Q G H a b (H32 & Hn & HLR & Hb & Hc).
  unfold verify_ipp. rewrite E. cbn [obind unwrap_result].
  apply verification_scalars_shape in E as (_ & _ & Lsv & L1 & L2).
  eexists. intros Pt.
  rewrite msm_checked_ok.
  2:{ rewrite !app_length, firstn_length, !zipw_length, rev_length, !map_length. cbn [length]. lia. }
  cbn [obind]. split.
  - intros ->. rewrite g1_eqb_refl. reflexivity.
  - intros Hne. match goal with |- context [g1_eqb ?x Pt] => destruct (g1_eqb x Pt) eqn:Eb end; [|reflexivity].
    apply g1_eqb_spec in Eb. exfalso. apply Hne. symmetry. exact Eb.
Qed.

Theorem verify_ipp_panic n t Gf Hf Pt Q G H a b Ls Rs :
  verify_ipp n t Gf Hf Pt Q G H a b Ls Rs = Panic <->
  ~ ipp_counts batch_invert_empty_panics n (length G) (length H) (length Gf) (length Hf) (length Ls) (length Rs).
Proof.
  split.
  - intros E Hc. destruct (verify_ipp_decides n t Ls Rs) as [t' Hd].
    destruct (Hd Gf Hf Q G H a b Hc) as [P0 HP]. destruct (HP Pt) as [H1 H2].
    destruct (g1_eqb Pt P0) eqn:Eb.
    + apply g1_eqb_spec in Eb. rewrite (H1 Eb) in E. discriminate.
    + apply g1_eqb_neq in Eb. rewrite (H2 Eb) in E. discriminate.
  - intros Hc. destruct (verify_ipp n t Gf Hf Pt Q G H a b Ls Rs) as [[r t']|] eqn:E; [exfalso; apply Hc|reflexivity].
    destruct (Nat.le_gt_cases 32 (length Ls)) as [H32|H32]; [rewrite verify_ipp_panics in E by auto; discriminate|].
    destruct (Nat.eq_dec n (2 ^ length Ls)) as [Hn|Hn]; [|rewrite verify_ipp_panics in E by auto; discriminate].
    unfold verify_ipp in E.
    destruct (Nat.lt_ge_cases (length Rs) (length Ls)) as [Hlt|Hge].
    { rewrite (verification_scalars_short (Verifier [] [] 0 [] [] None 0 0)) in E by assumption. discriminate. }
    destruct (verification_scalars Ls Rs n t) as [[[[[usq uisq] sv] t1]|e]|] eqn:Evs; cbn [obind] in E; [|discriminate|discriminate].
    assert (Hne : length Ls = 0%nat -> batch_invert_empty_panics = false).
    { destruct Ls as [|L Ls]; [intros _|discriminate].
      destruct batch_invert_empty_panics eqn:Eb; [exfalso|reflexivity]. cbn in Evs.
      destruct (negb _); [discriminate|]. unfold batch_invert in Evs. rewrite Eb in Evs. discriminate. }
    apply verification_scalars_shape in Evs as (_ & _ & Lsv & L1 & L2).
    cbn [unwrap_result obind] in E. unfold msm_checked in E.
    match type of E with context [Nat.eqb ?p ?q] => destruct (Nat.eqb_spec p q) as [Eq|]; [|discriminate] end.
    rewrite !app_length, firstn_length, !zipw_length, !map_length, rev_length in Eq. cbn [length] in Eq.
    repeat split; auto. lia.
Qed.

(** *** A challenge that is zero *)
Lemma fprod_zero us : In 0 us -> fprod us = 0.
Proof.
  induction us as [|u us IH]; intros Hin; [destruct Hin|]. unfold fprod in *. cbn [fold_right]. destruct Hin as [->|Hin]; [|rewrite (IH Hin)]; ring.
Qed.
(** the product of all elements is zero, so is the only inverse that is computed, and so are all values made from it *)
Lemma batch_invert_go_zero : forall l pre, pre * fprod l = 0 -> batch_invert_go pre l = (zeros (length l), 0).
Proof.
  induction l as [|a l IH]; intros pre H0.
  - cbn. f_equal. replace pre with (0 : F); [reflexivity|]. rewrite <- H0. unfold fprod. cbn. ring.
  - cbn [batch_invert_go length]. rewrite IH.
    + unfold zeros. cbn [repeat]. replace (0 * pre) with (0 : F) by ring. replace (0 * a) with (0 : F) by ring. reflexivity.
    + rewrite <- H0. unfold fprod. cbn [fold_right]. ring.
Qed.
Lemma batch_invert_zero l : In 0 l -> batch_invert l = Done (zeros (length l), 0).
Proof.
  intros Hin. unfold batch_invert. destruct l as [|a l]; [destruct Hin|].
  rewrite batch_invert_go_zero by (rewrite (fprod_zero _ Hin); ring). rewrite (fprod_zero _ Hin). reflexivity.
Qed.
Lemma zeros_app1 k : zeros k ++ [0 : F] = zeros (S k).
Proof. unfold zeros. induction k as [|k IH]; [reflexivity|]. cbn [repeat app]. rewrite IH. reflexivity. Qed.
Lemma nth_zeros k i : nth i (zeros k) (0 : F) = 0.
Proof. unfold zeros. revert i; induction k as [|k IH]; intros [|i]; try reflexivity. apply IH. Qed.
Lemma s_values_zero lg n sq s : s_values lg n 0 sq = Done s -> s = zeros (length s).
Proof.
  unfold s_values.
  assert (Hgo : forall l s0 s1, s0 = zeros (length s0) -> foldM (fun s i => obind (index sq (lg - 1 - Nat.log2 i))
      (fun u_lg_i_sq => obind (index s (i - 2 ^ Nat.log2 i)) (fun s_ik => Done (s ++ [s_ik * u_lg_i_sq])))) l s0
      = Done s1 -> s1 = zeros (length s1)).
  { induction l as [|i l IH]; intros s0 s1 H0; cbn [foldM].
    - intros E. injection E as <-. exact H0.
    - destruct (index sq _) as [u|]; cbn [obind]; [|discriminate].
      destruct (index s0 _) as [x|] eqn:Ex; cbn [obind]; [|discriminate].
      apply IH. assert (Hx : x = 0).
      { destruct (Nat.lt_ge_cases (i - 2 ^ Nat.log2 i) (length s0)) as [Hl|Hl].
        - rewrite (index_ok s0 _ 0) in Ex by lia. injection Ex as <-. rewrite H0. apply nth_zeros.
        - rewrite index_out in Ex by lia. discriminate. }
      rewrite Hx, app_length. cbn [length]. rewrite Nat.add_1_r, <- zeros_app1, <- H0. replace (0 * u) with (0 : F) by ring. reflexivity. }
  intros E. apply (Hgo _ [0] s eq_refl E).
Qed.
Lemma vscale_zeros c k : vscale c (zeros k) = zeros k.
Proof. unfold vscale, zeros. induction k as [|k IH]; [reflexivity|]. cbn [repeat map]. rewrite IH. f_equal; ring. Qed.
Lemma vmul_zeros k : forall f : list F, (length f = k)%nat -> vmul (zeros k) f = zeros k.
Proof.
  unfold vmul, zeros. induction k as [|k IH]; intros [|x f] Hl; try discriminate; [reflexivity|]. cbn [repeat zipw].
  rewrite IH by (cbn in Hl; lia). f_equal; ring.
Qed.
Lemma rev_zeros k : rev (zeros k) = zeros k :> list F.
Proof. induction k as [|k IH]; [reflexivity|]. unfold zeros in *. cbn [repeat rev]. rewrite IH. apply zeros_app1. Qed.

Theorem verify_ipp_zero n t Gf Hf Pt Q G H a b Ls Rs us t' :
  length Ls = length Rs -> (length Ls < 32)%nat -> n = (2 ^ length Ls)%nat ->
  length G = n -> length H = n -> length Gf = n -> length Hf = n ->
  ipp_challenges Ls Rs (innerproduct_domain_sep n t) = (us, t') -> In 0 us ->
  verify_ipp n t Gf Hf Pt Q G H a b Ls Rs = Done (Ok tt, t') <->
  Pt = g1_add (g1_mul (a * b) Q) (g1_neg (msm (map (fun u => u * u) us) Ls)).
Proof.
  intros HLR H32 Hn HG HH HGf HHf Hch H0.
  assert (Hl : length us = length Ls).
  { pose proof (ipp_challenges_length Ls Rs (innerproduct_domain_sep n t)) as L. rewrite Hch in L. cbn [fst] in L. lia. }
  destruct (s_values_total (length Ls) 0 (map (fun c => c * c) us)) as (s & Es & Lsv); [rewrite map_length; exact Hl|].
  assert (E : verification_scalars Ls Rs n t = Done (Ok (map (fun c => c * c) us, zeros (length Ls), s, t'))).
  { unfold verification_scalars. destruct (Nat.leb_spec 32 (length Ls)); [lia|]. rewrite Hn, Nat.eqb_refl. cbn [negb].
    rewrite <- Hn, Hch, (batch_invert_zero us H0). cbn [obind]. rewrite Hn, Es. cbn [obind]. rewrite Hl.
    assert (Ez : map (fun c : F => c * c) (zeros (length Ls)) = zeros (length Ls)); [|rewrite Ez; reflexivity].
    unfold zeros. clear. induction (length Ls) as [|k IH]; [reflexivity|]. cbn [repeat map]. rewrite IH. f_equal; ring. }
  rewrite (verify_ipp_gen n t Gf Hf Pt Q G H a b Ls Rs _ _ _ _ HLR HG HH HGf HHf E).
  apply s_values_zero in Es. rewrite Lsv, <- Hn in Es.
  assert (Ep : ipp_check_point a b Q Gf Hf G H (map (fun c => c * c) us) (zeros (length Ls)) s Ls Rs =
    g1_add (g1_mul (a * b) Q) (g1_neg (msm (map (fun u => u * u) us) Ls))).
  { unfold ipp_check_point. rewrite Es, rev_zeros, !vscale_zeros, !vmul_zeros, !msm_zeros by assumption.
    rewrite !g1_add_id, <- (msm_map_opp [] [] : g1_id = g1_neg g1_id), g1_id_r. reflexivity. }
  rewrite Ep. split.
  - intros Ev. destruct (g1_eqb _ Pt) eqn:Eb in Ev; [|discriminate]. apply g1_eqb_spec in Eb. symmetry. exact Eb.
  - intros ->. rewrite g1_eqb_refl. reflexivity.
Qed.
End Verdict.
