(** Further facts on the inner-product argument and polynomial products. *)
From Coq Require Import ZArith String List Lia Bool Ring Field Arith.
From Verif.Base Require Import Outcome Fp Params Algebra.
From Verif.Model Require Import Transcript VectorPoly IPP.
From Verif.Spec Require Import IPPSpec.
From Verif.Proofs Require Import IPPProofs VerifyProofs.
Import ListNotations.

Section IPPMore.
Context {P : Params} {OK : ParamsOk P}.
Local Open Scope fe_scope.
Add Field FFmore : (Fp_field_theory modulus modulus_prime).

(** *** Polynomial products *)
Lemma plus_vec_ok a b : length a = length b -> plus_vec a b = Done (vadd a b).
Proof. intros E. unfold plus_vec. rewrite E, Nat.eqb_refl. reflexivity. Qed.

Lemma vadd_length a b : length (vadd a b) = Nat.min (length a) (length b).
Proof. apply zipw_length. Qed.

Lemma vec_poly1_eval_ok p x n : length (vp1_0 p) = n -> length (vp1_1 p) = n ->
  vec_poly1_eval p x = Done (vadd (vp1_0 p) (vscale x (vp1_1 p))).
Proof.
  intros H0 H1. unfold vec_poly1_eval.
  rewrite (mapM_ok _ (fun i => nth i (vp1_0 p) 0 + nth i (vp1_1 p) 0 * x)).
  - f_equal. rewrite H0. destruct p as [p0 p1]; cbn [vp1_0 vp1_1] in *.
    symmetry. rewrite (list_as_map_n p0 0 n H0) at 1. rewrite (list_as_map_n p1 0 n H1) at 1.
    unfold vadd, vscale. rewrite map_map, zipw_map. apply map_ext. intros. ring.
  - intros i Hi. apply in_seq in Hi. rewrite (index_ok _ i 0) by lia. cbn [obind].
    rewrite (index_ok _ i 0) by lia. reflexivity.
Qed.

Theorem vec_poly1_inner_product_spec l r n :
  length (vp1_0 l) = n -> length (vp1_1 l) = n -> length (vp1_0 r) = n -> length (vp1_1 r) = n ->
  exists p, vec_poly1_inner_product l r = Done p /\
    p2_0 p = ip (vp1_0 l) (vp1_0 r) /\
    p2_1 p = ip (vp1_0 l) (vp1_1 r) + ip (vp1_1 l) (vp1_0 r) /\
    p2_2 p = ip (vp1_1 l) (vp1_1 r) /\
    forall x, exists lx rx, vec_poly1_eval l x = Done lx /\ vec_poly1_eval r x = Done rx /\
      poly2_eval p x = ip lx rx.
Proof.
  intros A B C D. unfold vec_poly1_inner_product.
  rewrite (inner_product_ok (vp1_0 l) (vp1_0 r)), (inner_product_ok (vp1_1 l) (vp1_1 r)) by lia. cbn [obind].
  rewrite !plus_vec_ok by lia. cbn [obind].
  rewrite inner_product_ok by (rewrite !vadd_length; lia). cbn [obind].
  eexists. split; [reflexivity|]. cbn [p2_0 p2_1 p2_2].
  rewrite ip_vadd_l, !ip_vadd_r by lia.
  split; [reflexivity|]. split; [ring|]. split; [reflexivity|].
  intros x. rewrite (vec_poly1_eval_ok l x n), (vec_poly1_eval_ok r x n) by assumption.
  eexists _, _. split; [reflexivity|]. split; [reflexivity|].
  unfold poly2_eval. cbn [p2_0 p2_1 p2_2].
  rewrite ip_vadd_l, !ip_vadd_r, !ip_vscale_l, !ip_vscale_r by (rewrite ?vscale_length; lia). ring.
Qed.

Lemma vec_poly1_inner_product_panics l r :
  ~ (length (vp1_0 l) = length (vp1_1 l) /\ length (vp1_0 l) = length (vp1_0 r) /\ length (vp1_0 l) = length (vp1_1 r)) ->
  vec_poly1_inner_product l r = Panic.
Proof.
  intros H. unfold vec_poly1_inner_product, inner_product, plus_vec.
  repeat match goal with |- context [Nat.eqb ?a ?b] => destruct (Nat.eqb_spec a b); cbn [obind]; try reflexivity end.
  exfalso. apply H. lia.
Qed.

Definition vp3_length (n : nat) (p : vec_poly3) : Prop :=
  length (vp3_0 p) = n /\ length (vp3_1 p) = n /\ length (vp3_2 p) = n /\ length (vp3_3 p) = n.

Lemma vec_poly3_eval_ok p x n : vp3_length n p ->
  vec_poly3_eval p x = Done (vadd (vp3_0 p) (vadd (vscale x (vp3_1 p))
    (vadd (vscale (x * x) (vp3_2 p)) (vscale (x * x * x) (vp3_3 p))))).
Proof.
  intros (H0 & H1 & H2 & H3). unfold vec_poly3_eval.
  rewrite (mapM_ok _ (fun i => nth i (vp3_0 p) 0 + x * (nth i (vp3_1 p) 0 + x * (nth i (vp3_2 p) 0 + x * nth i (vp3_3 p) 0)))).
  - f_equal. rewrite H0. destruct p as [p0 p1 p2 p3]; cbn [vp3_0 vp3_1 vp3_2 vp3_3] in *. symmetry.
    rewrite (list_as_map_n p0 0 n H0) at 1. rewrite (list_as_map_n p1 0 n H1) at 1.
    rewrite (list_as_map_n p2 0 n H2) at 1. rewrite (list_as_map_n p3 0 n H3) at 1.
    unfold vadd, vscale. rewrite !map_map, !zipw_map. apply map_ext. intros. ring.
  - intros i Hi. apply in_seq in Hi.
    rewrite !(index_ok _ i 0) by lia. cbn [obind]. reflexivity.
Qed.

Theorem special_inner_product_spec l r n : vp3_length n l -> vp3_length n r ->
  vp3_0 l = zeros n -> vp3_2 r = zeros n ->
  exists p, special_inner_product l r = Done p /\
    forall x, exists lx rx, vec_poly3_eval l x = Done lx /\ vec_poly3_eval r x = Done rx /\
      poly6_eval p x = ip lx rx.
Proof.
  intros Hl Hr Z0 Z2.
  pose proof Hl as (A0 & A1 & A2 & A3). pose proof Hr as (B0 & B1 & B2 & B3).
  unfold special_inner_product.
  rewrite !inner_product_ok by congruence. cbn [obind].
  eexists. split; [reflexivity|]. intros x.
  rewrite (vec_poly3_eval_ok l x n Hl), (vec_poly3_eval_ok r x n Hr).
  eexists _, _. split; [reflexivity|]. split; [reflexivity|].
  unfold poly6_eval. cbn [t1 t2 t3 t4 t5 t6].
  repeat first [rewrite ip_vadd_l by (rewrite ?vadd_length, ?vscale_length; lia)
               |rewrite ip_vadd_r by (rewrite ?vadd_length, ?vscale_length; lia)
               |rewrite ip_vscale_l|rewrite ip_vscale_r].
  rewrite Z0, Z2.
  assert (Zr : forall a m, ip a (zeros m) = 0) by (intros; rewrite ip_comm; apply ip_zeros_l).
  rewrite !ip_zeros_l, !Zr. ring.
Qed.

(** *** The vector [s] *)
Lemma product_map_scale {A} (f : A -> F) (c : F) l : c * product (map f l) = product (c :: map f l).
Proof. reflexivity. Qed.

Lemma testbit_high i k : (i < 2 ^ k)%nat -> Nat.testbit i k = false.
Proof.
  intros H. destruct (Nat.eq_dec i 0) as [->|Hi]; [apply Nat.bits_0|].
  apply Nat.bits_above_log2. apply Nat.log2_lt_pow2; lia.
Qed.

Lemma testbit_sub_pow2 i k j : (2 ^ k <= i)%nat -> (i < 2 ^ S k)%nat -> (j < k)%nat ->
  Nat.testbit (i - 2 ^ k) j = Nat.testbit i j.
Proof.
  intros H1 H2 Hj. replace i with (i - 2 ^ k + 1 * 2 ^ k)%nat at 2 by lia.
  rewrite <- (Nat.mod_pow2_bits_low (i - 2 ^ k + 1 * 2 ^ k) k j) by assumption.
  rewrite Nat.mod_add by (apply Nat.pow_nonzero; lia).
  rewrite Nat.mod_small; [reflexivity|]. simpl in H2. lia.
Qed.

Lemma testbit_top i k : (2 ^ k <= i)%nat -> (i < 2 ^ S k)%nat -> Nat.testbit i k = true.
Proof.
  intros H1 H2. pose proof (Nat.pow_nonzero 2 k ltac:(lia)).
  assert (E : Nat.log2 i = k).
  { apply Nat.log2_unique; [lia|]. split; assumption. }
  rewrite <- E. apply Nat.bit_log2. lia.
Qed.

Lemma svec_entry us i : (i < 2 ^ length us)%nat -> nth i (svec us) 0 = s_entry us i.
Proof.
  revert i; induction us as [|u us IH]; intros i Hi.
  { destruct i; [reflexivity|]. simpl in Hi. lia. }
  simpl svec. unfold s_entry. cbn [length seq map].
  rewrite <- seq_shift, map_map. cbn [nth].
  set (k := length us) in *.
  assert (E : forall i', (i' < 2 ^ k)%nat -> (forall j, (j < k)%nat -> Nat.testbit i j = Nat.testbit i' j) ->
    map (fun x => if Nat.testbit i (S k - 1 - S x) then nth x us 0 else finv (nth x us 0)) (seq 0 k)
    = map (fun j => if Nat.testbit i' (length us - 1 - j) then nth j us 0 else finv (nth j us 0)) (seq 0 (length us))).
  { intros i' _ Hb. fold k. apply map_ext_in. intros j Hj. apply in_seq in Hj.
    replace (S k - 1 - S j)%nat with (k - 1 - j)%nat by lia. rewrite Hb by lia. reflexivity. }
  replace (S k - 1 - 0)%nat with k by lia.
  destruct (Nat.lt_ge_cases i (2 ^ k)) as [Hlt|Hge].
  - rewrite app_nth1 by (rewrite vscale_length, svec_length; assumption).
    rewrite nth_vscale, IH by assumption. rewrite testbit_high by assumption.
    rewrite (E i) by (auto). reflexivity.
  - rewrite app_nth2 by (rewrite vscale_length, svec_length; assumption).
    rewrite vscale_length, svec_length. fold k.
    assert (Hi' : (i - 2 ^ k < 2 ^ k)%nat) by (simpl in Hi; fold k in Hi; lia).
    rewrite nth_vscale, IH by assumption. rewrite testbit_top by assumption.
    rewrite (E (i - 2 ^ k)%nat) by (auto; intros; symmetry; apply testbit_sub_pow2; assumption). reflexivity.
Qed.

Lemma svec_rev_inv us i : Forall (fun u => u <> 0) us -> (i < 2 ^ length us)%nat ->
  nth i (svec us) 0 * nth i (rev (svec us)) 0 = 1.
Proof.
  intros Hnz. rewrite svec_rev by assumption. revert i.
  induction Hnz as [|u us Hu Hus IH]; intros i Hi.
  { destruct i; [simpl; ring|]. simpl in Hi. lia. }
  simpl svec. destruct (Nat.lt_ge_cases i (2 ^ length us)) as [Hlt|Hge].
  - rewrite !app_nth1 by (rewrite vscale_length, svec_length, ?map_length; assumption).
    rewrite !nth_vscale. transitivity ((finv (finv u) * finv u) * (nth i (svec us) 0 * nth i (svec (map finv us)) 0)); [ring|].
    rewrite IH by assumption. rewrite finv_r_comm by (apply finv_nonzero; assumption). ring.
  - rewrite !app_nth2 by (rewrite vscale_length, svec_length, ?map_length; assumption).
    rewrite !vscale_length, !svec_length, map_length.
    rewrite !nth_vscale. simpl in Hi.
    transitivity ((finv u * u) * (nth (i - 2 ^ length us) (svec us) 0 * nth (i - 2 ^ length us) (svec (map finv us)) 0)); [ring|].
    rewrite IH by lia. rewrite finv_r_comm by assumption. ring.
Qed.

Theorem verification_scalars_err Ls Rs n t :
  (verification_scalars Ls Rs n t = Done (Err VerificationError) <-> (32 <= length Ls)%nat \/ n <> (2 ^ length Ls)%nat) /\
  (forall e, verification_scalars Ls Rs n t = Done (Err e) -> e = VerificationError).
Proof.
  unfold verification_scalars.
  destruct (Nat.leb_spec 32 (length Ls)); [split; [tauto|congruence]|].
  destruct (Nat.eqb_spec n (2 ^ length Ls)); cbn [negb]; [|split; [tauto|congruence]].
  assert (N : forall e, (let t0 := innerproduct_domain_sep n t in
     let '(challenges, t1) := ipp_challenges Ls Rs t0 in
     obind (batch_invert challenges) (fun '(challenges_inv, product_chal_inv) =>
     obind (s_values (length Ls) n product_chal_inv (map (fun c => c * c) challenges)) (fun s =>
     Done (Ok (map (fun c => c * c) challenges, map (fun c => c * c) challenges_inv, s, t1))))) <> Done (Err e)).
  { intros e'. cbn zeta. destruct (ipp_challenges _ _ _). destruct (batch_invert _) as [[? ?]|]; cbn [obind]; [|discriminate].
    destruct (s_values _ _ _ _); cbn [obind]; discriminate. }
  split; [|intros e' He; exfalso; apply (N e' He)].
  split; [intros He; exfalso; apply (N _ He)|]. intros [Hc|Hc]; [lia|congruence].
Qed.

(** *** [verify_ipp] is the recursive verifier *)
Lemma div2_pow2_len {A} (l : list A) k : length l = (2 ^ S k)%nat -> Nat.div2 (length l) = (2 ^ k)%nat.
Proof. intros ->. apply div2_pow. Qed.

Lemma fold_halves_length x y G k : length G = (2 ^ S k)%nat -> length (fold_halves x y G) = (2 ^ k)%nat.
Proof.
  intros E. unfold fold_halves. rewrite (div2_pow2_len G k E), zipw_length, firstn_length, skipn_length, E.
  pose proof (pow2_S k). lia.
Qed.

Lemma msm_fold_halves s x y G k : length G = (2 ^ S k)%nat -> length s = (2 ^ k)%nat ->
  msm (vscale x s ++ vscale y s) G = msm s (fold_halves x y G).
Proof.
  intros E Es. unfold fold_halves. rewrite (div2_pow2_len G k E).
  change (zipw (fun a b => g1_add (g1_mul x a) (g1_mul y b))) with (fold_points x y).
  pose proof (pow2_S k).
  rewrite msm_fold_points by (rewrite firstn_length, skipn_length, E; lia).
  rewrite (msm_app_split _ _ _ (2 ^ k)) by (rewrite vscale_length; assumption).
  rewrite !msm_vscale. reflexivity.
Qed.

Lemma conversation_expected Q us : forall Pt G H Ls Rs a b,
  length Ls = length us -> length Rs = length us ->
  length G = (2 ^ length us)%nat -> length H = (2 ^ length us)%nat ->
  conversation Q Pt G H us Ls Rs a b <-> ipp_expected Q G H a b us Ls Rs = Pt.
Proof.
  induction us as [|u us IH]; intros Pt G H Ls Rs a b HL HR HG HH.
  - destruct Ls; [|discriminate]. destruct Rs; [|discriminate].
    destruct G as [|g [|? ?]]; try discriminate. destruct H as [|h [|? ?]]; try discriminate.
    simpl. unfold ipp_expected. simpl.
    assert (E : g1_add (g1_mul (a * b) Q) (g1_add (g1_add (g1_mul (a * 1) g) g1_id)
       (g1_add (g1_add (g1_mul (b * 1) h) g1_id) (g1_add g1_id g1_id))) =
       g1_add (g1_add (g1_mul a g) (g1_mul b h)) (g1_mul (a * b) Q)) by (gnorm; ring).
    rewrite E. split; congruence.
  - destruct Ls as [|L Ls]; [discriminate|]. destruct Rs as [|R Rs]; [discriminate|].
    simpl conversation. simpl in HL, HR.
    cbn [length] in HG, HH.
    rewrite IH by (try lia; apply fold_halves_length; assumption).
    assert (E : ipp_expected Q G H a b (u :: us) (L :: Ls) (R :: Rs) =
      g1_add (ipp_expected Q (fold_halves (finv u) u G) (fold_halves u (finv u) H) a b us Ls Rs)
        (g1_add (g1_neg (g1_mul (u * u) L)) (g1_neg (g1_mul (finv u * finv u) R)))).
    { unfold ipp_expected. simpl svec. simpl map. simpl msm.
      rewrite rev_app_distr, !vscale_rev, !vscale_app.
      rewrite !(vscale_vscale a), !(vscale_vscale b).
      assert (C : forall c v l, vscale (c * v) l = vscale v (vscale c l)).
      { intros. rewrite vscale_vscale. f_equal. ring. }
      rewrite (C a (finv u)), (C a u), (C b u), (C b (finv u)).
      rewrite (msm_fold_halves _ _ _ G (length us)) by (rewrite ?vscale_length, ?svec_length; auto).
      rewrite (msm_fold_halves _ _ _ H (length us)) by (rewrite ?vscale_length, ?rev_length, ?svec_length; auto).
      set (m1 := msm _ _). set (m2 := msm _ (fold_halves _ _ H)). set (m3 := msm _ Ls). set (m4 := msm _ Rs).
      gnorm; ring. }
    rewrite E. set (X := ipp_expected _ _ _ _ _ _ _ _). set (Lp := g1_mul (u * u) L). set (Rp := g1_mul (finv u * finv u) R).
    split; intros EX.
    + rewrite EX. gnorm; ring.
    + rewrite <- EX. gnorm; ring.
Qed.

Theorem verify_ipp_conversation n t Gf Hf Pt Q G H a b Ls Rs us t' :
  length Ls = length Rs -> (length Ls < 32)%nat -> n = (2 ^ length Ls)%nat ->
  (Ls <> [] \/ batch_invert_empty_panics = false) ->
  length G = n -> length H = n -> length Gf = n -> length Hf = n ->
  ipp_challenges Ls Rs (innerproduct_domain_sep n t) = (us, t') ->
  Forall (fun u => u <> 0) us ->
  exists r, verify_ipp n t Gf Hf Pt Q G H a b Ls Rs = Done (r, t') /\
    (r = Ok tt \/ r = Err VerificationError) /\
    (r = Ok tt <-> conversation Q Pt (scale_points Gf G) (scale_points Hf H) us Ls Rs a b).
Proof.
  intros HLR H32 Hn Hbi HG HH HGf HHf Hch Hnz.
  assert (Hl : length us = length Ls).
  { pose proof (ipp_challenges_length Ls Rs (innerproduct_domain_sep n t)) as L. rewrite Hch in L. simpl in L. lia. }
  rewrite (verify_ipp_spec n t Gf Hf Pt Q G H a b Ls Rs us t') by assumption.
  eexists. split; [reflexivity|].
  rewrite conversation_expected by (rewrite ?scale_points_length, ?Hl; lia).
  destruct (g1_eqb _ _) eqn:E.
  - apply g1_eqb_spec in E. split; [auto|tauto].
  - split; [auto|]. split; [discriminate|]. intros E'. apply g1_eqb_spec in E'. congruence.
Qed.

Theorem verify_ipp_unique n t Gf Hf Q G H a b Ls Rs :
  length Ls = length Rs -> (length Ls < 32)%nat -> n = (2 ^ length Ls)%nat ->
  (Ls <> [] \/ batch_invert_empty_panics = false) ->
  length G = n -> length H = n -> length Gf = n -> length Hf = n ->
  exists Pt t', verify_ipp n t Gf Hf Pt Q G H a b Ls Rs = Done (Ok tt, t') /\
    forall Pt', Pt' <> Pt -> verify_ipp n t Gf Hf Pt' Q G H a b Ls Rs = Done (Err VerificationError, t').
Proof.
  intros HLR H32 Hn Hbi HG HH HGf HHf.
  destruct (verification_scalars_total Ls Rs n t HLR H32 Hn Hbi) as (usq & uisq & s & t' & E & _).
  eexists _, t'. split; [|intros Pt' Hne].
  - rewrite (verify_ipp_gen _ _ _ _ _ _ _ _ _ _ _ _ _ _ _ _ HLR HG HH HGf HHf E).
    rewrite (proj2 (g1_eqb_spec _ _) eq_refl). reflexivity.
  - rewrite (verify_ipp_gen _ _ _ _ _ _ _ _ _ _ _ _ _ _ _ _ HLR HG HH HGf HHf E).
    destruct (g1_eqb _ _) eqn:Eb; [|reflexivity]. apply g1_eqb_spec in Eb. congruence.
Qed.

(** *** [create_ipp] panics exactly on bad lengths *)
Theorem create_ipp_panics t Q Gf Hf G H a b :
  create_ipp t Q Gf Hf G H a b = Panic <->
  ~ (exists k, length G = (2 ^ k)%nat /\ length H = (2 ^ k)%nat /\ length a = (2 ^ k)%nat /\ length b = (2 ^ k)%nat /\
      length Gf = (2 ^ k)%nat /\ length Hf = (2 ^ k)%nat).
Proof.
  split.
  - intros E (k & H1 & H2 & H3 & H4 & H5 & H6).
    destruct (create_ipp_spec t Q Gf Hf G H a b k H1 H2 H3 H4 H5 H6) as (Ls & Rs & af & bf & us & t' & E' & _).
    congruence.
  - intros Hno. unfold create_ipp, assertb.
    destruct (is_power_of_two (length G)) eqn:Ep; [|reflexivity].
    apply is_power_of_two_true in Ep as (k & Ek).
    destruct (Nat.eqb_spec (length H) (length G)); [|reflexivity].
    destruct (Nat.eqb_spec (length a) (length G)); [|reflexivity].
    destruct (Nat.eqb_spec (length b) (length G)); [|reflexivity].
    destruct (Nat.eqb_spec (length Gf) (length G)); [|reflexivity].
    destruct (Nat.eqb_spec (length Hf) (length G)); [|reflexivity].
    exfalso. apply Hno. exists k. repeat split; congruence.
Qed.
End IPPMore.
