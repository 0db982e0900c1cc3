(** Final forms of the inner-product properties (C11-C16). *)
From Coq Require Import ZArith String List Lia Bool Ring Field Arith.
From Verif.Base Require Import Outcome Fp Params Algebra.
From Verif.Model Require Import Transcript LinComb VectorPoly IPP.
From Verif.Spec Require Import IPPSpec Extractor.
From Verif.Proofs Require Import IPPProofs IPPMore ExtractProofs.
Import ListNotations.

Section IPPMain.
Context {P : Params} {OK : ParamsOk P}.
Local Open Scope fe_scope.
Add Field FFim : (Fp_field_theory modulus modulus_prime).

Lemma special_inner_product_ok (l r : vec_poly3) n :
  length (vp3_0 l) = n -> length (vp3_1 l) = n -> length (vp3_2 l) = n -> length (vp3_3 l) = n ->
  length (vp3_0 r) = n -> length (vp3_1 r) = n -> length (vp3_2 r) = n -> length (vp3_3 r) = n ->
  Forall (fun c => c = 0) (vp3_0 l) -> Forall (fun c => c = 0) (vp3_2 r) ->
  exists p, special_inner_product l r = Done p /\
    forall x, exists lx rx, vec_poly3_eval l x = Done lx /\ vec_poly3_eval r x = Done rx /\ poly6_eval p x = ip lx rx.
Proof.
  intros. assert (Z : forall v : list F, Forall (fun c => c = 0) v -> v = zeros (length v)).
  { induction 1 as [|c v Hc _ IH]; [reflexivity|]. cbn. rewrite Hc. f_equal. exact IH. }
  apply (special_inner_product_spec l r n).
  - repeat split; assumption.
  - repeat split; assumption.
  - rewrite (Z _ H7), H. reflexivity.
  - rewrite (Z _ H8), H5. reflexivity.
Qed.

Lemma msm_scale_points (a f : list F) (G : list G1) : msm a (scale_points f G) = msm (vmul a f) G.
Proof.
  unfold scale_points. revert f G; induction a as [|x a IH]; intros [|y f] [|g G]; try reflexivity.
  cbn. rewrite g1_mul_mul. f_equal. apply IH.
Qed.

Lemma ipp_complete (k : nat) t Q Gf Hf G H a b :
  length G = (2 ^ k)%nat -> length H = (2 ^ k)%nat -> length a = (2 ^ k)%nat -> length b = (2 ^ k)%nat ->
  length Gf = (2 ^ k)%nat -> length Hf = (2 ^ k)%nat ->
  (k < 32)%nat -> k <> 0%nat \/ batch_invert_empty_panics = false ->
  exists proof t',
    create_ipp t Q Gf Hf G H a b = Done (proof, t') /\
    (Forall (fun u => u <> 0) (fst (ipp_challenges (ipp_L proof) (ipp_R proof) (innerproduct_domain_sep (2 ^ k) t))) ->
     verify_ipp (2 ^ k) t Gf Hf
       (g1_add (g1_add (msm (vmul a Gf) G) (msm (vmul b Hf) H)) (g1_mul (ip a b) Q))
       Q G H (ipp_a proof) (ipp_b proof) (ipp_L proof) (ipp_R proof) = Done (Ok tt, t')).
Proof.
  intros HG HH Ha Hb HGf HHf H32 Hk.
  destruct (create_ipp_spec t Q Gf Hf G H a b k HG HH Ha Hb HGf HHf) as (Ls & Rs & af & bf & us & t' & E & HL & HR & Eu & Hc).
  eexists _, t'. split; [exact E|]. cbn [ipp_L ipp_R ipp_a ipp_b]. rewrite Eu. cbn [fst]. intros Hu.
  rewrite (verify_ipp_spec (2 ^ k) t Gf Hf _ Q G H af bf Ls Rs us t'); try assumption; try congruence; try lia.
  - rewrite <- (Hc Hu). unfold ipp_commit. rewrite !msm_scale_points.
    match goal with |- context [g1_eqb ?x ?y] => replace (g1_eqb x y) with true; [reflexivity|symmetry; apply g1_eqb_spec; reflexivity] end.
  - destruct Hk as [Hk|Hk]; [left|right; exact Hk]. intros ->. cbn in HL. lia.
Qed.

Lemma ipp_challenges_len Ls Rs t : length Ls = length Rs -> length (fst (ipp_challenges Ls Rs t)) = length Ls.
Proof.
  revert Rs t; induction Ls as [|L Ls IH]; intros [|R Rs] t E; try discriminate; [reflexivity|].
  injection E as E. cbn [ipp_challenges]. unfold challenge_scalar.
  match goal with |- context [ipp_challenges Ls Rs ?t] => specialize (IH Rs t E); destruct (ipp_challenges Ls Rs t) end.
  cbn in *. congruence.
Qed.

Lemma svec_length us : length (svec us) = (2 ^ length us)%nat.
Proof. induction us as [|u us IH]; [reflexivity|]. cbn [svec]. rewrite app_length, !vscale_length, IH. cbn. lia. Qed.

Lemma svec_closed us : svec us = map (s_entry us) (seq 0 (2 ^ length us)).
Proof.
  apply (nth_ext _ _ 0 0); [rewrite map_length, seq_length; apply svec_length|].
  intros i Hi. rewrite svec_length in Hi. rewrite svec_entry by exact Hi.
  rewrite (nth_indep _ 0 (s_entry us 0%nat)) by (rewrite map_length, seq_length; exact Hi).
  rewrite map_nth, seq_nth by exact Hi. reflexivity.
Qed.

Lemma scalars_closed Ls Rs n t us t' :
  length Ls = length Rs -> (length Ls < 32)%nat -> n = (2 ^ length Ls)%nat ->
  Ls <> [] \/ batch_invert_empty_panics = false ->
  ipp_challenges Ls Rs (innerproduct_domain_sep n t) = (us, t') ->
  Forall (fun u => u <> 0) us ->
  verification_scalars Ls Rs n t =
    Done (Ok (map (fun u => u * u) us, map (fun u => finv u * finv u) us, map (s_entry us) (seq 0 n), t')) /\
  forall i, (i < n)%nat -> s_entry us i * s_entry us (n - 1 - i) = 1.
Proof.
  intros HLR H32 Hn Hb Eu Hu. pose proof (ipp_challenges_len Ls Rs (innerproduct_domain_sep n t) HLR) as Hl.
  rewrite Eu in Hl. cbn in Hl.
  split.
  - rewrite (verification_scalars_ok Ls Rs n t us t') by assumption. rewrite svec_closed, Hl, <- Hn. reflexivity.
  - intros i Hi. assert (Hi' : (i < 2 ^ length us)%nat) by (rewrite Hl, <- Hn; exact Hi).
    pose proof (svec_rev_inv us i Hu Hi') as E. rewrite rev_nth in E by (rewrite svec_length; exact Hi').
    rewrite svec_length in E. rewrite svec_entry in E by exact Hi'. rewrite svec_entry in E by lia.
    replace (n - 1 - i)%nat with (2 ^ length us - S i)%nat by (rewrite Hl, <- Hn; lia). exact E.
Qed.

Lemma create_ipp_shape t Q Gf Hf G H a b proof t' :
  create_ipp t Q Gf Hf G H a b = Done (proof, t') ->
  exists k, length G = (2 ^ k)%nat /\ length (ipp_L proof) = k /\ length (ipp_R proof) = k.
Proof.
  intros E.
  assert (Hd : (exists k, length G = (2 ^ k)%nat /\ length H = (2 ^ k)%nat /\ length a = (2 ^ k)%nat /\ length b = (2 ^ k)%nat /\
      length Gf = (2 ^ k)%nat /\ length Hf = (2 ^ k)%nat)).
  { unfold create_ipp, assertb in E.
    destruct (is_power_of_two (length G)) eqn:Ep; [|discriminate].
    apply is_power_of_two_true in Ep as (k & Ek).
    destruct (Nat.eqb_spec (length H) (length G)); [|discriminate].
    destruct (Nat.eqb_spec (length a) (length G)); [|discriminate].
    destruct (Nat.eqb_spec (length b) (length G)); [|discriminate].
    destruct (Nat.eqb_spec (length Gf) (length G)); [|discriminate].
    destruct (Nat.eqb_spec (length Hf) (length G)); [|discriminate].
    exists k. repeat split; congruence. }
  destruct Hd as (k & HG & HH & Ha & Hb & HGf & HHf).
  destruct (create_ipp_spec t Q Gf Hf G H a b k HG HH Ha Hb HGf HHf) as (Ls & Rs & af & bf & us & t1 & E1 & HL & HR & _).
  rewrite E in E1. injection E1 as -> ->. exists k. auto.
Qed.
End IPPMain.
