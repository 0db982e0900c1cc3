(** From [Prover::prove] returning a proof to what [Verifier::verify] does with it. *)
From Coq Require Import ZArith String List Lia Bool Ring Field Permutation.
From Verif.Base Require Import Outcome Fp Params Algebra.
From Verif.Model Require Import Transcript LinComb Prog VectorPoly IPP Prover Verifier.
From Verif.Spec Require Import R1CS Sim Protocol Session.
From Verif.Proofs Require Import LinCombProofs RunProofs ExtProofs FlattenProofs IPPProofs VerifyProofs ProveProofs.
Import ListNotations.

Section RoundTrip.
Context {P : Params} {OK : ParamsOk P}.
Local Open Scope fe_scope.
Add Field FFrt : (Fp_field_theory modulus modulus_prime).

Lemma prover_flatten_term_shape e w t w' n m : flat_shape n m w -> prover_flatten_term e w t = Done w' -> flat_shape n m w'.
Proof.
  destruct w as [[[a b] c] d], t as [v x]. intros (H1 & H2 & H3 & H4) E.
  destruct v as [i|i|i|i|]; simpl in E;
    try (destruct (add_at _ _ _) eqn:Ea; [|discriminate]; apply add_at_length in Ea); injection E as <-; simpl; repeat split; congruence.
Qed.

Lemma prover_flattened_panic s z l v c :
  In l (p_constraints s) -> In (v, c) l -> ~ var_in_range (length (p_aL s)) (length (p_v s)) v ->
  prover_flattened_constraints s z = Panic.
Proof.
  intros Hl Hv Hr. unfold prover_flattened_constraints.
  apply in_split in Hl as (c1 & c2 & ->). apply in_split in Hv as (l1 & l2 & ->).
  set (n := length (p_aL s)) in *. set (m := length (p_v s)) in *.
  rewrite (foldM_panic_inv (fun s => flat_shape n m (fst s))); [reflexivity| | |].
  - intros [w e] a [w' e'] Hs E. simpl in Hs |- *.
    destruct (foldM (prover_flatten_term e) a w) as [w1|] eqn:E1; simpl in E; [|discriminate].
    injection E as <- _.
    apply (foldM_inv (flat_shape n m) _ _ _ _) in E1; [exact E1| |exact Hs].
    intros w0 t w2 Hs0 E2. eapply prover_flatten_term_shape; eassumption.
  - intros [w e] Hs.
    rewrite (foldM_panic_inv (flat_shape n m)); [reflexivity| | |exact Hs].
    + intros w0 t w2 Hs0 E2. eapply prover_flatten_term_shape; eassumption.
    + intros [[[a b] d] f] (H1 & H2 & H3 & H4).
      destruct v as [i|i|i|i|]; simpl in *; try (rewrite add_at_out by lia; reflexivity). tauto.
  - simpl. rewrite !zeros_length. auto.
Qed.

Lemma var_in_range_dec n m v : {var_in_range n m v} + {~ var_in_range n m v}.
Proof. destruct v; simpl; try apply Compare_dec.lt_dec. left. exact I. Defined.

Lemma prover_flattened_done s z r : prover_flattened_constraints s z = Done r ->
  Forall (lc_in_range (length (p_aL s)) (length (p_v s))) (p_constraints s).
Proof.
  intros E. apply Forall_forall. intros l Hl v c Hv.
  destruct (var_in_range_dec (length (p_aL s)) (length (p_v s)) v) as [|N]; [assumption|].
  rewrite (prover_flattened_panic s z l v c Hl Hv N) in E. discriminate.
Qed.

Lemma slice_to_done {A} k (l : list A) r : slice_to k l = Done r -> (k <= length l)%nat.
Proof. unfold slice_to. destruct (Nat.leb_spec k (length l)); [auto|discriminate]. Qed.

Theorem prove_inv W s G H r : pwf s -> prove W s G H = Done (Ok r) ->
  exists s2, prover_create_randomized_constraints W (hp_state1 W s G H) = Done (Ok s2) /\
    (next_power_of_two (length (p_aL s2)) <= length G)%nat /\
    (next_power_of_two (length (p_aL s2)) <= length H)%nat /\
    Forall (lc_in_range (length (p_aL s2)) (length (p_v s2))) (p_constraints s2).
Proof.
  intros Hwf E. unfold prove in E.
  cbn [p_with_transcript p_with_nrand p_transcript p_aL p_aR p_aO p_g p_h p_v p_v_blinding p_nrand] in E.
  pose proof (pwf_aR _ Hwf) as LaR. pose proof (pwf_aO _ Hwf) as LaO.
  set (n1 := length (p_aL s)) in *.
  destruct (Nat.ltb_spec (length G) n1); [discriminate|].
  destruct (slice_to n1 G) eqn:E1; [|discriminate]. cbn [obind] in E.
  unfold slice_to in E1. destruct (Nat.leb_spec n1 (length G)); [injection E1 as <-|discriminate].
  destruct (slice_to n1 H) eqn:E1; [|discriminate]. cbn [obind] in E.
  unfold slice_to in E1. destruct (Nat.leb_spec n1 (length H)); [injection E1 as <-|discriminate].
  rewrite commit_vectors_ok in E by (rewrite firstn_length; fold n1; lia). cbn [obind] in E.
  rewrite msm_checked_ok in E by (rewrite firstn_length; lia). cbn [obind] in E.
  rewrite commit_vectors_ok in E by (rewrite firstn_length, randoms_length; lia). cbn [obind] in E.
  match type of E with context [prover_create_randomized_constraints W ?e] => change e with (hp_state1 W s G H) in E end.
  destruct (prover_create_randomized_constraints W (hp_state1 W s G H)) as [[s2|]|]; try discriminate.
  cbn [orbind] in E. exists s2. split; [reflexivity|].
  destruct (Nat.ltb_spec (length G) (next_power_of_two (length (p_aL s2)))); [discriminate|].
  split; [lia|].
  repeat match type of E with
  | obind (prover_flattened_constraints _ _) _ = _ => fail 1
  | obind ?e _ = _ => let X := fresh "X" in destruct e as [?|] eqn:X; [|discriminate]; cbn [obind] in E
  | context [let '(_, _) := ?p in _] => destruct p
  end.
  destruct (prover_flattened_constraints s2 _) as [[[[wL wR] wO] wV]|] eqn:Ef; [|discriminate].
  cbn [obind] in E. apply prover_flattened_done in Ef. split; [|assumption].
  repeat match type of E with
  | obind (slice_to _ H) _ = _ => fail 1
  | obind ?e _ = _ => let X := fresh "X" in destruct e as [?|] eqn:X; [|discriminate]; cbn [obind] in E
  | context [let '(_, _) := ?p in _] => destruct p
  end.
  destruct (slice_to _ H) eqn:Es; [|discriminate]. eapply slice_to_done. exact Es.
Qed.

(** *** The verifier's equations only see the weights *)
Lemma delta_same n cs cs' y z : Forall2 lc_same cs cs' -> delta n cs y z = delta n cs' y z.
Proof.
  intros E. apply sum_n_ext. intros i _. rewrite !(weight_equiv cs cs' z _ E). reflexivity.
Qed.

Lemma ipp_point_same pf g h G H n1 n N cs cs' y z u x w : Forall2 lc_same cs cs' ->
  ipp_point pf g h G H n1 n N cs y z u x w = ipp_point pf g h G H n1 n N cs' y z u x w.
Proof.
  intros E. unfold ipp_point. do 5 (apply (f_equal2 g1_add); [reflexivity|]).
  apply (f_equal2 g1_add); apply gsum_n_ext; intros i _; unfold padded;
    destruct (Nat.ltb i n); rewrite ?(weight_equiv cs cs' z _ E); reflexivity.
Qed.

Lemma sync_transcript_nrand W W' ps vs t k :
  sync W W' ps vs -> sync W W' (p_with_transcript t (p_with_nrand k (p_with_transcript t ps))) (v_with_transcript t vs).
Proof.
  intros [[? ? ? ? ? ?] Hd]. split; [|exact Hd]. constructor; simpl; auto.
  eapply pwf_same_wires; [..|eassumption]; reflexivity.
Qed.

Lemma ipp_check_point_expected a b Q Gf Hf G H us Ls Rs :
  length Ls = length us -> length Rs = length us ->
  ipp_check_point a b Q Gf Hf G H (map (fun u => u * u) us) (map (fun u => finv u * finv u) us) (svec us) Ls Rs =
  ipp_expected Q (scale_points Gf G) (scale_points Hf H) a b us Ls Rs.
Proof.
  intros E1 E2. unfold ipp_check_point, ipp_expected. rewrite !msm_vmul, <- !msm_map_opp, !map_map. reflexivity.
Qed.

Section Main.
Context (W W' : world) (g h : G1) (G H : list G1).

(** from two sides in step at the end of the first phase *)
Theorem round_trip_sync s vs proof tp :
  sync W W' s vs -> p_g s = g -> p_h s = h ->
  prove W s G H = Done (Ok (proof, tp)) ->
  exists s2 vs2,
    prover_create_randomized_constraints W (hp_state1 W s G H) = Done (Ok s2) /\
    verifier_create_randomized_constraints W'
      (v_with_transcript (first_phase_transcript proof (length (v_V vs)) (v_transcript vs)) vs) = Done (Ok vs2) /\
    sync_base s2 vs2 /\
    let n := length (p_aL s2) in
    let c := protocol_challenges (p_transcript s2) proof in
    (next_power_of_two n <= length G)%nat /\ (next_power_of_two n <= length H)%nat /\
    Forall (lc_in_range n (length (p_v s2))) (p_constraints s2) /\
    length (ipp_L (proof_ipp proof)) = Nat.log2_up n /\
    length (ipp_R (proof_ipp proof)) = Nat.log2_up n /\
    snd (ipp_challenges (ipp_L (proof_ipp proof)) (ipp_R (proof_ipp proof))
           (innerproduct_domain_sep (next_power_of_two n) (c_t c))) = tp /\
    ((Nat.log2_up n < 32)%nat -> (1 < n)%nat \/ batch_invert_empty_panics = false ->
     c_y c <> 0 ->
     Forall (fun u => u <> 0) (fst (ipp_challenges (ipp_L (proof_ipp proof)) (ipp_R (proof_ipp proof))
           (innerproduct_domain_sep (next_power_of_two n) (c_t c)))) ->
     verify W' vs proof g h G H =
     Done (if g1_eqb (g1_mul (- (w_random W' (v_nrand vs2) * (c_x c * c_x c)
                                 * zsum (prover_assignment s2) (p_constraints s2) (c_z c))) g) g1_id
           then Ok tp else Err VerificationError)).
Proof.
  intros Hsync Eg Eh Eprove.
  pose proof (sy_wf _ _ (proj1 Hsync)) as Hwf.
  destruct (prove_inv _ _ _ _ _ Hwf Eprove) as (s2 & E2 & HG & HH & Hr).
  destruct (prove_char W s G H s2 Hwf E2 HG HH Hr) as
    (proof' & t' & us & Eprove' & Efp & EL & ER & Ech & Eipp & Et).
  rewrite Eprove in Eprove'. injection Eprove' as <- <-.
  assert (Hm : length (v_V vs) = length (p_v s)).
  { rewrite (sy_V _ _ (proj1 Hsync)), zipw_length, (pwf_vb _ Hwf), Nat.min_id. reflexivity. }
  assert (Hsync1 : sync W W' (hp_state1 W s G H)
     (v_with_transcript (first_phase_transcript proof (length (v_V vs)) (v_transcript vs)) vs)).
  { rewrite Hm, <- (sy_transcript _ _ (proj1 Hsync)), Efp.
    apply (sync_transcript_nrand W W' s vs (p_transcript (hp_state1 W s G H))
             (p_nrand (hp_state1 W s G H)) Hsync). }
  destruct (sync_create_randomized _ _ _ _ _ Hsync1 E2) as (vs2 & Ev2 & Hs2).
  exists s2, vs2.
  split; [exact E2|]. split; [exact Ev2|]. split; [exact Hs2|]. cbn zeta.
  split; [exact HG|]. split; [exact HH|]. split; [exact Hr|]. split; [exact EL|]. split; [exact ER|].
  rewrite Ech. cbn [fst snd]. split; [reflexivity|].
  intros H32 Hbi Hy Hus.
  set (n := length (p_aL s2)) in *. set (N := next_power_of_two n) in *.
  set (c := protocol_challenges (p_transcript s2) proof) in *.
  specialize (Eipp Hy Hus). specialize (Et Hy).
  assert (Hwf2 : pwf s2) by apply (sy_wf _ _ Hs2).
  assert (HmV : length (v_V vs2) = length (p_v s2)).
  { rewrite (sy_V _ _ Hs2), zipw_length, (pwf_vb _ Hwf2), Nat.min_id. reflexivity. }
  assert (Hlog : (1 < n)%nat -> (1 <= Nat.log2_up n)%nat).
  { intros Hn. change 1%nat with (Nat.log2_up 2). apply Nat.log2_up_le_mono. lia. }
  assert (Evs : verification_scalars (ipp_L (proof_ipp proof)) (ipp_R (proof_ipp proof)) N (c_t c) =
     Done (Ok (map (fun u => u * u) us, map (fun u => finv u * finv u) us, svec us, tp))).
  { apply verification_scalars_ok; try assumption; try congruence.
    - unfold N, next_power_of_two. congruence.
    - destruct Hbi as [Hn|]; [left|right; assumption].
      specialize (Hlog Hn). intros E0. rewrite E0 in EL. simpl in EL. lia. }
  assert (Hlus : length us = Nat.log2_up n).
  { pose proof (ipp_challenges_length (ipp_L (proof_ipp proof)) (ipp_R (proof_ipp proof)) (innerproduct_domain_sep N (c_t c))) as L.
    rewrite Ech in L. cbn [fst] in L. lia. }
  rewrite (verify_char W' vs vs2 proof g h G H (map (fun u => u * u) us) (map (fun u => finv u * finv u) us) (svec us) tp).
  - rewrite ipp_check_point_expected by congruence.
    unfold v_point, v_G_factors, v_H_factors, v_check_t.
    rewrite (sy_num_vars _ _ Hs2), (sy_num_vars _ _ (proj1 Hsync)).
    replace (v_transcript vs2) with (p_transcript s2) by apply (sy_transcript _ _ Hs2). fold c. fold n. fold N.
    rewrite <- (ipp_point_same proof g h G H _ n N _ _ (c_y c) (c_z c) (c_u c) (c_x c) (c_w c) (sy_constraints _ _ Hs2)).
    rewrite Eg, Eh in Eipp, Et. rewrite Eipp.
    rewrite <- (delta_same n _ _ (c_y c) (c_z c) (sy_constraints _ _ Hs2)).
    rewrite <- (weight_equiv _ _ (c_z c) VOne (sy_constraints _ _ Hs2)).
    assert (Etab : tab (length (v_V vs2)) (fun j => - weight (v_constraints vs2) (c_z c) (VCommitted j)) =
                   tab (length (v_V vs2)) (fun j => - weight (p_constraints s2) (c_z c) (VCommitted j))).
    { apply map_ext. intros j. rewrite <- (weight_equiv _ _ (c_z c) _ (sy_constraints _ _ Hs2)). reflexivity. }
    rewrite Etab, (sy_V _ _ Hs2), Et.
    set (X := ipp_expected _ _ _ _ _ _ _ _). set (zs := zsum _ _ _). set (r := w_random _ _).
    assert (Efin : g1_add (g1_add X (g1_neg X)) (g1_mul r (g1_mul (- (c_x c * c_x c * zs)) g)) =
       g1_mul (- (r * (c_x c * c_x c) * zs)) g) by (gnorm; ring).
    rewrite Efin. reflexivity.
  - exact Ev2.
  - rewrite (sy_num_vars _ _ Hs2). exact HG.
  - rewrite (sy_num_vars _ _ Hs2). exact HH.
  - rewrite (sy_num_vars _ _ Hs2), HmV. eapply in_range_same_all; [apply (sy_constraints _ _ Hs2)|exact Hr].
  - congruence.
  - rewrite (sy_num_vars _ _ Hs2). replace (v_transcript vs2) with (p_transcript s2) by apply (sy_transcript _ _ Hs2).
    exact Evs.
Qed.


Theorem round_trip t {A B} (R : A -> B -> Prop) (pp : pprog A) (vp : vprog B) a s proof tp :
  sim g h R pp vp ->
  prun W false pp (prover_new g h t) = Done (a, s) ->
  prove W s G H = Done (Ok (proof, tp)) ->
  exists b vs s2 vs2,
    vrun W' false vp (verifier_new t) = Done (b, vs) /\ R a b /\ sync_base s vs /\
    prover_create_randomized_constraints W (hp_state1 W s G H) = Done (Ok s2) /\
    verifier_create_randomized_constraints W'
      (v_with_transcript (first_phase_transcript proof (length (v_V vs)) (v_transcript vs)) vs) = Done (Ok vs2) /\
    sync_base s2 vs2 /\
    let n := length (p_aL s2) in
    let c := protocol_challenges (p_transcript s2) proof in
    (next_power_of_two n <= length G)%nat /\ (next_power_of_two n <= length H)%nat /\
    Forall (lc_in_range n (length (p_v s2))) (p_constraints s2) /\
    length (ipp_L (proof_ipp proof)) = Nat.log2_up n /\
    length (ipp_R (proof_ipp proof)) = Nat.log2_up n /\
    snd (ipp_challenges (ipp_L (proof_ipp proof)) (ipp_R (proof_ipp proof))
           (innerproduct_domain_sep (next_power_of_two n) (c_t c))) = tp /\
    ((Nat.log2_up n < 32)%nat -> (1 < n)%nat \/ batch_invert_empty_panics = false ->
     c_y c <> 0 ->
     Forall (fun u => u <> 0) (fst (ipp_challenges (ipp_L (proof_ipp proof)) (ipp_R (proof_ipp proof))
           (innerproduct_domain_sep (next_power_of_two n) (c_t c)))) ->
     verify W' vs proof g h G H =
     Done (if g1_eqb (g1_mul (- (w_random W' (v_nrand vs2) * (c_x c * c_x c)
                                 * zsum (prover_assignment s2) (p_constraints s2) (c_z c))) g) g1_id
           then Ok tp else Err VerificationError)).
Proof.
  intros Hsim Erun Eprove.
  destruct (sim_related W W' R g h pp vp Hsim (prover_new g h t) (verifier_new t) a s) as
    (b & vs & Evrun & Hsync & HR & Eg & Eh); [reflexivity|reflexivity|apply sync_new|exact Erun|].
  destruct (round_trip_sync s vs proof tp Hsync Eg Eh Eprove) as (s2 & vs2 & Hrest).
  exists b, vs, s2, vs2. split; [exact Evrun|]. split; [exact HR|]. split; [apply Hsync|]. exact Hrest.
Qed.

End Main.
End RoundTrip.
