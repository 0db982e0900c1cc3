(** The proving and verifying functions of Model/Gadgets.v. *)
From Coq Require Import ZArith String List Lia Bool Ring Field Arith.
From Verif.Base Require Import Outcome Fp Params Algebra.
From Verif.Model Require Import Transcript LinComb Prog VectorPoly IPP Prover Verifier Gadgets.
From Verif.Spec Require Import R1CS Sim Session Protocol Verdict Gadget Cheats.
From Verif.Proofs Require Import IPPProofs LinCombProofs RunProofs GadgetTools GadgetBasic GadgetComplete.
Import ListNotations.

Section Programs.
Context {P : Params} {OK : ParamsOk P}.
Local Open Scope fe_scope.
Add Field FFgp : (Fp_field_theory modulus modulus_prime).

(** *** What the verifiers' circuits force *)
Section V.
Context (W : world) (asg : assignment).
Local Notation val := (var_value asg).
Local Notation okspec := (okspec W false asg).
Local Notation vspec := (vspec W false asg).

Lemma ok_remove0 {B} s l (f : G1 * list G1 -> vprog (result B)) Q :
  (forall c t, l = c :: t -> okspec s (f (c, t)) Q) -> okspec s (pbind (remove0 l) f) Q.
Proof. intros H. destruct l as [|c t]; [apply vspec_panic|]. exact (H c t eq_refl). Qed.
Lemma v_remove0 {B} s l (f : G1 * list G1 -> vprog B) Q :
  (forall c t, l = c :: t -> vspec s (f (c, t)) Q) -> vspec s (pbind (remove0 l) f) Q.
Proof. intros H. destruct l as [|c t]; [apply vspec_panic|]. exact (H c t eq_refl). Qed.

Lemma bounded_num_sound checks lower upper n comms s :
  okspec s (verify_bounded_num checks lower upper n comms) (fun _ _ =>
    exists za zb, (0 <= za < 2 ^ Z.of_nat n)%Z /\ (0 <= zb < 2 ^ Z.of_nat n)%Z /\
      val (VCommitted (length (v_V s))) = fe_of (lower + za) /\ val (VCommitted (length (v_V s))) = fe_of (upper - zb)).
Proof.
  unfold verify_bounded_num.
  apply ok_remove0. intros c1 t1 _. apply ok_commit. intros s1 _ V1.
  apply ok_remove0. intros c2 t2 _. apply ok_commit. intros s2 _ V2.
  apply ok_remove0. intros c3 t3 _. apply ok_commit. intros s3 _ V3.
  eapply ok_try; [apply bound_check_sound|]. intros [] s4 [_ H]. apply ok_ret. exact H.
Qed.

Lemma non_zero_val_sound comms s :
  okspec s (verify_non_zero_val comms) (fun _ _ =>
    val (VCommitted (length (v_V s))) * val (VCommitted (S (length (v_V s)))) = 1).
Proof.
  unfold verify_non_zero_val.
  apply ok_remove0. intros c1 t1 _. apply ok_commit. intros s1 _ V1.
  apply ok_remove0. intros c2 t2 _. apply ok_commit. intros s2 _ V2.
  rewrite V1, app_length, Nat.add_1_r.
  eapply ok_try; [apply nonzero_sound|]. intros [] s4 [_ H]. apply ok_ret. exact H.
Qed.

Lemma verify_set_membership_sound set comms s :
  okspec s (verify_set_membership set comms) (fun _ _ => In (val (VCommitted (length (v_V s)))) set).
Proof.
  unfold verify_set_membership. apply ok_remove0. intros c1 t1 _. apply ok_commit. intros s1 _ V1.
  eapply ok_bind; [apply (vspec_fold W false asg _ (fun _ _ _ => True)); [|exact I]|].
  - intros j x [cs ds] s2 _ _. apply v_remove0. intros c t _. apply vspec_bind, vspec_commit. intros s3 _ _. apply vspec_ret. exact I.
  - intros [cs ds] s2 _. eapply ok_try; [apply set_membership_sound|]. intros [] s3 (_ & H & _). apply ok_ret. exact H.
Qed.

Lemma verify_non_membership_sound set comms s :
  okspec s (verify_set_non_membership set comms) (fun _ _ => ~ In (val (VCommitted (length (v_V s)))) set).
Proof.
  unfold verify_set_non_membership. apply ok_remove0. intros c1 t1 _. apply ok_commit. intros s1 _ V1.
  eapply ok_bind; [apply (vspec_fold W false asg _ (fun _ _ _ => True)); [|exact I]|].
  - intros j x [[cs ds] dis] s2 _ _. apply v_remove0. intros c t _. apply vspec_bind, vspec_commit. intros s3 _ _.
    apply v_remove0. intros c' t' _. apply vspec_bind, vspec_commit. intros s4 _ _. apply vspec_ret. exact I.
  - intros [[cs ds] dis] s2 _. eapply ok_try; [apply non_membership_sound|]. intros [] s3 (_ & H & _). apply ok_ret. exact H.
Qed.

Lemma verify_set_membership_alt_sound set comms s :
  okspec s (verify_set_membership_alt set comms) (fun _ _ =>
    let bits := map (fun i => val (VCommitted (length (v_V s) + i))) (seq 0 (length set)) in
    Forall (fun b => b = 0 \/ b = 1) bits /\ fsum bits = 1 /\
    (val (VCommitted (length (v_V s) + length set)) = 0 \/
     exists it, In it set /\ val (VCommitted (length (v_V s) + length set)) = fe_of it)).
Proof.
  unfold verify_set_membership_alt.
  eapply ok_try; [apply (ok_try_fold W false asg _ (fun j st s' =>
     length (v_V s') = (length (v_V s) + j)%nat /\
     snd (fst st) = map (fun i => VCommitted (length (v_V s) + i)) (seq 0 j) /\
     Forall (fun b => b = 0 \/ b = 1) (map val (snd (fst st)))))|].
  - intros j x [[cs bv] ba] s1 _ (HV & HL & Hb). apply ok_remove0. intros c t _. apply ok_commit. intros s2 _ V2.
    eapply ok_try; [apply bit_sound|]. intros [] s3 [[_ K] Hbit]. apply ok_ret. cbn [fst snd] in *.
    rewrite K, V2, !app_length, HV, HL. split; [cbn; lia|]. rewrite seq_S, map_app. split; [reflexivity|].
    rewrite map_app. apply Forall_app. rewrite <- HL. split; [exact Hb|]. constructor; [|constructor].
    cbn [q_var] in Hbit. rewrite HV in Hbit. exact Hbit.
  - cbn. split; [lia|]. split; [reflexivity|constructor].
  - rewrite seq_length. intros [[cs bv] ba] s1 (HV & HL & Hb). cbn [fst snd] in HL, Hb.
    eapply ok_try; [apply vector_sum_sound|]. intros [] s2 [[_ K2] Hsum].
    apply ok_remove0. intros c t _. apply ok_commit. intros s3 _ V3.
    eapply ok_try; [apply vector_product_sound|]. intros [] s4 [_ H]. apply ok_ret.
    cbn [q_var] in H. rewrite K2, HV in H. rewrite HL, map_map in Hb, Hsum.
    split; [exact Hb|]. split; [exact Hsum|exact H].
Qed.

Lemma fsum_bits l : Forall (fun x => x = 0 \/ x = 1) l -> exists k, (0 <= k <= Z.of_nat (length l))%Z /\ fsum l = fe_of k.
Proof.
  induction 1 as [|x t Hx _ [k [Hk E]]]; [exists 0%Z; cbn; split; [lia|reflexivity]|].
  cbn [fsum length]. destruct Hx as [-> | ->].
  - exists k. split; [lia|]. rewrite E. ring.
  - exists (1 + k)%Z. split; [lia|]. rewrite fe_of_add, E. reflexivity.
Qed.

Lemma hamming_sound ph original new count s :
  GadgetTools.okspec W ph asg s (hamming_distance_gadget original new count) (fun _ _ => exists k,
    (0 <= k <= Z.of_nat (length new))%Z /\ fe_of count = fe_of k).
Proof.
  unfold hamming_distance_gadget. destruct (negb _); [apply ok_err|].
  eapply ok_try; [apply (ok_try_fold W ph asg _ (fun j st s' =>
     v_pending s' = v_pending s /\ length st = j /\ Forall (fun x => x = 0 \/ x = 1) (map val st)))|].
  - intros j i st s1 _ (Hp & HL & Hb). apply ok_lift. intros oi _. apply ok_lift. intros ni _.
    apply ok_evaluate. cbn [option_map].
    destruct (v_pending s) as [pi|] eqn:Ep.
    + intros r s2 E. exfalso. revert E. unfold ptry at 1. cbn [cs_allocate_single pbind vrun].
      unfold verifier_allocate_single at 1, verifier_allocate. rewrite Hp. cbn. discriminate.
    + unfold ptry at 1 2. cbn [cs_allocate_single pbind].
      eapply vspec_singles; [exact Hp|intros; reflexivity|]. intros i2 s2 K2 E2. cbn [pbind p_lift of_option].
      change (GadgetTools.okspec W ph asg s2 (pbind (cs_multiply (lc_of_var (VLeft i2)) (var_sub_lc VOne (lc_of_var (VOut i2))))
        (fun '(_, _, o) => pbind (cs_constrain (lc_of_var o)) (fun _ => PRet (Ok (st ++ [VOut i2])))))
        (fun st' s' => v_pending s' = None /\ length st' = S j /\ Forall (fun x => x = 0 \/ x = 1) (map val st'))).
      apply ok_multiply. intros s3 vl vr vo K3 _ _ E3. apply ok_constrain. intros s4 K4 E4. apply ok_ret.
      split. { destruct K2, K3, K4. congruence. }
      split; [rewrite app_length; cbn; lia|]. rewrite map_app. apply Forall_app. split; [exact Hb|].
      cbn [map]. constructor; [|constructor]. lcv E3. lcv E4. cbn [var_value] in E3 |- *.
      rewrite E4 in E3. symmetry in E3. apply F_mul_integral in E3 as [E3|E3].
      * left. change (val (VOut i2) = 0). rewrite E2. cbn [var_value]. rewrite E3. ring.
      * right. symmetry. apply sub_zero_eq. exact E3.
  - split; [reflexivity|]. split; [reflexivity|constructor].
  - rewrite seq_length. intros st s1 (_ & HL & Hb). eapply ok_try; [apply vector_sum_sound|]. intros [] s2 [_ E].
    apply ok_ret. destruct (fsum_bits _ Hb) as [k [Hk Ek]]. exists k. rewrite map_length, HL in Hk. split; [exact Hk|].
    rewrite <- E. exact Ek.
Qed.

Lemma verify_hamming_sound new count comms s :
  okspec s (verify_hamming_distance new count comms) (fun _ _ => exists k,
    (0 <= k <= Z.of_nat (length new))%Z /\ fe_of count = fe_of k).
Proof.
  unfold verify_hamming_distance.
  eapply ok_bind; [apply (vspec_fold W false asg _ (fun _ _ _ => True)); [|exact I]|].
  - intros j x ds s2 _ _. apply vspec_bind, vspec_commit. intros s3 _ _. apply vspec_ret. exact I.
  - intros ds s2 _. eapply ok_try; [apply hamming_sound|]. intros [] s3 H. apply ok_ret. exact H.
Qed.
End V.

(** *** Honest runs *)
Section B.
Context (W W' : world).
Local Notation both := (both W W' false).

(** the blinding used for the first commitment, and how many draws it takes *)
Definition rand_of (rnd : option F) (n : nat) : F := match rnd with Some r => r | None => w_random W n end.
Definition rand_used (rnd : option F) : nat := match rnd with Some _ => O | None => 1%nat end.
Definition rand_given (rnd : option F) (rng : bool) : Prop := rnd <> None \/ rng = true.

Lemma check_ok rnd rng : rand_given rnd rng -> check_for_randomness_or_rng rnd rng = PRet (Ok tt).
Proof. destruct rnd, rng; intros [H|H]; try reflexivity; [contradiction|discriminate]. Qed.

Lemma b_randomness k r {A B} rnd rng (f : F -> pprog A) (m' : vprog B) ps vs Q : rand_given rnd rng ->
  (forall ps', grew 0 (rand_used rnd) ps ps' -> p_nrand ps' = (p_nrand ps + rand_used rnd)%nat ->
     both k r (f (rand_of rnd (p_nrand ps))) m' ps' vs Q) ->
  both k (rand_used rnd + r) (pbind (randomness_or_rng rnd rng) f) m' ps vs Q.
Proof.
  intros Hg H. destruct rnd as [x|]; cbn in *.
  - intros Hh Hs. apply H; auto. apply grew_refl. apply (sy_wf _ _ Hs).
  - destruct Hg as [Hg | ->]; [contradiction|]. apply both_random. intros ps' Hg'. apply H; [exact Hg'|].
    apply (gr_rand _ _ _ _ Hg').
Qed.

Lemma commit_grew k r ps ps' v b : grew k r ps ps' -> commit (p_g ps) (p_h ps) v b = commit (p_g ps') (p_h ps') v b.
Proof. intros H. rewrite (grew_g _ _ _ _ H), (grew_h _ _ _ _ H). reflexivity. Qed.

(** a random draw and a commitment *)
Lemma b_draw_commit k r {A B} v c (f : G1 * var -> pprog A) (f' : var -> vprog B) ps vs Q :
  c = commit (p_g ps) (p_h ps) v (w_random W (p_nrand ps)) ->
  (forall ps' vs' w, grew 0 1 ps ps' -> p_nrand ps' = S (p_nrand ps) -> has_value ps' w v -> both k r (f (c, w)) (f' w) ps' vs' Q) ->
  both k (S r) (pbind p_random (fun b => pbind (cs_commit (v, b)) f)) (pbind (cs_commit c) f') ps vs Q.
Proof.
  intros -> H. apply both_random. intros ps1 Hg1. apply b_commit; [apply (commit_grew _ _ _ _ _ _ Hg1)|].
  intros ps2 vs2 w Hg2 Hv. apply H; [exact (grew_trans 0 1 0 0 _ _ _ Hg1 Hg2)| |exact Hv].
  rewrite (gr_rand _ _ _ _ Hg2), (gr_rand _ _ _ _ Hg1). lia.
Qed.

(** reassociate the draw and the commitment of the model's programs *)
Lemma both_bounded_num checks zv rnd lower upper n rng ps vs :
  rand_given rnd rng -> (lower <= zv <= upper)%Z -> (zv - lower < 2 ^ Z.of_nat n)%Z -> (upper - zv < 2 ^ Z.of_nat n)%Z ->
  let N := (p_nrand ps + rand_used rnd)%nat in
  let com v b := commit (p_g ps) (p_h ps) v b in
  let comms := [com (fe_of zv) (rand_of rnd (p_nrand ps)); com (fe_of (zv - lower)) (w_random W N);
                com (fe_of (upper - zv)) (w_random W (S N))] in
  both (n + n) (rand_used rnd + 2) (prove_bounded_num checks zv rnd lower upper n rng)
    (verify_bounded_num checks lower upper n comms) ps vs (fun a b _ => a = Ok comms /\ b = Ok tt).
Proof.
  intros Hr Hz Ha Hb N com comms. unfold prove_bounded_num, verify_bounded_num. rewrite (check_ok _ _ Hr).
  assert (E1 : u64_sub checks zv lower = Done (zv - lower)%Z) by (unfold u64_sub; destruct (Z.ltb_spec zv lower); [lia|reflexivity]).
  assert (E2 : u64_sub checks upper zv = Done (upper - zv)%Z) by (unfold u64_sub; destruct (Z.ltb_spec upper zv); [lia|reflexivity]).
  rewrite E1, E2. cbn [p_lift pbind ptry remove0 comms].
  apply b_randomness; [exact Hr|]. intros ps1 Hg1 N1.
  apply b_commit; [apply (commit_grew _ _ _ _ _ _ Hg1)|]. intros ps2 vs2 v Hg2 Hv. cbn [pbind remove0].
  assert (N2 : p_nrand ps2 = N) by (rewrite (gr_rand _ _ _ _ Hg2); unfold N; lia).
  pose proof (grew_trans _ _ _ _ _ _ _ Hg1 Hg2) as Hg12.
  apply b_draw_commit; [rewrite N2; apply (commit_grew _ _ _ _ _ _ Hg12)|]. intros ps3 vs3 a Hg3 N3 Hva. carry Hg3. cbn [pbind remove0].
  pose proof (grew_trans _ _ _ _ _ _ _ Hg12 Hg3) as Hg13.
  apply b_draw_commit; [rewrite N3, N2; apply (commit_grew _ _ _ _ _ _ Hg13)|]. intros ps4 vs4 b Hg4 _ Hvb. carry Hg4.
  rewrite fe_of_sub in Hva, Hvb. rewrite !fe_of_sub.
  assert (Hle : forall z, (0 <= z)%Z -> (fval (fe_of z) <= z)%Z).
  { intros z Hz0. unfold fe_of. rewrite fval_of_Z. apply Z.mod_le; [exact Hz0|]. pose proof (p_gt_1 modulus modulus_prime). lia. }
  eapply both_cost.
  { eapply b_gadget; [apply bound_check_both; [exact Hv|exact Hva|exact Hvb|lia| |]|].
    - rewrite <- fe_of_sub. pose proof (Hle (zv - lower)%Z). lia.
    - rewrite <- fe_of_sub. pose proof (Hle (upper - zv)%Z). lia.
    - intros ps5 vs5 _. apply both_ret. split; [unfold comms; rewrite !fe_of_sub|]; reflexivity. }
  all: lia.
Qed.

Lemma both_non_zero_val x rnd rng ps vs : rand_given rnd rng -> x <> 0 ->
  let N := (p_nrand ps + rand_used rnd)%nat in
  let com v b := commit (p_g ps) (p_h ps) v b in
  let comms := [com x (rand_of rnd (p_nrand ps)); com (finv x) (w_random W N)] in
  both 2 (rand_used rnd + 1) (prove_non_zero_val x rnd rng) (verify_non_zero_val comms) ps vs
    (fun a b _ => a = Ok comms /\ b = Ok tt).
Proof.
  intros Hr Hx N com comms. unfold prove_non_zero_val, verify_non_zero_val. rewrite (check_ok _ _ Hr).
  cbn [p_lift pbind ptry remove0 comms].
  apply b_randomness; [exact Hr|]. intros ps1 Hg1 N1.
  apply b_commit; [apply (commit_grew _ _ _ _ _ _ Hg1)|]. intros ps2 vs2 v Hg2 Hv. cbn [pbind remove0].
  assert (N2 : p_nrand ps2 = N) by (rewrite (gr_rand _ _ _ _ Hg2); unfold N; lia).
  pose proof (grew_trans _ _ _ _ _ _ _ Hg1 Hg2) as Hg12.
  apply b_draw_commit; [rewrite N2; apply (commit_grew _ _ _ _ _ _ Hg12)|]. intros ps3 vs3 a Hg3 N3 Hva. carry Hg3.
  eapply both_cost.
  { eapply b_gadget; [eapply nonzero_both; [exact Hv|exact Hva|exact Hx]|].
    intros ps5 vs5 _. apply both_ret. split; reflexivity. }
  all: lia.
Qed.

Lemma nth_skipn_cons {A} (l : list A) j d : (j < length l)%nat -> skipn j l = nth j l d :: skipn (S j) l.
Proof.
  revert j. induction l as [|x t IH]; intros j H; [cbn in H; lia|]. destruct j; [reflexivity|]. cbn in H. cbn [skipn nth].
  apply IH. lia.
Qed.

Definition diff_comms (g h : G1) (x : F) (set : list F) (N : nat) : list G1 :=
  map (fun i => commit g h (nth i set 0 - x) (w_random W (N + i))) (seq 0 (length set)).

Lemma diff_comms_length g h x set N : length (diff_comms g h x set N) = length set.
Proof. unfold diff_comms. rewrite map_length, seq_length. reflexivity. Qed.
Lemma diff_comms_nth g h x set N i d : (i < length set)%nat ->
  nth i (diff_comms g h x set N) d = commit g h (nth i set 0 - x) (w_random W (N + i)).
Proof.
  intros H. unfold diff_comms. rewrite (nth_map_in _ _ _ O) by (rewrite seq_length; exact H). rewrite seq_nth by exact H. reflexivity.
Qed.

Lemma nth_error_seq1 n j i : nth_error (seq 1 n) j = Some i -> i = S j /\ (j < n)%nat.
Proof.
  intros E. assert (H : (j < length (seq 1 n))%nat) by (apply nth_error_Some; congruence).
  rewrite seq_length in H. split; [|exact H].
  apply nth_error_nth with (d := O) in E. rewrite seq_nth in E by exact H. lia.
Qed.

Lemma same_vars_snoc qs qs' v o o' : same_vars qs qs' -> same_vars (qs ++ [Quantity v o]) (qs' ++ [Quantity v o']).
Proof. intros H. unfold same_vars. rewrite !map_app, H. reflexivity. Qed.

Lemma both_set_membership x rnd set rng ps vs : rand_given rnd rng -> In x set ->
  let N := (p_nrand ps + rand_used rnd)%nat in
  let comms := commit (p_g ps) (p_h ps) x (rand_of rnd (p_nrand ps)) :: diff_comms (p_g ps) (p_h ps) x set N in
  both (length set) (rand_used rnd + length set) (prove_set_membership x rnd set rng) (verify_set_membership set comms) ps vs
    (fun a b _ => a = Ok comms /\ b = Ok tt).
Proof.
  intros Hr Hx N comms. unfold prove_set_membership, verify_set_membership. rewrite (check_ok _ _ Hr).
  cbn [p_lift pbind ptry remove0 comms].
  apply b_randomness; [exact Hr|]. intros ps1 Hg1 N1.
  apply b_commit; [apply (commit_grew _ _ _ _ _ _ Hg1)|]. intros ps2 vs2 v Hg2 Hv.
  assert (N2 : p_nrand ps2 = N) by (rewrite (gr_rand _ _ _ _ Hg2); unfold N; lia).
  pose proof (grew_trans _ _ _ _ _ _ _ Hg1 Hg2) as Hg12.
  set (D := diff_comms (p_g ps) (p_h ps) x set N).
  eapply both_cost.
  { eapply both_bind; [eapply (both_fold W W' false 0 1 _ _ _ _ ps2 vs2 _ _
      (fun j '(cs, qs) '(rest, qs') ps' => cs = commit (p_g ps) (p_h ps) x (rand_of rnd (p_nrand ps)) :: firstn j D /\
         rest = skipn j D /\ same_vars qs qs' /\
         Forall2 (has_value ps') (map q_var qs) (map (fun y => y - x) (firstn j set))))|].
    - rewrite !seq_length. reflexivity.
    - intros j i i' [cs qs] [rest qs'] ps3 vs3 Hi Hi' Hg (-> & -> & Hsv & Hq).
      apply nth_error_seq0 in Hi as [-> Hj]. cbn [p_lift pbind].
      rewrite (index_done _ _ 0) by exact Hj. cbn [p_lift pbind].
      rewrite (nth_skipn_cons D j g1_id) by (unfold D; rewrite diff_comms_length; exact Hj). cbn [remove0 pbind].
      apply b_draw_commit.
      { unfold D. rewrite diff_comms_nth by exact Hj. rewrite (gr_rand _ _ _ _ Hg), N2, Nat.mul_1_r.
        apply (commit_grew _ _ _ _ _ _ (grew_trans _ _ _ _ _ _ _ Hg12 Hg)). }
      intros ps4 vs4 w Hg4 _ Hw. apply both_ret. split.
      { rewrite (firstn_S_nth D j g1_id) by (unfold D; rewrite diff_comms_length; exact Hj). reflexivity. }
      split; [reflexivity|]. split; [apply same_vars_snoc; exact Hsv|].
      rewrite (firstn_S_nth set j 0) by exact Hj. rewrite !map_app. apply Forall2_app.
      + apply (forall2_grew _ _ _ _ _ _ Hg4). exact Hq.
      + cbn. constructor; [exact Hw|constructor].
    - intros _. split; [reflexivity|]. split; [reflexivity|]. split; [reflexivity|]. constructor.
    - intros [cs qs] [rest qs'] ps3 vs3 Hg (-> & -> & Hsv & Hq). carry Hg. rewrite seq_length in Hq |- *. rewrite firstn_all in Hq.
      rewrite firstn_all2 by (unfold D; rewrite diff_comms_length; lia).
      eapply b_gadget; [eapply set_membership_both; [exact Hv|exact Hsv|exact Hq|exact Hx]|].
      intros ps5 vs5 _. apply both_ret. split; reflexivity. }
  all: rewrite seq_length; lia.
Qed.

Definition diff_inv_comms (g h : G1) (x : F) (set : list F) (N : nat) : list (G1 * G1) :=
  map (fun i => (commit g h (nth i set 0 - x) (w_random W (N + 2 * i)),
                 commit g h (finv (nth i set 0 - x)) (w_random W (N + 2 * i + 1)))) (seq 0 (length set)).

Definition flat_pairs (l : list (G1 * G1)) : list G1 := flat_map (fun '(a, b) => [a; b]) l.

Lemma both_non_membership x rnd set rng ps vs : rand_given rnd rng -> ~ In x set ->
  let N := (p_nrand ps + rand_used rnd)%nat in
  let comms := commit (p_g ps) (p_h ps) x (rand_of rnd (p_nrand ps)) ::
     flat_pairs (diff_inv_comms (p_g ps) (p_h ps) x set N) in
  both (2 * length set) (rand_used rnd + 2 * length set) (prove_set_non_membership x rnd set rng)
    (verify_set_non_membership set comms) ps vs (fun a b _ => a = Ok comms /\ b = Ok tt).
Proof.
  intros Hr Hx N comms. unfold prove_set_non_membership, verify_set_non_membership. rewrite (check_ok _ _ Hr).
  cbn [p_lift pbind ptry remove0 comms].
  apply b_randomness; [exact Hr|]. intros ps1 Hg1 N1.
  apply b_commit; [apply (commit_grew _ _ _ _ _ _ Hg1)|]. intros ps2 vs2 v Hg2 Hv.
  assert (N2 : p_nrand ps2 = N) by (rewrite (gr_rand _ _ _ _ Hg2); unfold N; lia).
  pose proof (grew_trans _ _ _ _ _ _ _ Hg1 Hg2) as Hg12.
  set (D := diff_inv_comms (p_g ps) (p_h ps) x set N).
  assert (HD : length D = length set) by (unfold D, diff_inv_comms; rewrite map_length, seq_length; reflexivity).
  eapply both_cost.
  { eapply both_bind; [eapply (both_fold W W' false 0 2 _ _ _ _ ps2 vs2 _ _
      (fun j '(cs, qs, is) '(rest, qs', is') ps' =>
         cs = commit (p_g ps) (p_h ps) x (rand_of rnd (p_nrand ps)) :: flat_pairs (firstn j D) /\
         rest = flat_pairs (skipn j D) /\ same_vars qs qs' /\ same_vars is is' /\
         Forall2 (has_value ps') (map q_var qs) (map (fun y => y - x) (firstn j set)) /\
         Forall2 (has_value ps') (map q_var is) (map (fun y => finv (y - x)) (firstn j set))))|].
    - rewrite !seq_length. reflexivity.
    - intros j i i' [[cs qs] is] [[rest qs'] is'] ps3 vs3 Hi Hi' Hg (-> & -> & Hsv & Hsv' & Hq & His).
      apply nth_error_seq0 in Hi as [-> Hj]. cbn [p_lift pbind].
      rewrite (index_done _ _ 0) by exact Hj. cbn [p_lift pbind].
      rewrite (nth_skipn_cons D j (g1_id, g1_id)) by lia.
      assert (HDj : nth j D (g1_id, g1_id) = (commit (p_g ps) (p_h ps) (nth j set 0 - x) (w_random W (N + 2 * j)),
                 commit (p_g ps) (p_h ps) (finv (nth j set 0 - x)) (w_random W (N + 2 * j + 1)))).
      { unfold D, diff_inv_comms. rewrite (nth_map_in _ _ _ O) by (rewrite seq_length; exact Hj). rewrite seq_nth by exact Hj. reflexivity. }
      rewrite HDj. cbn [flat_pairs flat_map app remove0 pbind].
      pose proof (grew_trans _ _ _ _ _ _ _ Hg12 Hg) as Hg13.
      assert (N3 : p_nrand ps3 = (N + 2 * j)%nat) by (rewrite (gr_rand _ _ _ _ Hg), N2; lia).
      apply b_draw_commit. { rewrite N3. apply (commit_grew _ _ _ _ _ _ Hg13). }
      intros ps4 vs4 w Hg4 N4 Hw. cbn [pbind remove0].
      apply b_draw_commit.
      { rewrite N4, N3, Nat.add_1_r. apply (commit_grew _ _ _ _ _ _ (grew_trans _ _ _ _ _ _ _ Hg13 Hg4)). }
      intros ps5 vs5 w' Hg5 _ Hw'. carry Hg5. apply both_ret.
      pose proof (grew_trans _ _ _ _ _ _ _ Hg4 Hg5) as Hg45. split.
      { rewrite (firstn_S_nth D j (g1_id, g1_id)) by lia. unfold flat_pairs. rewrite flat_map_app, HDj. reflexivity. }
      split; [reflexivity|]. split; [apply same_vars_snoc; exact Hsv|]. split; [apply same_vars_snoc; exact Hsv'|].
      rewrite (firstn_S_nth set j 0) by exact Hj. rewrite !map_app. split; apply Forall2_app.
      + apply (forall2_grew _ _ _ _ _ _ Hg45). exact Hq.
      + cbn. constructor; [exact Hw|constructor].
      + apply (forall2_grew _ _ _ _ _ _ Hg45). exact His.
      + cbn. constructor; [exact Hw'|constructor].
    - intros _. split; [reflexivity|]. split; [reflexivity|]. split; [reflexivity|]. split; [reflexivity|]. split; constructor.
    - intros [[cs qs] is] [[rest qs'] is'] ps3 vs3 Hg (-> & -> & Hsv & Hsv' & Hq & His). carry Hg.
      rewrite seq_length in Hq, His |- *. rewrite firstn_all in Hq, His. rewrite firstn_all2 by lia.
      eapply b_gadget; [eapply non_membership_both; [exact Hv|exact Hsv|exact Hsv'|exact Hq|exact His|exact Hx]|].
      intros ps5 vs5 _. apply both_ret. split; reflexivity. }
  all: rewrite seq_length; lia.
Qed.

(** the bits of the alternative membership proof: [cb b] is committed, [ca b] is used later *)
Lemma both_alt_bits {T} (cb ca : T -> F) (bits : list T) (C : list G1) c0 n ps vs :
  (forall b, In b bits -> cb b = 0 \/ cb b = 1) -> length bits = n ->
  C = map (fun i => commit (p_g ps) (p_h ps) (nth i (map cb bits) 0) (w_random W (p_nrand ps + i))) (seq 0 n) ->
  both (length bits) (length bits)
    (p_try_fold (fun '(comms, bit_vars, bit_allocs) b =>
      pbind p_random (fun rb => pbind (cs_commit (cb b, rb)) (fun '(com, var) =>
      ptry (bit_gadget (Quantity var (Some (cb b)))) (fun _ =>
      PRet (Ok (comms ++ [com], bit_vars ++ [var], bit_allocs ++ [Quantity var (Some (ca b))]))))))
      bits ([], [], []))
    (p_try_fold (fun '(commitments, bit_vars, bit_allocs) _ =>
      pbind (remove0 commitments) (fun '(c, commitments) =>
      pbind (cs_commit c) (fun var =>
      ptry (bit_gadget (Quantity var None)) (fun _ =>
      PRet (Ok (commitments, bit_vars ++ [var], bit_allocs ++ [Quantity var None]))))))
      (seq 0 n) (C ++ [c0], [], [])) ps vs
    (fun a b ps' => exists st st', a = Ok st /\ b = Ok st' /\
       let '(comms, bvs, bas) := st in let '(rest, bvs', bas') := st' in
       comms = C /\ rest = [c0] /\ bvs = bvs' /\ same_vars bas bas' /\ map q_assignment bas = map Some (map ca bits) /\
       Forall2 (has_value ps') bvs (map cb bits)).
Proof.
  intros Hb Hn HC.
  assert (HCl : length C = n) by (rewrite HC, map_length, seq_length; reflexivity).
  eapply both_cost.
  { eapply both_conseq; [eapply (both_try_fold W W' false 1 1 _ _ _ _ ps vs _ _ (fun j st st' ps' =>
       let '(comms, bvs, bas) := st in let '(rest, bvs', bas') := st' in
       comms = firstn j C /\ rest = skipn j C ++ [c0] /\ bvs = bvs' /\ same_vars bas bas' /\
       map q_assignment bas = map Some (map ca (firstn j bits)) /\
       Forall2 (has_value ps') bvs (map cb (firstn j bits))))|].
    - rewrite seq_length. exact Hn.
    - intros j b i' [[comms bvs] bas] [[rest bvs'] bas'] ps1 vs1 Hi Hi' Hg (-> & -> & <- & Hsv & Has & Hv).
      apply nth_error_seq0 in Hi' as [-> Hj].
      assert (Ej : nth j C g1_id = commit (p_g ps) (p_h ps) (cb b) (w_random W (p_nrand ps + j))).
      { rewrite HC, (nth_map_in _ _ _ O) by (rewrite seq_length; exact Hj). rewrite seq_nth by exact Hj. f_equal.
        rewrite (nth_map_in cb bits j b) by lia. f_equal. apply nth_error_nth. exact Hi. }
      rewrite (nth_skipn_cons C j g1_id) by lia. cbn [app remove0 pbind].
      apply b_draw_commit.
      { rewrite Ej, (gr_rand _ _ _ _ Hg), Nat.mul_1_r. apply (commit_grew _ _ _ _ _ _ Hg). }
      intros ps2 vs2 w Hg2 _ Hw. cbn [pbind].
      eapply both_cost.
      { eapply b_gadget; [apply bit_both; [exact Hw|apply Hb; eapply nth_error_In; exact Hi]|]. intros ps3 vs3 Hg3. carry Hg3.
        apply both_ret. eexists (_, _, _), (_, _, _). split; [reflexivity|]. split; [reflexivity|]. cbv beta iota.
        assert (Eb : firstn (S j) bits = firstn j bits ++ [b]).
        { rewrite (firstn_S_nth bits j b) by lia. f_equal. f_equal. apply nth_error_nth. exact Hi. }
        rewrite Eb, !map_app, Has.
        split; [rewrite (firstn_S_nth C j g1_id) by lia; reflexivity|]. split; [reflexivity|]. split; [reflexivity|].
        split; [apply same_vars_snoc; exact Hsv|]. split; [reflexivity|].
        apply Forall2_app; [|constructor; [exact Hw|constructor]].
        apply (forall2_grew _ _ _ _ _ _ Hg3), (forall2_grew _ _ _ _ _ _ Hg2). exact Hv. }
      all: lia.
    - intros _. repeat (split; [reflexivity|]). constructor.
    - intros a b ps1 Hg ([[comms bvs] bas] & [[rest bvs'] bas'] & -> & -> & E1 & E2 & E3 & Hsv & Has & Hv).
      exists (comms, bvs, bas), (rest, bvs', bas'). split; [reflexivity|]. split; [reflexivity|].
      rewrite firstn_all in Has, Hv. rewrite firstn_all2 in E1 by lia. rewrite skipn_all2 in E2 by lia. auto 10. }
  all: lia.
Qed.

Lemma fsum_indicator value set :
  fsum (map fe_of (map (fun elem => if Z.eqb elem value then 1 else 0)%Z set)) = fe_of (Z.of_nat (count_occ Z.eq_dec set value)).
Proof.
  induction set as [|y t IH]; [reflexivity|]. cbn [map fsum count_occ].
  destruct (Z.eq_dec y value) as [E|E].
  - rewrite (proj2 (Z.eqb_eq _ _) E), IH, Nat2Z.inj_succ, <- Z.add_1_l, fe_of_add. reflexivity.
  - rewrite (proj2 (Z.eqb_neq _ _) E), IH, fe_of_0. ring.
Qed.

Definition alt_bit_comms (g h : G1) (bits : list F) (N : nat) : list G1 :=
  map (fun i => commit g h (nth i bits 0) (w_random W (N + i))) (seq 0 (length bits)).

Lemma both_set_membership_alt value rnd set rng ps vs : rand_given rnd rng -> count_occ Z.eq_dec set value = 1%nat ->
  let bits := map (fun elem => if Z.eqb elem value then 1 else 0) set in
  let comms := alt_bit_comms (p_g ps) (p_h ps) bits (p_nrand ps) ++
     [commit (p_g ps) (p_h ps) (fe_of value) (rand_of rnd (p_nrand ps + length set))] in
  both (3 * length set) (length set + rand_used rnd) (prove_set_membership_alt value rnd set rng)
    (verify_set_membership_alt set comms) ps vs (fun a b _ => a = Ok comms /\ b = Ok tt).
Proof.
  intros Hr Hc bits comms. unfold prove_set_membership_alt, verify_set_membership_alt. rewrite (check_ok _ _ Hr).
  cbn [ptry pbind].
  set (zbits := map (fun elem => if Z.eqb elem value then 1 else 0)%Z set).
  assert (Ebits : map fe_of zbits = bits).
  { unfold zbits, bits. rewrite map_map. apply map_ext. intros y. destruct (Z.eqb y value); reflexivity. }
  assert (Hlen : length zbits = length set) by (unfold zbits; apply map_length).
  eapply both_cost.
  { eapply both_try; [eapply both_conseq; [unfold comms; eapply (both_alt_bits fe_of fe_of zbits)|]|].
    - intros b Hb. unfold zbits in Hb. apply in_map_iff in Hb as [y [<- _]]. destruct (Z.eqb y value); [right|left]; reflexivity.
    - exact Hlen.
    - rewrite Ebits. unfold alt_bit_comms. f_equal. unfold bits. rewrite map_length. reflexivity.
    - intros a b ps1 Hg H1. exact H1.
    - cbv beta. intros [[cs bvs] bas] [[rest bvs'] bas'] ps1 vs1 Hg (-> & -> & <- & Hsv & Has & Hv). rewrite Hlen in Hg.
      eapply b_gadget; [eapply vector_sum_both; [exact Hv|]|].
      { unfold zbits. rewrite fsum_indicator, Hc. reflexivity. }
      intros ps2 vs2 Hg2. cbn [remove0 pbind].
      eapply b_randomness; [exact Hr|]. intros ps3 Hg3 N3.
      pose proof (grew_trans _ _ _ _ _ _ _ Hg Hg2) as Hg12.
      assert (N2 : p_nrand ps2 = (p_nrand ps + length set)%nat) by (rewrite (gr_rand _ _ _ _ Hg12); lia).
      eapply b_commit. { rewrite N2. apply (commit_grew _ _ _ _ _ _ (grew_trans _ _ _ _ _ _ _ Hg12 Hg3)). }
      intros ps4 vs4 w Hg4 Hw.
      eapply b_gadget; [eapply vector_product_both; [exact Hw|exact Hsv|exact Has|rewrite map_length; congruence| |]|].
      + intros i Hi. rewrite (nth_map_in fe_of zbits i 0%Z) by lia. unfold zbits.
        rewrite (nth_map_in _ _ _ 0%Z) by exact Hi. destruct (Z.eqb_spec (nth i set 0%Z) value) as [E|E].
        * right. rewrite E. split; reflexivity.
        * left. reflexivity.
      + unfold zbits. rewrite fsum_indicator, Hc. change (fe_of (Z.of_nat 1)) with (1 : F). ring.
      + intros ps5 vs5 _. apply both_ret. split; [|reflexivity]. reflexivity. }
  all: rewrite ?Hlen; lia.
Qed.

Lemma both_cheat_alt set r ps vs : set <> [] ->
  let bits := 1 :: map (fun _ => 0) (tl set) in
  let comms := alt_bit_comms (p_g ps) (p_h ps) bits (p_nrand ps) ++ [commit (p_g ps) (p_h ps) 0 r] in
  both (3 * length set) (length set) (cheat_set_membership_alt set r)
    (verify_set_membership_alt set comms) ps vs (fun a b _ => a = Ok comms /\ b = Ok tt).
Proof.
  intros Hne bits comms. unfold cheat_set_membership_alt, verify_set_membership_alt.
  destruct set as [|y t]; [contradiction|]. cbn [tl] in *.
  change (1 :: map (fun _ : Z => 0 : F) t) with bits.
  assert (Hlen : length bits = length (y :: t)) by (unfold bits; cbn; rewrite map_length; reflexivity).
  assert (Hsum : fsum bits = 1).
  { unfold bits. cbn [fsum]. assert (E : forall l : list Z, fsum (map (fun _ => 0) l) = 0).
    { induction l as [|z l IH]; [reflexivity|]. cbn. rewrite IH. ring. }
    rewrite E. ring. }
  eapply both_cost.
  { eapply both_try; [eapply both_conseq; [unfold comms; eapply (both_alt_bits (fun b => b) (fun _ => 0) bits)|]|].
    - intros b [<-|Hb]; [auto|]. apply in_map_iff in Hb as [z [<- _]]. auto.
    - exact Hlen.
    - rewrite map_id. unfold alt_bit_comms. rewrite Hlen. reflexivity.
    - intros a b ps1 Hg H1. exact H1.
    - cbv beta. intros [[cs bvs] bas] [[rest bvs'] bas'] ps1 vs1 Hg (-> & -> & <- & Hsv & Has & Hv). rewrite map_id in Hv.
      eapply b_gadget; [eapply vector_sum_both; [exact Hv|exact Hsum]|].
      intros ps2 vs2 Hg2. cbn [remove0 pbind].
      eapply b_commit. { apply (commit_grew _ _ _ _ _ _ (grew_trans _ _ _ _ _ _ _ Hg Hg2)). }
      intros ps4 vs4 w Hg4 Hw.
      eapply b_gadget; [eapply vector_product_both; [exact Hw|exact Hsv|exact Has|rewrite map_length; congruence| |]|].
      + intros i Hi. left. rewrite (nth_map_in (fun _ : F => 0 : F) bits i 0) by lia. reflexivity.
      + ring.
      + intros ps5 vs5 _. apply both_ret. split; reflexivity. }
  all: rewrite ?Hlen; lia.
Qed.

Lemma both_cheat_bounded checks x r lower upper n ps vs : (lower <= upper)%Z -> (modulus <= 2 ^ Z.of_nat n)%Z ->
  let com v b := commit (p_g ps) (p_h ps) v b in
  let comms := [com x r; com (x - fe_of lower) (w_random W (p_nrand ps));
                com (fe_of upper - x) (w_random W (S (p_nrand ps)))] in
  both (n + n) 2 (cheat_bounded_num checks x r lower upper n)
    (verify_bounded_num checks lower upper n comms) ps vs (fun a b _ => a = Ok comms /\ b = Ok tt).
Proof.
  intros Hz Hn com comms. unfold cheat_bounded_num, verify_bounded_num. cbn [comms remove0 pbind].
  apply b_commit; [reflexivity|]. intros ps2 vs2 v Hg2 Hv. cbn [pbind remove0].
  assert (N2 : p_nrand ps2 = p_nrand ps) by (rewrite (gr_rand _ _ _ _ Hg2); lia).
  apply b_draw_commit; [rewrite N2; apply (commit_grew _ _ _ _ _ _ Hg2)|]. intros ps3 vs3 a Hg3 N3 Hva. carry Hg3. cbn [pbind remove0].
  apply b_draw_commit; [rewrite N3, N2; apply (commit_grew _ _ _ _ _ _ (grew_trans _ _ _ _ _ _ _ Hg2 Hg3))|].
  intros ps4 vs4 b Hg4 _ Hvb. carry Hg4.
  eapply both_cost.
  { eapply b_gadget; [apply bound_check_both; [exact Hv|exact Hva|exact Hvb|exact Hz| |]|].
    - pose proof (fval_range modulus modulus_prime (x - fe_of lower)). lia.
    - pose proof (fval_range modulus modulus_prime (fe_of upper - x)). lia.
    - intros ps5 vs5 _. apply both_ret. split; reflexivity. }
  all: lia.
Qed.

(** *** Hamming distance *)
Lemma map_q_var_none vars : map q_var (map (fun v => Quantity v None) vars) = vars.
Proof. rewrite map_map. cbn. apply map_id. Qed.

(** the verifier's evaluation does nothing *)
Lemma b_evaluate_r k r {A B} (m : pprog A) l (f' : option F -> vprog B) ps vs Q :
  both k r m (f' None) ps vs Q -> both k r m (pbind (cs_evaluate l) f') ps vs Q.
Proof. intros H. exact H. Qed.
Lemma b_lift_r k r {A B T} (m : pprog A) (o : outcome T) x (f' : T -> vprog B) ps vs Q : o = Done x ->
  both k r m (f' x) ps vs Q -> both k r m (pbind (p_lift o) f') ps vs Q.
Proof. intros -> H. exact H. Qed.

Definition vector_comms (g h : G1) (xs : list F) (N : nat) : list G1 :=
  map (fun i => commit g h (nth i xs 0) (w_random W (N + i))) (seq 0 (length xs)).
Lemma vector_comms_length g h xs N : length (vector_comms g h xs N) = length xs.
Proof. unfold vector_comms. rewrite map_length, seq_length. reflexivity. Qed.
Lemma vector_comms_nth g h xs N i d : (i < length xs)%nat ->
  nth i (vector_comms g h xs N) d = commit g h (nth i xs 0) (w_random W (N + i)).
Proof.
  intros H. unfold vector_comms. rewrite (nth_map_in _ _ _ O) by (rewrite seq_length; exact H). rewrite seq_nth by exact H. reflexivity.
Qed.

Lemma both_hamming xs new count ps vs : length xs = length new -> p_pending ps = None ->
  fsum (map (fun '(x, y) => differs x y) (combine xs new)) = fe_of count ->
  let comms := vector_comms (p_g ps) (p_h ps) xs (p_nrand ps) in
  both (2 * length new) (length xs) (prove_hamming_distance xs new count)
    (verify_hamming_distance new count comms) ps vs (fun a b _ => a = Ok comms /\ b = Ok tt).
Proof.
  intros HL Hp Hc comms. unfold prove_hamming_distance, verify_hamming_distance.
  rewrite (proj2 (Nat.eqb_eq _ _) HL). cbn [negb].
  assert (HCl : length comms = length xs) by apply vector_comms_length.
  eapply both_cost.
  { eapply both_bind; [eapply (both_fold W W' false 0 1 _ _ _ _ ps vs _ _
      (fun j '(cs, qs) qs' ps' => cs = firstn j comms /\ same_vars qs qs' /\
         Forall2 (has_value ps') (map q_var qs) (firstn j xs)))|].
    - rewrite seq_length. congruence.
    - intros j i c [cs qs] qs' ps3 vs3 Hi Hc' Hg (-> & Hsv & Hq).
      apply nth_error_seq0 in Hi as [-> Hj]. rewrite (index_done _ _ 0) by exact Hj. cbn [p_lift pbind].
      apply nth_error_nth with (d := g1_id) in Hc'.
      apply b_draw_commit.
      { rewrite <- Hc'. unfold comms. rewrite vector_comms_nth by exact Hj. rewrite (gr_rand _ _ _ _ Hg), Nat.mul_1_r.
        apply (commit_grew _ _ _ _ _ _ Hg). }
      intros ps4 vs4 w Hg4 _ Hw. apply both_ret. split.
      { rewrite (firstn_S_nth comms j g1_id), Hc' by lia. reflexivity. }
      split; [apply same_vars_snoc; exact Hsv|].
      rewrite (firstn_S_nth xs j 0) by exact Hj. rewrite map_app. apply Forall2_app.
      + apply (forall2_grew _ _ _ _ _ _ Hg4). exact Hq.
      + cbn. constructor; [exact Hw|constructor].
    - intros _. split; [reflexivity|]. split; [reflexivity|]. constructor.
    - intros [cs qs] qs' ps3 vs3 Hg (-> & Hsv & Hq). rewrite seq_length in Hq |- *. rewrite firstn_all in Hq.
      rewrite firstn_all2 by lia.
      eapply b_gadget; [eapply hamming_both; [exact Hsv|exact Hq|exact HL|rewrite (gr_pending _ _ _ _ Hg); exact Hp|exact Hc]|].
      intros ps5 vs5 _. apply both_ret. split; reflexivity. }
  all: rewrite seq_length; lia.
Qed.

Definition nonzero_bit (d : F) : F := if feqb d 0 then 0 else 1.

Lemma cheat_hamming_gadget_both diffs qs' new count ps vs : length qs' = length new -> length diffs = length new ->
  p_pending ps = None -> fsum (map nonzero_bit diffs) = fe_of count ->
  both (2 * length new) 0 (cheat_hamming_gadget diffs count) (hamming_distance_gadget qs' new count) ps vs
    (fun a b _ => a = Ok tt /\ b = Ok tt).
Proof.
  intros HLq HLd Hp Hc. unfold cheat_hamming_gadget, hamming_distance_gadget.
  rewrite (proj2 (Nat.eqb_eq _ _) HLq). cbn [negb].
  eapply both_cost.
  { eapply both_try; [eapply (both_try_fold W W' false 2 0 _ _ _ _ ps vs _ _
      (fun j st st' ps' => st = st' /\ Forall2 (has_value ps') st (map nonzero_bit (firstn j diffs))))|].
    - rewrite seq_length. exact HLd.
    - intros j d i st st' ps2 vs2 Hd Hi Hg2 (<- & Hl). apply nth_error_seq0 in Hi as [-> Hj].
      apply nth_error_nth with (d := 0) in Hd.
      eapply b_lift_r; [apply (index_done _ _ dq); lia|]. eapply b_lift_r; [apply (index_done _ _ 0); lia|].
      apply b_evaluate_r. cbn [option_map]. unfold ptry at 1 3. cbn [cs_allocate_single pbind].
      eapply both_singles; [rewrite (gr_pending _ _ _ _ Hg2); exact Hp|intros; reflexivity|intros; reflexivity|].
      intros i ps3 vs3 Hg3 V1 V2 V3. cbn [pbind p_lift of_option].
      assert (Ed : d * finv d = nonzero_bit d).
      { unfold nonzero_bit. destruct (feqb_spec modulus d 0) as [E|E]; [rewrite E; ring|apply finv_r; exact E]. }
      eapply b_multiply; [apply lc_same_refl|apply lc_same_refl|lch0|lch0|]. intros ps4 vs4 vl vr vo Hg4 V1' V2' V3'. carry Hg4.
      apply b_constrain; [apply lc_same_refl|lch|].
      { rewrite Ed. unfold nonzero_bit. destruct (feqb_spec modulus d 0) as [E|E]; [rewrite E; ring|ring]. }
      intros ps5 vs5 Hg5. carry Hg5. apply both_ret. eexists _, _. split; [reflexivity|]. split; [reflexivity|]. split; [reflexivity|].
      rewrite (firstn_S_nth _ _ 0) by lia. rewrite map_app. apply Forall2_app.
      + apply (forall2_grew _ _ _ _ _ _ Hg5), (forall2_grew _ _ _ _ _ _ Hg4), (forall2_grew _ _ _ _ _ _ Hg3). exact Hl.
      + cbn [map]. rewrite Hd, <- Ed. constructor; [exact V3|constructor].
    - intros _. split; [reflexivity|constructor].
    - intros st st' ps2 vs2 Hg2 (<- & Hl). rewrite firstn_all in Hl.
      eapply b_gadget; [eapply vector_sum_both; [exact Hl|exact Hc]|]. intros ps3 vs3 _. apply both_ok. }
  all: lia.
Qed.

Lemma both_cheat_hamming xs new diffs count ps vs : length xs = length new -> length diffs = length new -> p_pending ps = None ->
  fsum (map nonzero_bit diffs) = fe_of count ->
  let comms := vector_comms (p_g ps) (p_h ps) xs (p_nrand ps) in
  both (2 * length new) (length xs) (cheat_hamming_distance xs diffs count)
    (verify_hamming_distance new count comms) ps vs (fun a b _ => a = Ok comms /\ b = Ok tt).
Proof.
  intros HL HLd Hp Hc comms. unfold cheat_hamming_distance, verify_hamming_distance.
  assert (HCl : length comms = length xs) by apply vector_comms_length.
  eapply both_cost.
  { eapply both_bind; [eapply (both_fold W W' false 0 1 _ _ _ _ ps vs _ _
      (fun j cs qs' ps' => cs = firstn j comms /\ length qs' = j))|].
    - congruence.
    - intros j x c cs qs' ps3 vs3 Hi Hc' Hg (-> & HLq).
      assert (Hj : (j < length xs)%nat) by (apply nth_error_Some; congruence).
      apply nth_error_nth with (d := g1_id) in Hc'. apply nth_error_nth with (d := 0) in Hi.
      apply b_draw_commit.
      { rewrite <- Hc'. unfold comms. rewrite vector_comms_nth, Hi by exact Hj. rewrite (gr_rand _ _ _ _ Hg), Nat.mul_1_r.
        apply (commit_grew _ _ _ _ _ _ Hg). }
      intros ps4 vs4 w Hg4 _ Hw. apply both_ret. split.
      { rewrite (firstn_S_nth comms j g1_id), Hc' by lia. reflexivity. }
      rewrite app_length, HLq. cbn. lia.
    - intros _. split; reflexivity.
    - intros cs qs' ps1 vs1 Hg (-> & HLq). rewrite firstn_all2 by lia.
      eapply b_gadget; [apply cheat_hamming_gadget_both; [congruence|exact HLd| |exact Hc]|].
      { rewrite (gr_pending _ _ _ _ Hg). exact Hp. }
      intros ps5 vs5 _. apply both_ret. split; reflexivity. }
  all: lia.
Qed.
End B.
End Programs.
