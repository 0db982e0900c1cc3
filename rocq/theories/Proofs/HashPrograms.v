(** The MiMC and Poseidon proving and verifying functions. *)
From Coq Require Import ZArith String List Lia Bool Ring Field Arith.
From Verif.Base Require Import Outcome Fp Params Algebra.
From Verif.Model Require Import Transcript LinComb Prog VectorPoly IPP Prover Verifier Gadgets Hash.
From Verif.Spec Require Import R1CS Sim Session Protocol Verdict Gadget HashSpec.
From Verif.Proofs Require Import IPPProofs LinCombProofs RunProofs GadgetTools GadgetBasic GadgetComplete GadgetPrograms GadgetMain
  HashTools HashSound HashComplete.
Import ListNotations.

Section Programs.
Context {P : Params} {OK : ParamsOk P}.
Local Open Scope fe_scope.
Add Field FFhp : (Fp_field_theory modulus modulus_prime).

Section V.
Context (W : world) (asg : assignment).
Local Notation val := (var_value asg).
Local Notation okspec := (okspec W false asg).
Local Notation vspec := (vspec W false asg).

Lemma verify_mimc_sound image n constants comms s :
  okspec s (verify_mimc_preimage image constants n comms) (fun _ _ =>
    mimc (as_committed asg (length (v_V s))) (as_committed asg (S (length (v_V s)))) (firstn n constants) n = Done image).
Proof.
  unfold verify_mimc_preimage. apply ok_remove0. intros c1 l1 _. apply ok_commit. intros s1 _ V1.
  apply ok_remove0. intros c2 l2 _. apply ok_commit. intros s2 _ V2.
  eapply ok_try; [apply mimc_gadget_sound|]. intros [] s3 [_ E]. apply ok_ret. cbn [q_var] in E.
  rewrite V1, app_length, Nat.add_1_r in E. exact E.
Qed.

Lemma commit_received_sound n comms s :
  vspec s (commit_received comms n) (fun vars s' => vars = map VCommitted (seq (length (v_V s)) n) /\
    length (v_V s') = (length (v_V s) + n)%nat /\ v_pending s' = v_pending s).
Proof.
  unfold commit_received. apply vspec_bind.
  eapply vspec_conseq; [apply (vspec_fold W false asg _ (fun j st s' =>
     snd st = map VCommitted (seq (length (v_V s)) j) /\ length (v_V s') = (length (v_V s) + j)%nat /\ v_pending s' = v_pending s))|].
  - intros j x [cs vars] s1 Hx (E & HL & Hp). cbn [snd] in *. apply v_remove0. intros c cs' _.
    apply vspec_bind, vspec_commit. intros s2 P2 V2. apply vspec_ret. cbn [snd].
    split; [rewrite E, seq_S, map_app, HL; reflexivity|]. rewrite V2, app_length. cbn [length]. split; [lia|congruence].
  - split; [reflexivity|]. split; [lia|reflexivity].
  - rewrite seq_length. intros [cs vars] s1 (E & HL & Hp). apply vspec_ret. auto.
Qed.

Lemma static_sound g h s :
  vspec s (allocate_statics_for_verifier 1 g h) (fun vars s' => vars = [VCommitted (length (v_V s))]).
Proof.
  unfold allocate_statics_for_verifier. apply vspec_bind, vspec_commit. intros s1 _ V1. cbn [length Nat.ltb Nat.leb pbind].
  cbn. apply vspec_ret. reflexivity.
Qed.

Context (p : poseidon_params) (sbox : sbox_type) (Hsbox : sbox <> Inverse).

Lemma permutation_gadget_sound ph qs out s : (0 < length qs)%nat \/ partial_rounds p = O ->
  GadgetTools.okspec W ph asg s (Poseidon_permutation_gadget p sbox qs out) (fun _ s' => vkeep s s' /\
    Poseidon_permutation p sbox (map (fun q => val (q_var q)) qs) = Done out).
Proof.
  intros Hq. unfold Poseidon_permutation_gadget. apply ok_lift. intros [] Ea.
  assert (HL : length out = width p). { unfold assertb in Ea. destruct (Nat.eqb_spec (length out) (width p)); [assumption|discriminate]. }
  eapply ok_try; [apply permutation_sound; [assumption|rewrite map_length; exact Hq]|]. intros ls s1 (K1 & L1 & E1).
  eapply ok_bind; [apply (vspec_fold W ph asg _ (fun j _ s' => vkeep s s' /\ map (lc_value asg) (firstn j ls) = firstn j out))|].
  - intros j i [] s2 Hi (K2 & E2). apply nth_error_seq0 in Hi as [-> Hj].
    apply vspec_bind, vspec_lift. intros l El. apply vspec_bind, vspec_lift. intros o Eo.
    apply vspec_constrain. intros s3 K3 E3. split; [eauto using vkeep_trans|]. lcv E3. apply sub_zero_eq in E3.
    destruct (index_inv _ _ _ ([] : lc) El) as [Hl ->]. destruct (index_inv _ _ _ 0 Eo) as [Ho ->].
    rewrite (firstn_S_nth ls j []), (firstn_S_nth out j 0), map_app, E2 by assumption. cbn [map].
    rewrite E3. reflexivity.
  - split; [exact K1|reflexivity].
  - rewrite seq_length. intros [] s2 (K2 & E2). apply ok_ret. split; [exact K2|].
    rewrite firstn_all2 in E2 by lia. rewrite firstn_all2 in E2 by lia. rewrite <- E2, <- E1, map_map. f_equal. apply map_ext. intros q.
    rewrite lc_value_of_var. reflexivity.
Qed.

Lemma hash_2_gadget_sound ph vl vr w out s :
  GadgetTools.okspec W ph asg s (Poseidon_hash_2_gadget p sbox vl vr [w] out) (fun _ s' => vkeep s s' /\ (val w = 0 ->
    Poseidon_hash_2 p sbox (val vl) (val vr) = Done out)).
Proof.
  unfold Poseidon_hash_2_gadget. eapply ok_try; [apply hash_2_sound; assumption|].
  intros o s4 (K4 & s0 & rest & Es & HL & E). apply scalar_sound. intros s5 K5 Eo. apply ok_ret. split; [eauto using vkeep_trans|].
  cbn [map] in Es. injection Es as <- <-. rewrite Eo in E. intros E0.
  unfold Poseidon_hash_2. change (fe_of ZERO_CONST) with (0 : F). rewrite <- E, !lc_value_of_var, E0. reflexivity.
Qed.
Lemma map_of_var l : map (lc_value asg) (map (fun s => lc_of_var s) l) = map val l.
Proof. rewrite map_map. apply map_ext. intros i. apply lc_value_of_var. Qed.
Lemma hash_4_gadget_sound ph vars w out s :
  GadgetTools.okspec W ph asg s (Poseidon_hash_4_gadget p sbox vars [w] out) (fun _ s' => vkeep s s' /\ (val w = 0 ->
    Poseidon_hash_4 p sbox (map val vars) = Done out)).
Proof.
  unfold Poseidon_hash_4_gadget. apply ok_lift; intros [] _. eapply ok_try; [apply hash_4_sound; assumption|].
  intros o s4 (K4 & HL4 & s0 & rest & Es & HL & E). apply scalar_sound. intros s5 K5 Eo. apply ok_ret. split; [eauto using vkeep_trans|].
  cbn [map] in Es. injection Es as <- <-. rewrite Eo in E. intros E0.
  unfold Poseidon_hash_4. change (fe_of ZERO_CONST) with (0 : F). rewrite map_length in HL4 |- *. rewrite HL4. cbn [Nat.eqb assertb obind].
  rewrite <- E, lc_value_of_var, E0, map_of_var. cbn [map]. rewrite app_nil_r. reflexivity.
Qed.
Lemma hash_8_gadget_sound ph vars w out s :
  GadgetTools.okspec W ph asg s (Poseidon_hash_8_gadget p sbox vars w out) (fun _ s' => vkeep s s' /\ (val w = 0 ->
    Poseidon_hash_8 p sbox (map val vars) = Done out)).
Proof.
  unfold Poseidon_hash_8_gadget. apply ok_lift; intros [] _. eapply ok_try; [apply hash_8_sound; assumption|].
  intros o s4 (K4 & HL4 & E). apply scalar_sound. intros s5 K5 Eo. apply ok_ret. split; [eauto using vkeep_trans|].
  rewrite Eo in E. intros E0.
  unfold Poseidon_hash_8. change (fe_of ZERO_CONST) with (0 : F). rewrite map_length in HL4 |- *. rewrite HL4. cbn [Nat.eqb assertb obind].
  rewrite <- E, lc_value_of_var, E0, map_of_var. reflexivity.
Qed.

Lemma verify_2_sound out g h comms s :
  let n := length (v_V s) in
  okspec s (verify_Poseidon_2 out p sbox g h comms) (fun _ _ => as_committed asg (n + 2) = 0 ->
    Poseidon_hash_2 p sbox (as_committed asg n) (as_committed asg (S n)) = Done out).
Proof.
  intros n. unfold verify_Poseidon_2. apply ok_remove0. intros c1 l1 _. apply ok_commit. intros s1 _ V1.
  apply ok_remove0. intros c2 l2 _. apply ok_commit. intros s2 _ V2.
  eapply ok_bind; [apply static_sound|]. intros vars s3 ->.
  eapply ok_try; [apply hash_2_gadget_sound|]. intros [] s4 [_ E]. apply ok_ret. intros E0. cbn [var_value] in E.
  rewrite V2, V1, !app_length in E. cbn [length] in E. replace (length (v_V s) + 1 + 1)%nat with (n + 2)%nat in E by (unfold n; lia).
  rewrite Nat.add_1_r in E. apply E. exact E0.
Qed.

Lemma map_committed i n : map val (map VCommitted (seq i n)) = committed asg i n.
Proof. rewrite map_map. reflexivity. Qed.

Lemma verify_4_sound out g h comms s :
  let n := length (v_V s) in
  okspec s (verify_Poseidon_4 out p sbox g h comms) (fun _ _ => as_committed asg (n + 4) = 0 ->
    Poseidon_hash_4 p sbox (committed asg n 4) = Done out).
Proof.
  intros n. unfold verify_Poseidon_4. eapply ok_bind; [apply commit_received_sound|]. intros vars s1 (-> & V1 & _).
  eapply ok_bind; [apply static_sound|]. intros st s3 ->.
  eapply ok_try; [apply hash_4_gadget_sound|]. intros [] s4 [_ E]. apply ok_ret. intros E0. cbn [var_value] in E.
  rewrite map_committed, V1 in E. apply E. exact E0.
Qed.

Lemma verify_8_sound out g h comms s :
  let n := length (v_V s) in
  okspec s (verify_Poseidon_8 out p sbox g h comms) (fun _ _ => as_committed asg (n + 8) = 0 ->
    Poseidon_hash_8 p sbox (committed asg n 8) = Done out).
Proof.
  intros n. unfold verify_Poseidon_8. eapply ok_bind; [apply commit_received_sound|]. intros vars s1 (-> & V1 & _).
  apply ok_commit. intros s2 _ V2.
  eapply ok_try; [apply hash_8_gadget_sound|]. intros [] s4 [_ E]. apply ok_ret. intros E0. cbn [var_value] in E.
  rewrite map_committed, V1 in E. apply E. exact E0.
Qed.
End V.

(** *** Honest runs *)
Section B.
Context (W W' : world).
Local Notation both := (both W W' false).
Notation oks := (fun a b _ => a = Ok tt /\ b = Ok tt).

Definition rands_used (randomness : option (list F)) (n : nat) : nat := match randomness with Some _ => O | None => n end.
(** the blindings, drawn from position [i] of the generator on *)
Definition rands_of (randomness : option (list F)) (i n : nat) : list F :=
  match randomness with Some rands => rands | None => map (w_random W) (seq i n) end.

Lemma rands_length rnd rng i n : blindings_given rnd rng n -> length (rands_of rnd i n) = n.
Proof. destruct rnd; cbn; intros H; [exact H|]. rewrite map_length, seq_length. reflexivity. Qed.

Lemma check_vec_ok rnd rng n : blindings_given rnd rng n -> check_for_randomness_or_rng_vec rnd rng = PRet (Ok tt).
Proof. destruct rnd, rng; cbn; intros H; congruence || reflexivity. Qed.

Lemma b_draws {A B} n : forall k r (acc : list F) (f : list F -> pprog A) (m' : vprog B) ps vs Q,
  (forall ps', grew 0 n ps ps' -> both k r (f (acc ++ map (w_random W) (seq (p_nrand ps) n))) m' ps' vs Q) ->
  forall i, both k (n + r) (pbind (p_fold (fun rands (_ : nat) => pbind p_random (fun r => PRet (rands ++ [r]))) (seq i n) acc) f) m' ps vs Q.
Proof.
  induction n as [|n IH]; intros k r acc f m' ps vs Q H i.
  - cbn [seq p_fold pbind Nat.add]. intros Hh Hs. cbn [map] in H. rewrite app_nil_r in H. apply H; auto. apply grew_refl. apply (sy_wf _ _ Hs).
  - cbn [seq p_fold]. change (both k (S (n + r)) (pbind p_random (fun x =>
      pbind (p_fold (fun rands (_ : nat) => pbind p_random (fun r => PRet (rands ++ [r]))) (seq (S i) n) (acc ++ [x])) f)) m' ps vs Q).
    apply both_random. intros ps1 Hg1. apply IH. intros ps2 Hg2. rewrite <- app_assoc. cbn [app].
    rewrite (gr_rand _ _ _ _ Hg1), Nat.add_1_r. apply H. exact (grew_trans 0 1 0 n _ _ _ Hg1 Hg2).
Qed.

Lemma b_randomness_vec k r {A B} rnd rng n (f : list F -> pprog A) (m' : vprog B) ps vs Q : blindings_given rnd rng n ->
  (forall ps', grew 0 (rands_used rnd n) ps ps' -> both k r (f (rands_of rnd (p_nrand ps) n)) m' ps' vs Q) ->
  both k (rands_used rnd n + r) (pbind (randomness_or_rng_vec rnd rng n) f) m' ps vs Q.
Proof.
  intros Hb H. destruct rnd as [rs|]; cbn [randomness_or_rng_vec rands_used Nat.add] in *.
  - cbn [pbind]. intros Hh Hs. apply H; auto. apply grew_refl. apply (sy_wf _ _ Hs).
  - cbn in Hb. subst rng. apply b_draws. exact H.
Qed.

Lemma check_len_ok inputs rands n : length inputs = n -> length rands = n ->
  check_for_input_and_randomness_length inputs rands n = PRet (Ok tt).
Proof. intros H1 H2. unfold check_for_input_and_randomness_length. rewrite H1, H2, Nat.eqb_refl. reflexivity. Qed.

Lemma list_2 (l : list F) : length l = 2%nat -> exists a b, l = [a; b].
Proof. intros H. destruct l as [|a [|b [|]]]; try discriminate. eauto. Qed.

Lemma both_mimc_preimage inputs rnd rng image n constants ps vs : blindings_given rnd rng 2 ->
  (exists x y, inputs = [x; y] /\ mimc x y (firstn n constants) n = Done image) ->
  let comms := commit_all (p_g ps) (p_h ps) inputs (rands_of rnd (p_nrand ps) 2) in
  both (n * 2) (rands_used rnd 2) (prove_mimc_preimage inputs rnd image constants n rng)
    (verify_mimc_preimage image constants n comms) ps vs (fun a b _ => a = Ok comms /\ b = Ok tt).
Proof.
  intros Hb (x & y & -> & E) comms. unfold prove_mimc_preimage, verify_mimc_preimage.
  rewrite (check_vec_ok _ _ _ Hb). cbn [ptry pbind].
  destruct (list_2 _ (rands_length rnd rng (p_nrand ps) 2 Hb)) as (r1 & r2 & Er). unfold comms. rewrite Er.
  cbn [commit_all combine map remove0 pbind p_lift].
  eapply both_cost; [apply b_randomness_vec; [exact Hb|]|..].
  - intros ps1 Hg1. rewrite Er, check_len_ok by reflexivity. cbn [ptry pbind index nth_error of_option p_lift pop0].
    eapply b_commit; [apply (commit_grew _ _ _ _ _ _ Hg1)|]. intros ps2 vs2 w Hg2 Hw. cbn [pbind p_lift].
    pose proof (grew_trans _ _ _ _ _ _ _ Hg1 Hg2) as Hg12.
    eapply b_commit; [apply (commit_grew _ _ _ _ _ _ Hg12)|]. intros ps3 vs3 w2 Hg3 Hw2. carry Hg3.
    eapply b_gadget; [eapply mimc_gadget_both; [exact Hw|exact Hw2|exact E]|].
    intros ps4 vs4 _. apply both_ret. split; reflexivity.
  - lia.
  - lia.
Qed.

(** commitments to a list of values *)
Lemma both_commit_inputs n xs rs ps vs : length xs = n -> length rs = n ->
  both 0 0 (commit_inputs xs rs n) (commit_received (commit_all (p_g ps) (p_h ps) xs rs) n) ps vs
    (fun a b ps' => a = (commit_all (p_g ps) (p_h ps) xs rs, b) /\ Forall2 (has_value ps') b xs).
Proof.
  intros Hx Hr. unfold commit_inputs, commit_received. set (C := commit_all (p_g ps) (p_h ps) xs rs).
  assert (HC : length C = n) by (unfold C, commit_all; rewrite map_length, combine_length; lia).
  eapply both_cost.
  { eapply both_bind with (k2 := O) (r2 := O); [eapply (both_fold W W' false 0 0 _ _ (seq 0 n) (seq 0 n) ps vs _ _
      (fun j '(ins, rands, cs, vars) '(cs', vars') ps' => ins = skipn j xs /\ rands = skipn j rs /\ cs = firstn j C /\
         cs' = skipn j C /\ vars' = vars /\ Forall2 (has_value ps') vars (firstn j xs)))|].
    - reflexivity.
    - intros j i i' [[[ins rands] cs] vars] [cs' vars'] ps1 vs1 Hi Hi' Hg (-> & -> & -> & -> & -> & Hv).
      apply nth_error_seq0 in Hi as [-> Hj].
      rewrite (skipn_nth_cons xs j 0), (skipn_nth_cons rs j 0), (skipn_nth_cons C j g1_id) by lia. cbn [pop0 remove0 pbind].
      eapply b_commit.
      { unfold C, commit_all. rewrite (nth_map_in _ _ _ (0, 0)) by (rewrite combine_length; lia). rewrite combine_nth by lia.
        apply (commit_grew _ _ _ _ _ _ Hg). }
      intros ps2 vs2 w Hg2 Hw. apply both_ret. repeat (split; [reflexivity|]).
      split; [rewrite (firstn_S_nth C j g1_id) by lia; reflexivity|]. repeat (split; [reflexivity|]).
      rewrite (firstn_S_nth xs j 0) by lia. apply Forall2_snoc; [|exact Hw]. apply (forall2_grew _ _ _ _ _ _ Hg2). exact Hv.
    - intros _. repeat (split; [reflexivity|]). constructor.
    - intros [[[ins rands] cs] vars] [cs' vars'] ps1 vs1 Hg (-> & -> & -> & -> & -> & Hv). rewrite seq_length in *.
      rewrite firstn_all2 by lia. rewrite firstn_all2 in Hv by lia. apply both_ret. auto. }
  all: lia.
Qed.

Context (p : poseidon_params) (sbox : sbox_type) (Hsbox : sbox <> Inverse).
Local Notation cost := (permutation_cost p sbox).

Lemma both_static {A B} k r g h (f : list var -> pprog A) (f' : list var -> vprog B) ps vs Q : g = p_g ps -> h = p_h ps ->
  (forall ps' vs' w, grew 0 0 ps ps' -> has_value ps' w 0 -> both k r (f [w]) (f' [w]) ps' vs' Q) ->
  both k r (pbind (allocate_statics_for_prover 1) f) (pbind (allocate_statics_for_verifier 1 g h) f') ps vs Q.
Proof.
  intros -> -> H. unfold allocate_statics_for_prover, allocate_statics_for_verifier.
  cbn [length Nat.ltb Nat.leb pbind Nat.sub seq p_fold].
  change (both k r (pbind (cs_commit (fe_of ZERO_CONST, 0)) (fun '(_, v) => f [v]))
    (pbind (cs_commit (commit (p_g ps) (p_h ps) (fe_of ZERO_CONST) 0)) (fun v => f' [v])) ps vs Q).
  apply b_commit; [reflexivity|]. intros ps' vs' w Hg Hw. apply H; assumption.
Qed.

Lemma permutation_gadget_both ph qs qs' xs out ps vs : map q_var qs = map q_var qs' ->
  Forall2 (has_value ps) (map q_var qs) xs -> Poseidon_permutation p sbox xs = Done out -> length out = width p ->
  GadgetTools.both W W' ph cost 0 (Poseidon_permutation_gadget p sbox qs out) (Poseidon_permutation_gadget p sbox qs' out) ps vs oks.
Proof.
  intros Hq Hx E HL. unfold Poseidon_permutation_gadget. rewrite HL, Nat.eqb_refl. cbn [assertb p_lift pbind].
  assert (Em : forall q : list quantity, map (fun e => lc_of_var (q_var e)) q = map lc_of_var (map q_var q)) by (intros; rewrite map_map; reflexivity).
  rewrite !Em, <- Hq. eapply both_cost.
  { eapply both_try; [eapply permutation_both; [exact Hsbox|apply rels_vars; exact Hx|exact E]|].
    intros o o' ps1 vs1 Hg1 Hr. eapply both_bind with (k2 := O) (r2 := O).
    - eapply (both_fold W W' ph 0 0 _ _ _ _ ps1 vs1 tt tt (fun _ _ _ _ => True)); [reflexivity| |auto].
      intros j i i' [] [] ps2 vs2 Hi Hi' Hg2 _. apply nth_error_seq0 in Hi as [-> Hj]. apply nth_error_seq0 in Hi' as [-> _].
      apply (rels_grew _ _ _ _ _ _ _ Hg2) in Hr.
      destruct (rels_index ps2 o o' out j (nth j out 0) Hr) as (l & l' & -> & -> & Sl & Hl); [apply index_ok; lia|].
      rewrite (index_ok out j 0) by lia. cbn [p_lift pbind]. apply both_constrain; auto.
      + apply lc_same_sub; [exact Sl|apply lc_same_refl].
      + lch. ring.
    - intros [] [] ps2 vs2 _ _. apply both_ok. }
  all: lia.
Qed.

Lemma hash_2_gadget_both ph vl vr w x y out ps vs : has_value ps vl x -> has_value ps vr y -> has_value ps w 0 ->
  Poseidon_hash_2 p sbox x y = Done out ->
  GadgetTools.both W W' ph cost 0 (Poseidon_hash_2_gadget p sbox vl vr [w] out) (Poseidon_hash_2_gadget p sbox vl vr [w] out) ps vs oks.
Proof.
  intros H1 H2 H3 E. unfold Poseidon_hash_2_gadget. eapply both_cost.
  { eapply both_try with (k2 := O) (r2 := O); [eapply hash_2_both; [exact Hsbox|..|exact E]; try apply lc_same_refl; apply lc_has_var; assumption|].
    intros o o' ps1 vs1 Hg [S1 Ho]. apply scalar_both; [exact S1|exact Ho|]. intros ps2 vs2 _. apply both_ok. }
  all: lia.
Qed.
Lemma hash_4_gadget_both ph vars w xs out ps vs : Forall2 (has_value ps) vars xs -> has_value ps w 0 ->
  Poseidon_hash_4 p sbox xs = Done out ->
  GadgetTools.both W W' ph cost 0 (Poseidon_hash_4_gadget p sbox vars [w] out) (Poseidon_hash_4_gadget p sbox vars [w] out) ps vs oks.
Proof.
  intros H1 H3 E. unfold Poseidon_hash_4_gadget.
  assert (HL : length vars = 4%nat).
  { rewrite (forall2_len _ _ _ H1). unfold Poseidon_hash_4 in E. destruct (Nat.eqb_spec (length xs) 4); [assumption|discriminate]. }
  rewrite HL. cbn [Nat.eqb assertb p_lift pbind]. eapply both_cost.
  { eapply both_try with (k2 := O) (r2 := O); [eapply hash_4_both; [exact Hsbox|apply rels_vars; exact H1|apply lc_same_refl|apply lc_has_var; exact H3|exact E]|].
    intros o o' ps1 vs1 Hg [S1 Ho]. apply scalar_both; [exact S1|exact Ho|]. intros ps2 vs2 _. apply both_ok. }
  all: lia.
Qed.
Lemma hash_8_gadget_both ph vars w xs out ps vs : Forall2 (has_value ps) vars xs -> has_value ps w 0 ->
  Poseidon_hash_8 p sbox xs = Done out ->
  GadgetTools.both W W' ph cost 0 (Poseidon_hash_8_gadget p sbox vars w out) (Poseidon_hash_8_gadget p sbox vars w out) ps vs oks.
Proof.
  intros H1 H3 E. unfold Poseidon_hash_8_gadget.
  assert (HL : length vars = 8%nat).
  { rewrite (forall2_len _ _ _ H1). unfold Poseidon_hash_8 in E. destruct (Nat.eqb_spec (length xs) 8); [assumption|discriminate]. }
  rewrite HL. cbn [Nat.eqb assertb p_lift pbind]. eapply both_cost.
  { eapply both_try with (k2 := O) (r2 := O); [eapply hash_8_both; [exact Hsbox|apply rels_vars; exact H1|apply lc_same_refl|apply lc_has_var; exact H3|exact E]|].
    intros o o' ps1 vs1 Hg [S1 Ho]. apply scalar_both; [exact S1|exact Ho|]. intros ps2 vs2 _. apply both_ok. }
  all: lia.
Qed.

Lemma both_Poseidon_2 inputs rnd rng out ps vs : blindings_given rnd rng 2 ->
  (exists x y, inputs = [x; y] /\ Poseidon_hash_2 p sbox x y = Done out) ->
  let comms := commit_all (p_g ps) (p_h ps) inputs (rands_of rnd (p_nrand ps) 2) in
  both cost (rands_used rnd 2) (prove_Poseidon_2 inputs rnd out p sbox rng)
    (verify_Poseidon_2 out p sbox (p_g ps) (p_h ps) comms) ps vs (fun a b _ => a = Ok comms /\ b = Ok tt).
Proof.
  intros Hb (x & y & -> & E) comms. unfold prove_Poseidon_2, verify_Poseidon_2.
  rewrite (check_vec_ok _ _ _ Hb). cbn [ptry pbind].
  destruct (list_2 _ (rands_length rnd rng (p_nrand ps) 2 Hb)) as (r1 & r2 & Er). unfold comms. rewrite Er.
  cbn [commit_all combine map remove0 pbind].
  eapply both_cost; [apply b_randomness_vec; [exact Hb|]|..].
  - intros ps1 Hg1. rewrite Er, check_len_ok by reflexivity. cbn [ptry pbind pop0].
    eapply b_commit; [apply (commit_grew _ _ _ _ _ _ Hg1)|]. intros ps2 vs2 w Hg2 Hw. cbn [pbind].
    pose proof (grew_trans _ _ _ _ _ _ _ Hg1 Hg2) as Hg12.
    eapply b_commit; [apply (commit_grew _ _ _ _ _ _ Hg12)|]. intros ps3 vs3 w2 Hg3 Hw2. carry Hg3.
    pose proof (grew_trans _ _ _ _ _ _ _ Hg12 Hg3) as Hg13.
    apply both_static; [symmetry; apply (grew_g _ _ _ _ Hg13)|symmetry; apply (grew_h _ _ _ _ Hg13)|].
    intros ps4 vs4 w0 Hg4 Hw0. carry Hg4.
    eapply b_gadget; [eapply hash_2_gadget_both; [exact Hw|exact Hw2|exact Hw0|exact E]|].
    intros ps5 vs5 _. apply both_ret. split; reflexivity.
  - lia.
  - lia.
Qed.

Lemma both_Poseidon_4 inputs rnd rng out ps vs : blindings_given rnd rng 4 -> length inputs = 4%nat ->
  Poseidon_hash_4 p sbox inputs = Done out ->
  let comms := commit_all (p_g ps) (p_h ps) inputs (rands_of rnd (p_nrand ps) 4) in
  both cost (rands_used rnd 4) (prove_Poseidon_4 inputs rnd out p sbox rng)
    (verify_Poseidon_4 out p sbox (p_g ps) (p_h ps) comms) ps vs (fun a b _ => a = Ok comms /\ b = Ok tt).
Proof.
  intros Hb HL E comms. unfold prove_Poseidon_4, verify_Poseidon_4.
  rewrite (check_vec_ok _ _ _ Hb). cbn [ptry pbind]. pose proof (rands_length rnd rng (p_nrand ps) 4 Hb) as Hr.
  eapply both_cost; [apply b_randomness_vec; [exact Hb|]|..].
  - intros ps1 Hg1. rewrite check_len_ok by assumption. cbn [ptry pbind].
    unfold comms. rewrite <- (grew_g _ _ _ _ Hg1), <- (grew_h _ _ _ _ Hg1).
    eapply both_bind; [apply both_commit_inputs; assumption|]. intros a vars ps2 vs2 Hg2 [-> Hv].
    apply both_static; [symmetry; apply (grew_g _ _ _ _ Hg2)|symmetry; apply (grew_h _ _ _ _ Hg2)|].
    intros ps4 vs4 w0 Hg4 Hw0. apply (forall2_grew _ _ _ _ _ _ Hg4) in Hv.
    eapply b_gadget; [eapply hash_4_gadget_both; [exact Hv|exact Hw0|exact E]|].
    intros ps5 vs5 _. apply both_ret. split; reflexivity.
  - lia.
  - lia.
Qed.

Lemma both_Poseidon_8 inputs rnd rng out ps vs : blindings_given rnd rng 8 -> length inputs = 8%nat ->
  Poseidon_hash_8 p sbox inputs = Done out ->
  let comms := commit_all (p_g ps) (p_h ps) inputs (rands_of rnd (p_nrand ps) 8) in
  both cost (rands_used rnd 8) (prove_Poseidon_8 inputs rnd out p sbox rng)
    (verify_Poseidon_8 out p sbox (p_g ps) (p_h ps) comms) ps vs (fun a b _ => a = Ok comms /\ b = Ok tt).
Proof.
  intros Hb HL E comms. unfold prove_Poseidon_8, verify_Poseidon_8.
  rewrite (check_vec_ok _ _ _ Hb). cbn [ptry pbind]. pose proof (rands_length rnd rng (p_nrand ps) 8 Hb) as Hr.
  eapply both_cost; [apply b_randomness_vec; [exact Hb|]|..].
  - intros ps1 Hg1. rewrite check_len_ok by assumption. cbn [ptry pbind].
    unfold comms. rewrite <- (grew_g _ _ _ _ Hg1), <- (grew_h _ _ _ _ Hg1).
    eapply both_bind; [apply both_commit_inputs; assumption|]. intros a vars ps2 vs2 Hg2 [-> Hv].
    eapply b_commit; [apply (commit_grew _ _ _ _ _ _ Hg2)|].
    intros ps4 vs4 w0 Hg4 Hw0. apply (forall2_grew _ _ _ _ _ _ Hg4) in Hv.
    eapply b_gadget; [eapply hash_8_gadget_both; [exact Hv|exact Hw0|exact E]|].
    intros ps5 vs5 _. apply both_ret. split; reflexivity.
  - lia.
  - lia.
Qed.
End B.
End Programs.
