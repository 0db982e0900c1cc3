(** Several gadgets in one circuit: knowledge soundness and completeness. *)
From Coq Require Import ZArith String List Lia Bool Ring Field Arith.
From Verif.Base Require Import Outcome Fp Params Algebra.
From Verif.Model Require Import Transcript LinComb Prog IPP Prover Verifier Gadgets Hash Merkle MerkleGadget Randomizer.
From Verif.Spec Require Import R1CS Session Protocol Gadget IPPSpec R1CSTree R1CSExtractor HashSpec MerkleSpec OpeningSpec RandomizerSpec Knowledge Compose.
From Verif.Proofs Require Import LinCombProofs RunProofs ExtProofs FlattenProofs VerifyProofs CircuitProofs SyncMore CircuitMain RepProofs R1CSExtract Recover
  KernelTools KernelGadgets KernelHash KernelMerkle KernelRandomizer
  GadgetTools GadgetPrograms GadgetMain GadgetEnd
  HashTools HashSound HashComplete HashPrograms HashMain MerkleTools MerkleTree MerkleBind MerkleMain MerkleSound MerkleComplete MerkleOpen
  RandomizerMap RandomizerSound RandomizerComplete RandomizerMain KnowledgeMain AnswerMain.
Import ListNotations.

Section ComposeMain.
Context {P : Params} {OK : ParamsOk P} {ENC : EncodingOk P}.
Local Open Scope fe_scope.
Add Field FFcm : (Fp_field_theory modulus modulus_prime).

(** *** lists *)
Lemma map_seq_shift (f : nat -> F) a n : map f (seq a n) = map (fun j => f (a + j)%nat) (seq 0 n).
Proof.
  revert a. induction n as [|n IH]; intros a; [reflexivity|]. cbn [seq map]. rewrite Nat.add_0_r. f_equal.
  rewrite IH, <- (seq_shift n 0), map_map. apply map_ext. intros j. f_equal. lia.
Qed.
Lemma map_seq_nth (f : nat -> F) n : forall j, (j < n)%nat -> nth j (map f (seq 0 n)) 0 = f j.
Proof. intros j H. apply nth_map_seq, H. Qed.

(** *** Knowledge *)
Section Sound.
Context (W : world) (t0 : transcript) (checks : bool) (g h : G1).
Local Notation zero := (commit g h 0 0).
Definition part (st : statement) (comms : list G1) : list G1 := received st comms ++ repeat zero (own st).

(** the part of a circuit that belongs to one statement *)
Definition sound_part (st : statement) (comms : list G1) : Prop :=
  let k := length (received st comms) in
  exists m, (forall d, determines d W m (part st comms) (verifies checks g h st comms)) /\
  forall vs, forces W false (verifies checks g h st comms) vs (fun s _ =>
    length (part st comms) = m ->
    (forall j, In j (seq (length (v_V vs) + k) (own st)) -> as_committed s j = 0) ->
    shows st (map (fun j => as_committed s (length (v_V vs) + j)) (seq 0 k))).

Lemma part_0 st comms : own st = O -> part st comms = received st comms.
Proof. intros E. unfold part. rewrite E. apply app_nil_r. Qed.
Lemma part_1 st comms : own st = 1%nat -> part st comms = received st comms ++ [zero].
Proof. intros E. unfold part. rewrite E. reflexivity. Qed.
Lemma part_length_1 st comms m : own st = 1%nat -> length (part st comms) = S m -> length (received st comms) = m.
Proof. intros E. rewrite (part_1 _ _ E), app_length. cbn. lia. Qed.
Lemma own_1 st comms (s : assignment) n m : length (received st comms) = m ->
  (forall j, In j (seq (n + length (received st comms)) (own st)) -> as_committed s j = 0) -> own st = 1%nat -> as_committed s (n + m) = 0.
Proof. intros <- H E. apply H. rewrite E. left. reflexivity. Qed.

Theorem sound_statement_part st comms : sound_statement st comms -> sound_part st comms.
Proof.
  destruct st as [|lower upper n|set|set|set|new count|image constants n|p sbox output|p sbox output|p sbox output
    |p sbox root depth|p sbox root depth|p depth us t db indices]; cbn [sound_statement]; unfold sound_part.
  - intros _. exists 2%nat. split; [intros d; rewrite part_0 by reflexivity; apply non_zero_val_determines|].
    intros vs b vs' s E Hs Hl _. rewrite part_0 in Hl by reflexivity. cbn [received shows] in *. rewrite Hl. cbn.
    rewrite Nat.add_0_r. exact (verify_non_zero_forces W comms vs b vs' s E Hs).
  - intros (H1 & H2 & H3). exists 3%nat. split; [intros d; rewrite part_0 by reflexivity; apply bounded_num_determines|].
    intros vs b vs' s E Hs Hl _. rewrite part_0 in Hl by reflexivity. cbn [received shows] in *. rewrite Hl. cbn [seq map nth].
    rewrite Nat.add_0_r. exact (proj1 (bounded_num_forces W checks lower upper n comms vs H1 H2 H3 b vs' s E Hs)).
  - intros Hne. exists (1 + length set)%nat. split; [intros d; rewrite part_0 by reflexivity; apply set_membership_determines, Hne|].
    intros vs b vs' s E Hs Hl _. rewrite part_0 in Hl by reflexivity. cbn [received shows] in *. rewrite Hl. cbn [Nat.add seq map nth].
    rewrite Nat.add_0_r. exact (verify_set_membership_forces W set comms vs b vs' s E Hs).
  - intros _. exists (length set + 1)%nat. split; [intros d; rewrite part_0 by reflexivity; apply set_membership_alt_determines|].
    intros vs b vs' s E Hs Hl _. rewrite part_0 in Hl by reflexivity. cbn [received shows] in *. rewrite Hl.
    rewrite firstn_map_seq by lia. rewrite nth_map_seq by lia. exact (verify_alt_forces W set comms vs b vs' s E Hs).
  - intros Hne. exists (1 + 2 * length set)%nat.
    split; [intros d; rewrite part_0 by reflexivity; apply set_non_membership_determines, Hne|].
    intros vs b vs' s E Hs Hl _. rewrite part_0 in Hl by reflexivity. cbn [received shows] in *. rewrite Hl.
    rewrite nth_map_seq by lia. rewrite Nat.add_0_r. exact (verify_non_membership_forces W set comms vs b vs' s E Hs).
  - intros [].
  - intros Hn. exists 2%nat. split; [intros d; rewrite part_0 by reflexivity; apply mimc_determines, Hn|].
    intros vs b vs' s E Hs Hl _. rewrite part_0 in Hl by reflexivity. cbn [received shows] in *. rewrite Hl. cbn [seq map nth].
    rewrite Nat.add_0_r. exact (verify_mimc_forces W image constants n comms vs b vs' s E Hs).
  - intros (Hp & Hsbox & Hf). exists 3%nat. split; [intros d; rewrite part_1 by reflexivity; apply Poseidon_2_determines; assumption|].
    intros vs b vs' s E Hs Hl Hz. apply part_length_1 in Hl; [|reflexivity]. pose proof (own_1 _ _ _ _ _ Hl Hz eq_refl) as Hz0; clear Hz; rename Hz0 into Hz.
    cbn [received shows] in *. rewrite Hl, <- map_seq_shift.
    exact (verify_2_forces p sbox Hp Hsbox W output g h comms vs b vs' s E Hs Hz).
  - intros (Hp & Hsbox & Hf). exists 5%nat. split; [intros d; rewrite part_1 by reflexivity; apply Poseidon_4_determines; assumption|].
    intros vs b vs' s E Hs Hl Hz. apply part_length_1 in Hl; [|reflexivity]. pose proof (own_1 _ _ _ _ _ Hl Hz eq_refl) as Hz0; clear Hz; rename Hz0 into Hz.
    cbn [received shows] in *. rewrite Hl, <- map_seq_shift.
    exact (verify_4_forces p sbox Hp Hsbox W output g h comms vs b vs' s E Hs Hz).
  - intros (Hp & Hsbox & Hf). exists 9%nat. split; [intros d; rewrite part_1 by reflexivity; apply Poseidon_8_determines; assumption|].
    intros vs b vs' s E Hs Hl Hz. apply part_length_1 in Hl; [|reflexivity]. pose proof (own_1 _ _ _ _ _ Hl Hz eq_refl) as Hz0; clear Hz; rename Hz0 into Hz.
    cbn [received shows] in *. rewrite Hl, <- map_seq_shift.
    exact (verify_8_forces p sbox Hp Hsbox W output g h comms vs b vs' s E Hs Hz).
  - intros ((Hp & Hsbox & Hf) & H1 & H2). exists (1 + length comms)%nat.
    split; [intros d; rewrite part_1 by reflexivity; apply leaf_4_determines; assumption|].
    intros vs b vs' s E Hs _ Hz. pose proof (own_1 (Leaf4 p sbox root depth) comms _ _ (length comms) eq_refl Hz eq_refl) as Hz0; clear Hz; rename Hz0 into Hz.
    cbn [received shows] in *. rewrite !nth_map_seq by lia. rewrite skipn_map_seq, Nat.add_0_r.
    pose proof (verify_leaf_4_forces W p sbox Hp Hsbox root depth g h comms vs b vs' s E Hs Hz) as H. unfold committed in H.
    rewrite map_seq_shift in H. rewrite map_seq_shift. erewrite map_ext; [exact H|]. cbn beta. intros j. f_equal. lia.
  - intros ((Hp & Hsbox & Hf) & H1 & H2). exists (1 + length comms)%nat.
    split; [intros d; rewrite part_1 by reflexivity; apply leaf_8_determines; assumption|].
    intros vs b vs' s E Hs _ Hz. pose proof (own_1 (Leaf8 p sbox root depth) comms _ _ (length comms) eq_refl Hz eq_refl) as Hz0; clear Hz; rename Hz0 into Hz.
    cbn [received shows] in *. rewrite !nth_map_seq by lia. rewrite skipn_map_seq, Nat.add_0_r.
    pose proof (verify_leaf_8_forces W p sbox Hp Hsbox root depth g h comms vs b vs' s E Hs Hz) as H. unfold committed in H.
    rewrite map_seq_shift in H. rewrite map_seq_shift. erewrite map_ext; [exact H|]. cbn beta. intros j. f_equal. lia.
  - intros ((Hp & _ & Hf) & Hw & He & Hd & Hd0 & Hne & (db0 & Hh) & Hc).
    set (block := S (depth * 3)) in *. set (k := (1 + length indices * block)%nat).
    exists (k + 1)%nat. split; [intros d; rewrite part_1 by reflexivity; apply randomizer_determines; assumption || discriminate|].
    intros vs b vs' s E Hs Hl Hz. rewrite Nat.add_1_r in Hl. apply part_length_1 in Hl; [|reflexivity].
    pose proof (own_1 _ _ _ _ _ Hl Hz eq_refl) as Hz0; clear Hz; rename Hz0 into Hz. cbn [received shows] in *. fold block k in Hl |- *. rewrite Hl. cbv zeta.
    set (n := length (v_V vs)) in *.
    replace (n + k)%nat with (n + 1 + length indices * block)%nat in Hz by (subst k; lia).
    destruct (verify_forces p Hp Hw depth Hd W db0 us t db indices g h comms vs Hh Hc b vs' s E Hs Hz) as [H1 H2].
    fold n block in H1, H2.
    assert (Hblk : forall i, (i < length indices)%nat -> (1 + i * block + block <= k)%nat) by (intros i Hi; subst k; nia).
    assert (Ev : map (fun i => nth (1 + i * block) (map (fun j => as_committed s (n + j)) (seq 0 k)) 0) (seq 0 (length indices)) =
                 map (fun i => as_committed s (n + 1 + i * block)) (seq 0 (length indices))).
    { apply map_ext_in. intros i Hi. apply in_seq in Hi. rewrite nth_map_seq by (specialize (Hblk i ltac:(lia)); lia). f_equal. lia. }
    rewrite Ev, nth_map_seq by lia. rewrite Nat.add_0_r. split; [|exact H2].
    intros i Hi. rewrite skipn_map_seq, firstn_map_seq by (specialize (Hblk i Hi); subst block; lia).
    specialize (H1 i Hi). unfold committed in H1. rewrite (map_seq_shift _ (n + 1 + i * block + 1)) in H1.
    rewrite (map_seq_shift _ (0 + (1 + i * block + 1))).
    assert (Em : map (fun j => as_committed s (n + (0 + (1 + i * block + 1) + j))) (seq 0 (depth * 3)) =
                 map (fun j => as_committed s (n + 1 + i * block + 1 + j)) (seq 0 (depth * 3))).
    { apply map_ext. intros j. f_equal. lia. }
    rewrite Em. exact H1.
Qed.

Definition base (vs : verifier) : nat := length (v_V vs).

Lemma determines_length d m V vp : determines d W m V vp -> determines d W (length V) V vp.
Proof.
  intros H s Hr a s' E. destruct (H s Hr a s' E) as (H1 & H2 & H3 & H4). split; [exact H1|]. split; [exact H2|].
  split; [intros b Eb; destruct (H3 b Eb); auto|]. intros Hk b Eb j Hj. destruct (H3 b Eb) as [_ Hl]. apply (H4 Hk b Eb). lia.
Qed.

Lemma all_determine l : Forall (fun '(st, comms) => sound_statement st comms) l ->
  forall d, determines d W (length (all_commitments g h l)) (all_commitments g h l) (verify_all checks g h l).
Proof.
  intros Hl d. induction Hl as [|[st comms] l H Hl IH].
  - intros s. cbn [verify_all]. apply okk_ret; [split; [symmetry; apply app_nil_r|reflexivity]|]. cbn. lia.
  - intros s. cbn [verify_all]. destruct (sound_statement_part _ _ H) as (m & Hm & _).
    eapply okk_try; [apply (determines_length _ _ _ _ (Hm d))|]. intros [] s1 Hx [HV _].
    change (all_commitments g h ((st, comms) :: l)) with (part st comms ++ all_commitments g h l).
    specialize (IH s1). eapply okk_conseq; [exact IH| |].
    + cbn beta. intros b s' _ [HV' _]. split; [|reflexivity]. rewrite HV', HV, app_assoc. reflexivity.
    + cbn beta. intros b Hb Hp j Hj. destruct (Nat.lt_ge_cases j (length (part st comms))) as [Hlt|Hge]; [apply Hp, Hlt|].
      rewrite HV, app_length in Hb. specialize (Hb (j - length (part st comms))%nat).
      rewrite app_length in Hj. replace (length (v_V s) + j)%nat with (length (v_V s) + length (part st comms) + (j - length (part st comms)))%nat by lia.
      apply Hb. lia.
Qed.

Lemma ptry_ok {A B} (m : vprog (result A)) (f : A -> vprog (result B)) s b s' :
  vrun W false (ptry m f) s = Done (Ok b, s') -> exists a s1, vrun W false m s = Done (Ok a, s1) /\ vrun W false (f a) s1 = Done (Ok b, s').
Proof.
  unfold ptry. rewrite vrun_bind. destruct (vrun W false m s) as [[[a|e] s1]|] eqn:E; cbn [obind]; intros H; [eauto|discriminate H|discriminate H].
Qed.

Lemma all_force l : Forall (fun '(st, comms) => sound_statement st comms) l -> forall vs, ranged vs ->
  forces W false (verify_all checks g h l) vs (fun s _ =>
    (forall j, In j (own_positions (length (v_V vs)) l) -> as_committed s j = 0) ->
    all_show l (map (fun j => as_committed s (length (v_V vs) + j)) (seq 0 (length (all_commitments g h l))))).
Proof.
  intros Hl. induction Hl as [|[st comms] l H Hl IH]; intros vs Hr b vs' s E Hs Hz; [reflexivity|].
  cbn [verify_all] in E. apply ptry_ok in E as ([] & vs1 & E1 & E2).
  destruct (sound_statement_part _ _ H) as (m & Hm & Hf).
  destruct (Hm (fun _ => 0) vs Hr _ _ E1) as (Hr1 & _ & HU & _). destruct (HU tt eq_refl) as [HV Hlen].
  change (all_commitments g h ((st, comms) :: l)) with (part st comms ++ all_commitments g h l).
  cbn [own_positions] in Hz. cbn [all_show].
  set (k := length (received st comms)) in *.
  assert (Hk : length (part st comms) = (k + own st)%nat) by (unfold part; rewrite app_length, repeat_length; reflexivity).
  rewrite app_length. split.
  - rewrite firstn_map_seq by lia. apply (Hf vs tt vs1 s E1).
    + exact (satisfies_vext _ _ _ (vrun_vext _ _ _ _ _ _ E2) Hs).
    + exact Hlen.
    + intros j Hj. apply Hz, in_or_app. left. exact Hj.
  - rewrite skipn_map_seq, map_seq_shift. replace (length (part st comms) + length (all_commitments g h l) - (k + own st))%nat with (length (all_commitments g h l)) by lia.
    specialize (IH vs1 Hr1 b vs' s E2 Hs). rewrite HV, app_length, Hk in IH.
    assert (Em : map (fun j => as_committed s (length (v_V vs) + (0 + (k + own st) + j))) (seq 0 (length (all_commitments g h l))) =
                 map (fun j => as_committed s (length (v_V vs) + (k + own st) + j)) (seq 0 (length (all_commitments g h l)))).
    { apply map_ext. intros j. f_equal. lia. }
    rewrite Em. apply IH. intros j Hj. apply Hz, in_or_app. right. rewrite <- Nat.add_assoc. exact Hj.
Qed.

Lemma own_positions_zero l : forall V0 j, In j (own_positions (length V0) l) ->
  (j < length (V0 ++ all_commitments g h l))%nat /\ nth j (V0 ++ all_commitments g h l) g1_id = zero.
Proof.
  induction l as [|[st comms] l IH]; intros V0 j; [intros []|].
  change (all_commitments g h ((st, comms) :: l)) with (part st comms ++ all_commitments g h l).
  cbn [own_positions]. unfold part. rewrite in_app_iff, in_seq. set (R := received st comms). intros [Hj|Hj].
  - split; [rewrite !app_length, repeat_length; lia|].
    rewrite app_nth2 by lia. rewrite app_nth1 by (rewrite app_length, repeat_length; lia). rewrite app_nth2 by lia.
    rewrite nth_indep with (d' := zero) by (rewrite repeat_length; lia). apply nth_repeat.
  - rewrite app_assoc. apply IH. rewrite !app_length, repeat_length. replace (length V0 + (length R + own st))%nat with (length V0 + length R + own st)%nat by lia. exact Hj.
Qed.

Theorem all_knowledge l : Forall (fun '(st, comms) => sound_statement st comms) l ->
  knowledge W t0 (verify_all checks g h l) g h (all_commitments g h l) (own_positions 0 l) (all_show l).
Proof.
  intros Hl. apply (knowledge_of W t0 _ g h _ (length (all_commitments g h l))).
  - apply all_determine, Hl.
  - intros j Hj. exact (own_positions_zero l [] j Hj).
  - intros b vs s E Hs Hz. exact (all_force l Hl (verifier_new t0) (ranged_new t0) b vs s E Hs Hz).
Qed.
End Sound.

(** *** Completeness *)
Section Complete.
Context (W W' : world) (checks : bool).

Lemma commit_all_app g h a b x y : length a = length x -> commit_all g h (a ++ b) (x ++ y) = commit_all g h a x ++ commit_all g h b y.
Proof.
  unfold commit_all. intros H. rewrite <- map_app. f_equal. revert x H. induction a as [|e a IH]; intros [|f x] H; try discriminate; [reflexivity|].
  cbn [app combine]. f_equal. apply IH. injection H as H. exact H.
Qed.
Lemma map_commit_all g h (f r : nat -> F) l : map (fun i => commit g h (f i) (r i)) l = commit_all g h (map f l) (map r l).
Proof. unfold commit_all. induction l as [|i l IH]; [reflexivity|]. cbn [map combine]. f_equal. exact IH. Qed.
Lemma flat_pairs_commit_all g h (f r f' r' : nat -> F) l :
  flat_pairs (map (fun i => (commit g h (f i) (r i), commit g h (f' i) (r' i))) l) =
  commit_all g h (flat_map (fun i => [f i; f' i]) l) (flat_map (fun i => [r i; r' i]) l).
Proof. unfold commit_all, flat_pairs. induction l as [|i l IH]; [reflexivity|]. cbn [map flat_map app combine]. do 2 f_equal. exact IH. Qed.
Lemma flat_pairs_length (f f' : nat -> F) l : length (flat_map (fun i => [f i; f' i]) l) = (2 * length l)%nat.
Proof. induction l as [|i l IH]; [reflexivity|]. cbn [flat_map app length]. rewrite IH. lia. Qed.

Lemma rands_passed rnd i n l : rnd = Some l -> firstn (length l) (rands_of W rnd i n) = l.
Proof. intros ->. apply firstn_all. Qed.

(** one call *)
Lemma call_both c ps vs : honest_call c -> p_pending ps = None ->
  exists k r comms, good_commitments (p_g ps) (p_h ps) c comms /\
    both W W' false k r (calls checks c) (verifies checks (p_g ps) (p_h ps) (statement_of c) comms) ps vs
      (fun a b _ => a = Ok comms /\ b = Ok tt).
Proof.
  intros Hh Hpend.
  destruct c as [x rnd rng|x rnd lower upper n rng|x rnd set rng|x rnd set rng|x rnd set rng|xs new count|xs rnd image constants n rng
    |xs rnd output p sbox rng|xs rnd output p sbox rng|xs rnd output p sbox rng
    |x idx rnd proof root depth p sbox rng|x idx rnd proof root depth p sbox rng|us t db us' t' db' indices values depth p];
    cbn [honest_call calls statement_of verifies] in *.
  - destruct Hh as [Hr Hx]. do 3 eexists. split; [|apply both_non_zero_val; eassumption].
    exists [x; finv x]. eexists [_; _]. refine (conj _ (conj eq_refl (conj eq_refl _))); [reflexivity|].
    intros y ->. reflexivity.
  - destruct Hh as (Hr & Hx & Ha & Hb). do 3 eexists. split; [|apply both_bounded_num; eassumption].
    exists [fe_of x; fe_of (x - lower); fe_of (upper - x)]. eexists [_; _; _]. refine (conj _ (conj eq_refl (conj eq_refl _))); [reflexivity|].
    intros y ->. reflexivity.
  - destruct Hh as (Hr & Hx). do 3 eexists. split; [|apply both_set_membership; eassumption].
    unfold diff_comms. rewrite map_commit_all. eexists (x :: _), (_ :: _). refine (conj _ (conj eq_refl (conj eq_refl _))).
    + cbn [length]. rewrite !map_length. reflexivity.
    + intros y ->. reflexivity.
  - destruct Hh as (Hr & Hx). do 3 eexists. split; [|apply both_set_membership_alt; eassumption].
    cbv zeta. unfold alt_bit_comms. rewrite map_commit_all.
    match goal with |- good_commitments _ _ _ (commit_all _ _ ?A ?B ++ [commit _ _ ?v ?r]) =>
      exists (A ++ [v]), (B ++ [r]); assert (HA : length A = length set) by (rewrite map_length, seq_length, map_length; reflexivity);
      assert (HB : length B = length set) by (rewrite map_length, seq_length, map_length; reflexivity) end.
    split; [rewrite !app_length, HA, HB; reflexivity|]. split; [rewrite commit_all_app by congruence; reflexivity|]. split.
    + cbn [secret]. rewrite nth_error_app2 by lia. rewrite HA, Nat.sub_diag. reflexivity.
    + intros y ->. rewrite nth_error_app2 by lia. rewrite HB, Nat.sub_diag. reflexivity.
  - destruct Hh as (Hr & Hx). do 3 eexists. split; [|apply both_non_membership; eassumption].
    unfold diff_inv_comms. rewrite flat_pairs_commit_all. eexists (x :: _), (_ :: _). refine (conj _ (conj eq_refl (conj eq_refl _))).
    + cbn [length]. rewrite !flat_pairs_length. reflexivity.
    + intros y ->. reflexivity.
  - destruct Hh as (Hl & Hx). do 3 eexists. split; [|apply both_hamming; try eassumption].
    + unfold vector_comms. rewrite map_commit_all. exists xs. eexists. split; [|split; [|split; [reflexivity|exact I]]].
      * rewrite map_length. apply seq_length.
      * f_equal. apply nth_seq. reflexivity.
    + rewrite (differs_count xs new Hl), Hx. reflexivity.
  - destruct Hh as (Hb & Hl & Hn & Hi). destruct (list_two xs Hl) as (a & b & ->).
    do 3 eexists. split; [|apply both_mimc_preimage; [exact Hb|]].
    + eexists _, _. refine (conj _ (conj eq_refl (conj eq_refl _))); [rewrite (rands_length W rnd rng _ 2 Hb); reflexivity|].
      intros l. apply rands_passed.
    + exists a, b. split; [reflexivity|]. rewrite <- Hi. apply mimc_firstn'. exact Hn.
  - destruct Hh as (Hb & Hl & Ho & Hp & Hsbox & Hw). destruct (list_two xs Hl) as (a & b & ->).
    do 3 eexists. split; [|apply (both_Poseidon_2 W W' p sbox Hsbox [a; b] rnd rng output ps vs Hb)].
    + eexists _, _. refine (conj _ (conj eq_refl (conj eq_refl _))); [rewrite (rands_length W rnd rng _ 2 Hb); reflexivity|].
      intros l. apply rands_passed.
    + exists a, b. split; [reflexivity|]. rewrite <- Ho. apply hash_2_native; assumption.
  - destruct Hh as (Hb & Hl & Ho & Hp & Hsbox & Hw).
    do 3 eexists. split; [|apply (both_Poseidon_4 W W' p sbox Hsbox xs rnd rng output ps vs Hb Hl)].
    + eexists _, _. refine (conj _ (conj eq_refl (conj eq_refl _))); [rewrite (rands_length W rnd rng _ 4 Hb), Hl; reflexivity|].
      intros l. apply rands_passed.
    + rewrite <- Ho. apply hash_4_native; assumption.
  - destruct Hh as (Hb & Hl & Ho & Hp & Hsbox & Hw).
    do 3 eexists. split; [|apply (both_Poseidon_8 W W' p sbox Hsbox xs rnd rng output ps vs Hb Hl)].
    + eexists _, _. refine (conj _ (conj eq_refl (conj eq_refl _))); [rewrite (rands_length W rnd rng _ 8 Hb), Hl; reflexivity|].
      intros l. apply rands_passed.
    + rewrite <- Ho. apply hash_8_native; assumption.
  - destruct Hh as (Hb & Ht & Hd & Hm & Hi & Hr & Hp & Hsbox & Hw).
    do 3 eexists. split; [|apply (both_leaf_inclusion_4 W W' p sbox x idx rnd rng proof root depth ps vs Hp Hsbox Hw Hb Ht Hd Hm Hi (eq_sym Hr))].
    eexists _, _. refine (conj _ (conj eq_refl (conj eq_refl _))).
    + unfold opening_blindings. rewrite app_length, (rands_length W rnd rng _ 2 Hb), map_length, seq_length. reflexivity.
    + intros l El. unfold opening_blindings. rewrite firstn_app. pose proof (rands_length W rnd rng (p_nrand ps) 2 Hb) as Hr2.
      rewrite rands_passed by exact El. rewrite El in Hr2 |- *. cbn [rands_of] in *. rewrite Nat.sub_diag. apply app_nil_r.
  - destruct Hh as (Hb & Ht & Hd & Hm & Hi & Hr & Hp & Hsbox & Hw).
    do 3 eexists. split; [|apply (both_leaf_inclusion_8 W W' p sbox x idx rnd rng proof root depth ps vs Hp Hsbox Hw Hb Ht Hd Hm Hi (eq_sym Hr))].
    eexists _, _. refine (conj _ (conj eq_refl (conj eq_refl _))).
    + unfold opening_blindings. rewrite app_length, (rands_length W rnd rng _ 2 Hb), map_length, seq_length. reflexivity.
    + intros l El. unfold opening_blindings. rewrite firstn_app. pose proof (rands_length W rnd rng (p_nrand ps) 2 Hb) as Hr2.
      rewrite rands_passed by exact El. rewrite El in Hr2 |- *. cbn [rands_of] in *. rewrite Nat.sub_diag. apply app_nil_r.
  - destruct Hh as (Hp & Hw & Hd & Hd0 & (db0 & Hh) & Hc & (db0' & Hh') & Hc' & Hsame & ->).
    destruct (built p Hp Hw depth Hd _ _ _ _ Hh Hc) as [Ht Hdb]. destruct (built p Hp Hw depth Hd _ _ _ _ Hh' Hc') as [Ht' Hdb'].
    do 3 eexists. split; [|apply (randomizer_both W W' p Hp Hw depth Hd Hd0 (after 4 depth us) t db Ht
      (built_get p Hp Hw depth Hd _ _ _ _ Hh Hc) indices us' t' db' Ht' Hdb' Hsame ps vs)].
    eexists _, _. split; [|split; [reflexivity|split; [|exact I]]].
    + rewrite map_length, seq_length. reflexivity.
    + cbn [secret]. rewrite Ht. reflexivity.
Qed.

Lemma calls_both l : Forall honest_call l -> forall ps vs, p_pending ps = None -> honest ps -> sync_base ps vs ->
  exists k r commss, Forall2 (good_commitments (p_g ps) (p_h ps)) l commss /\
    both W W' false k r (prove_all checks l) (verify_all checks (p_g ps) (p_h ps) (combine (map statement_of l) commss)) ps vs
      (fun a b _ => a = Ok commss /\ b = Ok tt).
Proof.
  intros Hl. induction Hl as [|c l Hc Hl IH]; intros ps vs Hpend Hhon Hs.
  - exists O, O, []. split; [constructor|]. cbn [prove_all verify_all map combine]. apply both_ret. auto.
  - destruct (call_both c ps vs Hc Hpend) as (k1 & r1 & comms & Hg & Hb).
    destruct (Hb Hhon Hs) as (a & ps1 & b & vs1 & E & E' & Hgr & Hhon1 & Hs1 & Hd & -> & ->).
    pose proof (px_g _ _ (gr_ext _ _ _ _ Hgr)) as Eg. pose proof (px_h _ _ (gr_ext _ _ _ _ Hgr)) as Eh.
    destruct (IH ps1 vs1) as (k2 & r2 & commss & Hg2 & Hb2); [rewrite (gr_pending _ _ _ _ Hgr); exact Hpend|exact Hhon1|exact Hs1|].
    rewrite Eg, Eh in Hg2, Hb2.
    destruct (Hb2 Hhon1 Hs1) as (a2 & ps2 & b2 & vs2 & E2 & E2' & Hgr2 & Hhon2 & Hs2 & Hd2 & -> & ->).
    exists (k1 + k2)%nat, (r1 + r2)%nat, (comms :: commss). split; [constructor; assumption|].
    intros _ _. exists (Ok (comms :: commss)), ps2, (Ok tt), vs2.
    split; [|split; [|split; [eapply grew_trans; eassumption|]]].
    + cbn [prove_all]. unfold ptry. rewrite prun_bind, E. cbn [obind]. rewrite prun_bind, E2. reflexivity.
    + cbn [verify_all map combine]. unfold ptry. rewrite vrun_bind, E'. cbn [obind]. exact E2'.
    + split; [exact Hhon2|]. split; [exact Hs2|]. split; [congruence|]. split; reflexivity.
Qed.

Context (label : list Z) (g h : G1).
Theorem all_prove l : Forall honest_call l ->
  exists commss vs, Forall2 (good_commitments g h) l commss /\
    let vp := verify_all checks g h (combine (map statement_of l) commss) in
    vrun W' false vp (verifier_new (transcript_new label)) = Done (Ok tt, vs) /\
    forall G H, enough_generators (v_num_vars vs) G H ->
      exists proof, gen_proof W label g h G H (prove_all checks l) = Done (Ok (proof, commss)) /\
        (good_challenges W' (transcript_new label) vp proof -> verify_proof W' label g h G H proof vp = Done (Ok tt)).
Proof.
  intros Hl. set (t := transcript_new label).
  destruct (calls_both l Hl (prover_new g h t) (verifier_new t) eq_refl) as (k & r & commss & Hg & Hb); [intros x []|apply sync_base_new|].
  cbn [p_g p_h prover_new] in *.
  pose proof Hb as Hb0.
  destruct Hb0 as (a & ps1 & b & vs1 & E & E' & Hgr & Hhon1 & Hs1 & Hd & -> & ->); [intros x []|apply sync_base_new|].
  exists commss, vs1. split; [exact Hg|]. cbv zeta. split; [exact E'|]. intros G H Hen.
  apply (both_end_to_end W W' label g h G H _ _ k r commss); [exact Hb|].
  replace k with (v_num_vars vs1); [exact Hen|]. rewrite (sy_num_vars _ _ Hs1), (gr_mult _ _ _ _ Hgr). reflexivity.
Qed.

Theorem all_answer l : Forall honest_call l ->
  answers W W' label g h (prove_all checks l) (fun commss => verify_all checks g h (combine (map statement_of l) commss))
    (fun commss => Forall2 (good_commitments g h) l commss).
Proof.
  intros Hl. set (t := transcript_new label).
  destruct (calls_both l Hl (prover_new g h t) (verifier_new t) eq_refl) as (k & r & commss & Hg & Hb); [intros x []|apply sync_base_new|].
  cbn [p_g p_h prover_new] in *. exact (both_answers W W' label g h _ _ _ k r commss Hb Hg).
Qed.
End Complete.
End ComposeMain.
