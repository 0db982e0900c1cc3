(** Knowledge soundness of a verifying function, from the fact that its circuit
    determines the committed values and forces a relation between them. *)
From Coq Require Import ZArith String List Lia Bool Ring Field Arith.
From Verif.Base Require Import Outcome Fp Params Algebra.
From Verif.Model Require Import Transcript LinComb Prog IPP Prover Verifier Gadgets Hash Merkle MerkleGadget Randomizer.
From Verif.Spec Require Import R1CS Protocol Gadget IPPSpec R1CSTree R1CSExtractor HashSpec MerkleSpec OpeningSpec RandomizerSpec Knowledge.
From Verif.Proofs Require Import FlattenProofs VerifyProofs RepProofs R1CSExtract Recover KernelTools KernelGadgets
  KernelHash KernelMerkle KernelRandomizer GadgetMain HashMain MerkleSound RandomizerMain.
Import ListNotations.

Section KnowledgeMain.
Context {P : Params} {OK : ParamsOk P}.
Local Open Scope fe_scope.
Add Field FFkm : (Fp_field_theory modulus modulus_prime).

Lemma ebind_got {A B} (e : extracted A) (f : A -> extracted B) b : ebind e f = Got b -> exists a, e = Got a /\ f a = Got b.
Proof. destruct e; cbn; intros H; [eauto|discriminate H]. Qed.

Lemma extract_length n1 n lG lH m cs M t w : r1cs_extract n1 n lG lH m cs M t = Got w -> length (wit_v w) = m.
Proof.
  unfold r1cs_extract. intros H.
  apply ebind_got in H as (rows & _ & H). apply ebind_got in H as (x & _ & H). apply ebind_got in H as (U & _ & H).
  apply ebind_got in H as (y & _ & H). injection H as <-. cbn [wit_v]. rewrite !map_length, seq_length. reflexivity.
Qed.

Lemma nth_seq (l : list F) m : length l = m -> map (fun i => nth i l 0) (seq 0 m) = l.
Proof.
  intros <-. induction l as [|a l IH]; [reflexivity|]. cbn [length seq map nth]. f_equal.
  rewrite <- seq_shift, map_map. exact IH.
Qed.

Lemma ranged_new t : ranged (verifier_new t).
Proof. split; [constructor|discriminate]. Qed.

Section Main.
Context (W : world) (t0 : transcript) (vp : vprog (result unit)) (g h : G1) (V : list G1) (m : nat) (js : list nat) (R : list F -> Prop).

Lemma expect_zeros_ok (G H : list G1) w : (forall j, In j js -> (j < length V)%nat /\ nth j V g1_id = commit g h 0 0) ->
  (forall j, (j < length V)%nat -> nth j V g1_id = g1_add (g1_mul (nth j (wit_v w) 0) g) (g1_mul (nth j (wit_blinding w) 0) h)) ->
  match expect_zeros (length G) (length H) js w with
  | Got w' => w' = w /\ forall j, In j js -> nth j (wit_v w) 0 = 0
  | Broken c => generator_relation (g :: h :: G ++ H) c
  end.
Proof.
  intros Hz Ho. induction js as [|j l IH]; [split; [reflexivity|intros j []]|].
  cbn [expect_zeros]. unfold expect_zero. destruct (feqb_spec _ (nth j (wit_v w) 0) 0) as [E|E]; cbn [ebind].
  - assert (IH' := IH (fun i Hi => Hz i (or_intror Hi))). destruct (expect_zeros _ _ l w); [|exact IH'].
    destruct IH' as [-> Hl]. split; [reflexivity|]. intros i [<-|Hi]; [exact E|apply Hl, Hi].
  - destruct (Hz j (or_introl eq_refl)) as [Hj Ej]. specialize (Ho j Hj). rewrite Ej in Ho.
    split; [|split].
    + cbn [length]. rewrite zeros_length, app_length. reflexivity.
    + cbn [msm]. rewrite msm_zeros, g1_id_r, <- Ho. unfold commit. rewrite !g1_mul_zero. apply g1_id_r.
    + exists (nth j (wit_v w) 0). split; [left; reflexivity|exact E].
Qed.

Theorem knowledge_of :
  (forall d, determines d W m V vp) ->
  (forall j, In j js -> (j < length V)%nat /\ nth j V g1_id = commit g h 0 0) ->
  forces W false vp (verifier_new t0) (fun s _ => (forall j, In j js -> as_committed s j = 0) -> R (map (as_committed s) (seq 0 m))) ->
  knowledge W t0 vp g h V js R.
Proof.
  intros Hd Hz Hf vs E. cbv zeta.
  destruct (Hd (fun _ => 0) (verifier_new t0) (ranged_new t0) _ _ E) as (Hr & Hdef & HU & _).
  destruct (HU tt eq_refl) as [HV Hm]. cbn [v_V verifier_new app] in HV.
  split; [exact Hdef|]. split; [exact HV|]. intros G H k f t HN HG HH Hwf Hacc.
  assert (Hrange : Forall (lc_in_range (v_num_vars vs) (length V)) (v_constraints vs)).
  { pose proof (rg_cs _ Hr) as X. unfold inl in X. rewrite HV in X. exact X. }
  assert (Hrec : recovers (left_inverse (length V) (v_constraints vs)) (length V) (v_constraints vs)).
  { apply (kernel_recovers (v_num_vars vs)); [exact Hrange|]. intros d Hk.
    destruct (Hd d (verifier_new t0) (ranged_new t0) _ _ E) as (_ & _ & _ & HK). rewrite Hm. exact (HK Hk tt eq_refl). }
  pose proof (r1cs_extract_ok g h G H V (v_num_vars vs) (v_num_vars vs) k (v_constraints vs) HN HG HH (next_power_of_two_ge _)
    _ f t Hrange Hrec Hwf Hacc) as Hg.
  unfold circuit_extract.
  destruct (r1cs_extract _ _ _ _ _ _ _ _) as [w|c] eqn:Ew; [|exact Hg]. apply extract_length in Ew. cbn [ebind].
  destruct Hg as (Ho & Hsat & _).
  pose proof (expect_zeros_ok G H w Hz Ho) as Hw. destruct (expect_zeros _ _ _ _) as [w'|c]; [|exact Hw].
  destruct Hw as [-> Hzero]. split; [exact Ew|]. split; [exact Ho|].
  specialize (Hf tt vs _ E Hsat Hzero). cbn [as_committed assignment_of] in Hf. rewrite nth_seq in Hf by congruence. exact Hf.
Qed.
End Main.

(** *** lists *)
Lemma nth_map_seq (f : nat -> F) m j : (j < m)%nat -> nth j (map f (seq 0 m)) 0 = f j.
Proof.
  intros H. rewrite nth_indep with (d' := f O) by (rewrite map_length, seq_length; exact H).
  rewrite map_nth, seq_nth by exact H. reflexivity.
Qed.
Lemma firstn_map_seq (f : nat -> F) a m k : (k <= m)%nat -> firstn k (map f (seq a m)) = map f (seq a k).
Proof.
  revert a m. induction k as [|k IH]; intros a m H; [reflexivity|]. destruct m as [|m]; [lia|].
  cbn [seq map firstn]. f_equal. apply IH. lia.
Qed.
Lemma skipn_map_seq (f : nat -> F) a m k : skipn k (map f (seq a m)) = map f (seq (a + k) (m - k)).
Proof.
  revert a m. induction k as [|k IH]; intros a m; [rewrite Nat.add_0_r, Nat.sub_0_r; reflexivity|]. destruct m as [|m]; [reflexivity|].
  cbn [seq map skipn Nat.sub]. rewrite IH. replace (S a + k)%nat with (a + S k)%nat by lia. reflexivity.
Qed.

(** *** the verifying functions *)
Context (W : world) (t0 : transcript) (g h : G1).
Local Notation nozero := (fun j (H : In j []) => match H with end).

Lemma non_zero_knowledge comms :
  knowledge W t0 (verify_non_zero_val comms) g h (firstn 2 comms) [] (fun v => nth 0 v 0 <> 0).
Proof.
  apply (knowledge_of W t0 _ g h _ 2); [intros d; apply non_zero_val_determines|exact nozero|].
  intros b vs s E Hs _. exact (verify_non_zero_forces W comms (verifier_new t0) b vs s E Hs).
Qed.
Lemma bounded_knowledge checks lower upper n comms :
  (0 <= lower)%Z -> (0 <= upper < modulus)%Z -> (lower + 2 ^ (Z.of_nat n + 1) <= modulus)%Z ->
  knowledge W t0 (verify_bounded_num checks lower upper n comms) g h (firstn 3 comms) []
    (fun v => (lower <= fval (nth 0 v 0%fe) <= upper)%Z).
Proof.
  intros H1 H2 H3. apply (knowledge_of W t0 _ g h _ 3); [intros d; apply bounded_num_determines|exact nozero|].
  intros b vs s E Hs _. exact (proj1 (bounded_num_forces W checks lower upper n comms (verifier_new t0) H1 H2 H3 b vs s E Hs)).
Qed.
Lemma set_membership_knowledge set comms : set <> [] ->
  knowledge W t0 (verify_set_membership set comms) g h (firstn (1 + length set) comms) [] (fun v => In (nth 0 v 0) set).
Proof.
  intros Hs. apply (knowledge_of W t0 _ g h _ (1 + length set)); [intros d; apply set_membership_determines, Hs|exact nozero|].
  intros b vs s E Hsat _. exact (verify_set_membership_forces W set comms (verifier_new t0) b vs s E Hsat).
Qed.
Lemma set_non_membership_knowledge set comms : set <> [] ->
  knowledge W t0 (verify_set_non_membership set comms) g h (firstn (1 + 2 * length set) comms) [] (fun v => ~ In (nth 0 v 0) set).
Proof.
  intros Hs. apply (knowledge_of W t0 _ g h _ (1 + 2 * length set)); [intros d; apply set_non_membership_determines, Hs|exact nozero|].
  intros b vs s E Hsat _. exact (verify_non_membership_forces W set comms (verifier_new t0) b vs s E Hsat).
Qed.
Lemma set_membership_alt_knowledge set comms :
  knowledge W t0 (verify_set_membership_alt set comms) g h (firstn (length set + 1) comms) [] (fun v =>
    Forall (fun b => b = 0 \/ b = 1) (firstn (length set) v) /\ fsum (firstn (length set) v) = 1 /\
    (nth (length set) v 0 = 0 \/ exists it, In it set /\ nth (length set) v 0 = fe_of it)).
Proof.
  apply (knowledge_of W t0 _ g h _ (length set + 1)); [intros d; apply set_membership_alt_determines|exact nozero|].
  intros b vs s E Hsat _. rewrite firstn_map_seq by lia. rewrite nth_map_seq by lia.
  exact (verify_alt_forces W set comms (verifier_new t0) b vs s E Hsat).
Qed.
Lemma mimc_knowledge image constants n comms : (0 < n)%nat ->
  knowledge W t0 (verify_mimc_preimage image constants n comms) g h (firstn 2 comms) [] (fun v =>
    (n <= length constants)%nat /\ mimc_value (firstn n constants) (nth 0 v 0) (nth 1 v 0) = image).
Proof.
  intros Hn. apply (knowledge_of W t0 _ g h _ 2); [intros d; apply mimc_determines, Hn|exact nozero|].
  intros b vs s E Hsat _. exact (verify_mimc_forces W image constants n comms (verifier_new t0) b vs s E Hsat).
Qed.

Context (p : poseidon_params) (sbox : sbox_type) (Hp : params_ok p) (Hsbox : sbox <> Inverse) (Hf : (0 < full_rounds_beginning p)%nat).

Lemma last_zero (l : list G1) m : length (l ++ [commit g h 0 0]) = S m ->
  forall j, In j [m] -> (j < length (l ++ [commit g h 0 0]))%nat /\ nth j (l ++ [commit g h 0 0]) g1_id = commit g h 0 0.
Proof.
  intros Hl j [<-|[]]. split; [lia|]. rewrite app_length in Hl. cbn in Hl.
  rewrite app_nth2 by lia. replace (m - length l)%nat with O by lia. reflexivity.
Qed.

(** the length of the list of commitments comes from the run *)
Lemma knowledge_run vp V js R :
  (forall vs, vrun W false vp (verifier_new t0) = Done (Ok tt, vs) -> knowledge W t0 vp g h V js R) -> knowledge W t0 vp g h V js R.
Proof. intros H vs E. exact (H vs E vs E). Qed.

Lemma run_length vp m V vs : (forall d, determines d W m V vp) -> vrun W false vp (verifier_new t0) = Done (Ok tt, vs) -> length V = m.
Proof.
  intros Hd E. destruct (Hd (fun _ => 0) (verifier_new t0) (ranged_new t0) _ _ E) as (_ & _ & HU & _).
  exact (proj2 (HU tt eq_refl)).
Qed.

Lemma Poseidon_2_knowledge output comms :
  knowledge W t0 (verify_Poseidon_2 output p sbox g h comms) g h (firstn 2 comms ++ [commit g h 0 0]) [2%nat]
    (fun v => hash_value p sbox (firstn 2 v) = output).
Proof.
  assert (Hd : forall d, determines d W 3 (firstn 2 comms ++ [commit g h 0 0]) (verify_Poseidon_2 output p sbox g h comms)).
  { intros d. apply Poseidon_2_determines; assumption. }
  apply knowledge_run. intros vs0 E0. apply (knowledge_of W t0 _ g h _ 3); [exact Hd| |].
  - apply last_zero. exact (run_length _ _ _ _ Hd E0).
  - intros b vs s E Hsat Hz. rewrite firstn_map_seq by lia.
    exact (verify_2_forces p sbox Hp Hsbox W output g h comms (verifier_new t0) b vs s E Hsat (Hz 2%nat (or_introl eq_refl))).
Qed.
Lemma Poseidon_4_knowledge output comms :
  knowledge W t0 (verify_Poseidon_4 output p sbox g h comms) g h (firstn 4 comms ++ [commit g h 0 0]) [4%nat]
    (fun v => hash_value p sbox (firstn 4 v) = output).
Proof.
  assert (Hd : forall d, determines d W 5 (firstn 4 comms ++ [commit g h 0 0]) (verify_Poseidon_4 output p sbox g h comms)).
  { intros d. apply Poseidon_4_determines; assumption. }
  apply knowledge_run. intros vs0 E0. apply (knowledge_of W t0 _ g h _ 5); [exact Hd| |].
  - apply last_zero. exact (run_length _ _ _ _ Hd E0).
  - intros b vs s E Hsat Hz. rewrite firstn_map_seq by lia.
    exact (verify_4_forces p sbox Hp Hsbox W output g h comms (verifier_new t0) b vs s E Hsat (Hz 4%nat (or_introl eq_refl))).
Qed.
Lemma Poseidon_8_knowledge output comms :
  knowledge W t0 (verify_Poseidon_8 output p sbox g h comms) g h (firstn 8 comms ++ [commit g h 0 0]) [8%nat]
    (fun v => hash_value p sbox (firstn 8 v) = output).
Proof.
  assert (Hd : forall d, determines d W 9 (firstn 8 comms ++ [commit g h 0 0]) (verify_Poseidon_8 output p sbox g h comms)).
  { intros d. apply Poseidon_8_determines; assumption. }
  apply knowledge_run. intros vs0 E0. apply (knowledge_of W t0 _ g h _ 9); [exact Hd| |].
  - apply last_zero. exact (run_length _ _ _ _ Hd E0).
  - intros b vs s E Hsat Hz. rewrite firstn_map_seq by lia.
    exact (verify_8_forces p sbox Hp Hsbox W output g h comms (verifier_new t0) b vs s E Hsat (Hz 8%nat (or_introl eq_refl))).
Qed.

Lemma leaf_4_knowledge root depth comms : (2 < length comms)%nat -> (length comms <= 2 + 3 * (4 * ((depth * 2 + 7) / 8)))%nat ->
  knowledge W t0 (verify_leaf_inclusion_4_ary_merkle_tree root depth p sbox g h comms) g h (comms ++ [commit g h 0 0]) [length comms]
    (fun v => opens 4 (hash_value p sbox) (4 * ((depth * 2 + 7) / 8)) root (nth 0 v 0) (nth 1 v 0)
      (skipn 2 (firstn (length comms) v))).
Proof.
  intros H1 H2. apply (knowledge_of W t0 _ g h _ (1 + length comms)).
  - intros d. apply leaf_4_determines; assumption.
  - apply last_zero. rewrite app_length. cbn. lia.
  - intros b vs s E Hsat Hz. rewrite firstn_map_seq by lia. rewrite !nth_map_seq by lia. rewrite skipn_map_seq.
    exact (verify_leaf_4_forces W p sbox Hp Hsbox root depth g h comms (verifier_new t0) b vs s E Hsat (Hz _ (or_introl eq_refl))).
Qed.
Lemma leaf_8_knowledge root depth comms : (2 < length comms)%nat -> (length comms <= 2 + 7 * depth)%nat ->
  knowledge W t0 (verify_leaf_inclusion_8_ary_merkle_tree root depth p sbox g h comms) g h (comms ++ [commit g h 0 0]) [length comms]
    (fun v => opens 8 (hash_value p sbox) depth root (nth 0 v 0) (nth 1 v 0) (skipn 2 (firstn (length comms) v))).
Proof.
  intros H1 H2. apply (knowledge_of W t0 _ g h _ (1 + length comms)).
  - intros d. apply leaf_8_determines; assumption.
  - apply last_zero. rewrite app_length. cbn. lia.
  - intros b vs s E Hsat Hz. rewrite firstn_map_seq by lia. rewrite !nth_map_seq by lia. rewrite skipn_map_seq.
    exact (verify_leaf_8_forces W p sbox Hp Hsbox root depth g h comms (verifier_new t0) b vs s E Hsat (Hz _ (or_introl eq_refl))).
Qed.

Context {ENC : EncodingOk P}.
Lemma randomizer_knowledge depth db0 us new_tree new_db indices comms :
  (width p = 5)%nat -> (0 < full_rounds_end p)%nat -> (depth * 2 <= 8 * modbytes)%nat -> (0 < depth)%nat -> indices <> [] ->
  history (tree_4_new p) (tree_4_update p) depth db0 us new_tree new_db -> collision_free 4 (hash_value p Quint) depth us ->
  let block := S (depth * 3) in
  let k := (1 + length indices * block)%nat in
  knowledge W t0 (verify_randomizer new_tree new_db indices depth p Quint g h comms) g h (firstn k comms ++ [commit g h 0 0]) [k]
    (fun v =>
      let root := nth 0 v 0 in
      let values := map (fun i => nth (1 + i * block) v 0) (seq 0 (length indices)) in
      (forall i, (i < length indices)%nat ->
         opens_at (hash_value p Quint) depth root (nth i indices 0) (nth i values 0) (firstn (depth * 3) (skipn (1 + i * block + 1) v))) /\
      root = node 4 (hash_value p Quint) (after 4 depth (written_back indices values us)) depth 0).
Proof.
  intros Hw He Hd Hd0 Hne Hh Hc block k. subst block. set (block := S (depth * 3)) in *.
  assert (Hdet : forall d, determines d W (k + 1) (firstn k comms ++ [commit g h 0 0]) (verify_randomizer new_tree new_db indices depth p Quint g h comms)).
  { intros d. apply randomizer_determines; assumption || discriminate. }
  apply knowledge_run. intros vs0 E0. apply (knowledge_of W t0 _ g h _ (k + 1)); [exact Hdet| |].
  - apply last_zero. rewrite (run_length _ _ _ _ Hdet E0). lia.
  - intros b vs s E Hsat Hz. cbv zeta.
    destruct (verify_forces p Hp Hw depth Hd W db0 us new_tree new_db indices g h comms (verifier_new t0) Hh Hc b vs s E Hsat (Hz k (or_introl eq_refl))) as [H1 H2].
    assert (Hblk : forall i, (i < length indices)%nat -> (1 + i * block + block <= k)%nat) by (intros i Hi; subst k; nia).
    assert (Ev : map (fun i => nth (1 + i * block) (map (as_committed s) (seq 0 (k + 1))) 0) (seq 0 (length indices)) =
                 map (fun i => as_committed s (1 + i * block)) (seq 0 (length indices))).
    { apply map_ext_in. intros i Hi. apply in_seq in Hi. apply nth_map_seq. specialize (Hblk i ltac:(lia)). lia. }
    rewrite Ev, nth_map_seq by lia. split; [|exact H2]. intros i Hi. rewrite skipn_map_seq, firstn_map_seq.
    + exact (H1 i Hi).
    + specialize (Hblk i Hi). subst block. lia.
Qed.
End KnowledgeMain.
