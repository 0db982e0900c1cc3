(** The randomizer: what the gadget and the verifying function force, honest runs and
    end-to-end proofs, over trees built by the code. *)
From Coq Require Import ZArith String List Lia Bool Arith.
From Verif.Base Require Import Outcome Fp Params Algebra.
From Verif.Model Require Import Transcript LinComb Prog VectorPoly IPP Prover Verifier Gadgets Hash Merkle MerkleGadget Randomizer.
From Verif.Spec Require Import R1CS Sim Session Protocol Verdict Gadget HashSpec MerkleSpec OpeningSpec RandomizerSpec.
From Verif.Proofs Require Import IPPProofs LinCombProofs RunProofs GadgetTools GadgetBasic GadgetComplete GadgetPrograms GadgetMain
  HashTools HashSound HashComplete HashPrograms HashMain MerkleTools MerkleTree MerkleBind MerkleMain MerkleSound MerkleComplete MerkleOpen
  RandomizerMap RandomizerSound RandomizerComplete.
Import ListNotations.

Section Main.
Context {P : Params} {OK : ParamsOk P} {ENC : EncodingOk P}.
Local Open Scope fe_scope.
Context (p : poseidon_params) (Hp : params_ok p) (Hw : width p = 5%nat).
Local Notation Hash := (hash_value p Quint).
Local Notation history := (history (tree_4_new p) (tree_4_update p)).
Local Notation cost := (permutation_cost p Quint).

Lemma Hhash l : length l = 4%nat -> hash_4 p l = Done (Hash l).
Proof. exact (fun Hl => hash_4_native p Quint l Hp Hw Hl). Qed.

Context (d : nat) (Hd : (d * 2 <= 8 * modbytes)%nat).

Lemma built db0 us t db : history d db0 us t db -> collision_free 4 Hash d us ->
  t = MerkleTree d (node 4 Hash (after 4 d us) d 0) /\ db_has 2 Hash db (after 4 d us) d.
Proof. intros Hh Hc. exact (history_done 2 ltac:(lia) (hash_4 p) Hash Hhash d db0 us t db Hd Hh Hc). Qed.

Lemma built_get db0 us t db : history d db0 us t db -> collision_free 4 Hash d us -> forall idx,
  tree_4_get t idx (Some []) db = Done (Ok (after 4 d us (leaf 4 d idx)), Some (siblings 4 Hash (after 4 d us) d (leaf 4 d idx))).
Proof. intros Hh Hc idx. exact (history_get 2 ltac:(lia) (hash_4 p) Hash Hhash d db0 us t db idx (Some []) Hd Hh Hc). Qed.

(** *** What is forced *)
Theorem gadget_forces W ph db0 us t db root indices vals proofs zero vs :
  history d db0 us t db -> collision_free 4 Hash d us ->
  forces W ph (randomizer_gadget p Quint d root t db indices vals proofs [zero]) vs (fun s _ =>
    var_value s zero = 0 ->
    let values := map (var_value s) vals in
    length indices = length vals /\
    (forall k, (k < length indices)%nat ->
       opens_at Hash d (var_value s root) (nth k indices 0) (nth k values 0) (map (var_value s) (nth k proofs []))) /\
    var_value s root = node 4 Hash (after 4 d (written_back indices values us)) d 0).
Proof.
  intros Hh Hc. destruct (built _ _ _ _ Hh Hc) as [Ht Hdb].
  intros b vs' s E Hsat E0. cbv zeta.
  match goal with |- ?Q => assert (Hok : okspec W ph s vs (randomizer_gadget p Quint d root t db indices vals proofs [zero]) (fun _ _ => Q)) end;
    [|exact (Hok (Ok b) vs' E Hsat b eq_refl)]. clear b vs' E Hsat.
  destruct (Nat.eq_dec (length indices) (length vals)) as [Hl|Hl].
  - eapply ok_conseq; [apply (gadget_sound W ph s p Hp d Hd us t db Ht Hdb root zero E0 indices vals proofs Hl)|].
    intros a s' [H1 H2]. split; [exact Hl|]. split; assumption.
  - unfold randomizer_gadget. apply ok_lift. intros [] _. apply ok_lift. intros [] E.
    exfalso. apply Hl. destruct (Nat.eqb_spec (length indices) (length vals)) as [E'|_]; [exact E'|discriminate E].
Qed.

Theorem verify_forces W db0 us t db indices g h comms vs :
  history d db0 us t db -> collision_free 4 Hash d us ->
  let n := length (v_V vs) in let block := S (d * 3) in
  forces W false (verify_randomizer t db indices d p Quint g h comms) vs (fun s _ =>
    as_committed s (n + 1 + length indices * block) = 0 ->
    let root := as_committed s n in
    let values := map (fun k => as_committed s (n + 1 + k * block)%nat) (seq 0 (length indices)) in
    (forall k, (k < length indices)%nat ->
       opens_at Hash d root (nth k indices 0) (nth k values 0) (committed s (n + 1 + k * block + 1) (d * 3))) /\
    root = node 4 Hash (after 4 d (written_back indices values us)) d 0).
Proof. intros Hh Hc. destruct (built _ _ _ _ Hh Hc) as [Ht Hdb]. apply verify_randomizer_forces; assumption. Qed.

(** *** What this says about the original tree *)
Lemma written_back_other indices values us i : length values = length indices ->
  (forall idx, In idx indices -> leaf 4 d idx <> i) -> after 4 d (written_back indices values us) i = after 4 d us i.
Proof.
  clear Hp Hw Hd. intros Hl Hi. unfold written_back.
  assert (Hn : forall l, (forall q, In q l -> leaf 4 d (fst q) <> i) -> after 4 d (l ++ us) i = after 4 d us i).
  { induction l as [|[a b] l IH]; intros Hq; [reflexivity|]. cbn [app after]. unfold put.
    destruct (Z.eqb_spec i (leaf 4 d a)) as [E|_]; [exfalso; apply (Hq (a, b) (or_introl eq_refl)); symmetry; exact E|].
    apply IH. intros q Hq'. apply Hq. right. exact Hq'. }
  apply Hn. intros [a b] Hq. apply in_rev in Hq. apply in_combine_l in Hq. apply Hi. exact Hq.
Qed.

Theorem written_same indices values us : length values = length indices ->
  same_but_at d indices (after 4 d us) (after 4 d (written_back indices values us)).
Proof. clear Hp Hw Hd. intros Hl i _ Hi. symmetry. apply written_back_other; assumption. Qed.

Theorem original_contents (m0 : contents) us indices values nodes : length values = length indices ->
  (forall k, (k < length indices)%nat -> opens_at Hash d (node 4 Hash m0 d 0) (nth k indices 0) (nth k values 0) (nth k nodes [])) ->
  node 4 Hash m0 d 0 = node 4 Hash (after 4 d (written_back indices values us)) d 0 ->
  ((forall k, (k < length indices)%nat -> nth k values 0 = m0 (leaf 4 d (nth k indices 0))) /\ same_but_at d indices m0 (after 4 d us)) \/
  (exists c k i, (k < d)%nat /\ (0 <= i < 4 ^ Z.of_nat (d - S k))%Z /\ collision Hash c (children 4 Hash m0 k i)).
Proof.
  clear Hp Hw Hd. intros Hl Ho Hr.
  destruct (roots_bind 2 ltac:(lia) Hash m0 (after 4 d (written_back indices values us)) d 0 Hr) as [Hs|(k & i & Hk & Hi & [Hc1 Hc2])].
  - assert (Hv : forall n, (n <= length indices)%nat ->
      (forall k, (k < n)%nat -> nth k values 0 = m0 (leaf 4 d (nth k indices 0))) \/
      (exists c k i, (k < d)%nat /\ (0 <= i < 4 ^ Z.of_nat (d - S k))%Z /\ collision Hash c (children 4 Hash m0 k i))).
    { induction n as [|n IH]; intros Hn; [left; intros k Hk; lia|].
      destruct (IH ltac:(lia)) as [IHl|IHr]; [|right; exact IHr].
      destruct (Ho n ltac:(lia)) as (rest & proof & _ & Lp & Tp & Ec).
      destruct (climbed_contents 2 ltac:(lia) Hash m0 d (leaf 4 d (nth n indices 0)) (nth n values 0) proof) as [[Ev _]|(c & k & _ & Hk & Hc)];
        [apply (leaf_range 2); lia|exact Tp|exact Lp|exact Ec| |].
      - left. intros k Hk. destruct (Nat.eq_dec k n) as [->|Hne]; [exact Ev|apply IHl; lia].
      - right. exists c, k, (ancestor 4 (leaf 4 d (nth n indices 0)) (S k)). split; [exact Hk|]. split; [|exact Hc].
        assert (Hlr : let x := nth n indices 0 in (0 <= leaf 4 d x < 4 ^ Z.of_nat d)%Z) by (apply (leaf_range 2); lia). cbv zeta in Hlr.
        unfold ancestor. change (Z.of_nat 4) with 4%Z.
        split; [apply Z.div_pos; [lia|apply Z.pow_pos_nonneg; lia]|].
        apply Z.div_lt_upper_bound; [apply Z.pow_pos_nonneg; lia|]. rewrite <- Z.pow_add_r by lia.
        replace (Z.of_nat (S k) + Z.of_nat (d - S k))%Z with (Z.of_nat d) by lia. lia. }
    destruct (Hv (length indices) (Nat.le_refl _)) as [Hv'|Hv']; [left|right; exact Hv'].
    split; [exact Hv'|]. intros i Hi Hni. rewrite <- (written_back_other indices values us i Hl Hni). apply Hs.
    unfold ancestor. apply Z.div_small. exact Hi.
  - right. exists (children 4 Hash (after 4 d (written_back indices values us)) k i), k, i. split; [exact Hk|]. split.
    + unfold ancestor in Hi. change (Z.of_nat (2 ^ 2)) with 4%Z in Hi.
      assert (Hpos : (0 < 4 ^ Z.of_nat (d - S k))%Z) by (apply Z.pow_pos_nonneg; lia).
      apply Z.div_small_iff in Hi; lia.
    + split; [intros E; apply Hc1; symmetry; exact E|symmetry; exact Hc2].
Qed.

(** *** Honest runs *)
Context (Hd0 : (0 < d)%nat).

Theorem gadget_completes W W' ph db0 us t db root zero r indices values vals openings proofs ps vs :
  history d db0 us t db -> collision_free 4 Hash d us -> session ph ps vs ->
  length values = length indices -> length openings = length indices ->
  (forall k, (k < length indices)%nat -> length (nth k openings []) = d /\ Forall (fun s => length s = 3%nat) (nth k openings []) /\
     climbed 4 Hash (leaf 4 d (nth k indices 0)) (nth k values 0) (nth k openings []) = r) ->
  node 4 Hash (after 4 d (written_back indices values us)) d 0 = r ->
  has_value ps root r -> has_value ps zero 0 -> Forall2 (has_value ps) vals values ->
  Forall2 (Forall2 (has_value ps)) proofs (map (fun o => concat o) openings) ->
  completes W W' ph (randomizer_gadget p Quint d root t db indices vals proofs [zero])
    (randomizer_gadget p Quint d root t db indices vals proofs [zero]) (length indices * (2 * d * cost)) ps vs (Ok tt) (Ok tt).
Proof.
  intros Hh Hc Hs Hl Hl' Ho Hb H1 H2 H3 H4. destruct (built _ _ _ _ Hh Hc) as [Ht Hdb].
  eapply both_completes; [exact Hs|].
  apply (gadget_both W W' p Hp Hw ph d Hd Hd0 us t db Ht Hdb root zero r indices values vals openings proofs);
    [symmetry; exact Hl|symmetry; exact Hl'|exact Ho|exact Hb|].
  split; [exact H1|]. split; [exact H2|]. split; [exact H3|exact H4].
Qed.

Theorem randomizer_proves W W' label g h G H db0 us t db db0' us' t' db' indices :
  history d db0 us t db -> collision_free 4 Hash d us -> history d db0' us' t' db' -> collision_free 4 Hash d us' ->
  same_but_at d indices (after 4 d us) (after 4 d us') ->
  enough_generators (length indices * (2 * d * cost)) G H ->
  let original := map (fun idx => after 4 d us (leaf 4 d idx)) indices in
  proves W W' label g h G H (prove_randomizer t db t' db' indices original d p Quint)
    (verify_randomizer t' db' indices d p Quint g h)
    (fun comms => exists blindings, length blindings = length comms /\
       comms = commit_all g h (root t :: flat_map (fun idx => after 4 d us (leaf 4 d idx) ::
                                 concat (siblings 4 Hash (after 4 d us) d (leaf 4 d idx))) indices) blindings).
Proof.
  intros Hh Hc Hh' Hc' Hsame Hg original.
  destruct (built _ _ _ _ Hh Hc) as [Ht Hdb]. destruct (built _ _ _ _ Hh' Hc') as [Ht' Hdb'].
  eapply (both_proves W W' label g h G H _ (verify_randomizer t' db' indices d p Quint g h));
    [apply (randomizer_both W W' p Hp Hw d Hd Hd0 (after 4 d us) t db Ht (built_get _ _ _ _ Hh Hc) indices us' t' db' Ht' Hdb' Hsame
       (prover_new g h (transcript_new label)) (verifier_new (transcript_new label)))|exact Hg|].
  cbn [p_g p_h p_nrand prover_new]. eexists. apply and_comm. split; [rewrite Ht; reflexivity|].
  unfold commit_all. rewrite (map_length _ (combine _ _)), combine_length, map_length, seq_length. lia.
Qed.
End Main.
