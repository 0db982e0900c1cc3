(** The randomizer gadget: what it forces. *)
From Coq Require Import ZArith String List Lia Bool Ring Field Arith.
From Verif.Base Require Import Outcome Fp Params Algebra.
From Verif.Model Require Import Transcript LinComb Prog VectorPoly IPP Prover Verifier Gadgets Hash Merkle MerkleGadget Randomizer.
From Verif.Spec Require Import R1CS Sim Session Protocol Verdict Gadget HashSpec MerkleSpec RandomizerSpec.
From Verif.Proofs Require Import IPPProofs LinCombProofs RunProofs GadgetTools GadgetBasic GadgetPrograms
  HashTools HashSound HashPrograms HashMain NoCommit MerkleTools MerkleTree MerkleSound RandomizerMap.
Import ListNotations.

Section Sound.
Context {P : Params} {OK : ParamsOk P}.
Local Open Scope fe_scope.
Context (W : world) (ph : bool) (asg : assignment).
Local Notation val := (var_value asg).
Local Notation lval := (lc_value asg).
Local Notation vspec := (vspec W ph asg).
Local Notation okspec := (okspec W ph asg).
Context (p : poseidon_params) (Hp : params_ok p).
Local Notation Hash := (hash_value p Quint).

(** the map holds the values of the assignment *)
Definition holds (l l' : lc) (x : F) : Prop := l' = l /\ lval l = x.

Lemma hash_sound ins zero s : val zero = 0 ->
  okspec s (Poseidon_hash_4_constraints p Quint ins [lc_of_var zero]) (fun out s' => lval out = Hash (map lval ins)).
Proof.
  intros Hz. eapply ok_conseq; [apply hash_4_sound; discriminate|].
  intros out s' (_ & _ & s0 & rest & Est & _ & Eh). injection Est as <- <-.
  cbn [map] in Eh. rewrite app_nil_r, lc_value_of_var, Hz in Eh. symmetry. apply (permuted_hash p Quint Hp). exact Eh.
Qed.

(** *** Presence in the original tree *)
Definition rising_to (i : Z) (v : F) (nodes0 : list F) (j : nat) (st : list var * lc) : Prop :=
  exists sibs, nodes0 = map val (fst st) ++ concat (rev sibs) /\ length sibs = j /\
    Forall (fun s => length s = 3%nat) sibs /\ lval (snd st) = go_up 4 Hash i 0 v sibs.

Lemma presence_step_sound i v nodes0 j zero st s : val zero = 0 -> rising_to i v nodes0 j st ->
  okspec s (presence_step p Quint [lc_of_var zero] st (digit 4 i j)) (fun st' s' => rising_to i v nodes0 (S j) st').
Proof.
  intros Hz (sibs & En & Hl & Ht & Ev). destruct st as [nodes cur]. cbn [fst snd] in *. unfold presence_step.
  apply pop_node_sound. intros nodes3 v3 ->. apply pop_node_sound. intros nodes2 v2 ->. apply pop_node_sound. intros nodes1 v1 ->.
  assert (Hd : (digit 4 i j < 4)%nat) by (apply digit_lt; lia).
  apply ok_lift. intros ins Ei. unfold vec_insert in Ei. destruct (Nat.leb _ _) in Ei; [|discriminate]. injection Ei as <-.
  eapply ok_try; [apply hash_sound; exact Hz|]. intros out s1 Eo. apply ok_ret.
  exists (sibs ++ [[val v1; val v2; val v3]]). cbn [fst snd]. repeat apply conj.
  - rewrite En, rev_app_distr. cbn [rev app concat]. rewrite !map_app, <- !app_assoc. reflexivity.
  - rewrite app_length, Hl. cbn. lia.
  - apply Forall_app. split; [exact Ht|]. constructor; [reflexivity|constructor].
  - rewrite Eo, map_app. cbn [map]. rewrite <- firstn_map, <- skipn_map. cbn [map]. rewrite Ev, !lc_value_of_var.
    rewrite go_up_app by lia. cbn [go_up]. rewrite Hl, Nat.add_0_l. reflexivity.
Qed.

Context (d : nat) (Hd : (d * 2 <= 8 * modbytes)%nat).

Lemma path_of idx path : leaf_index_to_path 4 idx d = Done path -> path = map (digit 4 (leaf 4 d idx)) (rev (seq 0 d)).
Proof.
  intros E. pose proof (path_done 2 ltac:(lia) idx d Hd) as E2. cbn [Nat.pow Nat.mul Nat.add] in E2. rewrite E2 in E. congruence.
Qed.

Lemma leaf_in idx : (0 <= leaf 4 d idx < 4 ^ Z.of_nat d)%Z.
Proof. exact (leaf_range 2 ltac:(lia) idx d). Qed.

Lemma nth_rev_seq n : forall t x, nth_error (rev (seq 0 n)) t = Some x -> (t < n)%nat /\ x = (n - S t)%nat.
Proof.
  induction n as [|n IH]; intros t x E; [destruct t; discriminate|]. rewrite rev_seq_S in E. destruct t as [|t]; cbn in E.
  - injection E as <-. lia.
  - apply IH in E. lia.
Qed.

Lemma presence_sound idx v nodes cur zero path s : val zero = 0 -> leaf_index_to_path 4 idx d = Done path -> lval cur = v ->
  okspec s (p_try_fold (presence_step p Quint [lc_of_var zero]) (rev path) (nodes, cur))
    (fun st s' => forall root, lval (snd st) = root -> opens_at Hash d root idx v (map val nodes)).
Proof.
  intros Hz Ep Hc. apply path_of in Ep. subst path. rewrite <- map_rev, rev_involutive.
  eapply ok_conseq; [apply (ok_try_fold W ph asg _ (fun j st s' => rising_to (leaf 4 d idx) v (map val nodes) j st))|].
  - intros j x st s1 Hj Hr. assert (Hx : x = digit 4 (leaf 4 d idx) j /\ (j < d)%nat).
    { assert (Hlt : (j < d)%nat).
      { assert (Hs := nth_error_Some (map (digit 4 (leaf 4 d idx)) (seq 0 d)) j). rewrite Hj in Hs.
        rewrite map_length, seq_length in Hs. apply Hs. discriminate. }
      split; [|exact Hlt]. rewrite nth_error_map, (nth_error_nth' _ O) in Hj by (rewrite seq_length; exact Hlt).
      rewrite seq_nth in Hj by exact Hlt. cbn in Hj. congruence. }
    destruct Hx as [-> _]. apply presence_step_sound; [exact Hz|exact Hr].
  - exists []. cbn. rewrite app_nil_r. repeat apply conj; [reflexivity..|constructor|exact Hc].
  - intros [rest cur'] s' (sibs & En & Hl & Ht & Ev) root Er. cbn [fst snd] in *. rewrite map_length, seq_length in Hl.
    exists (map val rest), (rev sibs). repeat apply conj.
    + exact En.
    + rewrite rev_length. exact Hl.
    + apply Forall_rev. exact Ht.
    + unfold climbed. rewrite rev_involutive, <- go_up_climb by lia. congruence.
Qed.

(** *** The loops *)
Section Loops.
Context (us : list (F * F)) (new_tree : merkle_tree) (new_db : @hash_db (list F)).
Context (Htree : new_tree = MerkleTree d (node 4 Hash (after 4 d us) d 0)) (Hdb : db_has 2 Hash new_db (after 4 d us) d).
Context (root zero : var) (Hz : val zero = 0) (indices : list F) (vals : list var) (proofs : list (list var)).
Context (Hlen : length indices = length vals).
Local Notation values := (map val vals).
Local Notation statics := [lc_of_var zero].

Lemma holds_const c : holds (lc_of_fe c) (lc_of_fe c) c.
Proof. split; [reflexivity|]. apply lc_value_of_fe. Qed.

(** all the nodes around the path to the leaf of an index are in the map *)
Definition around (n : node_map) (idx : F) : Prop :=
  forall j c, (j < d)%nat -> (c < 4)%nat -> present n (pre d (leaf 4 d idx) (S j) ++ [c]).

Definition read_inv (j : nat) (n : node_map) : Prop :=
  agree d holds (at_key d Hash (after 4 d us)) n n /\ present n [] /\
  forall k, (k < j)%nat -> around n (nth k indices 0) /\
    opens_at Hash d (val root) (nth k indices 0) (nth k values 0) (map val (nth k proofs [])).

Lemma read_step_sound j n s : (j < length indices)%nat -> read_inv j n ->
  okspec s (read_step p Quint d root (Merkle.root new_tree) new_db indices vals proofs statics n j) (fun n' s' => read_inv (S j) n').
Proof.
  intros Hj (Ha & Hn & Hk). unfold read_step.
  apply ok_lift. intros idx Ei. apply (index_inv _ _ _ 0) in Ei as [_ Ei].
  apply ok_lift. intros pr Ep. apply (index_inv _ _ _ []) in Ep as [_ Ep].
  apply ok_lift. intros path Epath. apply ok_lift. intros ov Ev. apply (index_inv _ _ _ VOne) in Ev as [Hv Ev].
  eapply ok_try; [apply (presence_sound idx (val ov)); [exact Hz|exact Epath|apply lc_value_of_var]|].
  intros [rest cur] s1 Hop. cbn [snd] in Hop.
  apply ok_constrain. intros s2 _ E0. lcv E0. apply sub_zero_eq in E0. specialize (Hop _ E0).
  apply path_of in Epath. subst path. rewrite Htree. cbn [Merkle.root].
  destruct (collect_path_agree d Hash holds holds_const (leaf 4 d idx) (leaf_in idx) new_db (after 4 d us) n n Hdb Ha)
    as (n2 & n2' & E1 & E2 & A2 & P2 & C2).
  rewrite E1 in E2. injection E2 as <-. rewrite E1. cbn [p_lift pbind]. apply ok_ret.
  split; [exact A2|]. split; [apply P2; exact Hn|]. intros k Hlt.
  destruct (Nat.eq_dec k j) as [->|Hne].
  - rewrite <- Ei. split; [exact C2|].
    rewrite (nth_indep values 0 (val VOne)) by (rewrite map_length; exact Hv). rewrite (map_nth (var_value asg)), <- Ev, <- Ep. exact Hop.
  - destruct (Hk k ltac:(lia)) as [K1 K2]. split; [|exact K2]. intros j' c Hj' Hc. apply P2. apply K1; assumption.
Qed.

(** the contents after [j] values were written back; in a tree of depth 0 nothing is *)
Definition so_far (j : nat) : contents :=
  match d with
  | O => after 4 d us
  | _ => after 4 d (rev (firstn j (combine indices values)) ++ us)
  end.

Lemma so_far_S j : (0 < d)%nat -> (j < length indices)%nat ->
  so_far (S j) = put (so_far j) (leaf 4 d (nth j indices 0)) (nth j values 0).
Proof.
  intros Hd0 Hj. unfold so_far. destruct d; [lia|].
  rewrite (firstn_S_nth _ _ (0, 0)) by (rewrite combine_length, map_length, <- Hlen, Nat.min_id; exact Hj).
  rewrite combine_nth by (rewrite map_length; exact Hlen).
  rewrite rev_app_distr. reflexivity.
Qed.

Definition write_inv (j : nat) (n : node_map) : Prop :=
  agree d holds (at_key d Hash (so_far j)) n n /\ present n [] /\
  forall k, (k < length indices)%nat -> around n (nth k indices 0).

Lemma write_step_sound j n s : (j < length indices)%nat -> write_inv j n ->
  okspec s (write_step p Quint d indices vals statics n j) (fun n' s' => write_inv (S j) n').
Proof.
  intros Hj (Ha & Hn & Hk). unfold write_step.
  apply ok_lift. intros idx Ei. apply (index_inv _ _ _ 0) in Ei as [_ Ei].
  apply ok_lift. intros ov Ev. apply (index_inv _ _ _ VOne) in Ev as [Hv Ev].
  apply ok_lift. intros path Epath. apply path_of in Epath. subst path.
  destruct (Nat.eq_dec d 0) as [Hd0|Hd0].
  { rewrite Hd0. cbn [seq rev p_try_fold ptry pbind]. apply ok_ret.
    split; [|split; [exact Hn|exact Hk]]. replace (so_far (S j)) with (so_far j); [exact Ha|]. unfold so_far. rewrite Hd0. reflexivity. }
  set (i := leaf 4 d idx). set (m := so_far j).
  eapply ok_try; [apply (ok_try_fold W ph asg _ (fun t st s' => writing d Hash holds i m (val ov) t st st /\
    (forall k, present n k -> present (fst (fst st)) k)))|].
  - intros t x [[n1 l] q] s1 Hx [Hw Hm]. apply nth_rev_seq in Hx as [Ht ->].
    destruct (writing_inputs d Hash holds i (leaf_in idx) m (val ov) t n1 l q n1 l q Ht Hw)
      as (ls & ls' & a & b & c & e & a' & b' & c' & e' & xa & xb & xc & xe & E1 & _ & E2 & _ & E3 & _ & E4 & _ & E5 & [_ R1] & [_ R2] & [_ R3] & [_ R4]).
    unfold write_level. rewrite E1, E2. cbn [p_lift pbind]. rewrite E3. cbn [p_lift pbind].
    eapply ok_try; [apply hash_sound; exact Hz|]. intros out s2 Eo. rewrite E4. cbn [p_lift pbind]. apply ok_ret.
    destruct (writing_next d Hash holds i (leaf_in idx) m (val ov) t n1 l q n1 l q out out Ht Hw) as [N1 N2].
    { split; [reflexivity|]. change (node 4 Hash (put m i (val ov)) (S t) (ancestor 4 i (S t))) with (Hash (children 4 Hash (put m i (val ov)) t (ancestor 4 i (S t)))). rewrite E5, Eo. cbn [map]. rewrite R1, R2, R3, R4. reflexivity. }
    cbn zeta in N1, N2. split; [exact N1|]. cbn [fst]. intros k Hpk. apply N2. apply Hm. exact Hpk.
  - split; [|auto]. rewrite path_pre. apply writing_start.
    + exact Ha.
    + split; [reflexivity|apply lc_value_of_var].
    + intros t c Ht Hc. unfold i. rewrite Ei. apply Hk; assumption.
  - intros [[n1 l] q] s1 [Hw Hm]. rewrite rev_length, seq_length in Hw. cbn [fst] in Hm. apply ok_ret.
    split; [|split; [apply Hm; exact Hn|]].
    + rewrite so_far_S by (assumption || lia). fold m. rewrite <- Ei. fold i.
      replace (nth j values 0) with (val ov); [apply writing_end in Hw; [exact Hw|lia]|].
      rewrite (nth_indep values 0 (val VOne)) by (rewrite map_length; exact Hv). rewrite (map_nth (var_value asg)), <- Ev. reflexivity.
    + intros k Hlt t c Ht Hc. apply Hm. apply Hk; assumption.
Qed.

Lemma gadget_sound s :
  okspec s (randomizer_gadget p Quint d root new_tree new_db indices vals proofs [zero]) (fun _ _ =>
    (forall k, (k < length indices)%nat ->
       opens_at Hash d (val root) (nth k indices 0) (nth k values 0) (map val (nth k proofs []))) /\
    val root = node 4 Hash (after 4 d (written_back indices values us)) d 0).
Proof.
  unfold randomizer_gadget. apply ok_lift. intros [] _. apply ok_lift. intros [] _. cbn [map].
  eapply ok_try; [apply (ok_try_fold W ph asg _ (fun j n s' => read_inv j n))|].
  - intros j x n s1 Hx Hr. assert (Hlt : (j < length indices)%nat).
    { assert (Hs := nth_error_Some (seq 0 (length indices)) j). rewrite Hx, seq_length in Hs. apply Hs. discriminate. }
    apply nth_error_seq0 in Hx as [-> _]. apply read_step_sound; assumption.
  - split; [|split].
    + intros key. rewrite map_get_insert. destruct (path_eqb [] key) eqn:E; [|exact I]. apply path_eqb_true in E. subst key.
      split; [split; [constructor|cbn; lia]|]. split; [reflexivity|]. rewrite lc_value_of_fe, Htree. cbn [Merkle.root].
      unfold at_key. cbn. rewrite Nat.sub_0_r. reflexivity.
    + apply present_insert. right. reflexivity.
    + intros k Hk. lia.
  - intros n s1 (Ha & Hn & Hk). rewrite seq_length in Hk.
    eapply ok_try; [apply (ok_try_fold W ph asg _ (fun j n s' => write_inv j n))|].
    + intros j x n' s2 Hx Hr. assert (Hlt : (j < length indices)%nat).
      { assert (Hs := nth_error_Some (seq 0 (length indices)) j). rewrite Hx, seq_length in Hs. apply Hs. discriminate. }
      apply nth_error_seq0 in Hx as [-> _]. apply write_step_sound; assumption.
    + split; [|split; [exact Hn|intros k Hlt; apply Hk; exact Hlt]].
      replace (so_far 0) with (after 4 d us); [exact Ha|]. unfold so_far. destruct d; reflexivity.
    + intros n2 s2 (Ha2 & Hn2 & _). rewrite seq_length in Ha2.
      destruct (agree_get _ _ _ _ _ _ Ha2 Hn2) as (l & l' & El & _ & _ & Hl). rewrite El. cbn [of_option p_lift pbind].
      apply ok_constrain. intros s3 _ E0. lcv E0. apply sub_zero_eq in E0. apply ok_ret.
      split; [intros k Hlt; apply Hk; exact Hlt|].
      rewrite <- E0, Hl. unfold at_key. cbn [length]. rewrite Nat.sub_0_r. change (number 4 []) with 0%Z.
      unfold so_far. rewrite firstn_all2 by (rewrite combine_length; lia).
      destruct d as [|d'] eqn:Ed; [|reflexivity].
      unfold written_back. cbn [MerkleSpec.node].
      destruct (Nat.eq_dec (length indices) 0) as [Hi0|Hi0].
      { destruct indices; [reflexivity|discriminate]. }
      assert (Hlast : exists L idx v, combine indices values = L ++ [(idx, v)] /\ v = nth (length indices - 1) values 0).
      { exists (firstn (length indices - 1) (combine indices values)), (nth (length indices - 1) indices 0), (nth (length indices - 1) values 0).
        split; [|reflexivity]. rewrite <- combine_nth by (rewrite map_length; exact Hlen).
        assert (Hcl : length (combine indices values) = length indices) by (rewrite combine_length, map_length, <- Hlen; lia).
        rewrite <- (firstn_S_nth _ _ (0, 0)) by lia. rewrite firstn_all2 by lia. reflexivity. }
      destruct Hlast as (L & idx & v & EL & Ev). rewrite EL, rev_app_distr. cbn [rev app MerkleSpec.after].
      destruct (Hk (length indices - 1)%nat ltac:(lia)) as [_ (rest & proof & _ & Hpl & _ & Hcl)].
      destruct proof; [|discriminate Hpl]. cbn in Hcl. unfold put. unfold MerkleSpec.leaf. rewrite Z.mod_1_r. cbn.
      unfold at_key in Hl. cbn in Hl. rewrite Ev, Hcl, <- E0, Hl. unfold so_far. rewrite Ed. reflexivity.
Qed.
End Loops.
End Sound.

(** *** The verifying function *)
Section Verify.
Context {P : Params} {OK : ParamsOk P}.
Local Open Scope fe_scope.
Context (W : world).

Lemma first_run n : forall a comms ps s r s',
  vrun W false (p_fold (fun '(commitments, ps) (_ : nat) =>
      pbind (remove0 commitments) (fun '(c, commitments) => pbind (cs_commit c) (fun v => PRet (commitments, ps ++ [v]))))
    (seq a n) (comms, ps)) s = Done (r, s') ->
  (n <= length comms)%nat /\ r = (skipn n comms, ps ++ map VCommitted (seq (length (v_V s)) n)) /\
  v_V s' = v_V s ++ firstn n comms.
Proof.
  induction n as [|n IH]; intros a comms ps s r s' E.
  - cbn in E. injection E as <- <-. cbn. rewrite !app_nil_r. repeat split. lia.
  - cbn [seq p_fold] in E. destruct comms as [|c comms]; [discriminate E|]. cbn [remove0 pbind] in E.
    cbn [cs_commit pbind vrun] in E. unfold verifier_commit in E. apply IH in E as (H1 & -> & H3).
    cbn [length firstn skipn]. split; [lia|]. cbn in H3. rewrite H3. split.
    + rewrite <- app_assoc. cbn [seq map app]. do 4 f_equal. cbn. rewrite app_length. cbn [length]. rewrite Nat.add_1_r. reflexivity.
    + rewrite <- app_assoc. reflexivity.
Qed.

Lemma commit_first_run n comms s r s' : vrun W false (commit_first n comms) s = Done (r, s') ->
  (n <= length comms)%nat /\ r = (skipn n comms, map VCommitted (seq (length (v_V s)) n)) /\ v_V s' = v_V s ++ firstn n comms.
Proof. apply (first_run n 0 comms []). Qed.

Lemma skipn_add {A} a : forall b (l : list A), skipn a (skipn b l) = skipn (b + a) l.
Proof. intros b. induction b as [|b IH]; intros l; [reflexivity|]. destruct l as [|x l]; [cbn; apply skipn_nil|]. cbn. apply IH. Qed.
Lemma firstn_add {A} a : forall b (l : list A), firstn b l ++ firstn a (skipn b l) = firstn (b + a) l.
Proof. intros b. induction b as [|b IH]; intros l; [reflexivity|]. destruct l as [|x l]; [cbn; apply firstn_nil|]. cbn. f_equal. apply IH. Qed.

(** the variables of the blocks of [S n] commitments *)
Definition heads (start n N : nat) : list var := map (fun k => VCommitted (start + k * S n)) (seq 0 N).
Definition tails (start n N : nat) : list (list var) := map (fun k => map VCommitted (seq (start + k * S n + 1) n)) (seq 0 N).

Lemma blocks_run n N : forall a comms hs ts s r s',
  vrun W false (p_fold (fun '(commitments, orig_val_vars, proof_vars) (_ : nat) =>
      pbind (remove0 commitments) (fun '(c, commitments) =>
      pbind (cs_commit c) (fun var_orig_val =>
      pbind (commit_first n commitments) (fun '(commitments, ps) =>
      PRet (commitments, orig_val_vars ++ [var_orig_val], proof_vars ++ [ps])))))
    (seq a N) (comms, hs, ts)) s = Done (r, s') ->
  (N * S n <= length comms)%nat /\
  r = (skipn (N * S n) comms, hs ++ heads (length (v_V s)) n N, ts ++ tails (length (v_V s)) n N) /\
  v_V s' = v_V s ++ firstn (N * S n) comms.
Proof.
  induction N as [|N IH]; intros a comms hs ts s r s' E.
  - cbn in E. injection E as <- <-. cbn. rewrite !app_nil_r. repeat split. lia.
  - cbn [seq p_fold] in E. destruct comms as [|c comms]; [discriminate E|]. cbn [remove0 pbind] in E.
    cbn [cs_commit pbind vrun] in E. unfold verifier_commit in E. rewrite vrun_bind in E.
    match type of E with obind (vrun _ _ _ ?s1) _ = _ => destruct (vrun W false (pbind (commit_first n comms)
      (fun '(commitments, ps) => PRet (commitments, hs ++ [VCommitted (length (v_V s))], ts ++ [ps]))) s1) as [[r1 s2]|] eqn:E1 end;
      [|discriminate E].
    rewrite vrun_bind in E1.
    match type of E1 with obind (vrun _ _ _ ?s1) _ = _ => destruct (vrun W false (commit_first n comms) s1) as [[r2 s3]|] eqn:E2 end; [|discriminate E1].
    cbn [obind] in E1. apply commit_first_run in E2 as (L2 & -> & V2). cbn in E1. injection E1 as <- <-.
    cbn [obind] in E. apply IH in E as (L3 & -> & V3). cbn [v_V v_with_V v_with_transcript] in V2.
    rewrite skipn_length in L3.
    assert (Hs3 : length (v_V s3) = (length (v_V s) + S n)%nat).
    { rewrite V2, !app_length, firstn_length. cbn [length]. lia. }
    cbn [length firstn skipn Nat.mul Nat.add]. split; [lia|]. split.
    + rewrite skipn_add. rewrite Hs3. f_equal; [f_equal|].
      * rewrite <- app_assoc. cbn [app]. f_equal. unfold heads. cbn [seq map]. f_equal; [f_equal; lia|].
        rewrite <- seq_shift, map_map. apply map_ext. intros k. f_equal. lia.
      * rewrite <- app_assoc. cbn [app]. f_equal. unfold tails. cbn [seq map]. cbn [v_V v_with_V v_with_transcript]. rewrite app_length. cbn [length]. f_equal; [do 2 f_equal; lia|].
        rewrite <- seq_shift, map_map. apply map_ext. intros k. do 2 f_equal. lia.
    + rewrite V3, V2, <- !app_assoc. f_equal. cbn [app]. f_equal. apply firstn_add.
Qed.

Context (p : poseidon_params).

Local Opaque Poseidon_hash_4_constraints pop_node.
Ltac keeps' := repeat match goal with
  | |- NoCommit.keepsV _ _ (PRet _) => apply keeps_ret
  | |- NoCommit.keepsV _ _ (ptry _ _) => apply keeps_try; [|intros ?]
  | |- NoCommit.keepsV _ _ (pbind _ _) => apply keeps_bind; [|intros ?]
  | |- NoCommit.keepsV _ _ (p_lift _) => apply keeps_lift
  | |- NoCommit.keepsV _ _ (cs_constrain _) => apply keeps_constrain
  | |- NoCommit.keepsV _ _ (p_try_fold _ _ _) => apply keeps_try_fold; intros ? ?
  | |- NoCommit.keepsV _ _ (pop_node _) => apply pop_keeps
  | |- NoCommit.keepsV _ _ (Poseidon_hash_4_constraints _ _ _ _) => apply hash_4_constraints_keeps
  | |- NoCommit.keepsV _ _ (match ?x with _ => _ end) => destruct x
  end.
Lemma randomizer_keeps ph sbox d root t db indices vals proofs statics :
  keepsV W ph (randomizer_gadget p sbox d root t db indices vals proofs statics).
Proof. unfold randomizer_gadget, read_step, write_step, presence_step, write_level. keeps'. Qed.
Local Opaque randomizer_gadget.

Lemma verify_randomizer_commits sbox t db indices d g h comms vs b vs' :
  vrun W false (verify_randomizer t db indices d p sbox g h comms) vs = Done (b, vs') ->
  let k := (1 + length indices * S (d * 3))%nat in
  v_V vs' = v_V vs ++ firstn k comms ++ [commit g h 0 0] /\ (k <= length comms)%nat.
Proof.
  intros E k. unfold verify_randomizer in E. destruct comms as [|c comms]; [discriminate E|]. cbn [remove0 pbind] in E.
  apply commit_step in E as (w & s1 & V1 & E). rewrite vrun_bind in E.
  match type of E with obind (vrun _ _ ?m ?s) _ = _ => destruct (vrun W false m s) as [[r s2]|] eqn:E1 end; [|discriminate E].
  apply blocks_run in E1 as (L1 & -> & V2). cbn [obind] in E.
  unfold allocate_statics_for_verifier in E. cbn [pbind cs_commit vrun Nat.ltb Nat.leb length Nat.sub seq p_fold] in E. unfold verifier_commit in E.
  apply keeps_try in E; [|apply randomizer_keeps|intros; apply keeps_ret].
  rewrite E. cbn [v_V v_with_V v_with_transcript]. rewrite V2, V1, <- !app_assoc. unfold k. cbn [firstn Nat.add length]. split; [reflexivity|]. unfold k in *. lia.
Qed.

Lemma verify_randomizer_forces (Hp : params_ok p) d (Hd : (d * 2 <= 8 * modbytes)%nat) us t db indices g h comms vs :
  t = MerkleTree d (node 4 (hash_value p Quint) (after 4 d us) d 0) -> db_has 2 (hash_value p Quint) db (after 4 d us) d ->
  let n := length (v_V vs) in let block := S (d * 3) in
  forces W false (verify_randomizer t db indices d p Quint g h comms) vs (fun s _ =>
    as_committed s (n + 1 + length indices * block) = 0 ->
    let root := as_committed s n in
    let values := map (fun k => as_committed s (n + 1 + k * block)%nat) (seq 0 (length indices)) in
    (forall k, (k < length indices)%nat ->
       opens_at (hash_value p Quint) d root (nth k indices 0) (nth k values 0) (committed s (n + 1 + k * block + 1) (d * 3))) /\
    root = node 4 (hash_value p Quint) (after 4 d (written_back indices values us)) d 0).
Proof.
  intros Ht Hdb n block. apply (forces_if W _ vs (fun s => as_committed s (n + 1 + length indices * block) = 0)).
  intros s E0. unfold verify_randomizer.
  apply ok_remove0. intros c1 l1 L1. apply ok_commit. intros s1 _ V1.
  assert (Hn1 : length (v_V s1) = (n + 1)%nat) by (rewrite V1, app_length; reflexivity).
  eapply ok_bind.
  { intros r s2 E2 _. apply blocks_run in E2. exact E2. }
  intros [[cs hs] ts] s2 (L2 & Er & V2). rewrite Hn1 in Er. cbn [app] in Er. injection Er as -> -> ->.
  eapply ok_bind; [apply static_sound|]. intros vars s4 ->.
  assert (Hn2 : length (v_V s2) = (n + 1 + length indices * block)%nat).
  { rewrite V2, app_length, firstn_length, Hn1. unfold block. lia. }
  eapply ok_try; [eapply (gadget_sound W false s p Hp d Hd us t db Ht Hdb)|].
  - cbn [var_value]. rewrite Hn2. exact E0.
  - unfold heads. rewrite map_length, seq_length. reflexivity.
  - intros [] s5 [G1 G2]. apply ok_ret. cbn zeta.
    assert (Ev : map (var_value s) (heads (n + 1) (d * 3) (length indices))
      = map (fun k => as_committed s (n + 1 + k * block)%nat) (seq 0 (length indices))).
    { unfold heads. rewrite map_map. reflexivity. }
    rewrite Ev in G1, G2. split; [|exact G2]. intros k Hk. specialize (G1 k Hk).
    unfold tails in G1.
    assert (Et : nth k (map (fun k => map VCommitted (seq (n + 1 + k * S (d * 3) + 1) (d * 3))) (seq 0 (length indices))) []
      = map VCommitted (seq (n + 1 + k * S (d * 3) + 1) (d * 3))).
    { rewrite (nth_indep _ [] ((fun k => map VCommitted (seq (n + 1 + k * S (d * 3) + 1) (d * 3))) O)) by (rewrite map_length, seq_length; exact Hk).
      rewrite (map_nth (fun k => map VCommitted (seq (n + 1 + k * S (d * 3) + 1) (d * 3)))), seq_nth by exact Hk. reflexivity. }
    rewrite Et, map_committed in G1. exact G1.
Qed.
End Verify.
