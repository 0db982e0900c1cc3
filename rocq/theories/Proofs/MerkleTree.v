(** Sparse Merkle trees: the tree stored in the database is the tree of the contents. *)
From Coq Require Import ZArith List Bool Lia Arith.
From Verif.Base Require Import Outcome Fp Params Algebra.
From Verif.Model Require Import Transcript IPP Hash Merkle.
From Verif.Spec Require Import MerkleSpec.
From Verif.Proofs Require Import MerkleTools.
Import ListNotations.

Section ListFacts.
Context {T : Type}.

Lemma without_cons c (x : T) l : without (S c) (x :: l) = x :: without c l.
Proof. reflexivity. Qed.

Lemma length_without c (l : list T) : c < length l -> length (without c l) = length l - 1.
Proof. intros Hc. unfold without. rewrite app_length, firstn_length, skipn_length. lia. Qed.

Lemma vec_insert_done c (x : T) l : c <= length l -> vec_insert c x l = Done (firstn c l ++ x :: skipn c l).
Proof. intros Hc. unfold vec_insert. apply Nat.leb_le in Hc. rewrite Hc. reflexivity. Qed.

Lemma insert_without c (d x : T) l : c < length l ->
  firstn c (without c l) ++ x :: skipn c (without c l) = firstn c l ++ x :: skipn (S c) l.
Proof.
  intros Hc. unfold without.
  assert (Hl : length (firstn c l) = c) by (rewrite firstn_length; lia).
  rewrite firstn_app, Hl, Nat.sub_diag. cbn [firstn]. rewrite app_nil_r.
  rewrite firstn_all2 by lia. f_equal. f_equal.
  rewrite skipn_app, Hl, Nat.sub_diag. rewrite skipn_all2 by lia. reflexivity.
Qed.

Lemma nth_split_eq c (d : T) l : c < length l -> firstn c l ++ nth c l d :: skipn (S c) l = l.
Proof.
  revert c; induction l as [|x l IH]; intros [|c] Hc; cbn in *; try lia; [reflexivity|].
  f_equal. apply IH. lia.
Qed.

Lemma insert_inj c (x x' : T) s s' : c <= length s -> length s = length s' ->
  firstn c s ++ x :: skipn c s = firstn c s' ++ x' :: skipn c s' -> x = x' /\ s = s'.
Proof.
  intros Hc Hl E.
  assert (Hf : length (firstn c s) = length (firstn c s')) by (rewrite !firstn_length; lia).
  assert (E1 := f_equal (firstn (length (firstn c s))) E).
  assert (E2 := f_equal (skipn (length (firstn c s))) E).
  rewrite firstn_app, Nat.sub_diag, firstn_all in E1. cbn [firstn] in E1. rewrite app_nil_r in E1.
  rewrite Hf, firstn_app, Nat.sub_diag, firstn_all in E1. cbn [firstn] in E1. rewrite app_nil_r in E1.
  rewrite skipn_app, Nat.sub_diag, skipn_all in E2. cbn [skipn app] in E2.
  rewrite Hf, skipn_app, Nat.sub_diag, skipn_all in E2. cbn [skipn app] in E2.
  injection E2 as E2 E3. split; [exact E2|].
  rewrite <- (firstn_skipn c s), <- (firstn_skipn c s'), E1, E3. reflexivity.
Qed.

Lemma vec_pop_app (l : list T) x : vec_pop (l ++ [x]) = Done (l, x).
Proof. unfold vec_pop. rewrite rev_app_distr. cbn. rewrite rev_involutive. reflexivity. Qed.

Lemma vec_pop_inv (l l' : list T) x : vec_pop l = Done (l', x) -> l = l' ++ [x].
Proof.
  unfold vec_pop. destruct (rev l) as [|y t] eqn:E; [discriminate|]. injection 1 as <- <-.
  rewrite <- (rev_involutive l), E. reflexivity.
Qed.
End ListFacts.

Section Tree.
Context {P : Params} {OK : ParamsOk P} {ENC : EncodingOk P}.
Local Open Scope fe_scope.

Lemma feqb_eq (a b : F) : feqb a b = true <-> a = b.
Proof. destruct (feqb_spec modulus a b); split; congruence. Qed.

Lemma proof_node_without d (l : list F) : proof_node d l = without d l.
Proof.
  unfold proof_node.
  assert (Hg : forall (l : list F) s, map snd (filter (fun '(i, _) => negb (Nat.eqb i d)) (combine (seq s (length l)) l))
             = if Nat.ltb d s then l else without (d - s) l).
  { clear l. induction l as [|x l IH]; intros s; cbn [length seq combine filter map].
    - destruct (Nat.ltb d s); [reflexivity|]. unfold without. rewrite firstn_nil, skipn_nil. reflexivity.
    - destruct (Nat.eqb_spec s d) as [->|Hn]; cbn [negb].
      + rewrite IH. rewrite Nat.ltb_irrefl. rewrite (proj2 (Nat.ltb_lt d (S d))) by lia.
        rewrite Nat.sub_diag. reflexivity.
      + cbn [map snd]. rewrite IH. destruct (Nat.ltb_spec d s) as [Hl|Hl].
        * rewrite (proj2 (Nat.ltb_lt d (S s))) by lia. reflexivity.
        * rewrite (proj2 (Nat.ltb_ge d (S s))) by lia.
          replace (d - s)%nat with (S (d - S s)) by lia. reflexivity. }
  rewrite Hg. cbn. rewrite Nat.sub_0_r. reflexivity.
Qed.

Context (bits : nat) (Hbits : (0 < bits)%nat).
Local Notation arity := (2 ^ bits)%nat.
Local Notation A := (Z.of_nat arity).
Context (hash : list F -> outcome F) (H : list F -> F).
Context (Hhash : forall l, length l = arity -> hash l = Done (H l)).

Lemma arity_gt : (1 < arity)%nat.
Proof. apply Nat.pow_gt_1; lia. Qed.

Local Notation node := (node arity H).
Local Notation children := (children arity H).
Local Notation siblings := (siblings arity H).
Local Notation digit := (digit arity).
Local Notation ancestor := (ancestor arity).
Local Notation leaf := (leaf arity).
Local Notation after := (after arity).

(** the depth is not too large for [get_base_repr] *)
Definition fits (d : nat) : Prop := (d * bits <= 8 * modbytes)%nat.

Lemma path_done idx d : fits d -> leaf_index_to_path arity idx d = Done (map (digit (leaf d idx)) (rev (seq 0 d))).
Proof.
  intros Hf. unfold leaf_index_to_path. rewrite (base_repr_done bits Hbits).
  rewrite (proj2 (Nat.leb_le _ _)).
  2:{ apply Nat.lt_succ_r. apply Nat.div_lt_upper_bound; [lia|]. unfold fits in Hf. lia. }
  f_equal. apply map_ext_in. intros k Hk. apply in_rev in Hk. apply in_seq in Hk.
  unfold MerkleSpec.leaf. symmetry. apply digit_mod; [apply arity_gt|lia].
Qed.

Lemma leaf_range idx d : (0 <= leaf d idx < A ^ Z.of_nat d)%Z.
Proof. apply Z.mod_pos_bound. apply pow_pos. apply arity_gt. Qed.

Lemma length_children m k i : length (children m k i) = arity.
Proof. unfold MerkleSpec.children. rewrite map_length, seq_length. reflexivity. Qed.

Lemma nth_children m k i c d : (c < arity)%nat -> nth c (children m k i) d = node m k (A * i + Z.of_nat c).
Proof.
  intros Hc. unfold MerkleSpec.children.
  rewrite (nth_indep _ d (node m k (A * i + Z.of_nat O))) by (rewrite map_length, seq_length; exact Hc).
  rewrite (map_nth (fun c => node m k (A * i + Z.of_nat c))). rewrite seq_nth by exact Hc. reflexivity.
Qed.

Lemma node_S m k i : node m (S k) i = H (children m k i).
Proof. reflexivity. Qed.

(** *** Reading *)
Definition db_has (db : @hash_db (list F)) (m : contents) (d : nat) : Prop :=
  forall k i, (k < d)%nat -> (0 <= i < A ^ Z.of_nat (d - S k))%Z ->
    db_get db (fe_bytes (H (children m k i))) = Ok (children m k i).

Lemma get_loop db m d i : db_has db m d -> (0 <= i < A ^ Z.of_nat d)%Z ->
  forall k, (k <= d)%nat ->
  tree_get_loop (map (digit i) (rev (seq 0 k))) (node m k (ancestor i k)) db
  = Done (Ok (m i, siblings m k i)).
Proof.
  intros Hdb Hi. induction k as [|k IH]; intros Hk.
  - cbn. unfold MerkleSpec.ancestor. cbn. rewrite Z.div_1_r. reflexivity.
  - unfold MerkleSpec.siblings. rewrite rev_seq_S. cbn [map tree_get_loop]. rewrite node_S.
    rewrite Hdb; [|lia|].
    2:{ apply ancestor_range; [apply arity_gt|exact Hi|lia]. }
    cbn [orbind]. rewrite (index_ok _ _ 0) by (rewrite length_children; apply digit_lt, arity_gt).
    cbn [obind]. rewrite nth_children by (apply digit_lt, arity_gt).
    rewrite (ancestor_digit arity arity_gt). rewrite IH by lia. cbn [orbind].
    rewrite proof_node_without. reflexivity.
Qed.

Lemma ancestor_top d i : (0 <= i < A ^ Z.of_nat d)%Z -> ancestor i d = 0%Z.
Proof. intros Hi. apply Z.div_small. exact Hi. Qed.

Lemma tree_get_done db m d idx proof : fits d -> db_has db m d ->
  tree_get arity (MerkleTree d (node m d 0)) idx proof db
  = Done (Ok (m (leaf d idx)), option_map (fun p => p ++ siblings m d (leaf d idx)) proof).
Proof.
  intros Hf Hdb. unfold tree_get. cbn [depth root]. rewrite path_done by exact Hf. cbn [obind].
  rewrite <- (ancestor_top d (leaf d idx)) by apply leaf_range.
  rewrite (get_loop db m d) by (try apply leaf_range; try exact Hdb; lia). reflexivity.
Qed.

(** *** Writing *)
Lemma node_put_other m i v k : forall j, ancestor i k <> j -> node (put m i v) k j = node m k j.
Proof.
  induction k as [|k IH]; intros j Hj.
  - cbn. unfold put. unfold MerkleSpec.ancestor in Hj. cbn in Hj. rewrite Z.div_1_r in Hj.
    destruct (Z.eqb_spec j i); [congruence|reflexivity].
  - cbn [MerkleSpec.node]. f_equal. apply map_ext_in. intros c Hc. apply in_seq in Hc. apply IH.
    intros E. apply Hj. pose proof (ancestor_digit arity arity_gt i k) as Ha.
    pose proof (digit_lt arity arity_gt i k). nia.
Qed.

Lemma children_put_other m i v k j : ancestor i (S k) <> j -> children (put m i v) k j = children m k j.
Proof.
  intros Hj. apply map_ext_in. intros c Hc. apply in_seq in Hc. apply node_put_other.
  intros E. apply Hj. pose proof (ancestor_digit arity arity_gt i k) as Ha.
  pose proof (digit_lt arity arity_gt i k). nia.
Qed.

Lemma children_put m i v k :
  let c := digit i k in let j := ancestor i (S k) in
  firstn c (without c (children m k j)) ++ node (put m i v) k (ancestor i k) :: skipn c (without c (children m k j))
  = children (put m i v) k j.
Proof.
  intros c j. assert (Hc : (c < arity)%nat) by (apply digit_lt, arity_gt).
  rewrite (insert_without c 0) by (rewrite length_children; exact Hc).
  rewrite <- (nth_split_eq c 0 (children (put m i v) k j)) by (rewrite length_children; exact Hc).
  rewrite nth_children by exact Hc. unfold c at 5, j at 4. rewrite (ancestor_digit arity arity_gt).
  assert (Ho : forall n, (n < arity)%nat -> n <> c ->
    node (put m i v) k (A * j + Z.of_nat n) = node m k (A * j + Z.of_nat n)).
  { intros n Hn Hne. apply node_put_other. intros E.
    pose proof (ancestor_digit arity arity_gt i k) as Ha. fold c j in Ha. lia. }
  assert (Hs : seq 0 arity = seq 0 c ++ c :: seq (S c) (arity - S c)).
  { change (c :: seq (S c) (arity - S c)) with (seq c (S (arity - S c))).
    pose proof (seq_app c (S (arity - S c)) 0) as E. cbn [Nat.add] in E. rewrite <- E. f_equal. lia. }
  assert (Hl : forall f : nat -> F, length (map f (seq 0 c)) = c) by (intros; rewrite map_length, seq_length; reflexivity).
  assert (Hfn : forall f : nat -> F, firstn c (map f (seq 0 arity)) = map f (seq 0 c)).
  { intros f. rewrite Hs, map_app, firstn_app, Hl, Nat.sub_diag, firstn_all2 by (rewrite Hl; lia). apply app_nil_r. }
  assert (Hsn : forall f : nat -> F, skipn (S c) (map f (seq 0 arity)) = map f (seq (S c) (arity - S c))).
  { intros f. rewrite Hs, map_app, skipn_app, Hl, skipn_all2 by (rewrite Hl; lia).
    replace (S c - c)%nat with 1%nat by lia. reflexivity. }
  unfold MerkleSpec.children. rewrite !Hfn, !Hsn.
  f_equal; [|f_equal].
  - apply map_ext_in. intros n Hn. apply in_seq in Hn. symmetry. apply Ho; lia.
  - apply map_ext_in. intros n Hn. apply in_seq in Hn. symmetry. apply Ho; lia.
Qed.

(** the database after the insertion of the path to [i] from height [k] *)
Definition insert_path (m : contents) (i : Z) (ks : list nat) (db : @hash_db (list F)) : hash_db :=
  fold_left (fun db k => db_insert (fe_bytes (H (children m k (ancestor i (S k))))) (children m k (ancestor i (S k))) db) ks db.

Lemma update_fold m i v j : forall k db,
  foldM (update_step arity hash) (map (digit i) (seq k j))
    (map (fun k => without (digit i k) (children m k (ancestor i (S k)))) (rev (seq k j)), node (put m i v) k (ancestor i k), db)
  = Done ([], node (put m i v) (k + j) (ancestor i (k + j)), insert_path (put m i v) i (seq k j) db).
Proof.
  induction j as [|j IH]; intros k db.
  - cbn. rewrite Nat.add_0_r. reflexivity.
  - cbn [seq map foldM rev]. rewrite map_app. cbn [map]. unfold update_step at 1. rewrite vec_pop_app. cbn [obind].
    assert (Hc := digit_lt arity arity_gt i k).
    rewrite vec_insert_done by (rewrite length_without by (rewrite length_children; exact Hc); rewrite length_children; lia).
    rewrite children_put. cbn [obind]. rewrite length_children, Nat.eqb_refl. cbn [assertb obind].
    rewrite Hhash by apply length_children. cbn [obind].
    rewrite <- node_S. rewrite IH. unfold update_db_with_key_val. rewrite node_S.
    replace (S k + j)%nat with (k + S j)%nat by lia. reflexivity.
Qed.

Lemma tree_update_done db m d idx v : fits d -> db_has db m d ->
  let m' := put m (leaf d idx) v in
  tree_update arity hash (MerkleTree d (node m d 0)) idx v db
  = Done (Ok (node m' d 0), MerkleTree d (node m' d 0), insert_path m' (leaf d idx) (seq 0 d) db).
Proof.
  intros Hf Hdb m'. unfold tree_update. rewrite (tree_get_done db m) by assumption. cbn [obind option_map of_option app].
  cbn [depth]. rewrite path_done by exact Hf. cbn [obind]. rewrite <- map_rev, rev_involutive.
  pose proof (update_fold m (leaf d idx) v d 0 db) as E.
  assert (H0 : node (put m (leaf d idx) v) 0 (ancestor (leaf d idx) 0) = v).
  { cbn. unfold put, MerkleSpec.ancestor. cbn. rewrite Z.div_1_r, Z.eqb_refl. reflexivity. }
  rewrite H0 in E. unfold MerkleSpec.siblings. rewrite E. cbn [obind Nat.add].
  rewrite (ancestor_top d) by apply leaf_range. reflexivity.
Qed.

Lemma insert_path_other m i key ks : forall db,
  (forall k, In k ks -> fe_bytes (H (children m k (ancestor i (S k)))) <> key) ->
  db_get (insert_path m i ks db) key = db_get db key.
Proof.
  induction ks as [|k ks IH]; intros db Hk; cbn; [reflexivity|].
  unfold insert_path in IH. rewrite IH by (intros; apply Hk; right; assumption).
  rewrite db_get_insert. destruct (list_eq_dec Z.eq_dec _ key) as [E|]; [|reflexivity].
  exfalso. apply (Hk k); [left; reflexivity|exact E].
Qed.

Lemma insert_path_has m i t ks : forall db,
  (forall k, In k ks -> H (children m k (ancestor i (S k))) = H t -> children m k (ancestor i (S k)) = t) ->
  (exists k, In k ks /\ H (children m k (ancestor i (S k))) = H t) ->
  db_get (insert_path m i ks db) (fe_bytes (H t)) = Ok t.
Proof.
  induction ks as [|k ks IH]; intros db Hk [k' [Hin E]]; [contradiction|].
  unfold insert_path. cbn [fold_left]. fold (insert_path m i ks (db_insert (fe_bytes (H (children m k (ancestor i (S k)))))
    (children m k (ancestor i (S k))) db)).
  destruct (existsb (fun k => feqb (H (children m k (ancestor i (S k)))) (H t)) ks) eqn:Ex.
  - apply existsb_exists in Ex as [k'' [Hi'' E'']]. apply feqb_eq in E''.
    apply IH; [intros; apply Hk; [right|]; assumption|]. exists k''. split; assumption.
  - rewrite insert_path_other.
    + destruct Hin as [->|Hin].
      * rewrite db_get_insert. rewrite E. destruct (list_eq_dec Z.eq_dec _ _) as [_|Hn]; [|congruence].
        f_equal. apply Hk; [left; reflexivity|exact E].
      * exfalso. assert (Ht : existsb (fun k => feqb (H (children m k (ancestor i (S k)))) (H t)) ks = true).
        { apply existsb_exists. exists k'. split; [exact Hin|]. apply feqb_eq. exact E. }
        congruence.
    + intros k'' Hi'' E''. apply fe_bytes_inj in E''.
      assert (Ht : existsb (fun k => feqb (H (children m k (ancestor i (S k)))) (H t)) ks = true).
      { apply existsb_exists. exists k''. split; [exact Hi''|]. apply feqb_eq. exact E''. }
      congruence.
Qed.

(** no collision in the tree of one contents *)
Definition separate (m : contents) (d : nat) : Prop :=
  forall k k' i i', (k < d)%nat -> (k' < d)%nat ->
    (0 <= i < A ^ Z.of_nat (d - S k))%Z -> (0 <= i' < A ^ Z.of_nat (d - S k'))%Z ->
    H (children m k i) = H (children m k' i') -> children m k i = children m k' i'.

Lemma update_keeps db m d i v : (0 <= i < A ^ Z.of_nat d)%Z -> db_has db m d -> separate (put m i v) d ->
  db_has (insert_path (put m i v) i (seq 0 d) db) (put m i v) d.
Proof.
  intros Hi Hdb Hs k j Hk Hj.
  assert (Hanc : forall k, (k < d)%nat -> (0 <= ancestor i (S k) < A ^ Z.of_nat (d - S k))%Z).
  { intros. apply ancestor_range; [apply arity_gt|exact Hi|lia]. }
  destruct (existsb (fun n => feqb (H (children (put m i v) n (ancestor i (S n)))) (H (children (put m i v) k j))) (seq 0 d)) eqn:Ex.
  - apply existsb_exists in Ex as [n [Hn E]]. apply feqb_eq in E. apply insert_path_has.
    + intros k' Hk' E'. apply in_seq in Hk'. apply Hs; [lia|exact Hk|apply Hanc; lia|exact Hj|exact E'].
    + exists n. split; assumption.
  - rewrite insert_path_other.
    + assert (Hne : ancestor i (S k) <> j).
      { intros <-. assert (Ht : existsb (fun n => feqb (H (children (put m i v) n (ancestor i (S n)))) (H (children (put m i v) k (ancestor i (S k))))) (seq 0 d) = true).
        { apply existsb_exists. exists k. split; [apply in_seq; lia|]. apply feqb_eq. reflexivity. }
        congruence. }
      rewrite children_put_other by exact Hne. apply Hdb; assumption.
    + intros n Hn E. apply fe_bytes_inj in E.
      assert (Ht : existsb (fun n => feqb (H (children (put m i v) n (ancestor i (S n)))) (H (children (put m i v) k j))) (seq 0 d) = true).
      { apply existsb_exists. exists n. split; [exact Hn|]. apply feqb_eq. exact E. }
      congruence.
Qed.

(** *** The empty tree *)
Lemma node_empty k : forall i, node no_contents k i = node no_contents k 0.
Proof.
  induction k as [|k IH]; intros i; [reflexivity|]. cbn [MerkleSpec.node]. f_equal.
  apply map_ext. intros c. rewrite IH. symmetry. apply IH.
Qed.

Lemma children_empty k i : children no_contents k i = repeat (node no_contents k 0) arity.
Proof.
  unfold MerkleSpec.children.
  assert (Hg : forall n s, map (fun c => node no_contents k (A * i + Z.of_nat c)) (seq s n) = repeat (node no_contents k 0) n).
  { induction n as [|n IH]; intros s; cbn [seq map repeat]; [reflexivity|].
    rewrite IH. f_equal. apply node_empty. }
  apply Hg.
Qed.

Lemma new_fold n : forall k db,
  foldM (fun '(hs, db) i =>
      obind (index hs (i - 1)) (fun prev =>
      obind (hash (repeat prev arity)) (fun new =>
      Done (hs ++ [new], db_insert (fe_bytes new) (repeat prev arity) db))))
    (seq (S k) n) (map (fun k => node no_contents k 0) (seq 0 (S k)), db)
  = Done (map (fun k => node no_contents k 0) (seq 0 (S k + n)), insert_path no_contents 0 (seq k n) db).
Proof.
  induction n as [|n IH]; intros k db.
  - rewrite Nat.add_0_r. reflexivity.
  - change (seq (S k) (S n)) with (S k :: seq (S (S k)) n). cbn [foldM].
    replace (S k - 1)%nat with k by lia.
    rewrite (index_ok _ _ (node no_contents 0 0)) by (rewrite map_length, seq_length; lia).
    rewrite (map_nth (fun k => node no_contents k 0)). rewrite seq_nth by lia. cbn [obind Nat.add].
    rewrite Hhash by apply repeat_length. cbn [obind].
    replace (H (repeat (node no_contents k 0) arity)) with (node no_contents (S k) 0)
      by (rewrite node_S, children_empty; reflexivity).
    replace (map (fun k0 : nat => node no_contents k0 0) (seq 0 (S k)) ++ [node no_contents (S k) 0])
      with (map (fun k => node no_contents k 0) (seq 0 (S (S k)))).
    2:{ rewrite (seq_S (S k) 0), map_app. reflexivity. }
    rewrite IH. replace (S (S k) + n)%nat with (S k + S n)%nat by lia.
    f_equal. f_equal. unfold insert_path. cbn [seq fold_left]. rewrite children_empty.
    replace (H (repeat (node no_contents k 0) arity)) with (node no_contents (S k) 0)
      by (rewrite node_S, children_empty; reflexivity).
    reflexivity.
Qed.

Lemma tree_new_done d db :
  tree_new arity hash d db = Done (MerkleTree d (node no_contents d 0), insert_path no_contents 0 (seq 0 d) db).
Proof.
  unfold tree_new. pose proof (new_fold d 0 db) as E. cbn [Nat.add] in E.
  change (map (fun k : nat => node no_contents k 0) (seq 0 1)) with [0 : F] in E.
  rewrite E. cbn [obind].
  rewrite (index_ok _ _ (node no_contents 0 0)) by (rewrite map_length, seq_length; lia).
  rewrite (map_nth (fun k => node no_contents k 0)). rewrite seq_nth by lia. reflexivity.
Qed.

Lemma new_has d db : separate no_contents d -> db_has (insert_path no_contents 0 (seq 0 d) db) no_contents d.
Proof.
  intros Hs k j Hk Hj. rewrite children_empty.
  assert (E : forall k i, children no_contents k (ancestor 0 i) = repeat (node no_contents k 0) arity) by (intros; apply children_empty).
  apply insert_path_has.
  - intros k' Hk' E'. apply in_seq in Hk'. rewrite <- (children_empty k j) in E' |- *. apply Hs; [lia|exact Hk| |exact Hj|exact E'].
    apply ancestor_range; [apply arity_gt| |lia]. pose proof (pow_pos arity arity_gt d). lia.
  - exists k. split; [apply in_seq; lia|]. rewrite E. reflexivity.
Qed.

(** *** Histories *)
Local Notation history := (history (tree_new arity hash) (tree_update arity hash)).

Lemma collision_free_now d us : collision_free arity H d us -> separate (after d us) d.
Proof. intros Hc k k' i i'. apply (Hc us k k' i i'). exists []. reflexivity. Qed.

Lemma collision_free_tail d u us : collision_free arity H d (u :: us) -> collision_free arity H d us.
Proof. intros Hc past k k' i i' [l E]. apply (Hc past k k' i i'). exists (u :: l). rewrite E. reflexivity. Qed.

Theorem history_done d db0 us t db : fits d -> history d db0 us t db -> collision_free arity H d us ->
  t = MerkleTree d (node (after d us) d 0) /\ db_has db (after d us) d.
Proof.
  intros Hf Hh. induction Hh as [t db E|us t db idx v r t' db' Hh IH E]; intros Hc.
  - rewrite tree_new_done in E. injection E as <- <-. split; [reflexivity|].
    apply new_has. apply (collision_free_now d []). exact Hc.
  - destruct (IH (collision_free_tail _ _ _ Hc)) as [-> Hdb].
    rewrite (tree_update_done db (after d us)) in E by assumption. injection E as <- <- <-.
    split; [reflexivity|]. cbn [MerkleSpec.after].
    apply update_keeps; [apply leaf_range|exact Hdb|]. apply (collision_free_now d ((idx, v) :: us)). exact Hc.
Qed.

Theorem history_exists d db0 us : fits d -> collision_free arity H d us -> exists t db, history d db0 us t db.
Proof.
  intros Hf. induction us as [|[idx v] us IH]; intros Hc.
  - eexists _, _. apply h_new. apply tree_new_done.
  - destruct (IH (collision_free_tail _ _ _ Hc)) as (t & db & Hh).
    destruct (history_done _ _ _ _ _ Hf Hh (collision_free_tail _ _ _ Hc)) as [-> Hdb].
    eexists _, _. eapply h_update; [exact Hh|]. apply (tree_update_done db (after d us)); assumption.
Qed.

Theorem history_get d db0 us t db idx proof : fits d -> history d db0 us t db -> collision_free arity H d us ->
  tree_get arity t idx proof db
  = Done (Ok (after d us (leaf d idx)), option_map (fun p => p ++ siblings (after d us) d (leaf d idx)) proof).
Proof.
  intros Hf Hh Hc. destruct (history_done _ _ _ _ _ Hf Hh Hc) as [-> Hdb]. apply tree_get_done; assumption.
Qed.

Theorem history_update d db0 us t db idx v : fits d -> history d db0 us t db -> collision_free arity H d us ->
  exists db', tree_update arity hash t idx v db
  = Done (Ok (node (after d ((idx, v) :: us)) d 0), MerkleTree d (node (after d ((idx, v) :: us)) d 0), db').
Proof.
  intros Hf Hh Hc. destruct (history_done _ _ _ _ _ Hf Hh Hc) as [-> Hdb]. eexists. apply tree_update_done; assumption.
Qed.
End Tree.
