(** Merkle proofs: proofs obtained from the tree verify; accepted proofs and equal
    roots bind, up to explicit hash collisions. *)
From Coq Require Import ZArith List Bool Lia Arith.
From Verif.Base Require Import Outcome Fp Params Algebra.
From Verif.Model Require Import Transcript IPP Hash Merkle.
From Verif.Spec Require Import MerkleSpec.
From Verif.Proofs Require Import MerkleTools MerkleTree.
Import ListNotations.

Lemma all_or_some {T} (Q R : T -> Prop) l : (forall c, In c l -> Q c \/ R c) ->
  (forall c, In c l -> Q c) \/ (exists c, In c l /\ R c).
Proof.
  induction l as [|x l IH]; intros Hl; [left; contradiction|].
  destruct (Hl x (or_introl eq_refl)) as [Hx|Hx].
  - destruct IH as [Ha|[c [Hc Hr]]]; [intros; apply Hl; right; assumption| |].
    + left. intros c [<-|Hc]; [exact Hx|apply Ha; exact Hc].
    + right. exists c. split; [right; exact Hc|exact Hr].
  - right. exists x. split; [left; reflexivity|exact Hx].
Qed.

Section Bind.
Context {P : Params} {OK : ParamsOk P} {ENC : EncodingOk P}.
Local Open Scope fe_scope.
Context (bits : nat) (Hbits : (0 < bits)%nat).
Local Notation arity := (2 ^ bits)%nat.
Local Notation A := (Z.of_nat arity).
Context (hash : list F -> outcome F) (H : list F -> F).
Context (Hhash : forall l, length l = arity -> hash l = Done (H l)).
Local Notation node := (node arity H).
Local Notation children := (children arity H).
Local Notation siblings := (siblings arity H).
Local Notation digit := (digit arity).
Local Notation ancestor := (ancestor arity).
Local Notation leaf := (leaf arity).
Local Notation after := (after arity).
Local Notation climb := (climb arity H).
Local Notation climbed := (climbed arity H).
Local Notation fits := (fits bits).
Let arity_gt := arity_gt bits Hbits.

(** Rust's type of proof nodes *)
Definition typed (proof : list (list F)) : Prop := Forall (fun s => length s = (arity - 1)%nat) proof.

(** the last hash, as a recursion *)
Fixpoint climb_end (i : Z) (k : nat) (v : F) (proof : list (list F)) : F :=
  match proof with
  | [] => v
  | s :: proof => climb_end i (S k) (H (firstn (digit i k) s ++ v :: skipn (digit i k) s)) proof
  end.

Lemma climb_end_last i proof : forall k v, climb_end i k v proof = last (map H (climb i k v proof)) v.
Proof.
  induction proof as [|s proof IH]; intros k v; [reflexivity|].
  cbn [climb_end MerkleSpec.climb map]. rewrite IH.
  set (x := H _). destruct proof as [|s' proof]; [reflexivity|].
  cbn [MerkleSpec.climb map]. cbn [last]. set (y := H _).
  generalize (map H (climb i (S (S k)) y proof)). intros l. revert y. induction l as [|z l IHl]; intros y; [reflexivity|].
  cbn [last] in *. destruct l; [reflexivity|]. apply IHl.
Qed.

Lemma insert_length c (v : F) s : (c < arity)%nat -> length s = (arity - 1)%nat ->
  length (firstn c s ++ v :: skipn c s) = arity.
Proof. intros Hc Hs. rewrite app_length. cbn [length]. rewrite firstn_length, skipn_length. lia. Qed.

Lemma verify_fold i d proof : typed proof -> length proof = d -> forall j k v, (k + j = d)%nat ->
  foldM (fun cur_val '(i, d') =>
      obind (index proof (d - 1 - i)) (fun p =>
      obind (vec_insert d' cur_val p) (fun p => hash p)))
    (combine (seq k j) (map (digit i) (seq k j))) v
  = Done (climb_end i k v (skipn k (rev proof))).
Proof.
  intros Ht Hl. induction j as [|j IH]; intros k v Hk.
  - cbn. rewrite skipn_all2 by (rewrite rev_length; lia). reflexivity.
  - cbn [seq map combine foldM].
    assert (Hin : (d - 1 - k < length proof)%nat) by lia.
    rewrite (index_ok proof (d - 1 - k) []) by exact Hin. cbn [obind].
    assert (Hs : skipn k (rev proof) = nth (d - 1 - k) proof [] :: skipn (S k) (rev proof)).
    { rewrite <- (rev_involutive proof) at 2. rewrite rev_nth by (rewrite rev_length; lia).
      rewrite rev_length. replace (length proof - S (d - 1 - k))%nat with k by lia.
      assert (Hk' : (k < length (rev proof))%nat) by (rewrite rev_length; lia).
      generalize (rev proof) Hk'. clear. intros l. revert k. induction l as [|x l IHl]; intros [|k] Hk; cbn in *; try lia; [reflexivity|].
      apply IHl. lia. }
    assert (Hp : length (nth (d - 1 - k) proof []) = (arity - 1)%nat).
    { unfold typed in Ht. rewrite Forall_forall in Ht. apply Ht. apply nth_In. exact Hin. }
    assert (Hd := digit_lt arity arity_gt i k).
    rewrite vec_insert_done by lia. cbn [obind]. rewrite Hhash by (apply insert_length; assumption). cbn [obind].
    rewrite IH by lia. rewrite Hs. reflexivity.
Qed.

(** what [verify_proof] computes *)
Theorem verify_done t idx v proof r : fits (depth t) -> typed proof -> length proof = depth t ->
  tree_verify_proof arity hash t idx v proof r
  = Done (feqb (climbed (leaf (depth t) idx) v proof) (match r with Some r => r | None => root t end)).
Proof.
  intros Hf Ht Hl. unfold tree_verify_proof. rewrite (path_done bits Hbits) by exact Hf. cbn [obind].
  rewrite <- map_rev, rev_involutive. rewrite map_length, rev_length, seq_length.
  rewrite (verify_fold _ (depth t) proof Ht Hl) by lia. cbn [obind skipn].
  unfold MerkleSpec.climbed. rewrite <- climb_end_last. destruct r; reflexivity.
Qed.

(** *** Binding *)
Lemma climb_binds i proof : forall proof' k v v', typed proof -> typed proof' -> length proof = length proof' ->
  climb_end i k v proof = climb_end i k v' proof' ->
  (v = v' /\ proof = proof') \/
  (exists t t', In (t, t') (combine (climb i k v proof) (climb i k v' proof')) /\ collision H t t').
Proof.
  induction proof as [|s proof IH]; intros [|s' proof'] k v v' Ht Ht' Hl E; try discriminate.
  - left. split; [exact E|reflexivity].
  - cbn [climb_end MerkleSpec.climb combine] in *.
    inversion Ht as [|? ? Hs Ht1]; subst. inversion Ht' as [|? ? Hs' Ht1']; subst.
    set (t := firstn (digit i k) s ++ v :: skipn (digit i k) s) in *.
    set (t' := firstn (digit i k) s' ++ v' :: skipn (digit i k) s') in *.
    destruct (IH proof' (S k) (H t) (H t') Ht1 Ht1' ltac:(cbn in Hl; lia) E) as [[Eh ->]|(x & x' & Hin & Hx)].
    + destruct (list_eq_dec (Fp_eq_dec modulus) t t') as [Et|Ht2].
      * left. assert (Hd := digit_lt arity arity_gt i k).
        destruct (insert_inj (digit i k) v v' s s' ltac:(lia) ltac:(lia) Et) as [-> ->]. split; reflexivity.
      * right. exists t, t'. split; [left; reflexivity|]. split; assumption.
    + right. exists x, x'. split; [right; exact Hin|exact Hx].
Qed.

Theorem proofs_bind i v v' proof proof' : typed proof -> typed proof' -> length proof = length proof' ->
  climbed i v proof = climbed i v' proof' ->
  (v = v' /\ proof = proof') \/
  (exists t t', In (t, t') (combine (climb i 0 v (rev proof)) (climb i 0 v' (rev proof'))) /\ collision H t t').
Proof.
  intros Ht Ht' Hl. unfold MerkleSpec.climbed. rewrite <- !climb_end_last. intros E.
  destruct (climb_binds i (rev proof) (rev proof') 0 v v') as [[Hv Hp]|Hc].
  - apply Forall_rev. exact Ht.
  - apply Forall_rev. exact Ht'.
  - rewrite !rev_length. exact Hl.
  - exact E.
  - left. split; [exact Hv|]. rewrite <- (rev_involutive proof), Hp. apply rev_involutive.
  - right. exact Hc.
Qed.

Lemma siblings_typed m d i : typed (siblings m d i).
Proof.
  apply Forall_forall. intros s Hs. unfold MerkleSpec.siblings in Hs. apply in_map_iff in Hs as (k & <- & _).
  rewrite length_without; rewrite length_children; [reflexivity|apply digit_lt, arity_gt].
Qed.

Lemma siblings_length m d i : length (siblings m d i) = d.
Proof. unfold MerkleSpec.siblings. rewrite map_length, rev_length, seq_length. reflexivity. Qed.

Lemma children_self m k i :
  firstn (digit i k) (without (digit i k) (children m k (ancestor i (S k)))) ++ node m k (ancestor i k)
    :: skipn (digit i k) (without (digit i k) (children m k (ancestor i (S k))))
  = children m k (ancestor i (S k)).
Proof.
  assert (Hc := digit_lt arity arity_gt i k).
  rewrite (insert_without _ 0) by (rewrite length_children; exact Hc).
  rewrite <- (nth_split_eq (digit i k) 0 (children m k (ancestor i (S k)))) at 3 by (rewrite length_children; exact Hc).
  rewrite nth_children by exact Hc. rewrite (ancestor_digit arity arity_gt). reflexivity.
Qed.

Lemma climb_siblings m i j : forall k,
  climb i k (node m k (ancestor i k)) (map (fun k => without (digit i k) (children m k (ancestor i (S k)))) (seq k j))
  = map (fun k => children m k (ancestor i (S k))) (seq k j).
Proof.
  induction j as [|j IH]; intros k; [reflexivity|].
  cbn [seq map MerkleSpec.climb]. rewrite children_self. f_equal. rewrite <- (node_S bits H). apply IH.
Qed.

Lemma siblings_climb m d i : climb i 0 (m i) (rev (siblings m d i)) = map (fun k => children m k (ancestor i (S k))) (seq 0 d).
Proof.
  unfold MerkleSpec.siblings. rewrite <- map_rev, rev_involutive. rewrite <- (climb_siblings m i d 0).
  f_equal. cbn. unfold MerkleSpec.ancestor. cbn. rewrite Z.div_1_r. reflexivity.
Qed.

Theorem siblings_climbed m d i : (0 <= i < A ^ Z.of_nat d)%Z -> climbed i (m i) (siblings m d i) = node m d 0.
Proof.
  intros Hi. unfold MerkleSpec.climbed. rewrite siblings_climb. destruct d as [|d].
  - cbn in *. f_equal. lia.
  - rewrite seq_S, !map_app. cbn [map]. rewrite last_last. cbn [Nat.add]. rewrite (ancestor_top bits (S d)) by exact Hi. reflexivity.
Qed.

(** *** Proofs from the database, whatever its contents *)
Definition consistent (db : @hash_db (list F)) : Prop :=
  forall k t, db_get db k = Ok t -> k = fe_bytes (H t) /\ length t = arity.

Lemma consistent_new : consistent db_new.
Proof. intros k t E. discriminate E. Qed.

Lemma consistent_insert db t : consistent db -> length t = arity -> consistent (db_insert (fe_bytes (H t)) t db).
Proof.
  intros Hc Hl k t' E. rewrite db_get_insert in E. destruct (list_eq_dec Z.eq_dec _ k) as [<-|]; [|apply Hc; exact E].
  injection E as <-. split; [reflexivity|exact Hl].
Qed.

Lemma loop_climbs db i : consistent db -> forall k cur v proof,
  tree_get_loop (map (digit i) (rev (seq 0 k))) cur db = Done (Ok (v, proof)) ->
  typed proof /\ length proof = k /\ climb_end i 0 v (rev proof) = cur.
Proof.
  intros Hdb. induction k as [|k IH]; intros cur v proof E.
  - cbn in E. injection E as <- <-. split; [constructor|]. split; reflexivity.
  - rewrite rev_seq_S in E. cbn [map tree_get_loop] in E.
    destruct (db_get db (fe_bytes cur)) as [t|e] eqn:Eg; cbn [orbind] in E; [|discriminate].
    apply Hdb in Eg as [Ek Hl].
    assert (Hd := digit_lt arity arity_gt i k).
    rewrite (index_ok _ _ 0) in E by lia. cbn [obind] in E.
    destruct (tree_get_loop _ _ _) as [[[v' proof']|]|] eqn:El; cbn [orbind] in E; try discriminate.
    injection E as <- <-. apply IH in El as (Ht & Hlen & Hcl). rewrite proof_node_without.
    split; [constructor; [rewrite length_without by lia; lia|exact Ht]|]. split; [cbn; lia|].
    assert (Hend : forall l k v, climb_end i k v (l ++ [without (digit i (k + length l)) t]) =
              H (firstn (digit i (k + length l)) (without (digit i (k + length l)) t) ++ climb_end i k v l
                   :: skipn (digit i (k + length l)) (without (digit i (k + length l)) t))).
    { clear. induction l as [|s l IHl]; intros k v; cbn [app climb_end length].
      - rewrite Nat.add_0_r. reflexivity.
      - replace (k + S (length l))%nat with (S k + length l)%nat by lia. apply IHl. }
    cbn [rev]. specialize (Hend (rev proof') O v'). rewrite rev_length, Hlen in Hend. cbn [Nat.add] in Hend.
    rewrite Hend, Hcl. rewrite (insert_without _ 0) by lia. rewrite nth_split_eq by lia.
    apply fe_bytes_inj. symmetry. exact Ek.
Qed.

Theorem get_verifies t idx db v proof0 proof : fits (depth t) -> consistent db ->
  tree_get arity t idx (Some proof0) db = Done (Ok v, proof) ->
  exists proof', proof = Some (proof0 ++ proof') /\ typed proof' /\ length proof' = depth t /\
    tree_verify_proof arity hash t idx v proof' None = Done true.
Proof.
  intros Hf Hdb E. unfold tree_get in E. rewrite (path_done bits Hbits) in E by exact Hf. cbn [obind] in E.
  destruct (tree_get_loop _ _ _) as [[[v' proof']|]|] eqn:El; cbn [obind] in E; try discriminate.
  injection E as <- <-. apply loop_climbs in El as (Ht & Hl & Hc); [|exact Hdb].
  exists proof'. split; [reflexivity|]. split; [exact Ht|]. split; [exact Hl|].
  rewrite verify_done by assumption. f_equal. apply feqb_eq. unfold MerkleSpec.climbed.
  rewrite <- climb_end_last. exact Hc.
Qed.

Local Notation history := (history (tree_new arity hash) (tree_update arity hash)).

Lemma insert_path_consistent m i ks : forall db, consistent db -> consistent (insert_path bits H m i ks db).
Proof.
  induction ks as [|k ks IH]; intros db Hdb; [exact Hdb|]. cbn.
  apply IH. apply consistent_insert; [exact Hdb|apply length_children].
Qed.

Lemma step_consistent ds : forall side v db side' v' db',
  consistent db -> foldM (update_step arity hash) ds (side, v, db) = Done (side', v', db') -> consistent db'.
Proof.
  induction ds as [|d ds IH]; intros side v db side' v' db' Hdb E.
  - injection E as <- <- <-. exact Hdb.
  - cbn [foldM] in E. unfold update_step at 1 in E.
    destruct (vec_pop side) as [[s1 e]|]; cbn [obind] in E; [|discriminate].
    destruct (vec_insert d v e) as [t|]; cbn [obind] in E; [|discriminate].
    destruct (Nat.eqb_spec (length t) arity) as [Hl|]; cbn [assertb obind] in E; [|discriminate].
    rewrite Hhash in E by exact Hl. cbn [obind] in E.
    eapply IH; [|exact E]. apply consistent_insert; assumption.
Qed.

Theorem history_consistent d db0 us t db : fits d -> consistent db0 -> history d db0 us t db ->
  depth t = d /\ consistent db.
Proof.
  intros Hf H0 Hh. induction Hh as [t db E|us t db idx v r t' db' Hh [IHd IH] E].
  - rewrite (tree_new_done bits Hbits hash H Hhash) in E. injection E as <- <-.
    split; [reflexivity|]. apply insert_path_consistent. exact H0.
  - unfold tree_update in E. destruct (tree_get _ _ _ _ _) as [[[x|e] side]|]; cbn [obind] in E; try discriminate.
    + destruct (of_option side); cbn [obind] in E; [|discriminate].
      destruct (leaf_index_to_path _ _ _); cbn [obind] in E; [|discriminate].
      destruct (foldM _ _ _) as [[[s1 v1] db1]|] eqn:Ef; cbn [obind] in E; [|discriminate].
      injection E as <- <- <-. split; [exact IHd|]. eapply step_consistent; [exact IH|exact Ef].
    + injection E as <- <- <-. split; assumption.
Qed.

(** *** Roots *)
Lemma roots_bind m m' k : forall i, node m k i = node m' k i ->
  (forall j, ancestor j k = i -> m j = m' j) \/
  (exists k' i', (k' < k)%nat /\ ancestor i' (k - S k') = i /\ collision H (children m k' i') (children m' k' i')).
Proof.
  induction k as [|k IH]; intros i E.
  - left. intros j. unfold MerkleSpec.ancestor. cbn. rewrite Z.div_1_r. intros ->. exact E.
  - rewrite !(node_S bits H) in E.
    destruct (list_eq_dec (Fp_eq_dec modulus) (children m k i) (children m' k i)) as [Ec|Hn].
    + assert (Hall : forall c, In c (seq 0 arity) ->
          (forall j, ancestor j k = (A * i + Z.of_nat c)%Z -> m j = m' j) \/
          (exists k' i', (k' < k)%nat /\ ancestor i' (k - S k') = (A * i + Z.of_nat c)%Z /\ collision H (children m k' i') (children m' k' i'))).
      { intros c Hc. apply in_seq in Hc. apply IH.
        rewrite <- (nth_children bits H m k i c 0), <- (nth_children bits H m' k i c 0) by lia. rewrite Ec. reflexivity. }
      apply all_or_some in Hall as [Ha|(c & Hc & k' & i' & Hk & Hi & Hcol)].
      * left. intros j Hj. apply (Ha (digit j k)).
        -- apply in_seq. pose proof (digit_lt arity arity_gt j k). lia.
        -- rewrite <- Hj. symmetry. apply (ancestor_digit arity arity_gt).
      * right. exists k', i'. split; [lia|]. split; [|exact Hcol].
        apply in_seq in Hc. replace (S k - S k')%nat with (S (k - S k')) by lia.
        pose proof (ancestor_digit arity arity_gt i' (k - S k')) as Ed.
        pose proof (digit_lt arity arity_gt i' (k - S k')). nia.
    + right. exists k, i. split; [lia|]. split; [|split; assumption].
      rewrite Nat.sub_diag. unfold MerkleSpec.ancestor. cbn. apply Z.div_1_r.
Qed.

Theorem equal_roots m m' d : node m d 0 = node m' d 0 ->
  (forall j, (0 <= j < A ^ Z.of_nat d)%Z -> m j = m' j) \/
  (exists k i, (k < d)%nat /\ (0 <= i < A ^ Z.of_nat (d - S k))%Z /\ collision H (children m k i) (children m' k i)).
Proof.
  intros E. destruct (roots_bind m m' d 0 E) as [Ha|(k & i & Hk & Hi & Hc)].
  - left. intros j Hj. apply Ha. apply (ancestor_top bits d). exact Hj.
  - right. exists k, i. split; [exact Hk|]. split; [|exact Hc].
    unfold MerkleSpec.ancestor in Hi. apply Z.div_small_iff in Hi; [|pose proof (pow_pos arity arity_gt (d - S k)); lia].
    pose proof (pow_pos arity arity_gt (d - S k)). lia.
Qed.
End Bind.
