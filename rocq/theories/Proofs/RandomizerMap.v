(** The map of the randomizer gadget from paths to linear combinations: what it holds. *)
From Coq Require Import ZArith String List Lia Bool Arith.
From Verif.Base Require Import Outcome Fp Params Algebra.
From Verif.Model Require Import Transcript LinComb Gadgets Hash Merkle MerkleGadget Randomizer.
From Verif.Spec Require Import MerkleSpec.
From Verif.Proofs Require Import RunProofs GadgetBasic HashTools MerkleTools MerkleTree.
Import ListNotations.

Lemma number_snoc a l c : number a (l ++ [c]) = (number a l * Z.of_nat a + Z.of_nat c)%Z.
Proof. unfold number. rewrite fold_left_app. reflexivity. Qed.

Lemma number_inj a l : forall l', length l' = length l -> Forall (fun c => (c < a)%nat) l -> Forall (fun c => (c < a)%nat) l' ->
  number a l = number a l' -> l = l'.
Proof.
  induction l as [|c l IH] using rev_ind; intros l' Hl F1 F2 E.
  - destruct l'; [reflexivity|discriminate].
  - destruct (rev l') as [|c' r] eqn:Er.
    { apply (f_equal (@rev nat)) in Er. rewrite rev_involutive in Er. subst l'. rewrite app_length in Hl. cbn in Hl. lia. }
    apply (f_equal (@rev nat)) in Er. rewrite rev_involutive in Er. cbn in Er. subst l'. set (q := rev r) in *. clearbody q.
    rewrite !app_length in Hl. cbn in Hl.
    apply Forall_app in F1, F2. destruct F1 as [F1 G1], F2 as [F2 G2]. inversion G1; inversion G2; subst.
    rewrite !number_snoc in E. destruct (Z.div_mod_unique (Z.of_nat a) (number a l) (number a q) (Z.of_nat c) (Z.of_nat c')) as [En Ec]; [lia|lia|lia|]. apply Nat2Z.inj in Ec. subst c'. f_equal. apply IH; [lia|assumption|assumption|exact En].
Qed.

Section Map.
Context {P : Params} {OK : ParamsOk P}.
Local Open Scope fe_scope.
Context (d : nat) (H : list F -> F).
Local Notation node := (node 4 H).
Local Notation children := (children 4 H).
Local Notation digit := (digit 4).
Local Notation ancestor := (ancestor 4).

Lemma path_eqb_true a b : path_eqb a b = true <-> a = b.
Proof. unfold path_eqb. destruct (list_eq_dec _ _ _); split; congruence. Qed.
Lemma path_eqb_refl a : path_eqb a a = true.
Proof. apply path_eqb_true. reflexivity. Qed.

Lemma map_get_insert k v m k' : map_get (map_insert k v m) k' = if path_eqb k k' then Some v else map_get m k'.
Proof. reflexivity. Qed.

(** the value at a node of the tree *)
Definition at_key (m : contents) (key : list nat) : F := node m (d - length key) (number 4 key).
Definition key_ok (key : list nat) : Prop := Forall (fun c => (c < 4)%nat) key /\ (length key <= d)%nat.

(** two maps with the same keys, related values *)
Context (R : lc -> lc -> F -> Prop).
Definition agree (V : list nat -> F) (n n' : node_map) : Prop := forall key,
  match map_get n key, map_get n' key with
  | Some l, Some l' => key_ok key /\ R l l' (V key)
  | None, None => True
  | _, _ => False
  end.
Definition present (n : node_map) (key : list nat) : Prop := map_get n key <> None.

Lemma agree_insert V V' n n' key l l' : agree V n n' -> key_ok key -> R l l' (V' key) ->
  (forall k, key_ok k -> k <> key -> V' k = V k) ->
  agree V' (map_insert key l n) (map_insert key l' n').
Proof.
  intros Ha Hk Hl Ho k. rewrite !map_get_insert. destruct (path_eqb key k) eqn:E.
  - apply path_eqb_true in E. subst k. split; assumption.
  - specialize (Ha k). destruct (map_get n k), (map_get n' k); try exact Ha.
    destruct Ha as [H1 H2]. split; [exact H1|]. rewrite Ho; [exact H2|exact H1|]. intros ->. rewrite path_eqb_refl in E. discriminate.
Qed.

Lemma agree_ext V V' n n' : agree V n n' -> (forall k, key_ok k -> V' k = V k) -> agree V' n n'.
Proof.
  intros Ha Ho k. specialize (Ha k). destruct (map_get n k), (map_get n' k); try exact Ha.
  destruct Ha as [H1 H2]. split; [exact H1|]. rewrite Ho; [exact H2|exact H1].
Qed.

Lemma agree_get V n n' key : agree V n n' -> present n key ->
  exists l l', map_get n key = Some l /\ map_get n' key = Some l' /\ R l l' (V key).
Proof.
  intros Ha Hp. specialize (Ha key). unfold present in Hp. destruct (map_get n key) as [l|], (map_get n' key) as [l'|]; try contradiction.
  - exists l, l'. destruct Ha. repeat apply conj; (reflexivity || assumption).
Qed.

Lemma present_insert n key l k : present n k \/ k = key -> present (map_insert key l n) k.
Proof.
  unfold present. rewrite map_get_insert. intros Hk. destruct (path_eqb key k) eqn:E; [discriminate|].
  destruct Hk as [Hk| ->]; [exact Hk|]. rewrite path_eqb_refl in E. discriminate.
Qed.

(** *** Inserting the children of a node *)
Context (HR : forall c, R (lc_of_fe c) (lc_of_fe c) c).

Lemma insert_children_agree V prefix cs : forall a n n', agree V n n' ->
  (forall k, (k < length cs)%nat -> key_ok (prefix ++ [a + k]%nat) /\ V (prefix ++ [a + k]%nat) = nth k cs 0) ->
  let f := fun nodes '(k, c) =>
      let key := prefix ++ [k] in
      match map_get nodes key with
      | Some _ => nodes
      | None => map_insert key (lc_of_fe c) nodes
      end in
  agree V (fold_left f (combine (seq a (length cs)) cs) n) (fold_left f (combine (seq a (length cs)) cs) n') /\
  (forall k, present n k -> present (fold_left f (combine (seq a (length cs)) cs) n) k) /\
  (forall k, (k < length cs)%nat -> present (fold_left f (combine (seq a (length cs)) cs) n) (prefix ++ [a + k]%nat)).
Proof.
  induction cs as [|c cs IH]; intros a n n' Ha Hv f; cbn [length seq combine fold_left].
  - repeat apply conj; [exact Ha|auto|]. intros k Hk. cbn in Hk. lia.
  - assert (H0 := Hv O ltac:(cbn; lia)). rewrite Nat.add_0_r in H0. cbn [nth] in H0. destruct H0 as [K0 V0].
    assert (Hstep : agree V (f n (a, c)) (f n' (a, c)) /\ (forall k, present n k -> present (f n (a, c)) k) /\ present (f n (a, c)) (prefix ++ [a])).
    { unfold f. assert (Hk := Ha (prefix ++ [a])).
      destruct (map_get n (prefix ++ [a])) as [l|] eqn:E1, (map_get n' (prefix ++ [a])) as [l'|] eqn:E2; try contradiction.
      - repeat apply conj; [exact Ha|auto|]. unfold present. rewrite E1. discriminate.
      - repeat apply conj.
        + apply (agree_insert V V); [exact Ha|exact K0|rewrite V0; apply HR|reflexivity].
        + intros k Hp. apply present_insert. left. exact Hp.
        + apply present_insert. right. reflexivity. }
    destruct Hstep as (S1 & S2 & S3).
    destruct (IH (S a) _ _ S1) as (I1 & I2 & I3).
    { intros k Hk. replace (S a + k)%nat with (a + S k)%nat by lia. apply (Hv (S k)). cbn. lia. }
    repeat apply conj; [exact I1|intros k Hk; apply I2, S2, Hk|].
    intros [|k] Hk.
    + rewrite Nat.add_0_r. apply I2. exact S3.
    + replace (a + S k)%nat with (S a + k)%nat by lia. apply I3. cbn in Hk. lia.
Qed.

(** *** The keys on the path to leaf [i] *)
Section Path.
Context (i : Z) (Hi : (0 <= i < 4 ^ Z.of_nat d)%Z).

(** the key of the ancestor at height [k] *)
Definition pre (k : nat) : list nat := map (digit i) (rev (seq k (d - k))).

Lemma pre_length k : length (pre k) = (d - k)%nat.
Proof. unfold pre. rewrite map_length, rev_length, seq_length. reflexivity. Qed.

Lemma pre_S k : (k < d)%nat -> pre k = pre (S k) ++ [digit i k].
Proof.
  intros Hk. unfold pre. replace (d - k)%nat with (S (d - S k)) by lia. cbn [seq rev]. rewrite map_app. reflexivity.
Qed.

Lemma pre_top : pre d = [].
Proof. unfold pre. rewrite Nat.sub_diag. reflexivity. Qed.

Lemma pre_number k : (k <= d)%nat -> number 4 (pre k) = ancestor i k.
Proof.
  intros Hk. remember (d - k)%nat as n eqn:En. revert k Hk En. induction n as [|n IH]; intros k Hk En.
  - assert (k = d) by lia. subst k. rewrite pre_top. symmetry. apply Z.div_small. exact Hi.
  - rewrite pre_S by lia. rewrite number_snoc, IH by lia.
    rewrite <- (ancestor_digit 4 ltac:(lia) i k). lia.
Qed.

Lemma pre_ok k : key_ok (pre k).
Proof.
  split; [|rewrite pre_length; lia]. unfold pre. apply Forall_map. apply Forall_forall. intros j _. apply digit_lt. lia.
Qed.

Lemma snoc_ok q c : (length q < d)%nat -> (c < 4)%nat -> Forall (fun c => (c < 4)%nat) q -> key_ok (q ++ [c]).
Proof.
  intros Hl Hc Hq. split; [apply Forall_app; split; [exact Hq|constructor; [exact Hc|constructor]]|]. rewrite app_length. cbn. lia.
Qed.

Lemma at_key_pre m k : (k <= d)%nat -> at_key m (pre k) = node m k (ancestor i k).
Proof. intros Hk. unfold at_key. rewrite pre_length, pre_number by exact Hk. f_equal. lia. Qed.

Lemma at_key_child m k c : (k < d)%nat -> at_key m (pre (S k) ++ [c]) = node m k (4 * ancestor i (S k) + Z.of_nat c).
Proof.
  intros Hk. unfold at_key. rewrite app_length, pre_length, number_snoc, pre_number by lia. cbn [length]. f_equal; [lia|].
  change (Z.of_nat 4) with 4%Z. lia.
Qed.

(** *** Collecting the nodes around the path *)
Lemma collect_agree db m : db_has 2 H db m d -> forall k n n', (k <= d)%nat -> agree (at_key m) n n' ->
  exists n2 n2' x q,
  foldM (collect_step db) (map (digit i) (rev (seq 0 k))) (n, node m k (ancestor i k), pre k) = Done (n2, x, q) /\
  foldM (collect_step db) (map (digit i) (rev (seq 0 k))) (n', node m k (ancestor i k), pre k) = Done (n2', x, q) /\
  agree (at_key m) n2 n2' /\ (forall key, present n key -> present n2 key) /\
  (forall j c, (j < k)%nat -> (c < 4)%nat -> present n2 (pre (S j) ++ [c])).
Proof.
  intros Hdb. induction k as [|k IH]; intros n n' Hk Ha.
  - exists n, n', (node m 0 (ancestor i 0)), (pre 0). repeat apply conj; try reflexivity; [exact Ha|auto|]. intros; lia.
  - rewrite rev_seq_S. cbn [map foldM].
    assert (Hd4 : (digit i k < 4)%nat) by (apply digit_lt; lia).
    assert (Hlen : length (children m k (ancestor i (S k))) = 4%nat) by reflexivity.
    assert (Hs : forall n, collect_step db (n, node m (S k) (ancestor i (S k)), pre (S k)) (digit i k)
      = Done (insert_children (pre (S k)) (children m k (ancestor i (S k))) n, node m k (ancestor i k), pre k)).
    { intros n0. unfold collect_step.
      assert (Hget : db_get db (fe_bytes (node m (S k) (ancestor i (S k)))) = Ok (children m k (ancestor i (S k)))).
      { apply Hdb; [lia|]. apply (ancestor_range 4); [lia|exact Hi|lia]. }
      rewrite Hget. cbn [unwrap_result obind].
      rewrite (index_ok _ _ 0) by (rewrite Hlen; exact Hd4). cbn [obind].
      rewrite <- pre_S by lia. do 2 f_equal.
      change 4%nat with (2 ^ 2)%nat at 1. f_equal. rewrite (nth_children 2 H) by exact Hd4.
      change (2 ^ 2)%nat with 4%nat. rewrite (ancestor_digit 4 ltac:(lia) i k). reflexivity. }
    rewrite !Hs. cbn [obind].
    destruct (insert_children_agree (at_key m) (pre (S k)) (children m k (ancestor i (S k))) 0 n n' Ha) as (I1 & I2 & I3).
    { intros c Hc. rewrite Hlen in Hc. cbn [Nat.add]. split.
      - apply snoc_ok; [rewrite pre_length; lia|exact Hc|apply pre_ok].
      - rewrite at_key_child by lia. rewrite (nth_children 2 H) by exact Hc. reflexivity. }
    cbn zeta in I1, I2, I3.
    destruct (IH _ _ ltac:(lia) I1) as (n2 & n2' & x & q & E1 & E2 & A2 & P2 & C2).
    exists n2, n2', x, q. repeat apply conj; [exact E1|exact E2|exact A2|intros key Hp; apply P2, I2, Hp|].
    intros j c Hj Hc. destruct (Nat.eq_dec j k) as [->|Hne]; [|apply C2; [lia|exact Hc]].
    apply P2. apply (I3 c). rewrite Hlen. exact Hc.
Qed.

Lemma collect_path_agree db m n n' : db_has 2 H db m d -> agree (at_key m) n n' ->
  exists n2 n2',
  collect_path (node m d 0) db (map (digit i) (rev (seq 0 d))) n = Done n2 /\
  collect_path (node m d 0) db (map (digit i) (rev (seq 0 d))) n' = Done n2' /\
  agree (at_key m) n2 n2' /\ (forall key, present n key -> present n2 key) /\
  (forall j c, (j < d)%nat -> (c < 4)%nat -> present n2 (pre (S j) ++ [c])).
Proof.
  intros Hdb Ha. destruct (collect_agree db m Hdb d n n' ltac:(lia) Ha) as (n2 & n2' & x & q & E1 & E2 & A2 & P2 & C2).
  exists n2, n2'. unfold collect_path.
  assert (Et : ancestor i d = 0%Z) by (apply Z.div_small; exact Hi).
  rewrite pre_top, Et in E1, E2. rewrite E1, E2. repeat apply conj; (reflexivity || assumption).
Qed.

(** *** Writing a leaf back *)
Section Write.
Context (m : contents) (v : F).

(** the nodes at length at least [c] are new, the others old *)
Definition mixed (c : nat) (key : list nat) : F :=
  if Nat.ltb (length key) c then at_key m key else at_key (put m i v) key.

Lemma mixed_top key : key_ok key -> mixed (S d) key = at_key m key.
Proof. intros [_ Hl]. unfold mixed. rewrite (proj2 (Nat.ltb_lt _ _)) by lia. reflexivity. Qed.
Lemma mixed_bottom key : mixed 0 key = at_key (put m i v) key.
Proof. reflexivity. Qed.

Lemma mixed_step k key : (k <= d)%nat -> key_ok key -> key <> pre k -> mixed (d - k) key = mixed (S (d - k)) key.
Proof.
  intros Hk [Hf Hl] Hn. unfold mixed.
  destruct (Nat.ltb_spec (length key) (d - k)) as [H1|H1], (Nat.ltb_spec (length key) (S (d - k))) as [H2|H2]; try reflexivity; [lia|].
  assert (El : length key = (d - k)%nat) by lia.
  unfold at_key. rewrite El. replace (d - (d - k))%nat with k by lia. apply (node_put_other 2 ltac:(lia)).
  intros E. apply Hn. apply (number_inj 4).
  - rewrite pre_length. symmetry. exact El.
  - exact Hf.
  - apply pre_ok.
  - rewrite pre_number by exact Hk. symmetry. exact E.
Qed.

Lemma mixed_pre k : (k <= d)%nat -> mixed (d - k) (pre k) = node (put m i v) k (ancestor i k).
Proof.
  intros Hk. unfold mixed. rewrite (proj2 (Nat.ltb_ge _ _)) by (rewrite pre_length; lia). apply at_key_pre. exact Hk.
Qed.

Lemma mixed_child k c : (k < d)%nat -> (c < 4)%nat ->
  mixed (d - k) (pre (S k) ++ [c]) = node (put m i v) k (4 * ancestor i (S k) + Z.of_nat c).
Proof.
  intros Hk Hc. unfold mixed. rewrite (proj2 (Nat.ltb_ge _ _)) by (rewrite app_length, pre_length; cbn; lia).
  apply at_key_child. exact Hk.
Qed.

Lemma set_nth_last {A} (q : list A) x y : set_nth (q ++ [x]) (length q) y = Done (q ++ [y]).
Proof. apply set_nth_app. Qed.
Lemma index_last {A} (q : list A) (x : A) : index (q ++ [x]) (length q) = Done x.
Proof. apply index_app. Qed.
Lemma remove_last {A} (q : list A) (x : A) : vec_remove (length q) (q ++ [x]) = Done q.
Proof.
  unfold vec_remove. rewrite app_length. cbn [length]. rewrite (proj2 (Nat.ltb_lt _ _)) by lia.
  rewrite firstn_app, firstn_all, Nat.sub_diag, firstn_O, skipn_all2 by (rewrite app_length; cbn; lia). rewrite !app_nil_r. reflexivity.
Qed.

(** the inputs of the hash at height [S k] *)
Lemma level_inputs V k n n' l l' : (k < d)%nat -> agree V n n' ->
  (forall c, (c < 4)%nat -> c <> digit i k -> present n (pre (S k) ++ [c]) /\
     V (pre (S k) ++ [c]) = node (put m i v) k (4 * ancestor i (S k) + Z.of_nat c)) ->
  R l l' (node (put m i v) k (ancestor i k)) ->
  exists ls ls' a b c e a' b' c' e' xa xb xc xe,
  nodes_at_level n (pre k) (d - S k) = Done ls /\ nodes_at_level n' (pre k) (d - S k) = Done ls' /\
  vec_insert (digit i k) l ls = Done [a; b; c; e] /\ vec_insert (digit i k) l' ls' = Done [a'; b'; c'; e'] /\
  children (put m i v) k (ancestor i (S k)) = [xa; xb; xc; xe] /\
  R a a' xa /\ R b b' xb /\ R c c' xc /\ R e e' xe.
Proof.
  intros Hk Ha Hp Hl.
  assert (Hx : forall c, (c < 4)%nat -> c <> digit i k -> exists l l', map_get n (pre (S k) ++ [c]) = Some l /\
    map_get n' (pre (S k) ++ [c]) = Some l' /\ R l l' (node (put m i v) k (4 * ancestor i (S k) + Z.of_nat c))).
  { intros c Hc Hne. destruct (Hp c Hc Hne) as [Hp1 Hp2].
    destruct (agree_get _ _ _ _ Ha Hp1) as (x & x' & E1 & E2 & Hr). exists x, x'.
    rewrite Hp2 in Hr. auto. }
  rewrite <- (ancestor_digit 4 ltac:(lia) i k) in Hl. change (Z.of_nat 4) with 4%Z in Hl.
  unfold nodes_at_level. rewrite (pre_S k) by exact Hk.
  assert (Hq : length (pre (S k)) = (d - S k)%nat) by apply pre_length. rewrite <- Hq.
  assert (Hdg : (digit i k < 4)%nat) by (apply digit_lt; lia).
  cbn [seq foldM]. rewrite !index_last, !set_nth_last. cbn [obind].
  change (children (put m i v) k (ancestor i (S k))) with
    [node (put m i v) k (4 * ancestor i (S k) + Z.of_nat 0); node (put m i v) k (4 * ancestor i (S k) + Z.of_nat 1);
     node (put m i v) k (4 * ancestor i (S k) + Z.of_nat 2); node (put m i v) k (4 * ancestor i (S k) + Z.of_nat 3)].
  destruct (digit i k) as [|[|[|[|]]]]; [| | | |lia];
  repeat match goal with
  | |- context [map_get n (pre (S k) ++ [?c])] =>
      let y := fresh "y" in let y' := fresh "y" in let E1 := fresh in let E2 := fresh in
      destruct (Hx c ltac:(lia) ltac:(lia)) as (y & y' & E1 & E2 & ?); rewrite E1, E2; clear E1 E2
  end;
  cbn; do 14 eexists; repeat (split; [reflexivity|]); repeat split; eassumption.
Qed.

(** the state after [t] levels *)
Definition writing (t : nat) (st st' : node_map * lc * list nat) : Prop :=
  let '(n, l, q) := st in let '(n', l', q') := st' in
  q = pre t /\ q' = pre t /\ R l l' (node (put m i v) t (ancestor i t)) /\
  agree (mixed (if Nat.eqb t 0 then S d else d - t)) n n' /\
  (forall j c, (j < d)%nat -> (c < 4)%nat -> present n (pre (S j) ++ [c])).

Lemma writing_inputs t n l q n' l' q' : (t < d)%nat -> writing t (n, l, q) (n', l', q') ->
  exists ls ls' a b c e a' b' c' e' xa xb xc xe,
  nodes_at_level n q (d - S t) = Done ls /\ nodes_at_level n' q' (d - S t) = Done ls' /\
  index q (d - S t) = Done (digit i t) /\ index q' (d - S t) = Done (digit i t) /\
  vec_insert (digit i t) l ls = Done [a; b; c; e] /\ vec_insert (digit i t) l' ls' = Done [a'; b'; c'; e'] /\
  vec_remove (d - S t) q = Done (pre (S t)) /\ vec_remove (d - S t) q' = Done (pre (S t)) /\
  children (put m i v) t (ancestor i (S t)) = [xa; xb; xc; xe] /\
  R a a' xa /\ R b b' xb /\ R c c' xc /\ R e e' xe.
Proof.
  intros Ht (-> & -> & Hl & Ha & Hp).
  assert (Hin : forall c, (c < 4)%nat -> c <> digit i t -> present n (pre (S t) ++ [c]) /\
     mixed (if Nat.eqb t 0 then S d else d - t) (pre (S t) ++ [c]) = node (put m i v) t (4 * ancestor i (S t) + Z.of_nat c)).
  { intros c Hc Hne. split; [apply Hp; assumption|]. rewrite <- (mixed_child t c Ht Hc).
    destruct (Nat.eqb_spec t 0) as [->|]; [|reflexivity]. rewrite Nat.sub_0_r. symmetry.
    pose proof (mixed_step 0 (pre 1 ++ [c]) ltac:(lia)) as Hm. rewrite Nat.sub_0_r in Hm. apply Hm.
    - apply snoc_ok; [rewrite pre_length; lia|exact Hc|apply pre_ok].
    - rewrite (pre_S 0 Ht). intros E. apply app_inj_tail in E as [_ E]. congruence. }
  destruct (level_inputs _ t n n' l l' Ht Ha Hin Hl)
    as (ls & ls' & a & b & c & e & a' & b' & c' & e' & xa & xb & xc & xe & E1 & E2 & E3 & E4 & E5 & R1 & R2 & R3 & R4).
  exists ls, ls', a, b, c, e, a', b', c', e', xa, xb, xc, xe.
  assert (Hq : (d - S t)%nat = length (pre (S t))) by (rewrite pre_length; reflexivity).
  assert (Hidx : index (pre t) (d - S t) = Done (digit i t)) by (rewrite Hq, (pre_S t Ht); apply index_last).
  assert (Hrm : vec_remove (d - S t) (pre t) = Done (pre (S t))) by (rewrite Hq, (pre_S t Ht); apply remove_last).
  repeat apply conj; assumption.
Qed.

Lemma writing_next t n l q n' l' q' o o' : (t < d)%nat -> writing t (n, l, q) (n', l', q') ->
  R o o' (node (put m i v) (S t) (ancestor i (S t))) ->
  let up := fun n l q => if Nat.eqb (d - S t) (d - 1) then map_insert q l n else n in
  writing (S t) (map_insert (pre (S t)) o (up n l q), o, pre (S t)) (map_insert (pre (S t)) o' (up n' l' q'), o', pre (S t)) /\
  (forall k, present n k -> present (map_insert (pre (S t)) o (up n l q)) k).
Proof.
  intros Ht (-> & -> & Hl & Ha & Hp) Ho up.
  assert (Hup : agree (mixed (d - t)) (up n l (pre t)) (up n' l' (pre t)) /\ (forall k, present n k -> present (up n l (pre t)) k)).
  { unfold up. destruct (Nat.eqb_spec t 0) as [->|Hne].
    - rewrite Nat.eqb_refl, Nat.sub_0_r. split; [|intros k Hk; apply present_insert; left; exact Hk].
      pose proof (mixed_step 0) as Hm. pose proof (mixed_pre 0 ltac:(lia)) as Hm0. rewrite Nat.sub_0_r in Hm, Hm0.
      apply (agree_insert (mixed (S d))); [exact Ha|apply pre_ok|rewrite Hm0; exact Hl|].
      intros k Hk Hn. apply Hm; [lia|exact Hk|exact Hn].
    - rewrite (proj2 (Nat.eqb_neq _ _)) by lia. split; [exact Ha|auto]. }
  destruct Hup as [Ha' Hp']. split.
  - split; [reflexivity|]. split; [reflexivity|]. split; [exact Ho|]. split.
    + cbn [Nat.eqb]. apply (agree_insert (mixed (d - t))); [exact Ha'|apply pre_ok|rewrite mixed_pre by lia; exact Ho|].
      intros k Hk Hn. rewrite mixed_step by (assumption || lia). f_equal. lia.
    + intros j c Hj Hc. apply present_insert. left. apply Hp'. apply Hp; assumption.
  - intros k Hk. apply present_insert. left. apply Hp'. exact Hk.
Qed.

Lemma writing_start n n' l l' : agree (at_key m) n n' -> R l l' v ->
  (forall j c, (j < d)%nat -> (c < 4)%nat -> present n (pre (S j) ++ [c])) ->
  writing 0 (n, l, pre 0) (n', l', pre 0).
Proof.
  intros Ha Hl Hp. split; [reflexivity|]. split; [reflexivity|]. split; [|split; [|exact Hp]].
  - cbn. unfold put, MerkleSpec.ancestor. cbn. rewrite Z.div_1_r, Z.eqb_refl. exact Hl.
  - apply (agree_ext (at_key m)); [exact Ha|]. intros k Hk. cbn [Nat.eqb]. apply mixed_top. exact Hk.
Qed.

Lemma writing_end n l q n' l' q' : (0 < d)%nat -> writing d (n, l, q) (n', l', q') -> agree (at_key (put m i v)) n n'.
Proof.
  intros Hd (_ & _ & _ & Ha & _). rewrite (proj2 (Nat.eqb_neq _ _)), Nat.sub_diag in Ha by lia. exact Ha.
Qed.
End Write.

Lemma path_pre : map (digit i) (rev (seq 0 d)) = pre 0.
Proof. unfold pre. rewrite Nat.sub_0_r. reflexivity. Qed.
End Path.
End Map.

Lemma agree_impl {P : Params} d (R R' : lc -> lc -> F -> Prop) V n n' :
  (forall l l' x, R l l' x -> R' l l' x) -> agree d R V n n' -> agree d R' V n n'.
Proof.
  intros Hr Ha key. specialize (Ha key). destruct (map_get n key), (map_get n' key); try exact Ha.
  destruct Ha as [H1 H2]. split; [exact H1|apply Hr; exact H2].
Qed.
Lemma writing_impl {P : Params} d H (R R' : lc -> lc -> F -> Prop) i m v t st st' :
  (forall l l' x, R l l' x -> R' l l' x) -> writing d H R i m v t st st' -> writing d H R' i m v t st st'.
Proof.
  intros Hr. destruct st as [[n l] q], st' as [[n' l'] q']. intros (H1 & H2 & H3 & H4 & H5).
  split; [exact H1|]. split; [exact H2|]. split; [apply Hr; exact H3|]. split; [eapply agree_impl; [exact Hr|exact H4]|exact H5].
Qed.
