(** src/utils/mod.rs and the index selection of the randomizer. *)
From Coq Require Import ZArith String List Bool Lia Permutation DecimalString DecimalNat.
From Verif.Base Require Import Outcome Fp Params Algebra.
From Verif.Model Require Import Transcript Gadgets Hash Merkle Randomizer.
From Verif.Proofs Require Import RunProofs GadgetBasic.
Import ListNotations.

Lemma bytes_of_string_inj a : forall b, bytes_of_string a = bytes_of_string b -> a = b.
Proof.
  induction a as [|x a IH]; intros [|y b] E; try discriminate E; [reflexivity|].
  unfold bytes_of_string in E. cbn in E. injection E as E1 E2.
  assert (Hx : x = y).
  { rewrite <- (Ascii.ascii_N_embedding x), <- (Ascii.ascii_N_embedding y).
    unfold Ascii.nat_of_ascii in *. f_equal. lia. }
  subst y. f_equal. apply IH. exact E2.
Qed.

Lemma nilzero_inj a b : NilZero.string_of_uint a = NilZero.string_of_uint b ->
  a <> Decimal.Nil -> b <> Decimal.Nil -> a = b.
Proof.
  intros E Ha Hb. assert (H1 := NilZero.usu a Ha). rewrite E, (NilZero.usu b Hb) in H1.
  injection H1 as <-. reflexivity.
Qed.

Lemma to_uint_nonnil n : Nat.to_uint n <> Decimal.Nil.
Proof.
  intros E. assert (Hn := DecimalNat.Unsigned.of_to n). rewrite E in Hn. cbn in Hn. subst n. discriminate E.
Qed.

Lemma decimal_inj a b : decimal_bytes a = decimal_bytes b -> a = b.
Proof.
  intros E. apply bytes_of_string_inj in E. unfold decimal in E.
  apply nilzero_inj in E; [|apply to_uint_nonnil..].
  apply DecimalNat.Unsigned.to_uint_inj. exact E.
Qed.

Section Utils.
Context {P : Params} {OK : ParamsOk P}.
Local Open Scope fe_scope.

Lemma NoDup_map_inj {A B} (f : A -> B) l : (forall a b, In a l -> In b l -> f a = f b -> a = b) -> NoDup l -> NoDup (map f l).
Proof.
  intros Hf Hn. induction Hn as [|x l Hx Hn IH]; cbn; constructor.
  - intros Hi. apply in_map_iff in Hi. destruct Hi as (y & E & Hy). apply Hx.
    rewrite <- (Hf y x); [exact Hy|right; exact Hy|left; reflexivity|exact E].
  - apply IH. intros a b Ha Hb. apply Hf; right; assumption.
Qed.

Theorem generators_length prefix n : length (get_generators prefix n) = n.
Proof. unfold get_generators. rewrite map_length. apply seq_length. Qed.

Theorem generators_prefix prefix n k : firstn n (get_generators prefix (n + k)) = get_generators prefix n.
Proof.
  unfold get_generators. rewrite seq_app, map_app, firstn_app, map_length, seq_length, Nat.sub_diag.
  rewrite firstn_all2 by (rewrite map_length, seq_length; lia). apply app_nil_r.
Qed.

Theorem generators_strings prefix n : exists strings,
  get_generators prefix n = map g1_from_msg_hash strings /\ NoDup strings /\
  forall s, In s strings <-> exists i, (1 <= i <= n)%nat /\ s = prefix ++ bytes_of_string (decimal i).
Proof.
  exists (map (fun i => prefix ++ decimal_bytes i) (seq 1 n)). repeat apply conj.
  - unfold get_generators. rewrite map_map. reflexivity.
  - apply NoDup_map_inj; [|apply seq_NoDup]. intros a b _ _ E. apply app_inv_head in E. apply decimal_inj. exact E.
  - intros s. rewrite in_map_iff. split.
    + intros (i & <- & Hi). apply in_seq in Hi. exists i. split; [lia|reflexivity].
    + intros (i & Hi & ->). exists i. split; [reflexivity|]. apply in_seq. lia.
Qed.

(** the hash does not collide on the strings *)
Theorem generators_distinct prefix n :
  (forall i j, (1 <= i <= n)%nat -> (1 <= j <= n)%nat ->
     g1_from_msg_hash (prefix ++ bytes_of_string (decimal i)) = g1_from_msg_hash (prefix ++ bytes_of_string (decimal j)) ->
     prefix ++ bytes_of_string (decimal i) = prefix ++ bytes_of_string (decimal j)) ->
  NoDup (get_generators prefix n).
Proof.
  intros Hc. apply NoDup_map_inj; [|apply seq_NoDup]. intros a b Ha Hb E. apply in_seq in Ha, Hb.
  apply Hc in E; [|lia..]. apply app_inv_head in E. apply decimal_inj. exact E.
Qed.

Theorem same_length_prefixes (p q : list Z) a b : length p = length q -> p <> q -> p ++ a <> q ++ b.
Proof.
  intros Hl Hn E. apply Hn.
  assert (H1 := f_equal (firstn (length p)) E).
  rewrite firstn_app, Nat.sub_diag, firstn_all, firstn_O, app_nil_r in H1.
  rewrite Hl, firstn_app, Nat.sub_diag, firstn_all, firstn_O, app_nil_r in H1. exact H1.
Qed.

(** *** Challenges *)
Definition tail_bytes (cs : list F) : list Z := flat_map (fun c => g1_bytes (g1_mul c g1_generator)) cs.

Lemma last_some {A} (r : list A) x : last (map Some (r ++ [x])) None = Some x.
Proof. rewrite map_app. cbn. apply last_last. Qed.

Theorem challenges_chain input state n : exists cs,
  gen_challenges input state n = Done (cs, state ++ flat_map g1_bytes input ++ tail_bytes (removelast cs)) /\
  length cs = Nat.max 1 n /\
  forall i, (i < length cs)%nat ->
    nth i cs 0 = fe_from_msg_hash (state ++ flat_map g1_bytes input ++ tail_bytes (firstn i cs)).
Proof.
  unfold gen_challenges. set (s0 := state ++ flat_map g1_bytes input).
  assert (Hg : forall k a r x,
    (forall i, (i < length (r ++ [x]))%nat -> nth i (r ++ [x]) 0 = fe_from_msg_hash (s0 ++ tail_bytes (firstn i (r ++ [x])))) ->
    exists r' x', foldM (fun '(r, state) (_ : nat) =>
      obind (of_option (last (map Some r) None)) (fun l =>
      let state := state ++ g1_bytes (g1_mul l g1_generator) in
      Done (r ++ [fe_from_msg_hash state], state)))
    (seq a k) (r ++ [x], s0 ++ tail_bytes r) = Done (r' ++ [x'], s0 ++ tail_bytes r') /\
      length r' = (length r + k)%nat /\
      (forall i, (i < length (r' ++ [x']))%nat -> nth i (r' ++ [x']) 0 = fe_from_msg_hash (s0 ++ tail_bytes (firstn i (r' ++ [x']))))).
  { induction k as [|k IH]; intros a r x Hi.
    - exists r, x. split; [reflexivity|]. split; [lia|exact Hi].
    - cbn [seq foldM]. rewrite last_some. cbn [of_option obind].
      assert (E : (s0 ++ tail_bytes r) ++ g1_bytes (g1_mul x g1_generator) = s0 ++ tail_bytes (r ++ [x])).
      { unfold tail_bytes. rewrite flat_map_app. cbn. rewrite app_nil_r, app_assoc. reflexivity. }
      rewrite E. destruct (IH (S a) (r ++ [x]) (fe_from_msg_hash (s0 ++ tail_bytes (r ++ [x])))) as (r' & x' & E' & Hl & Hi').
      + intros i Hlt. rewrite app_length in Hlt. cbn in Hlt.
        destruct (Nat.eq_dec i (length (r ++ [x]))) as [->|Hne].
        * rewrite nth_middle, firstn_app, firstn_all, Nat.sub_diag, firstn_O, app_nil_r. reflexivity.
        * rewrite app_nth1 by lia. rewrite Hi by lia. rewrite (firstn_app i (r ++ [x]) [_]).
          replace (i - length (r ++ [x]))%nat with O by lia. rewrite firstn_O, app_nil_r. reflexivity.
      + exists r', x'. split; [exact E'|]. split; [rewrite Hl, app_length; cbn; lia|exact Hi']. }
  destruct (Hg (n - 1)%nat 1%nat [] (fe_from_msg_hash s0)) as (r' & x' & E & Hl & Hi).
  { intros [|[|i]] Hlt; cbn in Hlt; try lia. cbn. rewrite app_nil_r. reflexivity. }
  cbn [app] in E. unfold tail_bytes at 1 in E. cbn [flat_map] in E. rewrite app_nil_r in E.
  exists (r' ++ [x']). rewrite removelast_last. rewrite app_assoc. fold s0. split; [exact E|]. split.
  - rewrite app_length, Hl. cbn [length]. lia.
  - intros i Hlt. rewrite app_assoc. fold s0. apply Hi. exact Hlt.
Qed.

(** *** The indices to modify *)
Lemma set_insert_nodup x s : NoDup s -> NoDup (set_insert x s).
Proof.
  intros Hn. unfold set_insert. destruct (existsb (feqb x) s) eqn:E; [exact Hn|].
  apply (Permutation_NoDup (Permutation_cons_append s x)). constructor; [|exact Hn].
  intros Hi. assert (Ht : existsb (feqb x) s = true).
  { apply existsb_exists. exists x. split; [exact Hi|]. destruct (feqb_spec modulus x x); congruence. }
  congruence.
Qed.

Lemma set_insert_in x y s : In y (set_insert x s) <-> y = x \/ In y s.
Proof.
  unfold set_insert. destruct (existsb (feqb x) s) eqn:E.
  - split; [intros H; right; exact H|]. intros [->|H]; [|exact H].
    apply existsb_exists in E. destruct E as (z & Hz & Ez). destruct (feqb_spec modulus x z); [subst; exact Hz|discriminate].
  - rewrite in_app_iff. cbn. intuition.
Qed.

Lemma set_insert_length x s : (length s <= length (set_insert x s) <= S (length s))%nat.
Proof. unfold set_insert. destruct (existsb _ _); [lia|]. rewrite app_length. cbn. lia. Qed.

Section Indices.
Context (from_bytes : list Z -> F).

Lemma indices_loop_done fuel : forall target size count s, (0 < size < modulus)%Z -> NoDup s -> (length s <= count)%nat ->
  (forall x, In x s -> (fval x < size)%Z) ->
  exists r, indices_loop from_bytes fuel target size count s = Done r /\ NoDup r /\ (length r <= count)%nat /\
    (forall x, In x r -> (fval x < size)%Z).
Proof.
  induction fuel as [|fuel IH]; intros target size count s Hs Hn Hc Hx; cbn [indices_loop].
  - exists s. repeat apply conj; (reflexivity || assumption).
  - destruct (_ && _) eqn:E; [|exists s; repeat apply conj; (reflexivity || assumption)].
    apply andb_prop in E. destruct E as [E1 _]. apply Nat.ltb_lt in E1.
    destruct (Z.eqb_spec size 0) as [|_]; [lia|]. cbn [negb assertb obind].
    apply IH; [exact Hs|apply set_insert_nodup; exact Hn| |].
    + match goal with |- (length (set_insert ?x s) <= _)%nat => assert (H := set_insert_length x s); lia end.
    + intros x Hi. apply set_insert_in in Hi. destruct Hi as [->|Hi]; [|apply Hx; exact Hi].
      assert (Hm := Z.mod_pos_bound (fval (from_bytes (firstn modbytes target))) size (proj1 Hs)).
      rewrite fe_of_small by lia. lia.
Qed.

Theorem indices_done nonce size count : (0 < size < modulus)%Z ->
  exists indices, get_indices_to_modify from_bytes nonce size count = Done indices /\
    NoDup indices /\ (length indices <= count)%nat /\ (forall x, In x indices -> (0 <= fval x < size)%Z).
Proof.
  intros Hs. unfold get_indices_to_modify. rewrite fe_of_small by lia.
  destruct (indices_loop_done (length (shake256 (fe_bytes nonce) (2 * count * modbytes)))
    (shake256 (fe_bytes nonce) (2 * count * modbytes)) size count []) as (r & E & Hn & Hl & Hx); [lia|constructor|cbn; lia|intros x []|].
  exists r. repeat apply conj; try assumption. intros x Hi. split; [apply (fval_range modulus modulus_prime)|apply Hx; exact Hi].
Qed.

(** the values drawn from the stream, in order *)
Definition draw (size : Z) (stream : list Z) (k : nat) : F :=
  fe_of (fval (from_bytes (firstn modbytes (skipn (k * modbytes) stream))) mod size).

Lemma skipn_skipn' {A} a : forall b (l : list A), skipn a (skipn b l) = skipn (b + a) l.
Proof.
  intros b. induction b as [|b IH]; intros l; [reflexivity|]. destruct l as [|x l]; [cbn; apply skipn_nil|]. cbn. apply IH.
Qed.

(** every index is one of the values drawn; with fewer indices than asked for, all the values were used *)
Lemma indices_loop_drawn stream size count : (0 < size < modulus)%Z -> (0 < modbytes)%nat ->
  forall fuel k s, (k * modbytes <= length stream)%nat -> (length stream - k * modbytes <= fuel)%nat ->
  (length s <= count)%nat ->
  (forall x, In x s <-> exists j, (j < k)%nat /\ x = draw size stream j) ->
  forall r, indices_loop from_bytes fuel (skipn (k * modbytes) stream) size count s = Done r ->
  exists k', (k' * modbytes <= length stream)%nat /\ (forall x, In x r <-> exists j, (j < k')%nat /\ x = draw size stream j) /\
    (length r = count \/ (length r < count /\ length stream < S k' * modbytes)%nat).
Proof.
  intros Hs Hm. induction fuel as [|fuel IH]; intros k s Hk Hf Hc Hx r; cbn [indices_loop].
  - intros E. injection E as <-. exists k. repeat apply conj; [exact Hk|exact Hx|].
    destruct (Nat.eq_dec (length s) count); [left; assumption|right; cbn; lia].
  - rewrite skipn_length. destruct (Nat.ltb_spec (length s) count) as [Hlt|Hge]; cbn [andb].
    + destruct (Nat.leb_spec modbytes (length stream - k * modbytes)) as [Hle|Hgt].
      * destruct (Z.eqb_spec size 0) as [|_]; [lia|]. cbn [negb assertb obind].
        rewrite skipn_skipn'. replace (k * modbytes + modbytes)%nat with (S k * modbytes)%nat by lia.
        apply IH; [cbn; lia|cbn; lia| |].
        { match goal with |- (length (set_insert ?x s) <= _)%nat => assert (H := set_insert_length x s); lia end. }
        intros x. rewrite set_insert_in, Hx. split.
        -- intros [->|(j & Hj & ->)]; [exists k; split; [lia|reflexivity]|exists j; split; [lia|reflexivity]].
        -- intros (j & Hj & ->). destruct (Nat.eq_dec j k) as [->|Hne]; [left; reflexivity|right; exists j; split; [lia|reflexivity]].
      * intros E. injection E as <-. exists k. repeat apply conj; [exact Hk|exact Hx|]. right. cbn. lia.
    + intros E. injection E as <-. exists k. repeat apply conj; [exact Hk|exact Hx|]. left. lia.
Qed.

Theorem indices_drawn nonce size count indices : (0 < size < modulus)%Z -> (0 < modbytes)%nat ->
  get_indices_to_modify from_bytes nonce size count = Done indices ->
  let stream := shake256 (fe_bytes nonce) (2 * count * modbytes) in
  exists k, (k * modbytes <= length stream)%nat /\
    (forall x, In x indices <-> exists j, (j < k)%nat /\ x = draw size stream j) /\
    (length indices = count \/ (length indices < count /\ length stream < S k * modbytes)%nat).
Proof.
  intros Hs Hm E stream. unfold get_indices_to_modify in E. fold stream in E. rewrite fe_of_small in E by lia.
  apply (indices_loop_drawn stream size count Hs Hm (length stream) O []); [lia|lia|cbn; lia| |exact E].
  intros x. split; [intros []|]. intros (j & Hj & _). lia.
Qed.
End Indices.

(** *** The randomized data *)
Lemma fmap_insert_get k v m k' : fmap_get (fmap_insert k v m) k' = if feqb k' k then Some v else fmap_get m k'.
Proof.
  unfold fmap_get, fmap_insert. cbn [find]. destruct (feqb k' k) eqn:E; [reflexivity|]. f_equal.
  induction m as [|[a b] m IH]; [reflexivity|]. cbn [filter]. destruct (feqb k a) eqn:E2; cbn [negb].
  - cbn [find]. destruct (feqb k' a) eqn:E3; [|exact IH].
    destruct (feqb_spec modulus k a); [|discriminate]. destruct (feqb_spec modulus k' a); [|discriminate].
    subst. destruct (feqb_spec modulus a a); congruence.
  - cbn [find]. destruct (feqb k' a); [reflexivity|exact IH].
Qed.

Lemma randomized_fold limb data : (Z.of_nat (length data) <= 2 ^ Z.of_nat limb)%Z ->
  forall indices done mods new, NoDup (done ++ indices) -> (forall x, In x (done ++ indices) -> (fval x < Z.of_nat (length data))%Z) ->
  length new = length data ->
  (forall x, In x done -> nth (Z.to_nat (fval x)) new 0 = randomize (nth (Z.to_nat (fval x)) data 0)) ->
  (forall j, (j < length data)%nat -> (forall x, In x done -> Z.to_nat (fval x) <> j) -> nth j new 0 = nth j data 0) ->
  (forall x, In x done -> fmap_get mods x = Some (nth (Z.to_nat (fval x)) data 0)) ->
  (forall x, ~ In x done -> fmap_get mods x = None) ->
  exists mods' new',
  foldM (fun '(modified_indices, new_data) _i =>
      let i := Z.to_nat (fval _i mod 2 ^ Z.of_nat limb)%Z in
      obind (index new_data i) (fun x => obind (set_nth new_data i (randomize x)) (fun new_data' =>
      Done (fmap_insert _i x modified_indices, new_data'))))
    indices (mods, new) = Done (mods', new') /\
  length new' = length data /\
  (forall x, In x (done ++ indices) -> nth (Z.to_nat (fval x)) new' 0 = randomize (nth (Z.to_nat (fval x)) data 0)) /\
  (forall j, (j < length data)%nat -> (forall x, In x (done ++ indices) -> Z.to_nat (fval x) <> j) -> nth j new' 0 = nth j data 0) /\
  (forall x, In x (done ++ indices) -> fmap_get mods' x = Some (nth (Z.to_nat (fval x)) data 0)) /\
  (forall x, ~ In x (done ++ indices) -> fmap_get mods' x = None).
Proof.
  intros Hlimb. induction indices as [|i indices IH]; intros done mods new Hn Hr Hl H1 H2 H3 H4.
  - rewrite app_nil_r. exists mods, new. repeat apply conj; (reflexivity || assumption).
  - cbn [foldM].
    assert (Hi : (0 <= fval i < Z.of_nat (length data))%Z).
    { split; [apply (fval_range modulus modulus_prime)|]. apply Hr. apply in_or_app. right. left. reflexivity. }
    rewrite Z.mod_small by lia.
    set (n := Z.to_nat (fval i)). assert (Hnl : (n < length new)%nat) by (unfold n; lia).
    rewrite (index_ok _ _ 0) by exact Hnl. cbn [obind].
    destruct (set_nth_ok new n (randomize (nth n new 0)) Hnl) as [new' Enew]. rewrite Enew. cbn [obind].
    assert (Hnotin : ~ In i done).
    { intros Hd. apply NoDup_remove_2 in Hn. apply Hn. apply in_or_app. left. exact Hd. }
    assert (Hne : forall x, In x done -> Z.to_nat (fval x) <> n).
    { intros x Hx E. apply Hnotin. replace i with x; [exact Hx|]. apply Fp_ext.
      assert (Hr1 := fval_range modulus modulus_prime x). unfold n in E. lia. }
    assert (Hold : nth n new 0 = nth n data 0) by (apply H2; [lia|exact Hne]).
    assert (Hnth : forall j, nth j new' 0 = if Nat.eqb j n then randomize (nth n new 0) else nth j new 0).
    { intros j. apply (set_nth_nth _ _ _ _ j 0 Enew). }
    replace (done ++ i :: indices) with ((done ++ [i]) ++ indices) in * by (rewrite <- app_assoc; reflexivity).
    apply IH.
    + exact Hn.
    + exact Hr.
    + rewrite (set_nth_length _ _ _ _ Enew). exact Hl.
    + intros x Hx. apply in_app_or in Hx. rewrite Hnth. destruct Hx as [Hx|[->|[]]].
      * destruct (Nat.eqb_spec (Z.to_nat (fval x)) n) as [E|_]; [destruct (Hne x Hx E)|apply H1; exact Hx].
      * fold n. rewrite Nat.eqb_refl, Hold. reflexivity.
    + intros j Hj Hx. rewrite Hnth. destruct (Nat.eqb_spec j n) as [E|_].
      * destruct (Hx i); [apply in_or_app; right; left; reflexivity|symmetry; exact E].
      * apply H2; [exact Hj|]. intros x Hd. apply Hx. apply in_or_app. left. exact Hd.
    + intros x Hx. rewrite fmap_insert_get. destruct (feqb_spec modulus x i) as [->|Hxi].
      * rewrite Hold. reflexivity.
      * apply H3. apply in_app_or in Hx. destruct Hx as [Hx|[Hx|[]]]; [exact Hx|congruence].
    + intros x Hx. rewrite fmap_insert_get. destruct (feqb_spec modulus x i) as [->|Hxi].
      * destruct Hx. apply in_or_app. right. left. reflexivity.
      * apply H4. intros Hd. apply Hx. apply in_or_app. left. exact Hd.
Qed.

Theorem randomized_done limb data indices : (Z.of_nat (length data) <= 2 ^ Z.of_nat limb)%Z ->
  NoDup indices -> (forall x, In x indices -> (fval x < Z.of_nat (length data))%Z) ->
  exists mods new, get_randomized_data limb data indices = Done (mods, new) /\
  length new = length data /\
  (forall x, In x indices -> nth (Z.to_nat (fval x)) new 0 = randomize (nth (Z.to_nat (fval x)) data 0)) /\
  (forall j, (j < length data)%nat -> (forall x, In x indices -> Z.to_nat (fval x) <> j) -> nth j new 0 = nth j data 0) /\
  (forall x, In x indices -> fmap_get mods x = Some (nth (Z.to_nat (fval x)) data 0)) /\
  (forall x, ~ In x indices -> fmap_get mods x = None).
Proof.
  intros Hlimb Hn Hr.
  apply (randomized_fold limb data Hlimb indices [] [] data Hn Hr); [reflexivity|intros x []|reflexivity|intros x []|reflexivity].
Qed.

(** the order in which the set is iterated does not matter *)
Theorem randomized_order limb data indices indices' : (Z.of_nat (length data) <= 2 ^ Z.of_nat limb)%Z ->
  NoDup indices -> (forall x, In x indices -> (fval x < Z.of_nat (length data))%Z) -> Permutation indices indices' ->
  exists mods mods' new, get_randomized_data limb data indices = Done (mods, new) /\
    get_randomized_data limb data indices' = Done (mods', new) /\ forall x, fmap_get mods x = fmap_get mods' x.
Proof.
  intros Hlimb Hn Hr Hp.
  assert (Hin : forall x, In x indices <-> In x indices') by (intros x; split; apply Permutation_in; [exact Hp|apply Permutation_sym; exact Hp]).
  destruct (randomized_done limb data indices Hlimb Hn Hr) as (m1 & n1 & E1 & L1 & A1 & B1 & C1 & D1).
  destruct (randomized_done limb data indices' Hlimb (Permutation_NoDup Hp Hn)) as (m2 & n2 & E2 & L2 & A2 & B2 & C2 & D2).
  { intros x Hx. apply Hr. apply Hin. exact Hx. }
  assert (En : n1 = n2).
  { apply (nth_ext _ _ 0 0); [congruence|]. intros j Hj.
    destruct (Exists_dec (fun x : F => Z.to_nat (fval x) = j) indices (fun x => Nat.eq_dec _ _)) as [Hex|Hex].
    - apply Exists_exists in Hex. destruct Hex as (x & Hx & <-). rewrite A1 by exact Hx. rewrite A2 by (apply Hin; exact Hx). reflexivity.
    - rewrite B1, B2; [reflexivity|lia| |lia|]; intros x Hx E; apply Hex; apply Exists_exists; exists x;
        (split; [first [exact Hx|apply Hin; exact Hx]|exact E]). }
  subst n2. exists m1, m2, n1. repeat apply conj; try assumption.
  intros x. destruct (in_dec (Fp_eq_dec modulus) x indices) as [Hx|Hx].
  - rewrite C1 by exact Hx. rewrite C2 by (apply Hin; exact Hx). reflexivity.
  - rewrite D1 by exact Hx. rewrite D2 by (rewrite <- Hin; exact Hx). reflexivity.
Qed.

(** the map as a list of pairs *)
Lemma foldM_inv {A B} (f : B -> A -> outcome B) (I : B -> Prop) : (forall b a b', I b -> f b a = Done b' -> I b') ->
  forall l b b', I b -> foldM f l b = Done b' -> I b'.
Proof.
  intros Hf. induction l as [|a l IH]; intros b b' Hb E; cbn in E; [injection E as <-; exact Hb|].
  destruct (f b a) as [b1|] eqn:E1; [|discriminate E]. cbn in E. eapply IH; [|exact E]. eapply Hf; eassumption.
Qed.

Lemma fmap_insert_keys k v m : NoDup (map fst m) -> NoDup (map fst (fmap_insert k v m)).
Proof.
  intros Hn. unfold fmap_insert. cbn [map fst]. constructor.
  - rewrite in_map_iff. intros ([a b] & E & Hi). cbn in E. subst a. apply filter_In in Hi. destruct Hi as [_ Hi].
    destruct (feqb_spec modulus k k); [discriminate Hi|congruence].
  - induction m as [|[a b] m IH]; [constructor|]. cbn [map fst] in Hn. inversion Hn as [|? ? Ha Hm]; subst. cbn [filter].
    destruct (negb (feqb k a)); [|apply IH; exact Hm]. cbn [map fst]. constructor; [|apply IH; exact Hm].
    intros Hi. apply Ha. apply in_map_iff in Hi. destruct Hi as (q & E & Hq). apply filter_In in Hq. destruct Hq as [Hq _].
    apply in_map_iff. exists q. split; assumption.
Qed.

Lemma fmap_get_in m : NoDup (map fst m) -> forall x v, In (x, v) m <-> fmap_get m x = Some v.
Proof.
  induction m as [|[a b] m IH]; intros Hn x v; [split; [intros []|discriminate]|].
  cbn [map fst] in Hn. inversion Hn as [|? ? Ha Hm]; subst. specialize (IH Hm x v). unfold fmap_get in *. cbn [find].
  destruct (feqb_spec modulus x a) as [->|Hne].
  - cbn [option_map snd]. split.
    + intros [E|Hi]; [injection E as <-; reflexivity|]. exfalso. apply Ha. apply in_map_iff. exists (a, v). split; [reflexivity|exact Hi].
    + intros [= <-]. left. reflexivity.
  - split.
    + intros [E|Hi]; [injection E as -> ->; congruence|]. apply IH. exact Hi.
    + intros E. right. apply IH. exact E.
Qed.

Lemma randomized_keys limb data indices mods new : get_randomized_data limb data indices = Done (mods, new) -> NoDup (map fst mods).
Proof.
  intros E. apply (foldM_inv _ (fun st => NoDup (map fst (fst st))) ) in E; [exact E| |constructor].
  intros [m l] a [m' l'] Hn E'. cbn [fst] in *. destruct (index _ _) as [x|]; [|discriminate E'].
  cbn in E'. destruct (set_nth _ _ _) as [l2|]; [|discriminate E']. cbn in E'. injection E' as <- <-.
  apply fmap_insert_keys. exact Hn.
Qed.

Theorem randomized_exactly limb data indices : (Z.of_nat (length data) <= 2 ^ Z.of_nat limb)%Z ->
  NoDup indices -> (forall x, In x indices -> (fval x < Z.of_nat (length data))%Z) ->
  exists mods new, get_randomized_data limb data indices = Done (mods, new) /\
  length new = length data /\
  (forall x, In x indices -> nth (Z.to_nat (fval x)) new 0 = randomize (nth (Z.to_nat (fval x)) data 0)) /\
  (forall j, (j < length data)%nat -> (forall x, In x indices -> Z.to_nat (fval x) <> j) -> nth j new 0 = nth j data 0) /\
  (forall x v, In (x, v) mods <-> In x indices /\ v = nth (Z.to_nat (fval x)) data 0) /\ NoDup (map fst mods).
Proof.
  intros Hlimb Hn Hr. destruct (randomized_done limb data indices Hlimb Hn Hr) as (mods & new & E & L & A & B & C & D).
  exists mods, new. split; [exact E|]. split; [exact L|]. split; [exact A|]. split; [exact B|].
  pose proof (randomized_keys _ _ _ _ _ E) as Hk. split; [|exact Hk]. intros x v. rewrite (fmap_get_in mods Hk).
  destruct (in_dec (Fp_eq_dec modulus) x indices) as [Hx|Hx].
  - rewrite C by exact Hx. split; [intros [= <-]; split; [exact Hx|reflexivity]|intros [_ ->]; reflexivity].
  - rewrite D by exact Hx. split; [discriminate|intros [Hx' _]; contradiction].
Qed.

Theorem randomized_any_order limb data indices indices' : (Z.of_nat (length data) <= 2 ^ Z.of_nat limb)%Z ->
  NoDup indices -> (forall x, In x indices -> (fval x < Z.of_nat (length data))%Z) -> Permutation indices indices' ->
  exists mods mods' new, get_randomized_data limb data indices = Done (mods, new) /\
    get_randomized_data limb data indices' = Done (mods', new) /\ Permutation mods mods'.
Proof.
  intros Hlimb Hn Hr Hp. destruct (randomized_order limb data indices indices' Hlimb Hn Hr Hp) as (m & m' & new & E & E' & Hm).
  exists m, m', new. split; [exact E|]. split; [exact E'|].
  pose proof (randomized_keys _ _ _ _ _ E) as Hk. pose proof (randomized_keys _ _ _ _ _ E') as Hk'.
  apply NoDup_Permutation; [exact (NoDup_map_inv _ _ Hk)|exact (NoDup_map_inv _ _ Hk')|].
  intros [x v]. rewrite (fmap_get_in m Hk), (fmap_get_in m' Hk'), Hm. reflexivity.
Qed.

Theorem generators_nth prefix n : length (get_generators prefix n) = n /\
  forall i, (i < n)%nat -> nth_error (get_generators prefix n) i = Some (g1_from_msg_hash (prefix ++ decimal_bytes (S i))).
Proof.
  split; [apply generators_length|]. intros i Hi. unfold get_generators. rewrite nth_error_map.
  rewrite (nth_error_nth' _ O) by (rewrite seq_length; exact Hi). rewrite seq_nth by exact Hi. reflexivity.
Qed.

Theorem generators_shared :
  nth_error (get_generators (bytes_of_string "G") 11) 10 = nth_error (get_generators (bytes_of_string "G1") 1) 0 /\
  nth_error (get_generators (bytes_of_string "G1") 1) 0 <> None.
Proof. split; [reflexivity|discriminate]. Qed.

Theorem challenges_prefix input state n k cs cs' st st' : (0 < n)%nat ->
  gen_challenges input state n = Done (cs, st) -> gen_challenges input state (n + k) = Done (cs', st') -> firstn n cs' = cs.
Proof.
  intros Hn E E'. destruct (challenges_chain input state n) as (c & Ec & Hl & Hi). rewrite E in Ec. injection Ec as <- _.
  destruct (challenges_chain input state (n + k)) as (c' & Ec' & Hl' & Hi'). rewrite E' in Ec'. injection Ec' as <- _.
  assert (Hj : forall j, (j <= n)%nat -> firstn j cs' = firstn j cs).
  { induction j as [|j IH]; intros Hj; [reflexivity|].
    assert (Hs : forall l : list F, (j < length l)%nat -> firstn (S j) l = firstn j l ++ [nth j l 0]).
    { clear. induction j as [|j IH]; intros [|x l] H; cbn in *; try lia; [reflexivity|]. f_equal. apply IH. lia. }
    rewrite !Hs by lia. rewrite Hi, Hi' by lia. rewrite IH by lia. reflexivity. }
  rewrite Hj by lia. apply firstn_all2. lia.
Qed.
End Utils.
