(** Loops with panics, and the native hash functions. *)
From Coq Require Import ZArith String List Lia Bool Ring Field Arith.
From Verif.Base Require Import Outcome Fp Params Algebra.
From Verif.Model Require Import Transcript LinComb Prog VectorPoly IPP Prover Verifier Gadgets Hash.
From Verif.Spec Require Import R1CS Sim Session Protocol Verdict Gadget HashSpec.
From Verif.Proofs Require Import IPPProofs LinCombProofs RunProofs GadgetTools GadgetBasic.
Import ListNotations.

Lemma foldM_app {A S} (f : S -> A -> outcome S) l1 l2 s :
  foldM f (l1 ++ l2) s = obind (foldM f l1 s) (foldM f l2).
Proof. revert s. induction l1 as [|a t IH]; intros s; [reflexivity|]. cbn. destruct (f s a); cbn; [apply IH|reflexivity]. Qed.

Lemma foldM_seq_S {S} (f : S -> nat -> outcome S) n s :
  foldM f (seq 0 (Datatypes.S n)) s = obind (foldM f (seq 0 n) s) (fun s' => f s' n).
Proof.
  rewrite seq_S, foldM_app. destruct (foldM f (seq 0 n) s) as [s1|]; cbn; [|reflexivity].
  destruct (f s1 n); reflexivity.
Qed.

Lemma foldM_prefix {A S} (f : S -> A -> outcome S) l1 l2 s s' : foldM f (l1 ++ l2) s = Done s' ->
  exists s1, foldM f l1 s = Done s1 /\ foldM f l2 s1 = Done s'.
Proof. rewrite foldM_app. destruct (foldM f l1 s) as [s1|]; [|discriminate]. intros E. exists s1. auto. Qed.

(** two loops in step *)
Lemma foldM_rel {A S T} (R : S -> T -> Prop) (f : S -> A -> outcome S) (g : T -> A -> outcome T) l : forall s t s',
  (forall s t a s', In a l -> R s t -> f s a = Done s' -> exists t', g t a = Done t' /\ R s' t') ->
  R s t -> foldM f l s = Done s' -> exists t', foldM g l t = Done t' /\ R s' t'.
Proof.
  induction l as [|a l IH]; intros s t s' H H0 E; cbn in E |- *.
  - injection E as <-. eauto.
  - destruct (f s a) as [s1|] eqn:E1; [|discriminate]. cbn in E.
    destruct (H s t a s1 (or_introl eq_refl) H0 E1) as (t1 & -> & H1). cbn. eapply IH; eauto. intros. eapply H; eauto. right; assumption.
Qed.

Lemma mapM_rel {A B C} (R : B -> C -> Prop) (f : A -> outcome B) (g : A -> outcome C) l : forall bs,
  (forall a b, In a l -> f a = Done b -> exists c, g a = Done c /\ R b c) ->
  mapM f l = Done bs -> exists cs, mapM g l = Done cs /\ Forall2 R bs cs.
Proof.
  induction l as [|a l IH]; intros bs H E; cbn in E |- *.
  - injection E as <-. exists []. auto.
  - destruct (f a) as [b|] eqn:E1; [|discriminate]. cbn in E. destruct (mapM f l) as [bs'|] eqn:E2; [|discriminate].
    cbn in E. injection E as <-. destruct (H a b (or_introl eq_refl) E1) as (c & -> & Hc). cbn.
    destruct (IH bs') as (cs & -> & Hcs); [intros; apply H; [right|]; assumption|reflexivity|]. cbn. eauto.
Qed.

Lemma mapM_length {A B} (f : A -> outcome B) l bs : mapM f l = Done bs -> length bs = length l.
Proof.
  revert bs. induction l as [|a l IH]; intros bs E; cbn in E; [injection E as <-; reflexivity|].
  destruct (f a); [|discriminate]. cbn in E. destruct (mapM f l) eqn:E2; [|discriminate]. injection E as <-.
  cbn. rewrite (IH _ eq_refl). reflexivity.
Qed.

Lemma set_nth_app {A} (l1 : list A) x t y : set_nth (l1 ++ x :: t) (length l1) y = Done (l1 ++ y :: t).
Proof. induction l1 as [|a l IH]; cbn; [reflexivity|]. rewrite IH. reflexivity. Qed.
Lemma index_app {A} (l1 : list A) x t : index (l1 ++ x :: t) (length l1) = Done x.
Proof. induction l1 as [|a l IH]; [reflexivity|]. exact IH. Qed.

Lemma set_nth_app' {A} (l1 : list A) x t y j : length l1 = j -> set_nth (l1 ++ x :: t) j y = Done (l1 ++ y :: t).
Proof. intros <-. apply set_nth_app. Qed.
Lemma index_app' {A} (l1 : list A) x t j : length l1 = j -> index (l1 ++ x :: t) j = Done x.
Proof. intros <-. apply index_app. Qed.

Lemma skipn_nth_cons {A} (l : list A) j d : (j < length l)%nat -> skipn j l = nth j l d :: skipn (S j) l.
Proof.
  revert j. induction l as [|x t IH]; intros j H; [cbn in H; lia|]. destruct j; [reflexivity|]. cbn in H. cbn [skipn nth].
  apply IH. lia.
Qed.

Lemma forall2_map_eq {A B} (f : A -> B) l l' : Forall2 (fun a b => b = f a) l l' -> l' = map f l.
Proof. induction 1; cbn; congruence. Qed.
Lemma forall2_of_map {A B} (f : A -> B) l : Forall2 (fun a b => b = f a) l (map f l).
Proof. induction l; cbn; constructor; auto. Qed.
Lemma forall2_len {A B} (R : A -> B -> Prop) l l' : Forall2 R l l' -> length l = length l'.
Proof. induction 1; cbn; congruence. Qed.
Lemma forall2_index {A B} (R : A -> B -> Prop) l l' i a : Forall2 R l l' -> index l i = Done a ->
  exists b, index l' i = Done b /\ R a b.
Proof.
  intros H. revert i. induction H as [|x y l l' Hxy H IH]; intros i E.
  - destruct i; discriminate.
  - destruct i as [|i]; [injection E as <-; exists y; auto|]. apply (IH i). exact E.
Qed.
Lemma forall2_flip {A B} (R : A -> B -> Prop) l l' : Forall2 R l l' -> Forall2 (fun b a => R a b) l' l.
Proof. induction 1; constructor; auto. Qed.

Section Native.
Context {P : Params} {OK : ParamsOk P}.
Local Open Scope fe_scope.
Add Field FFht : (Fp_field_theory modulus modulus_prime).

(** *** MiMC *)
Definition mimc_loop (constants : list F) : F * F -> nat -> outcome (F * F) :=
  fun '(xl, xr) i => obind (index constants i) (fun c => Done ((xl + c) * (xl + c) * (xl + c) + xr, xl)).

Lemma mimc_eq xl xr constants n : mimc xl xr constants n =
  if Nat.eqb (length constants) n then obind (foldM (mimc_loop constants) (seq 0 n) (xl, xr)) (fun '(xl, _) => Done xl) else Panic.
Proof. unfold mimc, assertb. destruct (Nat.eqb _ _); reflexivity. Qed.

Lemma mimc_loop_shift constants c n st :
  foldM (mimc_loop (c :: constants)) (seq 1 n) st = foldM (mimc_loop constants) (seq 0 n) st.
Proof.
  assert (E : seq 1 n = map S (seq 0 n)) by (symmetry; apply seq_shift). rewrite E. clear E.
  generalize (seq 0 n). intros l. revert st. induction l as [|i l IH]; intros st; [reflexivity|]. cbn [map foldM].
  replace (mimc_loop (c :: constants) st (S i)) with (mimc_loop constants st i) by (destruct st; reflexivity).
  destruct (mimc_loop constants st i); cbn; [apply IH|reflexivity].
Qed.

Lemma mimc_loop_value constants : forall xl xr, exists y,
  foldM (mimc_loop constants) (seq 0 (length constants)) (xl, xr) = Done (mimc_value constants xl xr, y).
Proof.
  induction constants as [|c t IH]; intros xl xr; [exists xr; reflexivity|].
  cbn [length seq foldM mimc_value]. cbn. rewrite mimc_loop_shift. apply IH.
Qed.

Lemma mimc_native xl xr constants : mimc xl xr constants (length constants) = Done (mimc_value constants xl xr).
Proof.
  rewrite mimc_eq, Nat.eqb_refl. destruct (mimc_loop_value constants xl xr) as [y ->]. reflexivity.
Qed.
Lemma mimc_native_panic xl xr constants n : length constants <> n -> mimc xl xr constants n = Panic.
Proof. intros H. rewrite mimc_eq. destruct (Nat.eqb_spec (length constants) n); [contradiction|reflexivity]. Qed.

Lemma mimc_loop_firstn constants n j st : (j <= n)%nat -> (n <= length constants)%nat ->
  foldM (mimc_loop (firstn n constants)) (seq 0 j) st = foldM (mimc_loop constants) (seq 0 j) st.
Proof.
  intros Hj Hn. induction j as [|j IH]; [reflexivity|]. rewrite !foldM_seq_S, IH by lia.
  destruct (foldM (mimc_loop constants) (seq 0 j) st) as [[a b]|]; [|reflexivity]. cbn.
  assert (E : index (firstn n constants) j = index constants j).
  { rewrite (index_ok _ _ 0) by (rewrite firstn_length; lia). rewrite (index_ok _ _ 0) by lia. f_equal.
    rewrite <- (firstn_skipn n constants) at 2. rewrite app_nth1 by (rewrite firstn_length; lia). reflexivity. }
  rewrite E. reflexivity.
Qed.

(** *** Poseidon *)
Context (p : poseidon_params) (sbox : sbox_type).

Lemma sbox_value_eq x : apply_sbox sbox x = sbox_value sbox x.
Proof. destruct sbox; cbn; [reflexivity|reflexivity|ring]. Qed.

Lemma vadd_firstn j a b : vadd (firstn j a) (firstn j b) = firstn j (vadd a b).
Proof. unfold vadd. rewrite firstn_map, combine_firstn. reflexivity. Qed.
Lemma vadd_length a b : length (vadd a b) = Nat.min (length a) (length b).
Proof. unfold vadd. rewrite map_length, combine_length. reflexivity. Qed.
Lemma vadd_nth a b j : (j < length a)%nat -> (j < length b)%nat -> nth j (vadd a b) 0 = nth j a 0 + nth j b 0.
Proof.
  unfold vadd. revert b j. induction a as [|x a IH]; intros b j H1 H2; [cbn in H1; lia|].
  destruct b as [|y b]; [cbn in H2; lia|]. destruct j; [reflexivity|]. cbn in *. apply IH; lia.
Qed.

Lemma nth_skipn_add {A} (l : list A) n j d : nth j (skipn n l) d = nth (n + j) l d.
Proof.
  revert n. induction l as [|x t IH]; intros n; [rewrite skipn_nil, !nth_overflow by (cbn; lia); reflexivity|].
  destruct n; [reflexivity|]. cbn. apply IH.
Qed.

Lemma sbox_layer_value xs off j : (off + j <= length (round_keys p))%nat -> (j <= length xs)%nat ->
  foldM (full_sbox_step p sbox) (seq 0 j) (xs, off) =
  Done (map (sbox_value sbox) (firstn j (vadd xs (skipn off (round_keys p)))) ++ skipn j xs, (off + j)%nat).
Proof.
  induction j as [|j IH]; intros Hk Hx; [cbn; rewrite Nat.add_0_r; reflexivity|].
  rewrite foldM_seq_S, IH by lia. cbn [obind]. unfold full_sbox_step.
  set (a := map (sbox_value sbox) (firstn j (vadd xs (skipn off (round_keys p))))).
  assert (Hv : (j < length (vadd xs (skipn off (round_keys p))))%nat) by (rewrite vadd_length, skipn_length; lia).
  assert (La : length a = j) by (unfold a; rewrite map_length, firstn_length; lia).
  rewrite (skipn_nth_cons xs j 0) by lia. rewrite (index_app' a _ _ j La). cbn [obind].
  rewrite (index_ok _ _ 0) by lia. cbn [obind]. rewrite (set_nth_app' a _ _ _ j La). cbn [obind].
  rewrite (firstn_S_nth _ j 0) by exact Hv. rewrite map_app. fold a. rewrite <- app_assoc. cbn [map app].
  rewrite vadd_nth by (rewrite ?skipn_length; lia). rewrite nth_skipn_add, sbox_value_eq.
  repeat f_equal. lia.
Qed.

Lemma add_layer_value xs off j : (off + j <= length (round_keys p))%nat -> (j <= length xs)%nat ->
  foldM (add_key_step p) (seq 0 j) (xs, off) =
  Done (firstn j (vadd xs (skipn off (round_keys p))) ++ skipn j xs, (off + j)%nat).
Proof.
  induction j as [|j IH]; intros Hk Hx; [cbn; rewrite Nat.add_0_r; reflexivity|].
  rewrite foldM_seq_S, IH by lia. cbn [obind]. unfold add_key_step.
  set (a := firstn j (vadd xs (skipn off (round_keys p)))).
  assert (Hv : (j < length (vadd xs (skipn off (round_keys p))))%nat) by (rewrite vadd_length, skipn_length; lia).
  assert (La : length a = j) by (unfold a; rewrite firstn_length; lia).
  rewrite (skipn_nth_cons xs j 0) by lia. rewrite (index_app' a _ _ j La). cbn [obind].
  rewrite (index_ok _ _ 0) by lia. cbn [obind]. rewrite (set_nth_app' a _ _ _ j La). cbn [obind].
  rewrite (firstn_S_nth _ j 0) by exact Hv. fold a. rewrite <- app_assoc. cbn [app].
  rewrite vadd_nth by (rewrite ?skipn_length; lia). rewrite nth_skipn_add.
  repeat f_equal. lia.
Qed.

Lemma fsum_snoc l x : fsum (l ++ [x]) = fsum l + x.
Proof. induction l as [|a l IH]; cbn; [ring|]. rewrite IH. ring. Qed.

Lemma dot_seq a b : length a = length b -> dot a b = fsum (map (fun j => nth j a 0 * nth j b 0) (seq 0 (length a))).
Proof.
  unfold dot. revert b. induction a as [|x a IH]; intros [|y b] H; try discriminate H; [reflexivity|].
  cbn [length seq map combine fsum nth]. rewrite <- seq_shift, map_map. cbn in H. rewrite IH by lia. reflexivity.
Qed.

Lemma linear_layer_value xs : params_ok p -> length xs = width p ->
  linear_layer p xs = Done (vec_mat (width p) xs (MDS_matrix p)).
Proof.
  intros [_ _ Hr Hc] Hx. unfold linear_layer, vec_mat. apply mapM_ok. intros i Hi. apply in_seq in Hi.
  rewrite dot_seq by (unfold column; rewrite map_length; lia). rewrite Hx.
  assert (G : forall n, (n <= width p)%nat -> foldM (fun acc j => obind (index xs j) (fun s => obind (index (MDS_matrix p) j)
     (fun row => obind (index row i) (fun m => Done (acc + s * m))))) (seq 0 n) (0 : F) =
     Done (fsum (map (fun j => nth j xs 0 * nth j (column (MDS_matrix p) i) 0) (seq 0 n)))).
  { induction n as [|n IH]; intros Hn; [reflexivity|]. rewrite foldM_seq_S, IH by lia. cbn [obind].
    rewrite (index_ok xs n 0) by lia. cbn [obind]. rewrite (index_ok (MDS_matrix p) n []) by lia. cbn [obind].
    assert (Hrow : length (nth n (MDS_matrix p) []) = width p).
    { apply (proj1 (Forall_forall _ _) Hc). apply nth_In. lia. }
    rewrite (index_ok _ i 0) by lia. cbn [obind]. rewrite seq_S, map_app. cbn [map Nat.add]. rewrite fsum_snoc.
    do 3 f_equal. unfold column. rewrite (nth_indep (map (fun row => nth i row 0) (MDS_matrix p)) 0 (nth i [] 0)) by (rewrite map_length; lia).
    rewrite (map_nth (fun row => nth i row 0)). reflexivity. }
  apply G. lia.
Qed.

Lemma keys_skip r a : length a = width p -> (S r * width p <= length (round_keys p))%nat ->
  firstn (width p) (vadd a (skipn (r * width p) (round_keys p))) = vadd a (keys_of_round p r).
Proof.
  intros Ha Hk. unfold keys_of_round. rewrite <- vadd_firstn. f_equal. rewrite <- Ha. apply firstn_all.
Qed.

Lemma vec_mat_length t a m : length (vec_mat t a m) = t.
Proof. unfold vec_mat. rewrite map_length, seq_length. reflexivity. Qed.

Lemma full_round_native xs r i : params_ok p -> length xs = width p -> (S r * width p <= length (round_keys p))%nat ->
  full_round p sbox (xs, (r * width p)%nat) i = Done (full_value p sbox xs r, (S r * width p)%nat).
Proof.
  intros Hp Hx Hk. unfold full_round. rewrite sbox_layer_value by (cbn in Hk; lia). cbn [obind].
  rewrite (skipn_all2 xs), app_nil_r by lia. rewrite keys_skip by assumption.
  assert (Hl : length (map (sbox_value sbox) (vadd xs (keys_of_round p r))) = width p).
  { rewrite map_length, vadd_length. unfold keys_of_round. rewrite firstn_length, skipn_length. cbn in Hk. lia. }
  rewrite linear_layer_value by assumption. cbn [obind]. unfold full_value. do 2 f_equal. cbn. lia.
Qed.

Lemma map_last_snoc f l x : map_last f (l ++ [x]) = l ++ [f x].
Proof.
  induction l as [|a l IH]; [reflexivity|]. cbn [app]. change (map_last f (a :: l ++ [x])) with
    (match l ++ [x] with [] => [f a] | _ => a :: map_last f (l ++ [x]) end). rewrite IH.
  destruct (l ++ [x]) eqn:E; [destruct l; discriminate|reflexivity].
Qed.

Lemma partial_round_native xs r i : params_ok p -> length xs = width p -> (S r * width p <= length (round_keys p))%nat ->
  partial_round p sbox (xs, (r * width p)%nat) i = Done (partial_value p sbox xs r, (S r * width p)%nat).
Proof.
  intros Hp Hx Hk. unfold partial_round. rewrite add_layer_value by (cbn in Hk; lia). cbn [obind].
  rewrite (skipn_all2 xs), app_nil_r by lia. rewrite keys_skip by assumption.
  unfold partial_value. set (a := vadd xs (keys_of_round p r)).
  assert (Hl : length a = width p).
  { unfold a. rewrite vadd_length. unfold keys_of_round. rewrite firstn_length, skipn_length. cbn in Hk. lia. }
  pose proof (pk_width _ Hp) as Hw.
  destruct (exists_last (l := a)) as (b & x & E); [intros E; rewrite E in Hl; cbn in Hl; lia|].
  rewrite E in Hl |- *. rewrite app_length in Hl. cbn in Hl.
  assert (Eb : (width p - 1)%nat = length b) by lia. rewrite Eb, index_app. cbn [obind]. rewrite set_nth_app. cbn [obind].
  rewrite map_last_snoc, sbox_value_eq, linear_layer_value; [|exact Hp|rewrite app_length; cbn; lia].
  cbn [obind]. do 2 f_equal. cbn. lia.
Qed.

Lemma rounds_native (f : list F * nat -> nat -> outcome (list F * nat)) (g : list F -> nat -> list F) R :
  (forall xs r i, length xs = width p -> (r < R)%nat -> f (xs, (r * width p)%nat) i = Done (g xs r, (S r * width p)%nat)) ->
  (forall xs r, length (g xs r) = width p) ->
  forall n r l xs, length xs = width p -> (r + n <= R)%nat -> length l = n ->
  foldM f l (xs, (r * width p)%nat) = Done (fold_left g (seq r n) xs, ((r + n) * width p)%nat).
Proof.
  intros Hf Hg. induction n as [|n IH]; intros r l xs Hx Hn Hl.
  - destruct l; [|discriminate]. cbn. rewrite Nat.add_0_r. reflexivity.
  - destruct l as [|i l]; [discriminate|]. cbn [foldM seq fold_left]. rewrite Hf by lia. cbn [obind].
    rewrite IH; [|apply Hg|lia|cbn in Hl; lia]. do 2 f_equal. lia.
Qed.

Lemma fold_left_length (g : list F -> nat -> list F) w l xs :
  (forall xs r, length (g xs r) = w) -> length xs = w -> length (fold_left g l xs) = w.
Proof. intros Hg. revert xs. induction l as [|r l IH]; intros xs Hx; [exact Hx|]. cbn. apply IH. apply Hg. Qed.

Lemma permutation_length xs : length xs = width p -> length (permutation_value p sbox xs) = width p.
Proof.
  intros H. unfold permutation_value.
  repeat (apply fold_left_length; [intros; apply vec_mat_length|]). exact H.
Qed.

Lemma permutation_native xs : params_ok p -> length xs = width p ->
  Poseidon_permutation p sbox xs = Done (permutation_value p sbox xs).
Proof.
  intros Hp Hx. pose proof (pk_keys _ Hp) as Hk. unfold Poseidon_permutation. rewrite Hx, Nat.eqb_refl. cbn [assertb obind].
  set (a := full_rounds_beginning p) in *. set (b := partial_rounds p) in *. set (c := full_rounds_end p) in *.
  assert (HR : forall r, (r < a + b + c)%nat -> (S r * width p <= length (round_keys p))%nat).
  { intros r Hr. etransitivity; [|exact Hk]. apply Nat.mul_le_mono_r. lia. }
  change (xs, O) with (xs, (0 * width p)%nat).
  rewrite (rounds_native _ (full_value p sbox) (a + b + c)) with (n := a);
    [|intros; apply full_round_native; auto|intros; apply vec_mat_length|exact Hx|lia|apply seq_length]. cbn [obind].
  rewrite (rounds_native _ (partial_value p sbox) (a + b + c)) with (n := b);
    [|intros; apply partial_round_native; auto|intros; apply vec_mat_length| |lia|apply seq_length]. 2:{ apply fold_left_length; [intros; apply vec_mat_length|exact Hx]. }
  cbn [obind].
  rewrite (rounds_native _ (full_value p sbox) (a + b + c)) with (n := c);
    [|intros; apply full_round_native; auto|intros; apply vec_mat_length| |lia|apply seq_length].
  2:{ repeat (apply fold_left_length; [intros; apply vec_mat_length|]). exact Hx. }
  reflexivity.
Qed.

Lemma permutation_wrong_length xs : length xs <> width p -> Poseidon_permutation p sbox xs = Panic.
Proof. intros H. unfold Poseidon_permutation. destruct (Nat.eqb_spec (length xs) (width p)); [contradiction|reflexivity]. Qed.

Lemma hash_2_native xl xr : params_ok p -> width p = 3%nat -> Poseidon_hash_2 p sbox xl xr = Done (hash_value p sbox [xl; xr]).
Proof.
  intros Hp Hw. unfold Poseidon_hash_2. rewrite permutation_native by (auto; cbn; lia). cbn [obind].
  apply index_ok. rewrite permutation_length by (cbn; lia). lia.
Qed.
Lemma hash_4_native xs : params_ok p -> width p = 5%nat -> length xs = 4%nat -> Poseidon_hash_4 p sbox xs = Done (hash_value p sbox xs).
Proof.
  intros Hp Hw Hx. unfold Poseidon_hash_4. rewrite Hx. cbn [Nat.eqb assertb obind].
  rewrite permutation_native by (auto; cbn; lia). cbn [obind].
  apply index_ok. rewrite permutation_length by (cbn; lia). lia.
Qed.
Lemma hash_8_native xs : params_ok p -> width p = 9%nat -> length xs = 8%nat -> Poseidon_hash_8 p sbox xs = Done (hash_value p sbox xs).
Proof.
  intros Hp Hw Hx. unfold Poseidon_hash_8. rewrite Hx. cbn [Nat.eqb assertb obind].
  rewrite permutation_native by (auto; cbn; lia). cbn [obind].
  apply index_ok. rewrite permutation_length by (cbn; lia). lia.
Qed.
End Native.
