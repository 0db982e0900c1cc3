(** The hash database and digit representations. *)
From Coq Require Import ZArith List Bool Lia Arith.
From Verif.Base Require Import Outcome Fp Params Algebra.
From Verif.Model Require Import Transcript IPP Hash Merkle.
From Verif.Spec Require Import MerkleSpec.
Import ListNotations.

Lemma bytes_eqb_spec (a b : list Z) : bytes_eqb a b = true <-> a = b.
Proof.
  revert b; induction a as [|x a IH]; intros [|y b]; cbn; split; intros E; try discriminate; try reflexivity.
  - apply andb_prop in E as [E1 E2]. apply Z.eqb_eq in E1. apply IH in E2. congruence.
  - injection E as -> ->. rewrite Z.eqb_refl. cbn. apply IH. reflexivity.
Qed.

Lemma bytes_eqb_refl (a : list Z) : bytes_eqb a a = true.
Proof. apply bytes_eqb_spec. reflexivity. Qed.

Lemma db_get_insert {T} (k k' : list Z) (v : T) (db : hash_db) :
  db_get (db_insert k v db) k' = if list_eq_dec Z.eq_dec k k' then Ok v else db_get db k'.
Proof.
  induction db as [|[k0 v0] t IH]; cbn.
  - destruct (bytes_eqb k k') eqn:E.
    + apply bytes_eqb_spec in E. destruct (list_eq_dec Z.eq_dec k k'); [reflexivity|contradiction].
    + destruct (list_eq_dec Z.eq_dec k k') as [->|]; [rewrite bytes_eqb_refl in E; discriminate|reflexivity].
  - destruct (bytes_eqb k0 k) eqn:E; cbn.
    + apply bytes_eqb_spec in E. subst k0. destruct (bytes_eqb k k') eqn:E.
      * apply bytes_eqb_spec in E. destruct (list_eq_dec Z.eq_dec k k'); [reflexivity|contradiction].
      * destruct (list_eq_dec Z.eq_dec k k') as [->|]; [rewrite bytes_eqb_refl in E; discriminate|reflexivity].
    + destruct (bytes_eqb k0 k') eqn:E'.
      * apply bytes_eqb_spec in E'. subst k0. destruct (list_eq_dec Z.eq_dec k k') as [->|]; [rewrite bytes_eqb_refl in E; discriminate|reflexivity].
      * exact IH.
Qed.

Lemma db_get_missing {T} (db : @hash_db T) k e : db_get db k = Err e -> e = HashNotFoundInDB k.
Proof. induction db as [|[k0 v0] t IH]; cbn; [congruence|]. destruct (bytes_eqb k0 k); [discriminate|exact IH]. Qed.

Lemma inserted_app {T} (ins : list (list Z * T)) k v : inserted (ins ++ [(k, v)]) = db_insert k v (inserted ins).
Proof. unfold inserted. rewrite fold_left_app. reflexivity. Qed.

Lemma last_inserted_app {T} (ins : list (list Z * T)) k v key :
  last_inserted (ins ++ [(k, v)]) key = if list_eq_dec Z.eq_dec k key then Some v else last_inserted ins key.
Proof.
  induction ins as [|[k0 v0] t IH]; cbn.
  - destruct (list_eq_dec Z.eq_dec k key); reflexivity.
  - rewrite IH. destruct (list_eq_dec Z.eq_dec k key); [reflexivity|]. reflexivity.
Qed.

Lemma db_semantics {T} (ins : list (list Z * T)) (key : list Z) :
  db_get (inserted ins) key = match last_inserted ins key with Some v => Ok v | None => Err (HashNotFoundInDB key) end.
Proof.
  induction ins as [|[k v] ins IH] using rev_ind; [reflexivity|].
  rewrite inserted_app, last_inserted_app, db_get_insert.
  destruct (list_eq_dec Z.eq_dec k key); [reflexivity|exact IH].
Qed.

(** *** Digits *)
Section Digits.
Context (arity : nat) (Ha : (1 < arity)%nat).
Local Notation A := (Z.of_nat arity).
Local Open Scope Z_scope.

Lemma A_pos : 0 < A. Proof. lia. Qed.

Lemma pow_pos k : 0 < A ^ Z.of_nat k.
Proof. apply Z.pow_pos_nonneg; lia. Qed.

Lemma pow_S k : A ^ Z.of_nat (S k) = A * A ^ Z.of_nat k.
Proof. rewrite Nat2Z.inj_succ, Z.pow_succ_r by lia. reflexivity. Qed.

Lemma digit_lt i k : (digit arity i k < arity)%nat.
Proof.
  unfold digit. assert (Hm := Z.mod_pos_bound (i / A ^ Z.of_nat k) A A_pos).
  apply Nat2Z.inj_lt. rewrite Z2Nat.id; lia.
Qed.

Lemma digit_S s k : digit arity s (S k) = digit arity (s / A) k.
Proof.
  unfold digit. rewrite pow_S. rewrite Z.div_div by (try apply pow_pos; pose proof A_pos; lia). reflexivity.
Qed.

Lemma digit_zero k : digit arity 0 k = O.
Proof. unfold digit. rewrite Z.div_0_l by (pose proof (pow_pos k); lia). rewrite Z.mod_0_l by lia. reflexivity. Qed.

Lemma repr_digits_spec k : forall s, 0 <= s -> repr_digits arity k s = map (digit arity s) (seq 0 k).
Proof.
  induction k as [|k IH]; intros s Hs; cbn [repr_digits]; [reflexivity|].
  destruct (Z.eqb_spec s 0) as [->|Hn].
  - clear - Ha. generalize (S k). intros n. transitivity (map (fun _ : nat => O) (seq 0 n)).
    + generalize 0%nat at 3. induction n; intros s; cbn; [reflexivity|]. rewrite <- IHn. reflexivity.
    + apply map_ext. intros. symmetry. apply digit_zero.
  - rewrite IH by (apply Z.div_pos; lia).
    cbn [seq map]. f_equal.
    + unfold digit. cbn. rewrite Z.div_1_r. reflexivity.
    + rewrite <- seq_shift, map_map. apply map_ext. intros j. symmetry. apply digit_S.
Qed.

Lemma rev_seq_S k : rev (seq 0 (S k)) = k :: rev (seq 0 k).
Proof. rewrite seq_S, rev_app_distr. reflexivity. Qed.

Lemma ancestor_digit i k : A * ancestor arity i (S k) + Z.of_nat (digit arity i k) = ancestor arity i k.
Proof.
  unfold ancestor, digit. rewrite pow_S, (Z.mul_comm A (A ^ Z.of_nat k)), <- Z.div_div by (try apply pow_pos; pose proof (pow_pos k); lia).
  rewrite Z2Nat.id by (apply Z.mod_pos_bound; lia).
  symmetry. apply Z.div_mod. lia.
Qed.

Lemma digit_mod i d k : (k < d)%nat -> digit arity (i mod A ^ Z.of_nat d) k = digit arity i k.
Proof.
  intros Hk. unfold digit. f_equal.
  replace (A ^ Z.of_nat d) with (A ^ Z.of_nat k * (A * A ^ Z.of_nat (d - S k))).
  2:{ rewrite <- pow_S, <- Z.pow_add_r by lia. f_equal. lia. }
  pose proof (pow_pos k). pose proof (pow_pos (d - S k)).
  rewrite Z.rem_mul_r by (try lia; nia).
  rewrite Z.add_comm, Z.mul_comm, Z.div_add_l by lia.
  rewrite (Z.div_small (i mod _)) by (apply Z.mod_pos_bound; lia). rewrite Z.add_0_r.
  rewrite Z.rem_mul_r by lia.
  rewrite Z.mul_comm, Z.mod_add by lia. apply Z.mod_mod. lia.
Qed.

Lemma ancestor_range i d k : 0 <= i < A ^ Z.of_nat d -> (k <= d)%nat -> 0 <= ancestor arity i k < A ^ Z.of_nat (d - k).
Proof.
  intros Hi Hk. unfold ancestor. pose proof (pow_pos k).
  split; [apply Z.div_pos; lia|].
  apply Z.div_lt_upper_bound; [lia|]. rewrite <- Z.pow_add_r by lia.
  replace (Z.of_nat k + Z.of_nat (d - k)) with (Z.of_nat d) by lia. lia.
Qed.

Lemma number_digits k : forall i, 0 <= i -> number arity (map (digit arity i) (rev (seq 0 k))) = i mod A ^ Z.of_nat k.
Proof.
  assert (Hg : forall k i n, fold_left (fun n d => n * A + Z.of_nat d) (map (digit arity i) (rev (seq 0 k))) n
             = n * A ^ Z.of_nat k + i mod A ^ Z.of_nat k).
  { clear k. induction k as [|k IH]; intros i n.
    - cbn. rewrite Z.mod_1_r. lia.
    - rewrite rev_seq_S. cbn [map fold_left]. rewrite IH.
      rewrite pow_S. rewrite (Z.mul_comm A (A ^ Z.of_nat k)). pose proof (pow_pos k).
      rewrite Z.rem_mul_r by lia. unfold digit. rewrite Z2Nat.id by (apply Z.mod_pos_bound; lia).
      ring. }
  intros i Hi. unfold number. rewrite Hg. lia.
Qed.

Lemma number_range ds : Forall (fun d => (d < arity)%nat) ds -> 0 <= number arity ds < A ^ Z.of_nat (length ds).
Proof.
  unfold number. intros Hf.
  assert (Hg : forall n m, 0 <= n < m -> 0 <= fold_left (fun n d => n * A + Z.of_nat d) ds n < m * A ^ Z.of_nat (length ds)).
  { induction Hf as [|d t Hd _ IH]; intros n m Hn; cbn [fold_left length].
    - cbn. lia.
    - rewrite pow_S, Z.mul_assoc. apply IH. nia. }
  specialize (Hg 0 1). lia.
Qed.
End Digits.

Section Bytes.
Local Open Scope nat_scope.

Lemma byte_size_done n k : get_byte_size n (2 ^ k) = Done ((n * k + 7) / 8).
Proof.
  unfold get_byte_size, get_bit_count.
  assert (Hp : is_power_of_two (2 ^ k) = true).
  { unfold is_power_of_two. rewrite Nat.log2_pow2 by lia. rewrite Nat.eqb_refl, andb_true_r.
    apply negb_true_iff, Nat.eqb_neq. apply Nat.pow_nonzero. lia. }
  rewrite Hp. cbn [assertb obind]. rewrite Nat.log2_pow2 by lia. f_equal.
  generalize (n * k). intros b.
  pose proof (Nat.div_mod_eq b 8). pose proof (Nat.mod_upper_bound b 8 ltac:(lia)).
  destruct (Nat.eqb_spec (b mod 8) 0) as [E|E].
  - apply Nat.div_unique with (r := 7); lia.
  - apply Nat.div_unique with (r := b mod 8 - 1); lia.
Qed.

Lemma pow256 b : (256 ^ b = 2 ^ (8 * b))%Z \/ (b < 0)%Z.
Proof. destruct (Z.lt_ge_cases b 0); [right; assumption|left]. rewrite Z.pow_mul_r by lia. reflexivity. Qed.

Lemma byte_size_least n k b :
  get_byte_size n (2 ^ k) = Done b ->
  ((2 ^ Z.of_nat k) ^ Z.of_nat n <= 256 ^ Z.of_nat b)%Z /\
  (forall b', ((2 ^ Z.of_nat k) ^ Z.of_nat n <= 256 ^ Z.of_nat b')%Z -> b <= b').
Proof.
  rewrite byte_size_done. intros E.
  assert (Hb : b = (n * k + 7) / 8) by congruence. clear E. subst b.
  assert (He : forall b, (256 ^ Z.of_nat b = 2 ^ (8 * Z.of_nat b))%Z).
  { intros b. destruct (pow256 (Z.of_nat b)); [assumption|lia]. }
  rewrite <- Z.pow_mul_r by lia. rewrite He.
  pose proof (Nat.div_mod_eq (n * k + 7) 8). pose proof (Nat.mod_upper_bound (n * k + 7) 8 ltac:(lia)).
  replace (Z.of_nat k * Z.of_nat n)%Z with (Z.of_nat (n * k)) by lia.
  generalize dependent (n * k). intros m Hd Hm.
  set (q := (m + 7) / 8) in *. clearbody q. set (r := (m + 7) mod 8) in *. clearbody r.
  split.
  - apply Z.pow_le_mono_r; lia.
  - intros b' Hb. rewrite He in Hb. apply Z.pow_le_mono_r_iff in Hb; [|lia|lia].
    lia.
Qed.
End Bytes.

Section Repr.
Context {P : Params} {OK : ParamsOk P}.
Local Notation arity_of k := (2 ^ k)%nat.

Lemma base_repr_done k (Hk : (0 < k)%nat) (x : F) n :
  get_base_repr (arity_of k) x n =
  if Nat.leb ((n * k + 7) / 8) modbytes then Done (map (digit (arity_of k) (fval x)) (rev (seq 0 n))) else Panic.
Proof.
  unfold get_base_repr. rewrite byte_size_done. cbn [obind].
  destruct (Nat.leb _ _); cbn [assertb obind]; [|reflexivity].
  rewrite repr_digits_spec, map_rev; [reflexivity| |].
  - apply Nat.pow_gt_1; lia.
  - pose proof (fval_range modulus modulus_prime x). lia.
Qed.
End Repr.
