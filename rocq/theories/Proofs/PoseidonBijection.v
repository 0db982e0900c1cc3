(** The Poseidon permutation is onto; collisions with the cube S-box. *)
From Coq Require Import ZArith Znumtheory List Lia Bool Ring Field.
From Verif.Base Require Import Outcome Fp Params Algebra.
From Verif.Model Require Import Hash PoseidonConstants PoseidonNew.
From Verif.Spec Require Import R1CS HashSpec PoseidonSpec.
From Verif.Proofs Require Import HashTools Fermat PoseidonMain.
Import ListNotations.

Section Bijection.
Context {P : Params} {OK : ParamsOk P}.
Local Open Scope fe_scope.
Add Field Fp_pbij : (Fp_field_theory modulus modulus_prime).

(** all vectors with [n] elements *)
Fixpoint vectors (n : nat) : list (list F) :=
  match n with
  | O => [[]]
  | S n => flat_map (fun a => map (cons a) (vectors n)) (0 :: units)
  end.
Lemma in_vectors n : forall x : list F, In x (vectors n) <-> length x = n.
Proof.
  induction n as [|n IH]; intros x.
  - cbn. split; [intros [<-|[]]; reflexivity|]. intros H. left. destruct x; [reflexivity|discriminate].
  - cbn [vectors]. rewrite in_flat_map. split.
    + intros (a & _ & H). apply in_map_iff in H as (y & <- & Hy). apply IH in Hy. cbn. congruence.
    + destruct x as [|a x]; [discriminate|]. intros H. injection H as H. exists a. split.
      * destruct (Fp_eq_dec _ a 0) as [->|Hn]; [left; reflexivity|right]. apply in_units. exact Hn.
      * apply in_map. apply IH. exact H.
Qed.

Lemma vec_eq_dec (x y : list F) : {x = y} + {x <> y}.
Proof. apply list_eq_dec. apply Fp_eq_dec. Qed.

Lemma nodup_map_on {A B} (f : A -> B) l : NoDup l -> (forall x y, In x l -> In y l -> f x = f y -> x = y) -> NoDup (map f l).
Proof.
  induction 1 as [|a l Hn Hd IH]; intros Hf; [constructor|]. cbn [map]. constructor.
  - intros Hin. apply in_map_iff in Hin as (b & E & Hb). apply Hf in E; [|right; exact Hb|left; reflexivity]. subst b. contradiction.
  - apply IH. intros x y Hx Hy. apply Hf; right; assumption.
Qed.

Lemma injective_onto n (f : list F -> list F) : (forall x, length x = n -> length (f x) = n) ->
  (forall x y, length x = n -> length y = n -> f x = f y -> x = y) ->
  forall y, length y = n -> exists x, length x = n /\ f x = y.
Proof.
  intros Hl Hi y Hy. set (all := nodup vec_eq_dec (vectors n)).
  assert (Hall : forall x, In x all <-> length x = n) by (intros x; unfold all; rewrite nodup_In; apply in_vectors).
  assert (Hd : NoDup (map f all)).
  { apply nodup_map_on; [apply NoDup_nodup|]. intros a b Ha Hb. apply Hi; apply Hall; assumption. }
  assert (Hin : incl all (map f all)).
  { apply NoDup_length_incl; [exact Hd|rewrite map_length; lia|].
    intros z Hz. apply in_map_iff in Hz as (x & <- & Hx). apply Hall. apply Hl. apply Hall. exact Hx. }
  specialize (Hin y (proj2 (Hall y) Hy)). apply in_map_iff in Hin as (x & E & Hx). exists x. split; [apply Hall; exact Hx|exact E].
Qed.

Lemma permutation_len p sbox x : length x = width p -> length (permutation_value p sbox x) = width p.
Proof.
  intros Hx. unfold permutation_value. apply fold_len; [apply full_len|].
  apply fold_len; [apply partial_len|]. apply fold_len; [apply full_len|exact Hx].
Qed.

Theorem permutation_bijective_matrix p sbox : params_ok p ->
  (forall x y, length x = width p -> length y = width p -> vec_mat (width p) x (MDS_matrix p) = vec_mat (width p) y (MDS_matrix p) -> x = y) ->
  sbox_invertible sbox ->
  forall y, length y = width p -> exists! x, Poseidon_permutation p sbox x = Done y.
Proof.
  intros Hp Hm Hs y Hy.
  destruct (injective_onto (width p) (permutation_value p sbox) (permutation_len p sbox)
    (permutation_injective p sbox Hp Hm Hs) y Hy) as (x & Hx & E).
  exists x. split.
  - rewrite permutation_native by assumption. rewrite E. reflexivity.
  - intros x' E'. destruct (Nat.eq_dec (length x') (width p)) as [Hx'|Hn].
    + rewrite permutation_native in E' by assumption. injection E' as E'.
      apply (permutation_injective p sbox Hp Hm Hs); [exact Hx|exact Hx'|congruence].
    + rewrite permutation_wrong_length in E' by exact Hn. discriminate.
Qed.

Theorem permutation_bijective p sbox : params_ok p -> mds (width p) (MDS_matrix p) -> sbox_invertible sbox ->
  forall y, length y = width p -> exists! x, Poseidon_permutation p sbox x = Done y.
Proof. intros Hp Hm. apply permutation_bijective_matrix; [exact Hp|]. intros x y. apply mds_injective. exact Hm. Qed.

(** *** The cube S-box when three divides the order minus one *)
Fixpoint replace (i : nat) (a : F) (l : list F) : list F :=
  match l, i with
  | [], _ => []
  | _ :: l, O => a :: l
  | b :: l, S i => b :: replace i a l
  end.
Lemma replace_length i a l : length (replace i a l) = length l.
Proof. revert i. induction l as [|b l IH]; intros [|i]; cbn; try reflexivity. f_equal. apply IH. Qed.
Lemma replace_nth i a l : (i < length l)%nat -> nth i (replace i a l) 0 = a.
Proof. revert i. induction l as [|b l IH]; intros [|i] H; cbn in *; try lia; [reflexivity|]. apply IH. lia. Qed.

Lemma replace_cubed c k : forall x i, length x = length k -> c * c * c = 1 -> (i < length x)%nat ->
  map (sbox_value Cube) (HashSpec.vadd (replace i (c * (nth i x 0 + nth i k 0) - nth i k 0) x) k) =
  map (sbox_value Cube) (HashSpec.vadd x k).
Proof.
  induction k as [|b k IH]; intros [|a x] i Hl Hc Hi; try discriminate; [cbn in Hi; lia|]. destruct i as [|i].
  - cbn [replace nth HashSpec.vadd combine map]. f_equal. cbn [sbox_value].
    transitivity (c * c * c * ((a + b) * (a + b) * (a + b))); [ring|]. rewrite Hc. ring.
  - cbn [replace nth HashSpec.vadd combine map]. f_equal. apply IH; [injection Hl as Hl; exact Hl|exact Hc|cbn in Hi; lia].
Qed.


Theorem cube_collision p i x : (modulus mod 3 = 1)%Z -> params_ok p -> (0 < full_rounds_beginning p)%nat ->
  length x = width p -> (i < width p)%nat -> nth i x 0 + nth i (round_keys p) 0 <> 0 ->
  exists a, a <> nth i x 0 /\ permutation_value p Cube (replace i a x) = permutation_value p Cube x.
Proof.
  intros Hm Hp Hf Hx Hi Hn. destruct (cube_root Hm) as (c & Hc & Hc1).
  assert (Hk : length (keys_of_round p 0) = width p) by (apply keys_len; [exact Hp|lia]).
  assert (Ek : nth i (keys_of_round p 0) 0 = nth i (round_keys p) 0).
  { unfold keys_of_round. cbn [Nat.mul skipn]. rewrite <- (firstn_skipn (width p) (round_keys p)) at 2.
    rewrite app_nth1; [reflexivity|]. unfold keys_of_round in Hk. cbn [Nat.mul skipn] in Hk. lia. }
  exists (c * (nth i x 0 + nth i (round_keys p) 0) - nth i (round_keys p) 0). split.
  - intros E. apply Hc1. apply F_sub_zero.
    assert (H0 : (c - 1) * (nth i x 0 + nth i (round_keys p) 0) = 0).
    { transitivity (c * (nth i x 0 + nth i (round_keys p) 0) - nth i (round_keys p) 0 - nth i x 0); [ring|]. rewrite E. ring. }
    apply F_mul_integral in H0 as [H0|H0]; [exact H0|contradiction].
  - unfold permutation_value. destruct (full_rounds_beginning p) as [|fb] eqn:Efb; [lia|]. cbn [seq fold_left].
    do 3 f_equal. unfold full_value. f_equal. rewrite <- Ek. apply replace_cubed; [congruence|exact Hc|congruence].
Qed.

Theorem hash_cube_collision p i xs : (modulus mod 3 = 1)%Z -> params_ok p -> (0 < full_rounds_beginning p)%nat ->
  S (length xs) = width p -> (i < length xs)%nat -> nth i xs 0 + nth (S i) (round_keys p) 0 <> 0 ->
  exists ys, length ys = length xs /\ ys <> xs /\ hash_value p Cube ys = hash_value p Cube xs.
Proof.
  intros Hm Hp Hf Hx Hi Hn.
  destruct (cube_collision p (S i) (0 :: xs) Hm Hp Hf) as (a & Ha & E); [cbn; lia|lia|exact Hn|].
  exists (replace i a xs). split; [apply replace_length|]. split.
  - intros E'. apply Ha. cbn [nth]. rewrite <- (replace_nth i a xs Hi). rewrite E'. reflexivity.
  - unfold hash_value. cbn [replace] in E. rewrite E. reflexivity.
Qed.
End Bijection.

(** *** The parameters of the crate *)
Section Crate.
Context {P : Params} {OK : ParamsOk P}.
Local Open Scope fe_scope.
Add Field Fp_pbls : (Fp_field_theory modulus modulus_prime).
Context (Hbytes : (32 <= modbytes)%nat) (c : curve) (Hmod : modulus = table_order c).

Lemma new_done w fb fe pr p : PoseidonParams_new c w fb fe pr = Done p ->
  supported c w (fb + pr + fe) /\
  width p = w /\ full_rounds_beginning p = fb /\ full_rounds_end p = fe /\ partial_rounds p = pr /\
  round_keys p = map constant (firstn ((fb + pr + fe) * w) (round_consts c w)) /\
  MDS_matrix p = map (map constant) (mds_entries c w) /\
  params_ok p.
Proof.
  intros E. pose proof (params_new Hbytes c w fb fe pr) as H. rewrite E in H. destruct H as (H1 & -> & H2).
  cbn. repeat split; try assumption; apply H2.
Qed.
Lemma new_panic w fb fe pr : PoseidonParams_new c w fb fe pr = Panic <-> ~ supported c w (fb + pr + fe).
Proof.
  pose proof (params_new Hbytes c w fb fe pr) as H. destruct (PoseidonParams_new c w fb fe pr) as [p|].
  - split; [discriminate|]. intros Hn. destruct H as [H _]. contradiction.
  - split; [intros _; exact H|reflexivity].
Qed.
Lemma new_entry w fb fe pr p i j : PoseidonParams_new c w fb fe pr = Done p -> (i < w)%nat -> (j < w)%nat ->
  nth i (nth j (MDS_matrix p) []) 0 * of_Z modulus (Z.of_nat (w + i + j)) = 1.
Proof.
  intros E Hi Hj. apply new_done in E as (Hs & _ & _ & _ & _ & _ & -> & _). apply supported_eq in Hs as [Hw _].
  apply (entry_inverse c); assumption.
Qed.
Lemma new_mds w fb fe pr p : PoseidonParams_new c w fb fe pr = Done p -> mds (width p) (MDS_matrix p).
Proof.
  intros E. apply new_done in E as (Hs & -> & _ & _ & _ & _ & -> & _). apply supported_eq in Hs as [Hw _].
  apply table_mds; assumption.
Qed.
Lemma new_bijective w fb fe pr p sbox : PoseidonParams_new c w fb fe pr = Done p -> sbox = Quint \/ sbox = Inverse ->
  forall y, length y = w -> exists! x, Poseidon_permutation p sbox x = Done y.
Proof.
  intros E Hs y Hy. pose proof (new_mds _ _ _ _ _ E) as Hm. apply new_done in E as (_ & Ew & _ & _ & _ & _ & _ & Hp).
  apply permutation_bijective; [exact Hp|exact Hm| |congruence].
  destruct Hs as [-> | ->]; cbn [sbox_invertible]; [|exact I]. rewrite Hmod. destruct c; vm_compute; reflexivity.
Qed.
Lemma order_mod_3 : (modulus mod 3 = 1)%Z.
Proof. rewrite Hmod. destruct c; reflexivity. Qed.
Lemma new_cube_collision_2 fb fe pr p x y : PoseidonParams_new c 3 fb fe pr = Done p -> (0 < fb)%nat ->
  x + nth 1 (round_keys p) 0 <> 0 \/ y + nth 2 (round_keys p) 0 <> 0 ->
  exists x' y', (x', y') <> (x, y) /\ Poseidon_hash_2 p Cube x' y' = Poseidon_hash_2 p Cube x y.
Proof.
  intros E Hf Hn. apply new_done in E as (_ & Ew & Ef & _ & _ & _ & _ & Hp).
  assert (H : exists ys, length ys = 2%nat /\ ys <> [x; y] /\ hash_value p Cube ys = hash_value p Cube [x; y]).
  { destruct Hn as [Hn|Hn];
    [apply (hash_cube_collision p 0 [x; y] order_mod_3 Hp)|apply (hash_cube_collision p 1 [x; y] order_mod_3 Hp)];
    try (cbn; lia); exact Hn. }
  destruct H as (ys & Hl & Hne & E). destruct ys as [|x' [|y' [|]]]; try discriminate.
  exists x', y'. split; [intros E'; injection E' as -> ->; apply Hne; reflexivity|].
  rewrite !hash_2_native by assumption. rewrite E. reflexivity.
Qed.
Lemma new_cube_collision_4 fb fe pr p i xs : PoseidonParams_new c 5 fb fe pr = Done p -> (0 < fb)%nat -> length xs = 4%nat ->
  (i < 4)%nat -> nth i xs 0 + nth (S i) (round_keys p) 0 <> 0 ->
  exists ys, ys <> xs /\ Poseidon_hash_4 p Cube ys = Poseidon_hash_4 p Cube xs.
Proof.
  intros E Hf Hl Hi Hn. apply new_done in E as (_ & Ew & Ef & _ & _ & _ & _ & Hp).
  destruct (hash_cube_collision p i xs order_mod_3 Hp) as (ys & Hly & Hne & E); try lia; [exact Hn|].
  exists ys. split; [exact Hne|]. rewrite !hash_4_native by (try assumption; congruence). rewrite E. reflexivity.
Qed.
Lemma new_cube_collision_8 fb fe pr p i xs : PoseidonParams_new c 9 fb fe pr = Done p -> (0 < fb)%nat -> length xs = 8%nat ->
  (i < 8)%nat -> nth i xs 0 + nth (S i) (round_keys p) 0 <> 0 ->
  exists ys, ys <> xs /\ Poseidon_hash_8 p Cube ys = Poseidon_hash_8 p Cube xs.
Proof.
  intros E Hf Hl Hi Hn. apply new_done in E as (_ & Ew & Ef & _ & _ & _ & _ & Hp).
  destruct (hash_cube_collision p i xs order_mod_3 Hp) as (ys & Hly & Hne & E); try lia; [exact Hn|].
  exists ys. split; [exact Hne|]. rewrite !hash_8_native by (try assumption; congruence). rewrite E. reflexivity.
Qed.
(** hence the permutation itself is not injective *)
Lemma new_cube_not_injective w fb fe pr p : PoseidonParams_new c w fb fe pr = Done p -> (0 < fb)%nat ->
  exists x y z, x <> y /\ Poseidon_permutation p Cube x = Done z /\ Poseidon_permutation p Cube y = Done z.
Proof.
  intros E Hf. apply new_done in E as (_ & Ew & Ef & _ & _ & _ & _ & Hp).
  set (k := nth 0 (round_keys p) 0). set (x := (1 - k) :: repeat 0 (width p - 1)).
  pose proof (pk_width _ Hp) as Hw0.
  assert (Hx : length x = width p) by (unfold x; cbn; rewrite repeat_length; lia).
  destruct (cube_collision p 0 x order_mod_3 Hp) as (a & Ha & Ec); [lia|exact Hx|lia| |].
  { unfold x. cbn [nth]. fold k. intros H. apply F_one_neq_zero. etransitivity; [|exact H]. ring. }
  exists (replace 0 a x), x, (permutation_value p Cube x). split; [|split].
  - intros E'. apply Ha. rewrite <- E'. symmetry. apply replace_nth. lia.
  - rewrite permutation_native; [rewrite Ec; reflexivity|exact Hp|rewrite replace_length; exact Hx].
  - apply permutation_native; assumption.
Qed.
End Crate.
