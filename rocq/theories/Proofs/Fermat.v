(** Fermat's little theorem, exponents prime to the order minus one, cube roots of one. *)
From Coq Require Import ZArith Znumtheory List Lia Bool Ring Field Permutation.
From Verif.Base Require Import Outcome Fp Params Algebra.
From Verif.Spec Require Import R1CS Protocol.
From Verif.Proofs Require Import RootProofs.
Import ListNotations.

Section Fermat.
Context {P : Params} {OK : ParamsOk P}.
Local Open Scope fe_scope.
Add Field Fp_fermat : (Fp_field_theory modulus modulus_prime).

(** all elements but 0 *)
Definition units : list F := map (fun i => of_Z modulus (Z.of_nat i)) (seq 1 (Z.to_nat modulus - 1)).

Lemma units_length : length units = (Z.to_nat modulus - 1)%nat.
Proof. unfold units. rewrite map_length, seq_length. reflexivity. Qed.

Lemma of_nat_val i : (i < Z.to_nat modulus)%nat -> fval (of_Z modulus (Z.of_nat i)) = Z.of_nat i.
Proof.
  intros Hi. pose proof (p_gt_1 _ modulus_prime). rewrite fval_of_Z. apply Z.mod_small. lia.
Qed.

Lemma units_nodup : NoDup units.
Proof.
  unfold units. pose proof (seq_NoDup (Z.to_nat modulus - 1) 1) as H.
  assert (Hin : forall i, In i (seq 1 (Z.to_nat modulus - 1)) -> (i < Z.to_nat modulus)%nat).
  { intros i Hi. apply in_seq in Hi. lia. }
  revert H Hin. generalize (seq 1 (Z.to_nat modulus - 1)). intros l H Hin.
  induction H as [|i l Hni Hnd IH]; [constructor|]. cbn [map]. constructor.
  - rewrite in_map_iff. intros (j & E & Hj). apply Hni.
    apply (f_equal (@fval _)) in E. rewrite !of_nat_val in E; [|apply Hin; left; reflexivity|apply Hin; right; exact Hj].
    apply Nat2Z.inj in E. subst j. exact Hj.
  - apply IH. intros j Hj. apply Hin. right. exact Hj.
Qed.

Lemma in_units (x : F) : In x units <-> x <> 0.
Proof.
  pose proof (p_gt_1 _ modulus_prime). split.
  - intros Hin E. subst x. apply in_map_iff in Hin as (i & E & Hi). apply in_seq in Hi.
    apply (f_equal (@fval _)) in E. rewrite of_nat_val in E by lia. unfold fzero in E. rewrite fval_of_Z, Z.mod_0_l in E; lia.
  - intros Hx. apply fval_nonzero in Hx; [|exact modulus_prime]. pose proof (fval_range _ modulus_prime x) as Hr.
    apply in_map_iff. exists (Z.to_nat (fval x)). split.
    + rewrite Z2Nat.id by lia. apply of_Z_fval.
    + apply in_seq. lia.
Qed.

Lemma units_scale a : a <> 0 -> Permutation units (map (fun x => a * x) units).
Proof.
  intros Ha. apply NoDup_Permutation_bis.
  - exact units_nodup.
  - rewrite map_length. apply Nat.le_refl.
  - intros x Hx. apply in_map_iff. exists (finv a * x). split.
    + rewrite <- (Rmul_1_l (Fp_ring_theory modulus) x) at 2. rewrite <- (finv_r a Ha). ring.
    + apply in_units. apply F_mul_nonzero; [apply finv_nonzero; exact Ha|apply in_units; exact Hx].
Qed.

Fixpoint fprod (l : list F) : F := match l with [] => 1 | x :: l => x * fprod l end.
Lemma fprod_perm a b : Permutation a b -> fprod a = fprod b.
Proof. induction 1; cbn [fprod]; try congruence. ring. Qed.
Lemma fprod_scale a l : fprod (map (fun x => a * x) l) = fpow a (length l) * fprod l.
Proof. induction l as [|x l IH]; cbn [map fprod length fpow]; [ring|]. rewrite IH. ring. Qed.
Lemma fprod_nonzero l : (forall x, In x l -> x <> 0) -> fprod l <> 0.
Proof.
  induction l as [|x l IH]; intros H; cbn [fprod].
  - apply F_one_neq_zero.
  - apply F_mul_nonzero; [apply H; left; reflexivity|apply IH; intros y Hy; apply H; right; exact Hy].
Qed.

Theorem fermat a : a <> 0 -> fpow a (Z.to_nat modulus - 1) = 1.
Proof.
  intros Ha. pose proof (fprod_perm _ _ (units_scale a Ha)) as E. rewrite fprod_scale, units_length in E.
  assert (Hn : fprod units <> 0) by (apply fprod_nonzero; intros x Hx; apply in_units; exact Hx).
  transitivity (fpow a (Z.to_nat modulus - 1) * fprod units * finv (fprod units)).
  - field. exact Hn.
  - rewrite <- E. apply finv_r. exact Hn.
Qed.

Lemma fpow_pow (x : F) a b : fpow (fpow x a) b = fpow x (a * b).
Proof.
  induction b as [|b IH]; [rewrite Nat.mul_0_r; reflexivity|].
  rewrite Nat.mul_succ_r, Nat.add_comm, fpow_add, <- IH. reflexivity.
Qed.

(** exponents prime to the order minus one are injective *)
Theorem power_injective e (x y : F) : (0 < e)%nat -> Z.gcd (Z.of_nat e) (modulus - 1) = 1%Z ->
  fpow x e = fpow y e -> x = y.
Proof.
  intros He Hg E. pose proof (p_gt_1 _ modulus_prime) as Hm.
  assert (Hd : exists d k, (e * d = 1 + k * (Z.to_nat modulus - 1))%nat).
  { destruct (Z.gcd_bezout (Z.of_nat e) (modulus - 1) 1 Hg) as (u & v & Hb).
    set (c := (Z.abs u + Z.abs v)%Z).
    assert (Hc1 : (0 <= u + c * (modulus - 1))%Z) by (unfold c; nia).
    assert (Hc2 : (0 <= - v + c * Z.of_nat e)%Z) by (unfold c; nia).
    exists (Z.to_nat (u + c * (modulus - 1))), (Z.to_nat (- v + c * Z.of_nat e)).
    apply Nat2Z.inj. rewrite Nat2Z.inj_add, !Nat2Z.inj_mul, !Z2Nat.id, Nat2Z.inj_sub, Z2Nat.id by lia.
    change (Z.of_nat 1) with 1%Z. nia. }
  destruct Hd as (d & k & Hd).
  assert (Hx : forall a, fpow (fpow a e) d = a).
  { intros a. rewrite fpow_pow, Hd, fpow_add, (Nat.mul_comm k), <- fpow_pow.
    destruct (Fp_eq_dec _ a 0) as [->|Ha].
    - cbn [fpow]. ring.
    - rewrite fermat by exact Ha. rewrite fpow_one. cbn [fpow]. ring. }
  rewrite <- (Hx x), <- (Hx y), E. reflexivity.
Qed.

(** a cube root of one *)
Theorem cube_root : (modulus mod 3 = 1)%Z -> exists w : F, w * w * w = 1 /\ w <> 1.
Proof.
  intros H3. pose proof (p_gt_1 _ modulus_prime) as Hm.
  set (k := Z.to_nat ((modulus - 1) / 3)).
  assert (Hk : (k * 3 = Z.to_nat modulus - 1)%nat).
  { unfold k. pose proof (Z.div_mod (modulus - 1) 3 ltac:(lia)) as D.
    assert (E : ((modulus - 1) mod 3 = 0)%Z) by (rewrite Zminus_mod, H3; reflexivity).
    rewrite E in D. assert (0 <= (modulus - 1) / 3)%Z by (apply Z.div_pos; lia). lia. }
  destruct (forallb (fun a => feqb (fpow a k) 1) units) eqn:Ef.
  - exfalso. rewrite forallb_forall in Ef.
    set (f := fun i => if Nat.eqb i 0 then - (1) else if Nat.eqb i k then 1 else 0 : F).
    assert (Hf : f k = 0).
    { apply (roots_bound f (S k) units units_nodup); [|rewrite units_length; lia|lia].
      intros r Hr. specialize (Ef r Hr). destruct (feqb_spec _ (fpow r k) 1) as [E|]; [|discriminate].
      unfold sum_n. rewrite seq_S, map_app, fsum_app. cbn [map fsum plus].
      destruct k as [|k']; [lia|]. cbn [seq map fsum].
      rewrite fsum_map_zero.
      - unfold f at 1 2. rewrite !Nat.eqb_refl. cbn [Nat.eqb fpow] in *. rewrite E. ring.
      - intros i Hi. apply in_seq in Hi. unfold f. destruct (Nat.eqb_spec i 0); [lia|].
        destruct (Nat.eqb_spec i (S k')); [lia|]. ring. }
    unfold f in Hf. rewrite Nat.eqb_refl in Hf. destruct (Nat.eqb_spec k 0) as [E0|_]; [lia|].
    exact (F_one_neq_zero Hf).
  - assert (Hex : exists a, In a units /\ fpow a k <> 1).
    { clear -Ef. induction units as [|a l IH]; [discriminate|]. cbn [forallb] in Ef.
      destruct (feqb_spec _ (fpow a k) 1) as [E|E].
      - destruct IH as (b & Hb & Hn); [exact Ef|]. exists b. split; [right; exact Hb|exact Hn].
      - exists a. split; [left; reflexivity|exact E]. }
    destruct Hex as (a & Ha & Hn). exists (fpow a k). split; [|exact Hn].
    transitivity (fpow (fpow a k) 3); [cbn [fpow]; ring|]. rewrite fpow_pow, Hk. apply fermat. apply in_units. exact Ha.
Qed.
End Fermat.
