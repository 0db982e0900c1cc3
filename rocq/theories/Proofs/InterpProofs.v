(** Lagrange interpolation: the weights recover the coefficients. *)
From Coq Require Import ZArith List Lia Bool Ring Field.
From Verif.Base Require Import Outcome Fp Params Algebra.
From Verif.Model Require Import LinComb.
From Verif.Spec Require Import R1CS Protocol IPPSpec Extractor R1CSTree R1CSExtractor.
From Verif.Proofs Require Import FlattenProofs RootProofs.
Import ListNotations.

Section InterpProofs.
Context {P : Params} {OK : ParamsOk P}.
Local Open Scope fe_scope.
Add Field FFinterp : (Fp_field_theory modulus modulus_prime).

Lemma sum_n_ext n f g : (forall i, (i < n)%nat -> f i = g i) -> sum_n n f = sum_n n g.
Proof. intros E. apply fsum_map_ext. intros i Hi. apply in_seq in Hi. apply E. lia. Qed.
Lemma sum_n_add n f g : sum_n n (fun i => f i + g i) = sum_n n f + sum_n n g.
Proof. apply fsum_map_add. Qed.
Lemma sum_n_sub n f g : sum_n n (fun i => f i - g i) = sum_n n f - sum_n n g.
Proof. apply fsum_map_sub. Qed.
Lemma sum_n_scale n c f : sum_n n (fun i => c * f i) = c * sum_n n f.
Proof. apply fsum_map_scale. Qed.
Lemma sum_n_zero n f : (forall i, (i < n)%nat -> f i = 0) -> sum_n n f = 0.
Proof. intros E. apply fsum_map_zero. intros i Hi. apply in_seq in Hi. apply E. lia. Qed.
Lemma sum_n_S n f : sum_n (S n) f = f 0%nat + sum_n n (fun i => f (S i)).
Proof. unfold sum_n. cbn [seq map fsum]. f_equal. rewrite <- seq_shift, map_map. reflexivity. Qed.
Lemma sum_n_last n f : sum_n (S n) f = sum_n n f + f n.
Proof. unfold sum_n. rewrite seq_S, map_app, fsum_app. simpl. ring. Qed.
Lemma sum_n_swap n m (f : nat -> nat -> F) :
  sum_n n (fun i => sum_n m (fun j => f i j)) = sum_n m (fun j => sum_n n (fun i => f i j)).
Proof.
  induction n.
  - unfold sum_n at 1. simpl. symmetry. apply sum_n_zero. reflexivity.
  - rewrite sum_n_last, IHn, <- sum_n_add. apply sum_n_ext. intros j _. rewrite sum_n_last. reflexivity.
Qed.
Lemma sum_n_single n f k : (k < n)%nat -> (forall i, (i < n)%nat -> i <> k -> f i = 0) -> sum_n n f = f k.
Proof.
  induction n; intros Hk E; [lia|]. rewrite sum_n_last. destruct (Nat.eq_dec k n) as [->|Hne].
  - rewrite sum_n_zero; [ring|]. intros. apply E; lia.
  - rewrite IHn by (try lia; intros; apply E; lia). rewrite (E n) by lia. ring.
Qed.
Lemma sum_n_eval1 f : sum_n 1 f = f 0%nat. Proof. unfold sum_n. simpl. ring. Qed.

Lemma peval_sum p x n : (length p <= n)%nat -> peval p x = sum_n n (fun i => nth i p 0 * fpow x i).
Proof.
  revert n. induction p as [|a p IH]; intros n Hn.
  - simpl. symmetry. apply sum_n_zero. intros i _. destruct i; simpl; ring.
  - simpl in Hn. destruct n as [|n]; [lia|]. rewrite sum_n_S. cbn [peval nth fpow]. rewrite (IH n) by lia.
    rewrite <- sum_n_scale. f_equal; [ring|]. apply sum_n_ext. intros. simpl. ring.
Qed.

Lemma peval_vadd a b x : length a = length b -> peval (vadd a b) x = peval a x + peval b x.
Proof.
  revert b; induction a; destruct b; simpl; intros E; try discriminate; [ring|].
  unfold vadd in *. rewrite IHa by lia. ring.
Qed.
Lemma peval_vscale c a x : peval (vscale c a) x = c * peval a x.
Proof. induction a; simpl; [ring|]. unfold vscale in *. rewrite IHa. ring. Qed.
Lemma peval_snoc0 a x : peval (a ++ [0]) x = peval a x.
Proof. induction a; simpl; [ring|]. rewrite IHa. reflexivity. Qed.

Lemma vanish_length l : length (vanish l) = S (length l).
Proof.
  induction l; [reflexivity|]. change (vanish (a :: l)) with (vadd (0 :: vanish l) (vscale (- a) (vanish l) ++ [0])).
  unfold vadd. rewrite zipw_length, app_length, vscale_length. cbn [length]. rewrite IHl. lia.
Qed.
Lemma vanish_eval l x : peval (vanish l) x = product (map (fun c => x - c) l).
Proof.
  induction l; [simpl; ring|]. change (vanish (a :: l)) with (vadd (0 :: vanish l) (vscale (- a) (vanish l) ++ [0])).
  rewrite peval_vadd.
  - rewrite peval_snoc0, peval_vscale. cbn [map product fold_right]. fold (product (map (fun c => x - c) l)). rewrite <- IHl.
    simpl. ring.
  - rewrite app_length, vscale_length. simpl. lia.
Qed.
Lemma product_zero l : In 0 l -> product l = 0.
Proof.
  induction l; simpl; [easy|]. intros [->|Hin]; [ring|]. fold (product l). rewrite (IHl Hin). ring.
Qed.
Lemma product_nonzero l : Forall (fun c => c <> 0) l -> product l <> 0.
Proof. induction 1; simpl; [apply F_one_neq_zero|]. apply F_mul_nonzero; assumption. Qed.

Lemma others_length (xs : list F) x : NoDup xs -> In x xs -> S (length (filter (fun c => negb (feqb c x)) xs)) = length xs.
Proof.
  induction 1 as [|a l Ha Hnd IH]; [easy|]. intros [->|Hin]; simpl.
  - destruct (feqb_spec _ x x) as [_|n]; [|congruence]. simpl. f_equal.
    clear IH Hnd. induction l as [|b l IH]; [reflexivity|]. simpl. destruct (feqb_spec _ b x) as [->|Hb]; simpl.
    + exfalso. apply Ha. left. reflexivity.
    + f_equal. apply IH. intros Hin. apply Ha. right. assumption.
  - destruct (feqb_spec _ a x) as [->|Hb]; simpl; [contradiction|]. f_equal. apply IH. assumption.
Qed.

Lemma lagrange_length xs x : NoDup xs -> In x xs -> length (lagrange xs x) = length xs.
Proof. intros. unfold lagrange. rewrite vscale_length, vanish_length. apply others_length; assumption. Qed.

Lemma lagrange_self xs x : peval (lagrange xs x) x = 1.
Proof.
  unfold lagrange. rewrite peval_vscale. apply finv_r_comm. rewrite vanish_eval. apply product_nonzero.
  apply Forall_forall. intros c Hc. apply in_map_iff in Hc as (d & <- & Hd). apply filter_In in Hd as [_ Hd].
  intros E. apply F_sub_zero in E. subst d. destruct (feqb_spec _ x x) as [_|n]; [discriminate Hd|congruence].
Qed.
Lemma lagrange_other xs x x' : In x' xs -> x' <> x -> peval (lagrange xs x) x' = 0.
Proof.
  intros Hin Hne. unfold lagrange. rewrite peval_vscale, (vanish_eval _ x'), product_zero; [cbv beta; ring|].
  apply in_map_iff. exists x'. split; [cbv beta; ring|]. apply filter_In. split; [assumption|].
  destruct (feqb_spec _ x' x) as [E|_]; [contradiction|reflexivity].
Qed.

(** the weights of coefficient [k] *)
Theorem interp_ok xs k e : NoDup xs -> (k < length xs)%nat -> (e < length xs)%nat ->
  sum_n (length xs) (fun j => nth j (interp xs k) 0 * fpow (nth j xs 0) e) = if Nat.eqb k e then 1 else 0.
Proof.
  intros Hnd Hk He. set (m := length xs) in *.
  set (c := fun i => (if Nat.eqb i e then 1 else 0) - sum_n m (fun j => nth i (lagrange xs (nth j xs 0)) 0 * fpow (nth j xs 0) e)).
  assert (Hc : c k = 0).
  { apply (roots_bound c m xs Hnd); [|unfold m; lia|assumption]. intros r Hr.
    unfold c. transitivity (sum_n m (fun i => (if Nat.eqb i e then 1 else 0) * fpow r i) -
      sum_n m (fun i => sum_n m (fun j => fpow (nth j xs 0) e * (nth i (lagrange xs (nth j xs 0)) 0 * fpow r i)))).
    { rewrite <- sum_n_sub. apply sum_n_ext. intros i _.
      transitivity ((if Nat.eqb i e then 1 else 0) * fpow r i - fpow r i * sum_n m (fun j => nth i (lagrange xs (nth j xs 0)) 0 * fpow (nth j xs 0) e)); [ring|].
      f_equal. rewrite <- sum_n_scale. apply sum_n_ext. intros. ring. }
    rewrite (sum_n_single m _ e) by (try assumption; intros i _ Hne; apply Nat.eqb_neq in Hne; rewrite Hne; ring).
    rewrite Nat.eqb_refl, sum_n_swap. apply In_nth with (d := 0) in Hr as (j0 & Hj0 & <-).
    rewrite (sum_n_single m _ j0).
    - rewrite sum_n_scale, <- (peval_sum (lagrange xs (nth j0 xs 0)) (nth j0 xs 0) m).
      + rewrite lagrange_self. ring.
      + rewrite lagrange_length by (try assumption; apply nth_In; assumption). unfold m. lia.
    - assumption.
    - intros j Hj Hne. rewrite sum_n_scale, <- (peval_sum (lagrange xs (nth j xs 0)) (nth j0 xs 0) m).
      + rewrite lagrange_other; [ring|apply nth_In; assumption|].
        intros E. apply Hne. symmetry. apply (proj1 (NoDup_nth xs 0) Hnd); assumption.
      + rewrite lagrange_length by (try assumption; apply nth_In; assumption). unfold m. lia. }
  unfold c in Hc. apply F_sub_zero in Hc. rewrite Hc. apply sum_n_ext. intros j Hj. f_equal.
  unfold interp. rewrite (nth_indep _ 0 ((fun x => nth k (lagrange xs x) 0) 0)) by (rewrite map_length; exact Hj).
  rewrite (map_nth (fun x => nth k (lagrange xs x) 0)). reflexivity.
Qed.

Lemma interp_length xs k : length (interp xs k) = length xs.
Proof. apply map_length. Qed.
End InterpProofs.
