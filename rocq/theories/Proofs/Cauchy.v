(** Cauchy matrices are MDS. *)
From Coq Require Import ZArith List Lia Bool Ring Field.
From Verif.Base Require Import Outcome Fp Params Algebra.
From Verif.Model Require Import Hash.
From Verif.Spec Require Import R1CS Protocol IPPSpec R1CSTree R1CSExtractor HashSpec PoseidonSpec.
From Verif.Proofs Require Import RootProofs InterpProofs HashTools.
Import ListNotations.

Section Cauchy.
Context {P : Params} {OK : ParamsOk P}.
Local Open Scope fe_scope.
Add Field Fp_cauchy : (Fp_field_theory modulus modulus_prime).

Lemma filter_split {A} (f : A -> bool) l : (length (filter f l) + length (filter (fun x => negb (f x)) l) = length l)%nat.
Proof. induction l as [|a l IH]; [reflexivity|]. cbn [filter]. destruct (f a); cbn [negb length]; lia. Qed.

Lemma filter_map_length {A B} (f : A -> B) (p : B -> bool) l : length (filter p (map f l)) = length (filter (fun x => p (f x)) l).
Proof. induction l as [|a l IH]; [reflexivity|]. cbn [map filter]. destruct (p (f a)); cbn [length]; lia. Qed.

Lemma weight_seq x : weight x = length (filter (fun j => negb (feqb (nth j x 0) 0)) (seq 0 (length x))).
Proof.
  unfold weight. rewrite (list_as_map x 0) at 1. exact (filter_map_length (fun j => nth j x 0) (fun a => negb (feqb a 0)) _).
Qed.

Lemma fsum_filter {A} (p : A -> bool) (f : A -> F) l : (forall a, In a l -> p a = false -> f a = 0) ->
  fsum (map f l) = fsum (map f (filter p l)).
Proof.
  induction l as [|a l IH]; intros H; [reflexivity|]. cbn [map filter fsum].
  rewrite IH by (intros b Hb; apply H; right; exact Hb).
  destruct (p a) eqn:E; [reflexivity|]. rewrite (H a (or_introl eq_refl) E). ring.
Qed.

Definition others (j : nat) (s : list nat) : list nat := filter (fun k => negb (Nat.eqb k j)) s.
Lemma others_not_in j s : ~ In j s -> others j s = s.
Proof.
  induction s as [|k s IH]; intros Hn; [reflexivity|]. unfold others. cbn [filter].
  destruct (Nat.eqb_spec k j) as [->|_]; [exfalso; apply Hn; left; reflexivity|]. cbn [negb].
  f_equal. apply IH. intros Hi. apply Hn. right. exact Hi.
Qed.
Lemma others_len j s : NoDup s -> In j s -> S (length (others j s)) = length s.
Proof.
  induction 1 as [|k s Hk Hnd IH]; intros Hin; [contradiction|]. unfold others. cbn [filter].
  destruct (Nat.eqb_spec k j) as [->|Hne]; cbn [negb].
  - fold (others j s). rewrite others_not_in by exact Hk. reflexivity.
  - destruct Hin as [->|Hin]; [contradiction|]. cbn [length]. fold (others j s). rewrite IH by exact Hin. reflexivity.
Qed.
Lemma others_product (f : nat -> F) j s : NoDup s -> In j s ->
  product (map f s) = f j * product (map f (others j s)).
Proof.
  induction 1 as [|k s Hk Hnd IH]; intros Hin; [contradiction|]. unfold others. cbn [filter].
  destruct (Nat.eqb_spec k j) as [->|Hne]; cbn [negb].
  - fold (others j s). rewrite others_not_in by exact Hk. reflexivity.
  - destruct Hin as [->|Hin]; [contradiction|]. cbn [map product fold_right].
    fold (product (map f s)). rewrite IH by exact Hin. fold (others j s). fold (product (map f (others j s))). ring.
Qed.

Context (t : nat) (m : list (list F)) (a b : nat -> F).
Context (Hrows : length m = t).
Context (Hm : forall i j, (i < t)%nat -> (j < t)%nat -> nth i (nth j m []) 0 * (a i + b j) = 1).
Context (Ha : forall i i', (i < t)%nat -> (i' < t)%nat -> a i = a i' -> i = i').
Context (Hb : forall j j', (j < t)%nat -> (j' < t)%nat -> b j = b j' -> j = j').

Section Vector.
Context (x : list F) (Hx : length x = t).
Let s := filter (fun j => negb (feqb (nth j x 0) 0)) (seq 0 t).

Lemma s_in j : In j s <-> (j < t)%nat /\ nth j x 0 <> 0.
Proof.
  unfold s. rewrite filter_In, in_seq. destruct (feqb_spec _ (nth j x 0) 0) as [E|E]; cbn [negb]; split; intros [H1 H2]; (split; [lia|]); congruence.
Qed.
Lemma s_nodup : NoDup s.
Proof. apply NoDup_filter. apply seq_NoDup. Qed.

(** the numerator of the sum of all x_j / (T + b_j) *)
Definition num_poly (j : nat) : list F := vanish (map (fun k => - b k) (others j s)).
Definition numerator (T : F) : F := fsum (map (fun j => nth j x 0 * product (map (fun k => T + b k) (others j s))) s).
Definition num_coeff (i : nat) : F := fsum (map (fun j => nth j x 0 * nth i (num_poly j) 0) s).

Lemma num_poly_eval j T : peval (num_poly j) T = product (map (fun k => T + b k) (others j s)).
Proof.
  unfold num_poly. rewrite vanish_eval, map_map. f_equal. apply map_ext. intros k. ring.
Qed.

Lemma numerator_poly T : sum_n (length s) (fun i => num_coeff i * fpow T i) = numerator T.
Proof.
  unfold numerator, num_coeff.
  assert (Hl : forall j, In j s -> length (num_poly j) = length s).
  { intros j Hj. unfold num_poly. rewrite vanish_length, map_length. apply others_len; [exact s_nodup|exact Hj]. }
  transitivity (fsum (map (fun j => sum_n (length s) (fun i => nth j x 0 * (nth i (num_poly j) 0 * fpow T i))) s)).
  - clear Hl. generalize (length s) as n. intros n. generalize s as l. intros l. induction l as [|j l IH].
    + cbn [map fsum]. apply sum_n_zero. intros i _. ring.
    + cbn [map fsum]. rewrite <- IH. rewrite <- sum_n_add. apply sum_n_ext. intros i _. ring.
  - apply fsum_map_ext. intros j Hj. rewrite sum_n_scale, <- num_poly_eval.
    rewrite (peval_sum (num_poly j) T (length s)) by (rewrite Hl by exact Hj; lia). reflexivity.
Qed.

Definition out (i : nat) : F := fsum (map (fun j => nth j x 0 * nth i (nth j m []) 0) (seq 0 t)).

Lemma out_numerator i : (i < t)%nat -> numerator (a i) = out i * product (map (fun k => a i + b k) s).
Proof.
  intros Hi. unfold out, numerator.
  rewrite (fsum_filter (fun j => negb (feqb (nth j x 0) 0)) _ (seq 0 t)).
  2:{ intros j _ Hj. destruct (feqb_spec _ (nth j x 0) 0) as [E|]; [|discriminate]. rewrite E. ring. }
  fold s. rewrite (Rmul_comm (Fp_ring_theory modulus)), <- fsum_map_scale. apply fsum_map_ext.
  intros j Hj. rewrite (others_product (fun k => a i + b k) j s s_nodup Hj).
  apply s_in in Hj as [Hj _]. pose proof (Hm i j Hi Hj) as E.
  transitivity (nth j x 0 * product (map (fun k => a i + b k) (others j s)) * (nth i (nth j m []) 0 * (a i + b j))); [rewrite E|]; ring.
Qed.

Lemma few_zeros : s <> [] -> (length (filter (fun i => feqb (out i) 0) (seq 0 t)) < length s)%nat.
Proof.
  intros Hs. destruct (Nat.lt_ge_cases (length (filter (fun i => feqb (out i) 0) (seq 0 t))) (length s)) as [|Hge]; [assumption|exfalso].
  set (z := filter (fun i => feqb (out i) 0) (seq 0 t)) in *.
  assert (Hz : forall i, In i z -> (i < t)%nat /\ out i = 0).
  { intros i Hi. apply filter_In in Hi as [Hi E]. apply in_seq in Hi. destruct (feqb_spec _ (out i) 0); [|discriminate].
    split; [lia|assumption]. }
  assert (Hc : forall i, (i < length s)%nat -> num_coeff i = 0).
  { apply (roots_bound num_coeff (length s) (map a z)).
    - assert (Hnd : NoDup z) by (apply NoDup_filter; apply seq_NoDup). clear Hge. clearbody z.
      induction Hnd as [|i z Hi Hnd IH]; [constructor|]. cbn [map]. constructor.
      + rewrite in_map_iff. intros (i' & E & Hi'). apply Ha in E; [subst i'; contradiction| |].
        * apply Hz. right. exact Hi'.
        * apply Hz. left. reflexivity.
      + apply IH. intros i' Hi'. apply Hz. right. exact Hi'.
    - intros r Hr. apply in_map_iff in Hr as (i & <- & Hi). apply Hz in Hi as [Hi E].
      rewrite numerator_poly, out_numerator by exact Hi. rewrite E. ring.
    - rewrite map_length. exact Hge. }
  assert (Hj : exists j0, In j0 s) by (destruct s as [|j0 l]; [contradiction|exists j0; left; reflexivity]).
  destruct Hj as (j0 & Hj0).
  assert (E : numerator (- b j0) = 0).
  { rewrite <- numerator_poly. apply sum_n_zero. intros i Hi. rewrite Hc by exact Hi. ring. }
  assert (E' : numerator (- b j0) = nth j0 x 0 * product (map (fun k => - b j0 + b k) (others j0 s))).
  { unfold numerator. rewrite (fsum_filter (fun j => Nat.eqb j j0)).
    - assert (Ef : filter (fun j => Nat.eqb j j0) s = [j0]).
      { pose proof s_nodup as Hnd. revert Hnd Hj0. generalize s. induction 1 as [|k l Hk Hnd IH]; intros Hin; [contradiction|].
        cbn [filter]. destruct (Nat.eqb_spec k j0) as [->|Hne].
        - f_equal. clear -Hk. induction l as [|k l IH]; [reflexivity|]. cbn [filter].
          destruct (Nat.eqb_spec k j0) as [->|_]; [exfalso; apply Hk; left; reflexivity|].
          apply IH. intros H. apply Hk. right. exact H.
        - apply IH. destruct Hin as [->|Hin]; [contradiction|exact Hin]. }
      rewrite Ef. cbn [map fsum]. ring.
    - intros j Hj Hne. rewrite (product_zero (map (fun k => - b j0 + b k) (others j s))); [ring|].
      apply in_map_iff. exists j0. split; [ring|]. apply filter_In. split; [exact Hj0|].
      rewrite Nat.eqb_sym. rewrite Hne. reflexivity. }
  rewrite E in E'. symmetry in E'. apply F_mul_integral in E' as [E'|E'].
  - apply s_in in Hj0 as [_ Hj0]. contradiction.
  - revert E'. apply product_nonzero. apply Forall_forall. intros y Hy. apply in_map_iff in Hy as (k & <- & Hk).
    apply filter_In in Hk as [Hk Hne]. intros E'. apply s_in in Hk as [Hk _]. apply s_in in Hj0 as [Hj0 _].
    assert (k = j0) as ->.
    { apply Hb; [exact Hk|exact Hj0|]. apply F_sub_zero. rewrite <- E'. ring. }
    rewrite Nat.eqb_refl in Hne. discriminate.
Qed.
End Vector.

Theorem cauchy_mds : mds t m.
Proof.
  intros x Hx Hw.
  assert (Ho : vec_mat t x m = map (out x) (seq 0 t)).
  { unfold vec_mat. apply map_ext_in. intros i Hi. apply in_seq in Hi. unfold out.
    rewrite dot_seq by (unfold column; rewrite map_length, Hrows; exact Hx). rewrite Hx. apply fsum_map_ext.
    intros j Hj. apply in_seq in Hj. unfold column. rewrite (nth_indep (map (fun row => nth i row 0) m) 0 (nth i [] 0)) by (rewrite map_length; lia).
    rewrite (map_nth (fun row => nth i row 0) m []). reflexivity. }
  rewrite (weight_seq x), Hx in Hw |- *. rewrite Ho. unfold weight. rewrite filter_map_length.
  pose proof (few_zeros x Hx) as Hf.
  pose proof (filter_split (fun i => feqb (out x i) 0) (seq 0 t)) as Hs. rewrite seq_length in Hs.
  assert (Hne : filter (fun j => negb (feqb (nth j x 0) 0)) (seq 0 t) <> []).
  { intros E. rewrite E in Hw. cbn in Hw. lia. }
  specialize (Hf Hne). lia.
Qed.
End Cauchy.
