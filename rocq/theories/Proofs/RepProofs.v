(** Representations of points over a base, and the generic steps of the
    extractor for the R1CS protocol. *)
From Coq Require Import ZArith List Lia Bool Ring Field.
From Verif.Base Require Import Outcome Fp Params Algebra.
From Verif.Model Require Import LinComb.
From Verif.Spec Require Import R1CS Protocol IPPSpec Extractor R1CSTree R1CSExtractor.
From Verif.Proofs Require Import FlattenProofs RootProofs InterpProofs.
Import ListNotations.

Section RepProofs.
Context {P : Params} {OK : ParamsOk P}.
Local Open Scope fe_scope.
Add Field FFrep : (Fp_field_theory modulus modulus_prime).

Definition gsum_i (n : nat) (f : nat -> G1) : G1 := gsum (map f (seq 0 n)).

Lemma gsum_i_ext n f g : (forall i, (i < n)%nat -> f i = g i) -> gsum_i n f = gsum_i n g.
Proof. intros E. apply gsum_map_ext. intros i Hi. apply in_seq in Hi. apply E. lia. Qed.
Lemma gsum_i_add n f g : gsum_i n (fun i => g1_add (f i) (g i)) = g1_add (gsum_i n f) (gsum_i n g).
Proof. apply gsum_map_add. Qed.
Lemma gsum_i_scale n c f : gsum_i n (fun i => g1_mul c (f i)) = g1_mul c (gsum_i n f).
Proof. apply gsum_map_scale. Qed.
Lemma gsum_i_id n f : (forall i, (i < n)%nat -> f i = g1_id) -> gsum_i n f = g1_id.
Proof. intros E. apply gsum_map_id. intros i Hi. apply in_seq in Hi. apply E. lia. Qed.
Lemma gsum_i_last n f : gsum_i (S n) f = g1_add (gsum_i n f) (f n).
Proof. unfold gsum_i. rewrite seq_S, map_app, gsum_app. simpl. rewrite g1_id_r. reflexivity. Qed.
Lemma gsum_i_first n f : gsum_i (S n) f = g1_add (f 0%nat) (gsum_i n (fun i => f (S i))).
Proof. unfold gsum_i. cbn [seq map gsum]. f_equal. rewrite <- seq_shift, map_map. reflexivity. Qed.
Lemma gsum_i_swap n m (f : nat -> nat -> G1) :
  gsum_i n (fun i => gsum_i m (fun j => f i j)) = gsum_i m (fun j => gsum_i n (fun i => f i j)).
Proof.
  induction n.
  - symmetry. apply gsum_i_id. reflexivity.
  - rewrite gsum_i_last, IHn, <- gsum_i_add. apply gsum_i_ext. intros j _. rewrite gsum_i_last. reflexivity.
Qed.
Lemma gsum_i_mul n f X : gsum_i n (fun i => g1_mul (f i) X) = g1_mul (sum_n n f) X.
Proof. apply gsum_map_mul. Qed.
Lemma gsum_i_plus n m f : gsum_i (n + m) f = g1_add (gsum_i n f) (gsum_i m (fun i => f (n + i)%nat)).
Proof.
  induction m.
  - rewrite Nat.add_0_r. unfold gsum_i at 3. simpl. rewrite g1_id_r. reflexivity.
  - rewrite Nat.add_succ_r, !gsum_i_last, IHm. gnorm; ring.
Qed.

Lemma gsum_n_ext n f g B : (forall i, (i < n)%nat -> f i = g i) -> gsum_n n f B = gsum_n n g B.
Proof. intros E. apply gsum_i_ext. intros i Hi. rewrite E by assumption. reflexivity. Qed.
Lemma gsum_n_add n f g B : gsum_n n (fun i => f i + g i) B = g1_add (gsum_n n f B) (gsum_n n g B).
Proof. unfold gsum_n. rewrite <- gsum_map_add. apply gsum_i_ext. intros. gnorm; ring. Qed.
Lemma gsum_n_sub n f g B : gsum_n n (fun i => f i - g i) B = g1_add (gsum_n n f B) (g1_neg (gsum_n n g B)).
Proof.
  rewrite g1_neg_mul. unfold gsum_n. rewrite <- gsum_map_scale, <- gsum_map_add. apply gsum_i_ext. intros. gnorm; ring.
Qed.
Lemma gsum_n_scale n c f B : gsum_n n (fun i => c * f i) B = g1_mul c (gsum_n n f B).
Proof. unfold gsum_n. rewrite <- gsum_map_scale. apply gsum_i_ext. intros. gnorm; ring. Qed.
Lemma gsum_n_comb n m (c : nat -> F) (f : nat -> nat -> F) B :
  gsum_n n (fun i => sum_n m (fun j => c j * f j i)) B = gsum_i m (fun j => g1_mul (c j) (gsum_n n (f j) B)).
Proof.
  transitivity (gsum_i n (fun i => gsum_i m (fun j => g1_mul (c j * f j i) (nth i B g1_id)))).
  - apply gsum_i_ext. intros i _. symmetry. apply gsum_i_mul.
  - rewrite gsum_i_swap. apply gsum_i_ext. intros j _. rewrite <- gsum_n_scale. reflexivity.
Qed.
Lemma gsum_n_padded n N f B : (N <= n)%nat -> gsum_n n (padded N f) B = gsum_n N f B.
Proof.
  intros HN. replace n with (N + (n - N))%nat by lia. unfold gsum_n at 1.
  change (gsum_i (N + (n - N)) (fun i => g1_mul (padded N f i) (nth i B g1_id)) = gsum_n N f B). rewrite gsum_i_plus.
  rewrite (gsum_i_id (n - N)).
  - rewrite g1_id_r. apply gsum_i_ext. intros i Hi. unfold padded. apply Nat.ltb_lt in Hi. rewrite Hi. reflexivity.
  - intros i _. unfold padded. replace (N + i <? N)%nat with false by (symmetry; apply Nat.ltb_ge; lia). apply g1_mul_zero.
Qed.

Lemma combination_nth lG lH l ws i : (i < 2 + lG + lH)%nat ->
  nth i (combination lG lH l ws) 0 = sum_n (length l) (fun j => nth j l 0 * nth i (nth j ws []) 0).
Proof. intros Hi. unfold combination. rewrite nth_map_seq by assumption. reflexivity. Qed.
Lemma combination_length lG lH l ws : length (combination lG lH l ws) = (2 + lG + lH)%nat.
Proof. unfold combination. rewrite map_length, seq_length. reflexivity. Qed.

Section Rep.
Context (B : list G1) (lG lH : nat).
Let D := (2 + lG + lH)%nat.
Context (HB : length B = D).

Definition rep (w : list F) (X : G1) : Prop := gsum_n D (fun i => nth i w 0) B = X.

Definition good {A} (e : extracted A) (Q : A -> Prop) : Prop :=
  match e with Got a => Q a | Broken c => generator_relation B c end.

Lemma good_bind {A C} (e : extracted A) (f : A -> extracted C) Q R :
  good e Q -> (forall a, Q a -> good (f a) R) -> good (ebind e f) R.
Proof. destruct e; simpl; auto. Qed.
Lemma good_weaken {A} (e : extracted A) (Q R : A -> Prop) : good e Q -> (forall a, Q a -> R a) -> good e R.
Proof. destruct e; simpl; auto. Qed.
Lemma good_emap {A C} (f : A -> extracted C) l (Q : A -> C -> Prop) :
  (forall a, In a l -> good (f a) (Q a)) -> good (emap f l) (fun bs => Forall2 Q l bs).
Proof.
  induction l as [|a l IH]; intros Hf; simpl; [constructor|].
  eapply good_bind; [apply Hf; left; reflexivity|]. intros b Hb.
  eapply good_bind; [apply IH; intros; apply Hf; right; assumption|]. intros bs Hbs. constructor; assumption.
Qed.
(** in particular for checks *)
Lemma good_echeck {A} (f : A -> extracted unit) l (Q : A -> Prop) :
  (forall a, In a l -> good (f a) (fun _ => Q a)) -> good (emap f l) (fun _ => forall a, In a l -> Q a).
Proof.
  intros Hf. eapply good_weaken; [apply (good_emap f l (fun a _ => Q a)); assumption|].
  intros bs Hbs a Ha. induction Hbs; [easy|]. destruct Ha as [->|Ha]; [assumption|]. apply IHHbs; [|assumption].
  intros b Hb. apply Hf. right. assumption.
Qed.

Lemma rep_msm w X : length w = D -> (rep w X <-> msm w B = X).
Proof. intros E. unfold rep, gsum_n. rewrite (msm_sum_nth w B D) by assumption. reflexivity. Qed.

Lemma good_same w w' X : rep w X -> rep w' X ->
  good (same lG lH w w') (fun _ => forall i, (i < D)%nat -> nth i w 0 = nth i w' 0).
Proof.
  intros Hw Hw'. unfold same. set (d := map (fun i => nth i w 0 - nth i w' 0) (seq 0 (2 + lG + lH))).
  assert (Hd : length d = D) by (unfold d; rewrite map_length, seq_length; reflexivity).
  assert (Hn : forall i, (i < D)%nat -> nth i d 0 = nth i w 0 - nth i w' 0).
  { intros i Hi. unfold d. rewrite nth_map_seq by assumption. reflexivity. }
  destruct (forallb (fun c => feqb c 0) d) eqn:E.
  - simpl. intros i Hi. rewrite forallb_forall in E. apply F_sub_zero. rewrite <- Hn by assumption.
    assert (Hin : In (nth i d 0) d) by (apply nth_In; lia). apply E in Hin.
    destruct (feqb_spec _ (nth i d 0) 0) as [->|]; [reflexivity|discriminate Hin].
  - split; [lia|]. split.
    + apply rep_msm; [assumption|]. unfold rep.
      rewrite (gsum_n_ext D _ (fun i => nth i w 0 - nth i w' 0)) by assumption.
      rewrite gsum_n_sub. unfold rep in Hw, Hw'. rewrite Hw, Hw'. gnorm; ring.
    + clearbody d. clear -E. induction d as [|c d IH]; simpl in E; [discriminate|].
      destruct (feqb_spec _ c 0) as [->|Hc].
      * destruct (IH E) as (x & Hx & Hne). exists x. split; [right; assumption|assumption].
      * exists c. split; [left; reflexivity|assumption].
Qed.

Lemma rep_ext w w' X : (forall i, (i < D)%nat -> nth i w 0 = nth i w' 0) -> rep w X -> rep w' X.
Proof. intros E Hw. unfold rep in *. rewrite <- Hw. apply gsum_n_ext. intros. symmetry. apply E. assumption. Qed.

Lemma rep_combination l ws (Y : nat -> G1) : (forall j, (j < length l)%nat -> rep (nth j ws []) (Y j)) ->
  rep (combination lG lH l ws) (gsum_i (length l) (fun j => g1_mul (nth j l 0) (Y j))).
Proof.
  intros Hj. unfold rep.
  rewrite (gsum_n_ext D _ (fun i => sum_n (length l) (fun j => nth j l 0 * nth i (nth j ws []) 0)))
    by (intros; apply combination_nth; assumption).
  rewrite (gsum_n_comb D (length l) (fun j => nth j l 0) (fun j i => nth i (nth j ws []) 0)).
  apply gsum_i_ext. intros j Hlt. f_equal. apply Hj. assumption.
Qed.

Lemma rep_zero : rep [] g1_id.
Proof. apply gsum_i_id. intros i _. destruct i; apply g1_mul_zero. Qed.

Lemma nth_vandermonde x K k : (k < K)%nat -> nth k (vandermonde x K) 0 = fpow x k.
Proof. intros. unfold vandermonde. apply nth_map_seq. assumption. Qed.

(** *** Interpolation of points *)
Record fitted (K : nat) (xs : list F) (ws : list (list F)) (Xs : list G1) (cf : list (list F)) : Prop := {
  fit_length : length cf = K;
  fit_lengths : forall k, (k < K)%nat -> length (nth k cf []) = D;
  fit_rep : forall k, (k < K)%nat -> rep (nth k cf []) (nth k Xs g1_id);
  fit_values : forall j i, (j < length xs)%nat -> (i < D)%nat ->
    nth i (nth j ws []) 0 = sum_n K (fun k => fpow (nth j xs 0) k * nth i (nth k cf []) 0);
  fit_zero : forall i k, (k < K)%nat -> (i < D)%nat ->
    (forall j, (j < length xs)%nat -> nth i (nth j ws []) 0 = 0) -> nth i (nth k cf []) 0 = 0
}.

Lemma good_fit K xs ws Xs : NoDup xs -> (K <= length xs)%nat -> length ws = length xs ->
  (forall j, (j < length xs)%nat -> rep (nth j ws []) (gsum_n K (fpow (nth j xs 0)) Xs)) ->
  good (fit lG lH K xs ws) (fitted K xs ws Xs).
Proof.
  intros Hnd HK Hws Hrep. unfold fit. set (cf := map (fun k => combination lG lH (interp xs k) ws) (seq 0 K)).
  assert (Hcf : length cf = K) by (unfold cf; rewrite map_length, seq_length; reflexivity).
  assert (Hn : forall k, (k < K)%nat -> nth k cf [] = combination lG lH (interp xs k) ws).
  { intros k Hk. unfold cf. rewrite nth_map_seq by assumption. reflexivity. }
  assert (Hr : forall k, (k < K)%nat -> rep (nth k cf []) (nth k Xs g1_id)).
  { intros k Hk. rewrite Hn by assumption.
    pose proof (rep_combination (interp xs k) ws (fun j => gsum_n K (fpow (nth j xs 0)) Xs)) as R.
    rewrite interp_length in R. specialize (R Hrep). unfold rep in *. rewrite R.
    transitivity (gsum_i (length xs) (fun j => gsum_i K (fun e => g1_mul (nth j (interp xs k) 0 * fpow (nth j xs 0) e) (nth e Xs g1_id)))).
    { apply gsum_i_ext. intros j _. rewrite <- gsum_n_scale. reflexivity. }
    rewrite gsum_i_swap. transitivity (gsum_i K (fun e => g1_mul (if Nat.eqb k e then 1 else 0) (nth e Xs g1_id))).
    { apply gsum_i_ext. intros e He. rewrite gsum_i_mul, interp_ok by (try assumption; lia). reflexivity. }
    clear -Hk OK. induction K as [|K IH]; [lia|]. rewrite gsum_i_last. destruct (Nat.eq_dec k K) as [->|Hne].
    - rewrite Nat.eqb_refl, (gsum_i_id K).
      + rewrite g1_mul_one. apply g1_add_id.
      + intros i Hi. destruct (Nat.eqb_spec K i) as [E|_]; [lia|]. apply g1_mul_zero.
    - rewrite IH by lia. apply Nat.eqb_neq in Hne. rewrite Hne, g1_mul_zero. apply g1_id_r. }
  eapply good_bind.
  - apply (good_echeck _ _ (fun p => forall i, (i < D)%nat ->
      nth i (snd p) 0 = sum_n K (fun k => fpow (fst p) k * nth i (nth k cf []) 0))).
    intros [x w] Hin. apply In_nth with (d := (0, [])) in Hin as (j & Hj & E). rewrite combine_length in Hj.
    rewrite combine_nth in E by lia. injection E as <- <-. cbn [fst snd].
    eapply good_weaken; [apply (good_same _ _ (gsum_n K (fpow (nth j xs 0)) Xs))|].
    + apply Hrep. lia.
    + pose proof (rep_combination (vandermonde (nth j xs 0) K) cf (fun k => nth k Xs g1_id)) as R.
      rewrite vandermonde_length in R. specialize (R Hr). unfold rep in *. rewrite R.
      apply gsum_i_ext. intros k Hk. rewrite nth_vandermonde by assumption. reflexivity.
    + intros bu E i Hi. cbv beta in E. rewrite E by assumption. rewrite combination_nth by assumption. rewrite vandermonde_length.
      apply sum_n_ext. intros k Hk. rewrite nth_vandermonde by assumption. reflexivity.
  - intros bs Hbs. split; try assumption.
    + intros k Hk. rewrite Hn by assumption. apply combination_length.
    + intros j i Hj Hi. specialize (Hbs (nth j xs 0, nth j ws [])). cbn [fst snd] in Hbs. apply Hbs; [|assumption].
      rewrite <- combine_nth by lia. apply nth_In. rewrite combine_length. lia.
    + intros i k Hk Hi Hz. rewrite Hn, combination_nth, interp_length by assumption. apply sum_n_zero.
      intros j Hj. rewrite Hz by assumption. ring.
Qed.
End Rep.
End RepProofs.
