(** Flattening of the constraints (prover.rs 142-184, verifier.rs 149-193). *)
From Coq Require Import ZArith String List Lia Bool Ring Field Permutation.
From Verif.Base Require Import Outcome Fp Params Algebra.
From Verif.Model Require Import Transcript LinComb Prog VectorPoly IPP Prover Verifier.
From Verif.Spec Require Import R1CS Protocol.
From Verif.Proofs Require Import LinCombProofs RunProofs.
Import ListNotations.

Section FlattenProofs.
Context {P : Params} {OK : ParamsOk P}.
Local Open Scope fe_scope.
Add Field FFflat : (Fp_field_theory modulus modulus_prime).

(** a vector given by its entries *)
Definition tab (n : nat) (f : nat -> F) : list F := map f (seq 0 n).

Lemma tab_length n f : length (tab n f) = n.
Proof. unfold tab. rewrite map_length, seq_length. reflexivity. Qed.

Lemma tab_nth n f i : (i < n)%nat -> nth i (tab n f) 0 = f i.
Proof. apply nth_map_seq. Qed.

Lemma tab_nth_out n f i : (n <= i)%nat -> nth i (tab n f) 0 = 0.
Proof. intros H. apply nth_overflow. rewrite tab_length. assumption. Qed.

Lemma tab_ext n f g : (forall i, (i < n)%nat -> f i = g i) -> tab n f = tab n g.
Proof. intros H. apply map_ext_in. intros i Hi. apply in_seq in Hi. apply H. lia. Qed.

Lemma tab_of_list l n : length l = n -> l = tab n (fun i => nth i l 0).
Proof. apply list_as_map_n. Qed.

Lemma tab_zeros n : zeros n = tab n (fun _ => 0).
Proof.
  unfold tab, zeros. generalize 0%nat. induction n; intros k; simpl; [reflexivity|].
  f_equal. apply IHn.
Qed.

Lemma add_at_tab n f i x : (i < n)%nat ->
  add_at (tab n f) i x = Done (tab n (fun j => f j + (if Nat.eqb j i then x else 0))).
Proof.
  intros Hi. unfold add_at. rewrite (index_ok _ _ 0) by (rewrite tab_length; assumption).
  simpl. destruct (set_nth_ok (tab n f) i (nth i (tab n f) 0 + x)) as [l' Hl'];
    [rewrite tab_length; assumption|]. rewrite Hl'. f_equal.
  apply nth_ext with (d := 0) (d' := 0).
  - rewrite (set_nth_length _ _ _ _ Hl'), !tab_length. reflexivity.
  - rewrite (set_nth_length _ _ _ _ Hl'), tab_length. intros j Hj.
    rewrite (set_nth_nth _ _ _ _ j 0 Hl'), !tab_nth by assumption.
    destruct (Nat.eqb_spec j i) as [->|]; ring.
Qed.

Lemma add_at_out l i x : (length l <= i)%nat -> add_at l i x = Panic.
Proof. intros H. unfold add_at. rewrite index_out by assumption. reflexivity. Qed.

Definition flat (n m : nat) (fL fR fO fV : nat -> F) : list F * list F * list F * list F :=
  (tab n fL, tab n fR, tab n fO, tab m fV).

Lemma flat_ext n m fL fR fO fV gL gR gO gV :
  (forall i, fL i = gL i) -> (forall i, fR i = gR i) -> (forall i, fO i = gO i) -> (forall i, fV i = gV i) ->
  flat n m fL fR fO fV = flat n m gL gR gO gV.
Proof.
  intros H1 H2 H3 H4. unfold flat.
  rewrite (tab_ext n fL gL), (tab_ext n fR gR), (tab_ext n fO gO), (tab_ext m fV gV) by auto. reflexivity.
Qed.

Lemma prover_flatten_lc n m e l : lc_in_range n m l -> forall fL fR fO fV,
  foldM (prover_flatten_term e) l (flat n m fL fR fO fV) =
  Done (flat n m (fun j => fL j + e * coeff (VLeft j) l) (fun j => fR j + e * coeff (VRight j) l)
    (fun j => fO j + e * coeff (VOut j) l) (fun j => fV j - e * coeff (VCommitted j) l)).
Proof.
  induction l as [|[v c] t IH]; intros Hr fL fR fO fV.
  - simpl. f_equal. apply flat_ext; intros; ring.
  - assert (Hr' : lc_in_range n m t) by (intros w d Hin; apply (Hr w d); right; assumption).
    assert (Hv : var_in_range n m v) by (apply (Hr v c); left; reflexivity).
    simpl foldM. unfold flat at 1. destruct v as [i|i|i|i|]; simpl in Hv; cbn [prover_flatten_term];
      rewrite ?add_at_tab by assumption; cbn [obind];
      match goal with |- foldM _ _ (tab _ ?a, tab _ ?b, tab _ ?c, tab _ ?d) = _ =>
        change (tab n a, tab n b, tab n c, tab m d) with (flat n m a b c d) end;
      rewrite IH by assumption; f_equal; apply flat_ext; intros j; simpl;
      try (destruct (Nat.eqb j i)); ring.
Qed.

Lemma verifier_flatten_lc n m e l : lc_in_range n m l -> forall fL fR fO fV wc,
  foldM (verifier_flatten_term e) l (flat n m fL fR fO fV, wc) =
  Done (flat n m (fun j => fL j + e * coeff (VLeft j) l) (fun j => fR j + e * coeff (VRight j) l)
    (fun j => fO j + e * coeff (VOut j) l) (fun j => fV j - e * coeff (VCommitted j) l),
    wc - e * coeff VOne l).
Proof.
  induction l as [|[v c] t IH]; intros Hr fL fR fO fV wc.
  - simpl. f_equal. f_equal; [apply flat_ext; intros; ring|ring].
  - assert (Hr' : lc_in_range n m t) by (intros w d Hin; apply (Hr w d); right; assumption).
    assert (Hv : var_in_range n m v) by (apply (Hr v c); left; reflexivity).
    simpl foldM. unfold flat at 1. destruct v as [i|i|i|i|]; simpl in Hv; cbn [verifier_flatten_term];
      rewrite ?add_at_tab by assumption; cbn [obind];
      match goal with |- foldM _ _ (tab _ ?a, tab _ ?b, tab _ ?c, tab _ ?d, _) = _ =>
        change (tab n a, tab n b, tab n c, tab m d) with (flat n m a b c d) end;
      rewrite IH by assumption; f_equal; f_equal; simpl; try ring; apply flat_ext; intros j;
      try (destruct (Nat.eqb j i)); ring.
Qed.

Lemma fsum_seq_shift (f : nat -> F) a n : fsum (map f (seq (S a) n)) = fsum (map (fun i => f (S i)) (seq a n)).
Proof. rewrite <- seq_shift, map_map. reflexivity. Qed.

Lemma weight_cons l cs z v : weight (l :: cs) z v = z * coeff v l + z * weight cs z v.
Proof.
  unfold weight. simpl length. cbn [seq map fsum nth]. rewrite fsum_seq_shift.
  cbn [nth]. rewrite <- fsum_map_scale. f_equal; [simpl; ring|].
  apply fsum_map_ext. intros i _. simpl. ring.
Qed.

(** sum over [q] of [e * z^q * coeff v cs_q] *)
Fixpoint wsum (cs : list lc) (z e : F) (v : var) : F :=
  match cs with
  | [] => 0
  | l :: t => e * coeff v l + wsum t z (e * z) v
  end.

Lemma wsum_scale cs z e d v : wsum cs z (d * e) v = d * wsum cs z e v.
Proof.
  revert e; induction cs as [|l t IH]; intros e; simpl; [ring|].
  replace (d * e * z) with (d * (e * z)) by ring. rewrite IH. ring.
Qed.

Lemma wsum_weight cs z v : wsum cs z z v = weight cs z v.
Proof.
  induction cs as [|l t IH]; [reflexivity|].
  rewrite weight_cons. simpl. rewrite wsum_scale, IH. reflexivity.
Qed.

Lemma prover_flatten_go n m z cs : Forall (lc_in_range n m) cs -> forall e fL fR fO fV,
  exists e', foldM (fun '(w, exp_z) l => obind (foldM (prover_flatten_term exp_z) l w)
                 (fun w => Done (w, exp_z * z))) cs (flat n m fL fR fO fV, e) =
  Done (flat n m (fun j => fL j + wsum cs z e (VLeft j)) (fun j => fR j + wsum cs z e (VRight j))
    (fun j => fO j + wsum cs z e (VOut j)) (fun j => fV j - wsum cs z e (VCommitted j)), e').
Proof.
  induction 1 as [|l t Hl Ht IH]; intros e fL fR fO fV.
  - exists e. simpl. f_equal. f_equal. apply flat_ext; intros; ring.
  - cbn [foldM]. rewrite prover_flatten_lc by assumption. cbn [obind].
    destruct (IH (e * z) (fun j => fL j + e * coeff (VLeft j) l) (fun j => fR j + e * coeff (VRight j) l)
      (fun j => fO j + e * coeff (VOut j) l) (fun j => fV j - e * coeff (VCommitted j) l)) as [e' E].
    exists e'. rewrite E. f_equal. f_equal. apply flat_ext; intros; simpl; ring.
Qed.

Lemma verifier_flatten_go n m z cs : Forall (lc_in_range n m) cs -> forall e fL fR fO fV wc,
  exists e', foldM (fun '(w, exp_z) l => obind (foldM (verifier_flatten_term exp_z) l w)
                 (fun w => Done (w, exp_z * z))) cs ((flat n m fL fR fO fV, wc), e) =
  Done ((flat n m (fun j => fL j + wsum cs z e (VLeft j)) (fun j => fR j + wsum cs z e (VRight j))
    (fun j => fO j + wsum cs z e (VOut j)) (fun j => fV j - wsum cs z e (VCommitted j)),
    wc - wsum cs z e VOne), e').
Proof.
  induction 1 as [|l t Hl Ht IH]; intros e fL fR fO fV wc.
  - exists e. simpl. f_equal. f_equal. f_equal; [apply flat_ext; intros; ring|ring].
  - cbn [foldM]. rewrite verifier_flatten_lc by assumption. cbn [obind].
    destruct (IH (e * z) (fun j => fL j + e * coeff (VLeft j) l) (fun j => fR j + e * coeff (VRight j) l)
      (fun j => fO j + e * coeff (VOut j) l) (fun j => fV j - e * coeff (VCommitted j) l)
      (wc - e * coeff VOne l)) as [e' E].
    exists e'. rewrite E. f_equal. f_equal. f_equal; [apply flat_ext; intros; simpl; ring|simpl; ring].
Qed.

Theorem prover_flattened_ok s z :
  Forall (lc_in_range (length (p_aL s)) (length (p_v s))) (p_constraints s) ->
  prover_flattened_constraints s z =
  Done (tab (length (p_aL s)) (fun j => weight (p_constraints s) z (VLeft j)),
        tab (length (p_aL s)) (fun j => weight (p_constraints s) z (VRight j)),
        tab (length (p_aL s)) (fun j => weight (p_constraints s) z (VOut j)),
        tab (length (p_v s)) (fun j => - weight (p_constraints s) z (VCommitted j))).
Proof.
  intros H. unfold prover_flattened_constraints. rewrite !tab_zeros.
  destruct (prover_flatten_go _ _ z _ H z (fun _ => 0) (fun _ => 0) (fun _ => 0) (fun _ => 0)) as [e' E].
  unfold flat in E. rewrite E. cbn [obind]. f_equal.
  apply flat_ext; intros; rewrite wsum_weight; ring.
Qed.

Theorem verifier_flattened_ok s z :
  Forall (lc_in_range (v_num_vars s) (length (v_V s))) (v_constraints s) ->
  verifier_flattened_constraints s z =
  Done (tab (v_num_vars s) (fun j => weight (v_constraints s) z (VLeft j)),
        tab (v_num_vars s) (fun j => weight (v_constraints s) z (VRight j)),
        tab (v_num_vars s) (fun j => weight (v_constraints s) z (VOut j)),
        tab (length (v_V s)) (fun j => - weight (v_constraints s) z (VCommitted j)),
        - weight (v_constraints s) z VOne).
Proof.
  intros H. unfold verifier_flattened_constraints. rewrite !tab_zeros.
  destruct (verifier_flatten_go _ _ z _ H z (fun _ => 0) (fun _ => 0) (fun _ => 0) (fun _ => 0) 0) as [e' E].
  unfold flat in E. rewrite E. cbn [obind]. f_equal.
  f_equal; [|rewrite wsum_weight; ring]. apply flat_ext; intros; rewrite wsum_weight; ring.
Qed.

(** an out-of-range variable makes flattening panic *)
Lemma foldM_panic {A S} (f : S -> A -> outcome S) a l1 l2 s :
  (forall s, f s a = Panic) -> foldM f (l1 ++ a :: l2) s = Panic.
Proof.
  intros H. revert s; induction l1 as [|b t IH]; intros s; simpl.
  - rewrite H. reflexivity.
  - destruct (f s b); simpl; auto.
Qed.

Lemma foldM_inv {A S} (I : S -> Prop) (f : S -> A -> outcome S) l s s' :
  (forall s a s', I s -> f s a = Done s' -> I s') -> I s -> foldM f l s = Done s' -> I s'.
Proof.
  intros Hf. revert s; induction l as [|a t IH]; intros s Hs; simpl.
  - intros E. injection E as <-. assumption.
  - destruct (f s a) as [s1|] eqn:E1; simpl; [|discriminate]. apply IH. eapply Hf; eassumption.
Qed.

Lemma foldM_panic_inv {A S} (I : S -> Prop) (f : S -> A -> outcome S) a l1 l2 s :
  (forall s a s', I s -> f s a = Done s' -> I s') ->
  (forall s, I s -> f s a = Panic) -> I s -> foldM f (l1 ++ a :: l2) s = Panic.
Proof.
  intros Hf H. revert s; induction l1 as [|b t IH]; intros s Hs; simpl.
  - rewrite H by assumption. reflexivity.
  - destruct (f s b) as [s1|] eqn:E; simpl; [|reflexivity]. apply IH. eapply Hf; eassumption.
Qed.

Definition flat_shape (n m : nat) (w : list F * list F * list F * list F) : Prop :=
  let '(a, b, c, d) := w in length a = n /\ length b = n /\ length c = n /\ length d = m.

Lemma add_at_length l i x l' : add_at l i x = Done l' -> length l' = length l.
Proof.
  unfold add_at. destruct (index l i); simpl; [|discriminate]. apply set_nth_length.
Qed.

Lemma verifier_flatten_term_shape n m e w wc t w' wc' :
  flat_shape n m w -> verifier_flatten_term e (w, wc) t = Done (w', wc') -> flat_shape n m w'.
Proof.
  destruct w as [[[a b] c] d], t as [v x]. intros (H1 & H2 & H3 & H4).
  destruct v as [i|i|i|i|]; simpl.
  - destruct (add_at d i (- (e * x))) as [l'|] eqn:E; simpl; [|discriminate]. intros E'. injection E' as <- _.
    apply add_at_length in E. simpl. intuition congruence.
  - destruct (add_at a i (e * x)) as [l'|] eqn:E; simpl; [|discriminate]. intros E'. injection E' as <- _.
    apply add_at_length in E. simpl. intuition congruence.
  - destruct (add_at b i (e * x)) as [l'|] eqn:E; simpl; [|discriminate]. intros E'. injection E' as <- _.
    apply add_at_length in E. simpl. intuition congruence.
  - destruct (add_at c i (e * x)) as [l'|] eqn:E; simpl; [|discriminate]. intros E'. injection E' as <- _.
    apply add_at_length in E. simpl. intuition congruence.
  - intros E'. injection E' as <- _. simpl. auto.
Qed.

Theorem verifier_flattened_panic s z l v c :
  In l (v_constraints s) -> In (v, c) l -> ~ var_in_range (v_num_vars s) (length (v_V s)) v ->
  verifier_flattened_constraints s z = Panic.
Proof.
  intros Hl Hv Hr. unfold verifier_flattened_constraints.
  apply in_split in Hl as (c1 & c2 & ->). apply in_split in Hv as (l1 & l2 & ->).
  set (n := v_num_vars s) in *. set (m := length (v_V s)) in *.
  rewrite (foldM_panic_inv (fun s => flat_shape n m (fst (fst s)))); [reflexivity| | |].
  - intros [[w wc] e] a [[w' wc'] e'] Hs E. simpl in Hs |- *.
    destruct (foldM (verifier_flatten_term e) a (w, wc)) as [[w1 wc1]|] eqn:E1; simpl in E; [|discriminate].
    injection E as <- _ _.
    apply (foldM_inv (fun s => flat_shape n m (fst s)) _ _ _ _) in E1; [exact E1| |exact Hs].
    intros [w0 wc0] t [w2 wc2] Hs0 E2. eapply verifier_flatten_term_shape; eassumption.
  - intros [[w wc] e] Hs.
    rewrite (foldM_panic_inv (fun s => flat_shape n m (fst s))); [reflexivity| | |exact Hs].
    + intros [w0 wc0] t [w2 wc2] Hs0 E2. eapply verifier_flatten_term_shape; eassumption.
    + intros [[[[a b] d] f] wc0] (H1 & H2 & H3 & H4).
      destruct v as [i|i|i|i|]; simpl in *; try (rewrite add_at_out by lia; reflexivity). tauto.
  - simpl. rewrite !zeros_length. auto.
Qed.

(** *** The z-weighted sum *)
Lemma zsum_cons s l cs z : zsum s (l :: cs) z = z * lc_value s l + z * zsum s cs z.
Proof.
  unfold zsum. simpl length. cbn [seq map fsum nth]. rewrite fsum_seq_shift. cbn [nth].
  rewrite <- fsum_map_scale. f_equal; [simpl; ring|]. apply fsum_map_ext. intros i _. simpl. ring.
Qed.

Lemma zsum_satisfied s cs z : (forall l, In l cs -> lc_value s l = 0) -> zsum s cs z = 0.
Proof.
  intros H. unfold zsum. apply fsum_map_zero. intros q Hq. apply in_seq in Hq.
  rewrite H; [ring|]. apply nth_In. lia.
Qed.

(** value of a linear combination over existing variables, by coefficients *)
Lemma fsum_indicator (f : nat -> F) n i c : (i < n)%nat ->
  fsum (map (fun j => (if Nat.eqb j i then c else 0) * f j) (seq 0 n)) = c * f i.
Proof.
  revert f i; induction n; intros f i Hi; [lia|].
  cbn [seq map fsum]. rewrite fsum_seq_shift. destruct i.
  - simpl Nat.eqb. rewrite fsum_map_zero; [ring|]. intros; simpl; ring.
  - simpl Nat.eqb. rewrite (IHn (fun i => f (S i)) i) by lia. ring.
Qed.

Lemma lc_value_coeffs s n m l : lc_in_range n m l ->
  lc_value s l = fsum (map (fun j => coeff (VLeft j) l * as_left s j) (seq 0 n))
   + fsum (map (fun j => coeff (VRight j) l * as_right s j) (seq 0 n))
   + fsum (map (fun j => coeff (VOut j) l * as_out s j) (seq 0 n))
   + fsum (map (fun j => coeff (VCommitted j) l * as_committed s j) (seq 0 m))
   + coeff VOne l.
Proof.
  induction l as [|[v c] t IH]; intros Hr.
  - simpl. rewrite !fsum_map_zero by (intros; ring). ring.
  - assert (Hr' : lc_in_range n m t) by (intros w d Hin; apply (Hr w d); right; assumption).
    assert (Hv : var_in_range n m v) by (apply (Hr v c); left; reflexivity).
    simpl lc_value. rewrite IH by assumption.
    assert (Hsplit : forall (V : nat -> var) (f : nat -> F) k,
      fsum (map (fun j => coeff (V j) ((v, c) :: t) * f j) (seq 0 k)) =
      fsum (map (fun j => (if var_eqb (V j) v then c else 0) * f j) (seq 0 k)) +
      fsum (map (fun j => coeff (V j) t * f j) (seq 0 k))).
    { intros V f k. rewrite <- fsum_map_add. apply fsum_map_ext. intros j _. simpl. ring. }
    rewrite !Hsplit. cbn [coeff].
    destruct v as [i|i|i|i|]; simpl in Hv; cbn [var_eqb var_value];
      try rewrite fsum_indicator by assumption;
      rewrite ?(fsum_map_zero (fun j => 0 * _ j)) by (intros; ring); ring.
Qed.

Lemma fsum_map_mul_r {A} (c : F) (f : A -> F) l : fsum (map (fun i => f i * c) l) = fsum (map f l) * c.
Proof. induction l; simpl; [ring|rewrite IHl; ring]. Qed.

Theorem flatten_zsum s n m cs z : Forall (lc_in_range n m) cs ->
  fsum (map (fun j => weight cs z (VLeft j) * as_left s j) (seq 0 n))
   + fsum (map (fun j => weight cs z (VRight j) * as_right s j) (seq 0 n))
   + fsum (map (fun j => weight cs z (VOut j) * as_out s j) (seq 0 n))
   + fsum (map (fun j => weight cs z (VCommitted j) * as_committed s j) (seq 0 m))
   + weight cs z VOne = zsum s cs z.
Proof.
  induction 1 as [|l t Hl Ht IH].
  - unfold weight, zsum. simpl. rewrite !fsum_map_zero by (intros; ring). ring.
  - rewrite zsum_cons, (lc_value_coeffs s n m l Hl), <- IH.
    assert (Hsplit : forall (V : nat -> var) (f : nat -> F) k,
      fsum (map (fun j => weight (l :: t) z (V j) * f j) (seq 0 k)) =
      z * fsum (map (fun j => coeff (V j) l * f j) (seq 0 k)) +
      z * fsum (map (fun j => weight t z (V j) * f j) (seq 0 k))).
    { intros V f k. rewrite <- !fsum_map_scale, <- fsum_map_add. apply fsum_map_ext. intros j _.
      rewrite weight_cons. ring. }
    rewrite !Hsplit, weight_cons. ring.
Qed.

Lemma weight_equiv cs cs' z v : Forall2 lc_same cs cs' -> weight cs z v = weight cs' z v.
Proof.
  induction 1 as [|l l' t t' [Hl _] Ht IH]; [reflexivity|].
  rewrite !weight_cons, IH, Hl. reflexivity.
Qed.

Lemma in_range_same n m l l' : lc_same l l' -> lc_in_range n m l -> lc_in_range n m l'.
Proof.
  intros [_ H] Hr v c Hin.
  apply (in_map fst) in Hin. simpl in Hin. apply H in Hin.
  apply in_map_iff in Hin as ([w d] & E & Hin). simpl in E. subst. eapply Hr. eassumption.
Qed.

Lemma in_range_same_all n m cs cs' : Forall2 lc_same cs cs' ->
  Forall (lc_in_range n m) cs -> Forall (lc_in_range n m) cs'.
Proof.
  induction 1; intros H'; [constructor|]. inversion H'; subst.
  constructor; [eapply in_range_same; eassumption|auto].
Qed.

Lemma zsum_same s cs cs' z : Forall2 lc_same cs cs' -> zsum s cs z = zsum s cs' z.
Proof.
  induction 1 as [|l l' t t' [Hl _] Ht IH]; [reflexivity|].
  rewrite !zsum_cons, IH, (lc_equiv_value s l l' Hl). reflexivity.
Qed.

End FlattenProofs.
