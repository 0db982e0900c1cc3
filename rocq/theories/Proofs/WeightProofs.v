(** The weight matrices and the flattening computed from them. *)
From Coq Require Import ZArith String List Lia Bool Ring Field Permutation.
From Verif.Base Require Import Outcome Fp Params Algebra.
From Verif.Model Require Import Transcript LinComb Prog VectorPoly IPP Prover Verifier Weights.
From Verif.Spec Require Import R1CS Protocol WeightSpec.
From Verif.Proofs Require Import LinCombProofs RunProofs FlattenProofs RoundTrip.
Import ListNotations.

Section WeightProofs.
Context {P : Params} {OK : ParamsOk P}.
Local Open Scope fe_scope.
Local Open Scope outcome_scope.
Add Field FFweight : (Fp_field_theory modulus modulus_prime).

(** ** last coefficients *)
Lemma find_app {A} (p : A -> bool) l1 l2 :
  find p (l1 ++ l2) = match find p l1 with Some a => Some a | None => find p l2 end.
Proof. induction l1 as [|a t IH]; cbn; [reflexivity|]. destruct (p a); auto. Qed.

(** the value of a cell that held [d] once the terms of [l] have been written *)
Fixpoint written (v : var) (l : lc) (d : F) : F :=
  match l with
  | [] => d
  | (w, c) :: t => written v t (if var_eqb v w then c else d)
  end.

Lemma written_find v l d :
  written v l d = match find (fun t => var_eqb v (fst t)) (rev l) with Some t => snd t | None => d end.
Proof.
  revert d; induction l as [|[w c] t IH]; intros d; cbn [written rev]; [reflexivity|].
  rewrite IH, find_app. destruct (find _ (rev t)); [reflexivity|]. cbn.
  destruct (var_eqb v w); reflexivity.
Qed.

Lemma last_written v l : last_coeff v l = written v l 0.
Proof. rewrite written_find. reflexivity. Qed.

Lemma written_absent v l d : ~ In v (map fst l) -> written v l d = d.
Proof.
  revert d; induction l as [|[w c] t IH]; intros d H; cbn; [reflexivity|].
  rewrite IH by (intros A; apply H; right; exact A).
  destruct (var_eqb_spec v w) as [->|]; [exfalso; apply H; left; reflexivity|reflexivity].
Qed.

Lemma coeff_absent v l : ~ In v (map fst l) -> coeff v l = 0.
Proof.
  induction l as [|[w c] t IH]; intros H; cbn; [reflexivity|].
  rewrite IH by (intros A; apply H; right; exact A).
  destruct (var_eqb_spec v w) as [->|]; [exfalso; apply H; left; reflexivity|ring].
Qed.

Lemma last_coeff_once v l : v <> VOne -> no_repeats l -> last_coeff v l = coeff v l.
Proof.
  rewrite last_written. intros Hv. unfold no_repeats.
  induction l as [|[w c] t IH]; cbn [map fst filter written coeff]; [reflexivity|]. intros H.
  destruct (var_eqb_spec v w) as [->|N].
  - destruct (var_eqb_spec w VOne) as [->|_]; [congruence|]. cbn [negb] in H.
    inversion_clear H as [|? ? Hn _].
    assert (A : ~ In w (map fst t)).
    { intros A. apply Hn. apply filter_In. split; [exact A|].
      destruct (var_eqb_spec w VOne) as [->|_]; [congruence|reflexivity]. }
    rewrite written_absent, coeff_absent by exact A. ring.
  - rewrite IH; [ring|]. destruct (negb (var_eqb w VOne)); [inversion_clear H|]; assumption.
Qed.

Lemma no_repeats_nodup l : NoDup (map fst l) -> no_repeats l.
Proof. intros H. apply NoDup_filter. exact H. Qed.

(** ** matrices given by their entries *)
Definition mat (q n : nat) (f : nat -> nat -> F) : list (list F) := map (fun r => tab n (f r)) (seq 0 q).

Lemma mat_length q n f : length (mat q n f) = q.
Proof. unfold mat. rewrite map_length, seq_length. reflexivity. Qed.

Lemma mat_nth q n f r : (r < q)%nat -> nth r (mat q n f) [] = tab n (f r).
Proof. exact (nth_map_seq (fun r => tab n (f r)) q r []). Qed.

Lemma mat_ext q n f g : (forall r i, (r < q)%nat -> f r i = g r i) -> mat q n f = mat q n g.
Proof. intros H. apply map_ext_in. intros r Hr. apply in_seq in Hr. apply tab_ext. intros. apply H. lia. Qed.

Lemma mat_is q n f : is_matrix q n (mat q n f) f.
Proof.
  split; [apply mat_length|]. intros r Hr. rewrite mat_nth by exact Hr. split; [apply tab_length|].
  intros i Hi. apply tab_nth. exact Hi.
Qed.

Lemma mat_zero q n : repeat (zeros n) q = mat q n (fun _ _ => 0).
Proof.
  unfold mat. rewrite tab_zeros. generalize 0%nat.
  induction q as [|q IH]; intros k; cbn; [reflexivity|]. f_equal. apply IH.
Qed.

Lemma set_nth_nth_error {A} (l : list A) i a l' d : set_nth l i a = Done l' ->
  forall j, nth j l' d = if Nat.eqb j i then a else nth j l d.
Proof. intros H j. apply (set_nth_nth l i a l' j d H). Qed.

Lemma set_tab n f i x : (i < n)%nat ->
  set_nth (tab n f) i x = Done (tab n (fun j => if Nat.eqb j i then x else f j)).
Proof.
  intros Hi. destruct (set_nth_ok (tab n f) i x) as [l' Hl']; [rewrite tab_length; exact Hi|].
  rewrite Hl'. f_equal. apply nth_ext with (d := 0) (d' := 0).
  - rewrite (set_nth_length _ _ _ _ Hl'), !tab_length. reflexivity.
  - rewrite (set_nth_length _ _ _ _ Hl'), tab_length. intros j Hj.
    rewrite (set_nth_nth _ _ _ _ j 0 Hl'), !tab_nth by exact Hj. reflexivity.
Qed.

Lemma set_cell_mat q n f r i c : (r < q)%nat -> (i < n)%nat ->
  set_cell (mat q n f) r i c =
  Done (mat q n (fun r' i' => if Nat.eqb r' r then (if Nat.eqb i' i then c else f r' i') else f r' i')).
Proof.
  intros Hr Hi. unfold set_cell. rewrite (index_ok _ _ []) by (rewrite mat_length; exact Hr).
  cbn [obind]. rewrite mat_nth, set_tab by assumption. cbn [obind].
  destruct (set_nth_ok (mat q n f) r (tab n (fun j => if Nat.eqb j i then c else f r j))) as [l' Hl'];
    [rewrite mat_length; exact Hr|].
  rewrite Hl'. f_equal. apply nth_ext with (d := []) (d' := []).
  - rewrite (set_nth_length _ _ _ _ Hl'), !mat_length. reflexivity.
  - rewrite (set_nth_length _ _ _ _ Hl'), mat_length. intros j Hj.
    rewrite (set_nth_nth _ _ _ _ j [] Hl'), !mat_nth by exact Hj.
    destruct (Nat.eqb_spec j r) as [->|]; reflexivity.
Qed.

Definition mats (q n m : nat) (fL fR fO fV : nat -> nat -> F) :=
  (mat q n fL, mat q n fR, mat q n fO, mat q m fV).

Lemma mats_ext q n m fL fR fO fV gL gR gO gV :
  (forall r i, (r < q)%nat -> fL r i = gL r i) -> (forall r i, (r < q)%nat -> fR r i = gR r i) ->
  (forall r i, (r < q)%nat -> fO r i = gO r i) -> (forall r i, (r < q)%nat -> fV r i = gV r i) ->
  mats q n m fL fR fO fV = mats q n m gL gR gO gV.
Proof.
  intros H1 H2 H3 H4. unfold mats.
  rewrite (mat_ext q n fL gL), (mat_ext q n fR gR), (mat_ext q n fO gO), (mat_ext q m fV gV) by assumption.
  reflexivity.
Qed.

(** row [r] after the terms of [l] have been written into it *)
Definition row_written (r : nat) (l : lc) (mk : nat -> var) (f : nat -> nat -> F) : nat -> nat -> F :=
  fun r' i => if Nat.eqb r' r then written (mk i) l (f r' i) else f r' i.

Lemma prover_weight_lc q n m r l : (r < q)%nat -> lc_in_range n m l -> forall fL fR fO fV,
  foldM (prover_weight_term r) l (mats q n m fL fR fO fV) =
  Done (mats q n m (row_written r l VLeft fL) (row_written r l VRight fR)
          (row_written r l VOut fO) (row_written r l VCommitted fV)).
Proof.
  intros Hq. induction l as [|[v c] t IH]; intros Hr fL fR fO fV.
  - cbn [foldM]. f_equal. apply mats_ext; intros r' i _; unfold row_written; cbn [written]; destruct (Nat.eqb r' r); reflexivity.
  - assert (Hr' : lc_in_range n m t) by (intros w d Hin; apply (Hr w d); right; assumption).
    assert (Hv : var_in_range n m v) by (apply (Hr v c); left; reflexivity).
    cbn [foldM]. unfold mats at 1. destruct v as [i|i|i|i|]; cbn [var_in_range] in Hv; cbn [prover_weight_term];
      rewrite ?set_cell_mat by assumption; cbn [obind];
      match goal with |- foldM _ _ (mat _ _ ?a, mat _ _ ?b, mat _ _ ?c, mat _ _ ?d) = _ =>
        change (mat q n a, mat q n b, mat q n c, mat q m d) with (mats q n m a b c d) end;
      rewrite IH by assumption; f_equal; apply mats_ext; intros r' j _; unfold row_written; cbn [written var_eqb];
      destruct (Nat.eqb r' r); try reflexivity; destruct (Nat.eqb j i); reflexivity.
Qed.

Lemma verifier_weight_lc q n m r l : (r < q)%nat -> lc_in_range n m l -> forall fL fR fO fV wc,
  foldM (verifier_weight_term r) l (mats q n m fL fR fO fV, wc) =
  Done (mats q n m (row_written r l VLeft fL) (row_written r l VRight fR)
          (row_written r l VOut fO) (row_written r l VCommitted fV), wc - coeff VOne l).
Proof.
  intros Hq. induction l as [|[v c] t IH]; intros Hr fL fR fO fV wc.
  - cbn [foldM]. f_equal. f_equal; [|cbn; ring].
    apply mats_ext; intros r' i _; unfold row_written; cbn [written]; destruct (Nat.eqb r' r); reflexivity.
  - assert (Hr' : lc_in_range n m t) by (intros w d Hin; apply (Hr w d); right; assumption).
    assert (Hv : var_in_range n m v) by (apply (Hr v c); left; reflexivity).
    cbn [foldM]. unfold mats at 1. destruct v as [i|i|i|i|]; cbn [var_in_range] in Hv; cbn [verifier_weight_term];
      rewrite ?set_cell_mat by assumption; cbn [obind];
      match goal with |- foldM _ _ (mat _ _ ?a, mat _ _ ?b, mat _ _ ?c, mat _ _ ?d, _) = _ =>
        change (mat q n a, mat q n b, mat q n c, mat q m d) with (mats q n m a b c d) end;
      rewrite IH by assumption; f_equal; f_equal; try (cbn; ring);
      apply mats_ext; intros r' j _; unfold row_written; cbn [written var_eqb];
      destruct (Nat.eqb r' r); try reflexivity; destruct (Nat.eqb j i); reflexivity.
Qed.

(** the rows from [k] on after the constraints [cs] have been written *)
Definition rows_written (k : nat) (cs : list lc) (mk : nat -> var) (f : nat -> nat -> F) : nat -> nat -> F :=
  fun r i => if (Nat.leb k r && Nat.ltb r (k + length cs))%bool then written (mk i) (nth (r - k) cs []) (f r i) else f r i.

Lemma rows_written_nil k mk f r i : rows_written k [] mk f r i = f r i.
Proof.
  unfold rows_written. cbn [length]. rewrite Nat.add_0_r.
  destruct (Nat.leb_spec k r), (Nat.ltb_spec r k); cbn; try reflexivity; lia.
Qed.

Lemma rows_written_cons k l t mk f r i :
  rows_written (S k) t mk (row_written k l mk f) r i = rows_written k (l :: t) mk f r i.
Proof.
  unfold rows_written, row_written. cbn [length].
  destruct (Nat.leb_spec (S k) r), (Nat.ltb_spec r (S k + length t)), (Nat.leb_spec k r),
    (Nat.ltb_spec r (k + S (length t))), (Nat.eqb_spec r k); cbn [andb]; try lia; try reflexivity.
  - replace (r - k)%nat with (S (r - S k)) by lia. reflexivity.
  - subst r. rewrite Nat.sub_diag. reflexivity.
Qed.

Lemma prover_weight_go n m q cs : Forall (lc_in_range n m) cs -> forall k fL fR fO fV, (k + length cs <= q)%nat ->
  foldM (fun w '(r, l) => foldM (prover_weight_term r) l w) (combine (seq k (length cs)) cs)
    (mats q n m fL fR fO fV) =
  Done (mats q n m (rows_written k cs VLeft fL) (rows_written k cs VRight fR)
          (rows_written k cs VOut fO) (rows_written k cs VCommitted fV)).
Proof.
  induction 1 as [|l t Hl Ht IH]; intros k fL fR fO fV Hq.
  - cbn. f_equal. apply mats_ext; intros r i _; rewrite rows_written_nil; reflexivity.
  - cbn [length] in Hq. cbn [length seq combine foldM]. rewrite prover_weight_lc by (assumption || lia). cbn [obind].
    rewrite IH by lia. f_equal. apply mats_ext; intros r i _; apply rows_written_cons.
Qed.

Fixpoint ones (cs : list lc) : F :=
  match cs with
  | [] => 0
  | l :: t => coeff VOne l + ones t
  end.

Lemma verifier_weight_go n m q cs : Forall (lc_in_range n m) cs -> forall k fL fR fO fV wc, (k + length cs <= q)%nat ->
  foldM (fun w '(r, l) => foldM (verifier_weight_term r) l w) (combine (seq k (length cs)) cs)
    (mats q n m fL fR fO fV, wc) =
  Done (mats q n m (rows_written k cs VLeft fL) (rows_written k cs VRight fR)
          (rows_written k cs VOut fO) (rows_written k cs VCommitted fV), wc - ones cs).
Proof.
  induction 1 as [|l t Hl Ht IH]; intros k fL fR fO fV wc Hq.
  - cbn. f_equal. f_equal; [|ring]. apply mats_ext; intros r i _; rewrite rows_written_nil; reflexivity.
  - cbn [length] in Hq. cbn [length seq combine foldM]. rewrite verifier_weight_lc by (assumption || lia). cbn [obind].
    rewrite IH by lia. f_equal. f_equal; [|cbn [ones]; ring]. apply mats_ext; intros r i _; apply rows_written_cons.
Qed.

(** the entry a variable gets in row [r] *)
Definition entry (cs : list lc) (mk : nat -> var) (r i : nat) : F := last_coeff (mk i) (nth r cs []).

Lemma rows_entry cs mk r i : (r < length cs)%nat -> rows_written 0 cs mk (fun _ _ => 0) r i = entry cs mk r i.
Proof.
  intros H. unfold rows_written, entry. rewrite last_written, Nat.sub_0_r.
  destruct (Nat.leb_spec 0 r), (Nat.ltb_spec r (0 + length cs)); cbn [andb]; try lia. reflexivity.
Qed.

Theorem prover_matrices_ok s :
  Forall (lc_in_range (length (p_aL s)) (length (p_v s))) (p_constraints s) ->
  prover_weight_matrices s =
  Done (mats (length (p_constraints s)) (length (p_aL s)) (length (p_v s))
          (entry (p_constraints s) VLeft) (entry (p_constraints s) VRight)
          (entry (p_constraints s) VOut) (entry (p_constraints s) VCommitted)).
Proof.
  intros H. unfold prover_weight_matrices. rewrite !mat_zero.
  etransitivity; [exact (prover_weight_go _ _ (length (p_constraints s)) _ H 0%nat _ _ _ _ (le_n _))|].
  f_equal. apply mats_ext; intros r i Hr; apply rows_entry; exact Hr.
Qed.

Theorem verifier_matrices_ok s :
  Forall (lc_in_range (v_num_vars s) (length (v_V s))) (v_constraints s) ->
  verifier_weight_matrices s =
  Done (mats (length (v_constraints s)) (v_num_vars s) (length (v_V s))
          (entry (v_constraints s) VLeft) (entry (v_constraints s) VRight)
          (entry (v_constraints s) VOut) (entry (v_constraints s) VCommitted), - ones (v_constraints s)).
Proof.
  intros H. unfold verifier_weight_matrices. rewrite !mat_zero.
  etransitivity; [exact (verifier_weight_go _ _ (length (v_constraints s)) _ H 0%nat _ _ _ _ _ (le_n _))|].
  f_equal. f_equal; try ring. apply mats_ext; intros r i Hr; apply rows_entry; exact Hr.
Qed.

Lemma ones_sum cs : ones cs = fsum (map (coeff VOne) cs).
Proof. induction cs as [|l t IH]; cbn; [reflexivity|]. rewrite IH. reflexivity. Qed.

(** ** product of a vector with a matrix *)
Lemma row_times_go (x : nat -> F) q n f i : (i < n)%nat -> forall k acc,
  foldM (fun acc '(x, row) => y <- index row i ;; Done (acc + x * y))
    (combine (map x (seq k q)) (map (fun r => tab n (f r)) (seq k q))) acc =
  Done (acc + fsum (map (fun r => x r * f r i) (seq k q))).
Proof.
  intros Hi. induction q as [|q IH]; intros k acc; cbn [seq map combine foldM fsum].
  - f_equal. ring.
  - rewrite (index_ok _ _ 0) by (rewrite tab_length; exact Hi). cbn [obind]. rewrite tab_nth by exact Hi.
    rewrite IH. f_equal. ring.
Qed.

Lemma row_times_mat (x : nat -> F) q n f : (0 < q)%nat ->
  multiply_row_vector_with_matrix (map x (seq 0 q)) (mat q n f) =
  Done (tab n (fun i => fsum (map (fun r => x r * f r i) (seq 0 q)))).
Proof.
  intros Hq. unfold multiply_row_vector_with_matrix.
  rewrite map_length, seq_length, mat_length, Nat.eqb_refl. cbn [assertb obind].
  rewrite (index_ok _ _ []) by (rewrite mat_length; exact Hq). cbn [obind].
  rewrite mat_nth, tab_length by exact Hq. unfold tab at 1.
  apply (mapM_ok _ (fun i => fsum (map (fun r => x r * f r i) (seq 0 q)))).
  intros i Hi. apply in_seq in Hi. unfold mat. rewrite row_times_go by lia. f_equal. ring.
Qed.

Lemma z_powers z q : skipn 1 (vandermonde z (q + 1)) = map (fun r => fpow z (S r)) (seq 0 q).
Proof.
  unfold vandermonde. rewrite Nat.add_1_r. cbn [seq map skipn]. rewrite <- seq_shift, map_map. reflexivity.
Qed.

(** the sum over all rows of [z^(r+1)] times the entry of the row *)
Definition zweight (cs : list lc) (z : F) (v : var) : F :=
  fsum (map (fun r => fpow z (S r) * last_coeff v (nth r cs [])) (seq 0 (length cs))).

Lemma fsum_map_opp {A} (f : A -> F) l : fsum (map (fun a => - f a) l) = - fsum (map f l).
Proof. induction l as [|a t IH]; cbn; [ring|]. rewrite IH. ring. Qed.

Theorem elaborated_ok s z : p_constraints s <> [] ->
  Forall (lc_in_range (length (p_aL s)) (length (p_v s))) (p_constraints s) ->
  let n := length (p_aL s) in
  let w v := zweight (p_constraints s) z v in
  prover_flattened_elaborated s z =
  Done (tab n (fun i => w (VLeft i)), tab n (fun i => w (VRight i)),
        tab n (fun i => w (VOut i)), tab (length (p_v s)) (fun i => - w (VCommitted i))).
Proof.
  intros Hne Hr n w. unfold prover_flattened_elaborated. rewrite prover_matrices_ok by exact Hr.
  assert (Hq : (0 < length (p_constraints s))%nat) by (destruct (p_constraints s); [congruence|cbn; lia]).
  unfold mats. cbn [obind]. rewrite z_powers, map_map. rewrite !row_times_mat by exact Hq. cbn [obind].
  f_equal. f_equal.
  apply tab_ext. intros i _. unfold w, zweight. rewrite <- fsum_map_opp. apply fsum_map_ext. intros r _.
  unfold entry. ring.
Qed.

Lemma zweight_weight cs z v : v <> VOne -> Forall no_repeats cs -> zweight cs z v = weight cs z v.
Proof.
  intros Hv Hn. unfold zweight, weight. apply fsum_map_ext. intros r Hin. apply in_seq in Hin.
  rewrite last_coeff_once; [reflexivity|exact Hv|]. rewrite Forall_forall in Hn. apply Hn, nth_In. lia.
Qed.

Theorem elaborated_agrees s z : p_constraints s <> [] -> Forall no_repeats (p_constraints s) ->
  Forall (lc_in_range (length (p_aL s)) (length (p_v s))) (p_constraints s) ->
  prover_flattened_elaborated s z = prover_flattened_constraints s z.
Proof.
  intros Hne Hn Hr. rewrite (elaborated_ok s z Hne Hr), (prover_flattened_ok s z Hr).
  exact (f_equal Done (flat_ext _ _ _ _ _ _ _ _ _ _
    (fun i => zweight_weight _ z (VLeft i) ltac:(congruence) Hn)
    (fun i => zweight_weight _ z (VRight i) ltac:(congruence) Hn)
    (fun i => zweight_weight _ z (VOut i) ltac:(congruence) Hn)
    (fun i => f_equal fopp (zweight_weight _ z (VCommitted i) ltac:(congruence) Hn)))).
Qed.

(** ** out of range *)
Definition rows_of (n : nat) (W : list (list F)) : Prop := Forall (fun row => length row = n) W.

Lemma rows_of_zero n q : rows_of n (repeat (zeros n) q).
Proof. apply Forall_forall. intros row Hin. apply repeat_spec in Hin. subst row. apply zeros_length. Qed.

Lemma set_nth_rows n W r row W' : rows_of n W -> length row = n -> set_nth W r row = Done W' -> rows_of n W'.
Proof.
  intros H Hl. revert r W'; induction H as [|a t Ha Ht IH]; intros r W' E; destruct r; cbn in E; try discriminate.
  - injection E as <-. constructor; assumption.
  - destruct (set_nth t r row) as [t'|] eqn:Et; [|discriminate]. injection E as <-. constructor; [exact Ha|].
    exact (IH r t' Et).
Qed.

Lemma index_rows n W r row : rows_of n W -> index W r = Done row -> length row = n.
Proof.
  intros H E. unfold index in E. destruct (nth_error W r) as [x|] eqn:Ex; [|discriminate]. injection E as <-.
  apply nth_error_In in Ex. unfold rows_of in H. rewrite Forall_forall in H. exact (H x Ex).
Qed.

Lemma set_cell_rows n W r i c W' : rows_of n W -> set_cell W r i c = Done W' -> rows_of n W'.
Proof.
  intros H. unfold set_cell. destruct (index W r) as [row|] eqn:Er; cbn [obind]; [|discriminate].
  destruct (set_nth row i c) as [row'|] eqn:Es; cbn [obind]; [|discriminate]. intros E.
  refine (set_nth_rows n W r row' W' H _ E). rewrite (set_nth_length _ _ _ _ Es). exact (index_rows n W r row H Er).
Qed.

Lemma set_cell_out n W r i c : rows_of n W -> (n <= i)%nat -> set_cell W r i c = Panic.
Proof.
  intros H Hi. unfold set_cell. destruct (index W r) as [row|] eqn:Er; cbn [obind]; [|reflexivity].
  rewrite set_nth_out; [reflexivity|]. rewrite (index_rows n W r row H Er). exact Hi.
Qed.

Definition mats_shape (n m : nat) (w : list (list F) * list (list F) * list (list F) * list (list F)) : Prop :=
  let '(a, b, c, d) := w in rows_of n a /\ rows_of n b /\ rows_of n c /\ rows_of m d.

Lemma prover_weight_term_shape n m r w t w' :
  mats_shape n m w -> prover_weight_term r w t = Done w' -> mats_shape n m w'.
Proof.
  destruct w as [[[a b] c] d], t as [v x]. intros (H1 & H2 & H3 & H4) E.
  destruct v as [i|i|i|i|]; cbn [prover_weight_term] in E;
    try (destruct (set_cell _ _ _ _) eqn:Ea; cbn [obind] in E; [|discriminate]);
    injection E as <-; unfold mats_shape; repeat split; try assumption; refine (set_cell_rows _ _ _ _ _ _ _ Ea); assumption.
Qed.

Lemma verifier_weight_term_shape n m r w wc t w' wc' :
  mats_shape n m w -> verifier_weight_term r (w, wc) t = Done (w', wc') -> mats_shape n m w'.
Proof.
  destruct w as [[[a b] c] d], t as [v x]. intros (H1 & H2 & H3 & H4) E.
  destruct v as [i|i|i|i|]; cbn [verifier_weight_term] in E;
    try (destruct (set_cell _ _ _ _) eqn:Ea; cbn [obind] in E; [|discriminate]);
    injection E as <- _; unfold mats_shape; repeat split; try assumption; refine (set_cell_rows _ _ _ _ _ _ _ Ea); assumption.
Qed.

Lemma combine_split {A B} (l : list A) (l1 l2 : list B) b : length l = length (l1 ++ b :: l2) ->
  exists x x1 x2, combine l (l1 ++ b :: l2) = x1 ++ (x, b) :: x2.
Proof.
  revert l; induction l1 as [|c t IH]; intros [|a l] H; cbn in H; try discriminate; cbn.
  - exists a, [], (combine l l2). reflexivity.
  - destruct (IH l) as (x & x1 & x2 & E); [lia|]. exists x, ((a, c) :: x1), x2. rewrite E. reflexivity.
Qed.

Theorem prover_matrices_panic s l v c :
  In l (p_constraints s) -> In (v, c) l -> ~ var_in_range (length (p_aL s)) (length (p_v s)) v ->
  prover_weight_matrices s = Panic.
Proof.
  intros Hl Hv Hr. unfold prover_weight_matrices.
  apply in_split in Hl as (c1 & c2 & ->). apply in_split in Hv as (l1 & l2 & ->).
  set (n := length (p_aL s)) in *. set (m := length (p_v s)) in *.
  destruct (combine_split (seq 0 (length (c1 ++ (l1 ++ (v, c) :: l2) :: c2))) c1 c2 (l1 ++ (v, c) :: l2) (seq_length _ _)) as (r & x1 & x2 & Ec).
  etransitivity; [apply (f_equal (fun l => foldM _ l _) Ec)|].
  apply (foldM_panic_inv (mats_shape n m)).
  - intros w [r' a] w' Hs E.
    apply (foldM_inv (mats_shape n m) _ _ _ _) in E; [exact E| |exact Hs].
    intros w0 t w2 Hs0 E2. eapply prover_weight_term_shape; eassumption.
  - intros w Hs. apply (foldM_panic_inv (mats_shape n m)); [| |exact Hs].
    + intros w0 t w2 Hs0 E2. eapply prover_weight_term_shape; eassumption.
    + intros [[[a b] d] f] (H1 & H2 & H3 & H4).
      destruct v as [i|i|i|i|]; cbn [var_in_range prover_weight_term] in *;
        try (erewrite set_cell_out; [reflexivity|eassumption|lia]). tauto.
  - cbn. auto using rows_of_zero.
Qed.

Theorem verifier_matrices_panic s l v c :
  In l (v_constraints s) -> In (v, c) l -> ~ var_in_range (v_num_vars s) (length (v_V s)) v ->
  verifier_weight_matrices s = Panic.
Proof.
  intros Hl Hv Hr. unfold verifier_weight_matrices.
  apply in_split in Hl as (c1 & c2 & ->). apply in_split in Hv as (l1 & l2 & ->).
  set (n := v_num_vars s) in *. set (m := length (v_V s)) in *.
  destruct (combine_split (seq 0 (length (c1 ++ (l1 ++ (v, c) :: l2) :: c2))) c1 c2 (l1 ++ (v, c) :: l2) (seq_length _ _)) as (r & x1 & x2 & Ec).
  etransitivity; [apply (f_equal (fun l => foldM _ l _) Ec)|].
  apply (foldM_panic_inv (fun s => mats_shape n m (fst s))).
  - intros [w wc] [r' a] [w' wc'] Hs E.
    apply (foldM_inv (fun s => mats_shape n m (fst s)) _ _ _ _) in E; [exact E| |exact Hs].
    intros [w0 wc0] t [w2 wc2] Hs0 E2. eapply verifier_weight_term_shape; eassumption.
  - intros [w wc] Hs. apply (foldM_panic_inv (fun s => mats_shape n m (fst s))); [| |exact Hs].
    + intros [w0 wc0] t [w2 wc2] Hs0 E2. eapply verifier_weight_term_shape; eassumption.
    + intros [[[[a b] d] f] wc0] (H1 & H2 & H3 & H4).
      destruct v as [i|i|i|i|]; cbn [var_in_range verifier_weight_term] in *;
        try (erewrite set_cell_out; [reflexivity|eassumption|lia]). tauto.
  - cbn. auto using rows_of_zero.
Qed.

(** ** statements *)
Theorem prover_matrices s :
  Forall (lc_in_range (length (p_aL s)) (length (p_v s))) (p_constraints s) ->
  let cs := p_constraints s in let q := length cs in let n := length (p_aL s) in
  exists WL WR WO WV, prover_weight_matrices s = Done (WL, WR, WO, WV) /\
    is_matrix q n WL (fun r i => last_coeff (VLeft i) (nth r cs [])) /\
    is_matrix q n WR (fun r i => last_coeff (VRight i) (nth r cs [])) /\
    is_matrix q n WO (fun r i => last_coeff (VOut i) (nth r cs [])) /\
    is_matrix q (length (p_v s)) WV (fun r i => last_coeff (VCommitted i) (nth r cs [])).
Proof.
  intros H cs q n. eexists _, _, _, _. split; [exact (prover_matrices_ok s H)|]. repeat split; try apply mat_length;
    match goal with
    | |- length (nth _ (mat ?q ?n ?f) _) = _ => apply (mat_is q n f); assumption
    | |- forall i, (i < _)%nat -> nth i (nth _ (mat ?q ?n ?f) _) _ = _ => apply (mat_is q n f); assumption
    end.
Qed.

Theorem verifier_matrices s :
  Forall (lc_in_range (v_num_vars s) (length (v_V s))) (v_constraints s) ->
  let cs := v_constraints s in let q := length cs in let n := v_num_vars s in
  exists WL WR WO WV wc, verifier_weight_matrices s = Done (WL, WR, WO, WV, wc) /\
    is_matrix q n WL (fun r i => last_coeff (VLeft i) (nth r cs [])) /\
    is_matrix q n WR (fun r i => last_coeff (VRight i) (nth r cs [])) /\
    is_matrix q n WO (fun r i => last_coeff (VOut i) (nth r cs [])) /\
    is_matrix q (length (v_V s)) WV (fun r i => last_coeff (VCommitted i) (nth r cs [])) /\
    wc = - fsum (map (coeff VOne) cs).
Proof.
  intros H cs q n. eexists _, _, _, _, _. split; [exact (verifier_matrices_ok s H)|]. repeat split; try apply mat_length;
    try (f_equal; apply ones_sum);
    match goal with
    | |- length (nth _ (mat ?q ?n ?f) _) = _ => apply (mat_is q n f); assumption
    | |- forall i, (i < _)%nat -> nth i (nth _ (mat ?q ?n ?f) _) _ = _ => apply (mat_is q n f); assumption
    end.
Qed.

(** a constraint is the inner product of its rows with the assignment *)
Theorem rows_are_constraints s sigma WL WR WO WV r :
  prover_weight_matrices s = Done (WL, WR, WO, WV) ->
  (r < length (p_constraints s))%nat ->
  let l := nth r (p_constraints s) [] in
  no_repeats l ->
  let n := length (p_aL s) in
  ip (nth r WL []) (map (as_left sigma) (seq 0 n)) + ip (nth r WR []) (map (as_right sigma) (seq 0 n)) +
  ip (nth r WO []) (map (as_out sigma) (seq 0 n)) +
  ip (nth r WV []) (map (as_committed sigma) (seq 0 (length (p_v s)))) + coeff VOne l = lc_value sigma l.
Proof.
  intros E Hr l Hn n.
  assert (Hrg : Forall (lc_in_range (length (p_aL s)) (length (p_v s))) (p_constraints s)).
  { apply Forall_forall. intros l' Hl v c Hv.
    destruct (var_in_range_dec (length (p_aL s)) (length (p_v s)) v) as [|N]; [assumption|].
    rewrite (prover_matrices_panic s l' v c Hl Hv N) in E. discriminate. }
  rewrite (prover_matrices_ok s Hrg) in E. injection E as <- <- <- <-. rewrite !mat_nth by exact Hr.
  assert (Hl : lc_in_range (length (p_aL s)) (length (p_v s)) l)
    by (rewrite Forall_forall in Hrg; apply Hrg, nth_In; exact Hr).
  rewrite (lc_value_coeffs sigma _ _ l Hl). unfold tab, entry. fold l.
  assert (X : forall k mk f, (forall i, mk i <> VOne) ->
    ip (map (fun i => last_coeff (mk i) l) (seq 0 k)) (map f (seq 0 k)) = fsum (map (fun i => coeff (mk i) l * f i) (seq 0 k))).
  { intros k mk f Hm. generalize 0%nat. induction k as [|k IH]; intros a; cbn; [reflexivity|].
    rewrite IH, (last_coeff_once _ _ (Hm _) Hn). reflexivity. }
  rewrite !X by (intros; congruence). fold n. ring.
Qed.

(** ** a repeated variable *)
Definition doubled (g h : G1) (t : transcript) (v b : F) : prover :=
  let '((_, x), s) := prover_commit v b (prover_new g h t) in
  prover_constrain (lc_add (lc_of_var x) (lc_of_var x)) s.

Theorem elaborated_differs g h t v b z : z <> 0 ->
  prover_flattened_elaborated (doubled g h t v b) z = Done ([], [], [], [- z]) /\
  prover_flattened_constraints (doubled g h t v b) z = Done ([], [], [], [- (z + z)]) /\
  - z <> - (z + z).
Proof.
  intros Hz.
  assert (Hr : Forall (lc_in_range (length (p_aL (doubled g h t v b))) (length (p_v (doubled g h t v b))))
                 (p_constraints (doubled g h t v b))).
  { constructor; [|constructor]. intros w c [E|[E|[]]]; injection E as <- <-; cbn; lia. }
  split; [|split].
  - rewrite elaborated_ok; [|cbn; congruence|exact Hr]. cbn -[fadd fmul fopp fzero fone].
    unfold zweight, tab. cbn -[fadd fmul fopp fzero fone].
    match goal with |- Done (_, _, _, [?a]) = Done (_, _, _, [?b]) => replace a with b by ring end. reflexivity.
  - rewrite prover_flattened_ok by exact Hr. cbn -[fadd fmul fopp fzero fone].
    unfold weight, tab. cbn -[fadd fmul fopp fzero fone].
    match goal with |- Done (_, _, _, [?a]) = Done (_, _, _, [?b]) => replace a with b by ring end. reflexivity.
  - intros E. apply Hz. replace z with ((- z) - (- (z + z))) by ring. rewrite E. ring.
Qed.

End WeightProofs.
