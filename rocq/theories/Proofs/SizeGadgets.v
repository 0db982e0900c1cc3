(** The sizes of the gadgets that do not open Merkle trees. *)
From Coq Require Import ZArith String List Lia Arith.
From Verif.Base Require Import Outcome Fp Params Algebra.
From Verif.Model Require Import Transcript LinComb Prog IPP Prover Verifier Gadgets Hash.
From Verif.Spec Require Import CircuitSize.
From Verif.Proofs Require Import SizeTools.
Import ListNotations.
Local Open Scope nat_scope.
Local Notation length := List.length.

Create HintDb size.
#[export] Hint Resolve takes_multiply takes_constrain takes_evaluate takes_commit takes_random takes_simplify takes_lift
  takesR_multiplier takesR_single : size.

Lemma takesR_size {P : Params} {CA CR A} (m : prog CA CR (result A)) g r R g' r' :
  takesR m g r R -> g = g' -> r = r' -> takesR m g' r' R.
Proof. intros H <- <-. exact H. Qed.
Lemma takes_size {P : Params} {CA CR A} (m : prog CA CR A) g r R g' r' :
  takes m g r R -> g = g' -> r = r' -> takes m g' r' R.
Proof. intros H <- <-. exact H. Qed.

Ltac unpair := repeat match goal with |- context [match ?x with (_, _) => _ end] => is_var x; destruct x end.
Ltac size_step :=
  match goal with
  | |- takesR (ptry _ _) _ _ _ => eapply takesR_try; [solve [eauto with size]|intros; unpair]
  | |- takesR (pbind _ _) _ _ _ => eapply takes_bindR; [solve [eauto with size]|intros; unpair]
  | |- takes (pbind _ _) _ _ _ => eapply takes_bind; [solve [eauto with size]|intros; unpair]
  | |- takesR (PRet (Ok _)) _ _ _ => apply takesR_ret
  | |- takesR (PRet (Err _)) _ _ _ => apply takesR_err
  | |- takes (PRet _) _ _ _ => apply takes_ret
  | |- takesR _ _ _ _ => solve [eauto with size]
  | |- takes _ _ _ _ => solve [eauto with size]
  end.
Ltac size_steps := cbv zeta; repeat (size_step; cbv zeta).
Ltac size_of := first [eapply takesR_size | eapply takes_size]; [size_steps; try exact I| |].

Section Gadgets.
Context {P : Params}.
Section Generic.
Context {CA CR : Type}.
Local Notation pg := (prog CA CR).
Local Notation any := (fun _ => True).

Lemma size_scalar l x : takes (constrain_lc_with_scalar l x : pg _) 0 1 any.
Proof. apply takes_constrain. Qed.
Hint Resolve size_scalar : size.

Lemma size_bit v : takesR (bit_gadget v : pg _) 2 3 any.
Proof. unfold bit_gadget. size_of; reflexivity. Qed.

Lemma size_nonzero x y : takesR (is_nonzero_gadget x y : pg _) 4 6 any.
Proof. unfold is_nonzero_gadget. size_of; reflexivity. Qed.
Hint Resolve size_bit size_nonzero : size.

Lemma size_positive v n : takesR (positive_no_gadget v n : pg _) (2 * n) (2 * n + 1) any.
Proof.
  unfold positive_no_gadget. eapply takesR_size.
  - eapply takesR_try; [apply (takesR_fold _ 2 2 any); [exact I|]|].
    + intros [l e] i _ _. unfold positive_no_step. size_of; reflexivity.
    + intros st _. size_steps. exact I.
  - rewrite seq_length. lia.
  - rewrite seq_length. lia.
Qed.
Lemma size_sum l x : takesR (vector_sum_constraints l x : pg _) 0 1 any.
Proof. unfold vector_sum_constraints. size_of; reflexivity. Qed.
Hint Resolve size_positive size_sum : size.

Lemma size_bounded checks v a b max min n : takesR (bound_check_gadget checks v a b max min n : pg _) (4 * n) (4 * n + 5) any.
Proof. unfold bound_check_gadget. size_of; lia. Qed.

Lemma size_member v ds (set : list F) : takesR (set_membership_gadget v ds set : pg _) (2 * length set) (3 * length set + 1) any.
Proof.
  unfold set_membership_gadget. eapply takesR_size.
  - eapply takes_bindR; [apply (takes_fold _ 2 3 any); [exact I|]|].
    + intros l i _ _. size_of; reflexivity.
    + intros st _. size_steps. exact I.
  - rewrite seq_length. lia.
  - rewrite seq_length. lia.
Qed.

Lemma size_product items v x : takesR (vector_product_gadget items v x : pg _) (4 * length items) (4 * length items + 1) any.
Proof.
  unfold vector_product_gadget. eapply takesR_size.
  - eapply takesR_try; [apply (takesR_fold _ 4 4 any); [exact I|]|].
    + intros l i _ _. size_of; reflexivity.
    + intros st _. size_steps. exact I.
  - rewrite seq_length. lia.
  - rewrite seq_length. lia.
Qed.

Lemma size_not_member v ds is (set : list F) : takesR (set_non_membership_gadget v ds is set : pg _) (4 * length set) (7 * length set) any.
Proof.
  unfold set_non_membership_gadget. eapply takesR_size.
  - apply (takesR_fold _ 4 7 any); [exact I|]. intros l i _ _. size_of; reflexivity.
  - rewrite seq_length. lia.
  - rewrite seq_length. lia.
Qed.

Lemma size_hamming o (new : list F) count : takesR (hamming_distance_gadget o new count : pg _) (4 * length new) (3 * length new + 1) any.
Proof.
  unfold hamming_distance_gadget. destruct (negb _); [apply takesR_err|]. eapply takesR_size.
  - eapply takesR_try; [apply (takesR_fold _ 4 3 any); [exact I|]|].
    + intros l i _ _. size_of; reflexivity.
    + intros st _. size_steps. exact I.
  - rewrite seq_length. lia.
  - rewrite seq_length. lia.
Qed.

Lemma size_mimc l r n cs image : takesR (mimc_gadget l r n cs image : pg _) (4 * n) (4 * n + 1) any.
Proof.
  unfold mimc_gadget, enforce_mimc_2_inputs. eapply takesR_size.
  - eapply takesR_try.
    + eapply takes_bindR; [apply (takes_fold _ 4 4 any); [exact I|]|].
      * intros [x y] i _ _. size_of; reflexivity.
      * intros [x y] _. apply (takesR_ret _ any). exact I.
    + intros st _. size_steps. exact I.
  - rewrite seq_length. lia.
  - rewrite seq_length. lia.
Qed.

(** *** Poseidon *)
Section Poseidon.
Context (p : poseidon_params) (sbox : sbox_type).

Lemma size_sbox l k : takesR (synthesize_sbox sbox l k : pg _) (2 * sbox_gates sbox) (sbox_rows sbox) any.
Proof.
  destruct sbox; cbn [synthesize_sbox sbox_gates sbox_rows];
    unfold synthesize_cube_sbox, synthesize_quint_sbox, synthesize_inverse_sbox; size_of; reflexivity.
Qed.
Hint Resolve size_sbox : size.

Lemma size_full_round st i : takesR (full_round_constraints p sbox st i : pg _)
  (width p * (2 * sbox_gates sbox)) (width p * sbox_rows sbox) any.
Proof.
  unfold full_round_constraints. destruct st as [l o]. eapply takesR_size.
  - eapply takesR_try; [apply (takesR_fold _ (2 * sbox_gates sbox) (sbox_rows sbox) any); [exact I|]|].
    + intros [outs o1] j _ _. unfold full_sbox_constraints. size_of; lia.
    + intros [outs o1] _. size_steps. exact I.
  - rewrite seq_length. lia.
  - rewrite seq_length. lia.
Qed.

Lemma sum_last x w : 0 < w -> list_sum (map (fun i => if Nat.eqb i (w - 1) then x else 0) (seq 0 w)) = x.
Proof.
  intros Hw. destruct w as [|w]; [lia|]. replace (S w - 1) with w by lia. rewrite seq_S, map_app, list_sum_app. cbn.
  rewrite Nat.eqb_refl. replace (list_sum _) with 0; [lia|].
  symmetry. assert (H : forall l, (forall i, In i l -> i < w) -> list_sum (map (fun i => if Nat.eqb i w then x else 0) l) = 0).
  { induction l as [|i l IH]; intros Hl; [reflexivity|]. cbn.
    destruct (Nat.eqb_spec i w) as [->|]; [specialize (Hl w (or_introl eq_refl)); lia|]. apply IH. intros j Hj. apply Hl. right. exact Hj. }
  apply H. intros i Hi. apply in_seq in Hi. lia.
Qed.

Lemma size_partial_round st i : 0 < width p ->
  takesR (partial_round_constraints p sbox st i : pg _) (2 * sbox_gates sbox) (sbox_rows sbox) any.
Proof.
  intros Hw. unfold partial_round_constraints. destruct st as [l o]. eapply takesR_size.
  - eapply takesR_try.
    + apply (takesR_fold_sum _ (fun i => if Nat.eqb i (width p - 1) then 2 * sbox_gates sbox else 0)
               (fun i => if Nat.eqb i (width p - 1) then sbox_rows sbox else 0) any); [exact I|].
      intros [outs o1] j _ _. unfold partial_sbox_constraints.
      destruct (Nat.eqb j (width p - 1)); size_of; lia.
    + intros [outs o1] _. eapply takes_bindR; [apply takes_lift|]. intros nxt _.
      eapply takes_bindR; [apply (takes_fold_0 _ any); [exact I|]|].
      * intros vs l1 _ _. size_of; reflexivity.
      * intros vs _. size_steps. exact I.
  - rewrite (sum_last _ _ Hw). lia.
  - rewrite (sum_last _ _ Hw). lia.
Qed.

Lemma size_permutation l : 0 < length l ->
  takesR (Poseidon_permutation_constraints p sbox l : pg _) (2 * permutation_gates p sbox) (permutation_rows p sbox) any.
Proof.
  intros Hl. unfold Poseidon_permutation_constraints. eapply takesR_size.
  - eapply takes_bindR; [apply takes_lift|]. intros u Hu.
    destruct (Nat.eqb_spec (length l) (width p)) as [El|]; [|discriminate Hu].
    eapply takesR_try; [apply (takesR_fold _ (width p * (2 * sbox_gates sbox)) (width p * sbox_rows sbox) any); [exact I|]|].
    { intros s a _ _. apply size_full_round. }
    intros s1 _. eapply takesR_try; [apply (takesR_fold _ (2 * sbox_gates sbox) (sbox_rows sbox) any); [exact I|]|].
    { intros s a _ _. apply size_partial_round. lia. }
    intros s2 _. eapply takesR_try; [apply (takesR_fold _ (width p * (2 * sbox_gates sbox)) (width p * sbox_rows sbox) any); [exact I|]|].
    { intros s a _ _. apply size_full_round. }
    intros [s3 o3] _. size_steps. exact I.
  - rewrite !seq_length. unfold permutation_gates, sboxes. nia.
  - rewrite !seq_length. unfold permutation_rows, sboxes. nia.
Qed.

Lemma size_hash_2 xl xr statics :
  takesR (Poseidon_hash_2_constraints p sbox xl xr statics : pg _) (2 * permutation_gates p sbox) (permutation_rows p sbox) any.
Proof.
  unfold Poseidon_hash_2_constraints. eapply takesR_size.
  - eapply takes_bindR; [apply takes_lift|]. intros _ _. eapply takes_bindR; [apply takes_lift|]. intros s0 _.
    eapply takesR_try; [apply size_permutation; cbn; lia|]. intros out _. size_steps. exact I.
  - lia.
  - lia.
Qed.
Lemma size_hash_4 ins statics :
  takesR (Poseidon_hash_4_constraints p sbox ins statics : pg _) (2 * permutation_gates p sbox) (permutation_rows p sbox) any.
Proof.
  unfold Poseidon_hash_4_constraints. eapply takesR_size.
  - eapply takes_bindR; [apply takes_lift|]. intros _ _. eapply takes_bindR; [apply takes_lift|]. intros _ _.
    eapply takes_bindR; [apply takes_lift|]. intros s0 _.
    eapply takesR_try; [apply size_permutation; cbn; lia|]. intros out _. size_steps. exact I.
  - lia.
  - lia.
Qed.
Lemma size_hash_8 ins zero :
  takesR (Poseidon_hash_8_constraints p sbox ins zero : pg _) (2 * permutation_gates p sbox) (permutation_rows p sbox) any.
Proof.
  unfold Poseidon_hash_8_constraints. eapply takesR_size.
  - eapply takes_bindR; [apply takes_lift|]. intros _ _.
    eapply takesR_try; [apply size_permutation; cbn; lia|]. intros out _. size_steps. exact I.
  - lia.
  - lia.
Qed.
Hint Resolve size_hash_2 size_hash_4 size_hash_8 : size.

Lemma size_hash_2_gadget xl xr statics out :
  takesR (Poseidon_hash_2_gadget p sbox xl xr statics out : pg _) (2 * permutation_gates p sbox) (permutation_rows p sbox + 1) any.
Proof. unfold Poseidon_hash_2_gadget. size_of; lia. Qed.
Lemma size_hash_4_gadget ins statics out :
  takesR (Poseidon_hash_4_gadget p sbox ins statics out : pg _) (2 * permutation_gates p sbox) (permutation_rows p sbox + 1) any.
Proof. unfold Poseidon_hash_4_gadget. size_of; lia. Qed.
Lemma size_hash_8_gadget ins zero out :
  takesR (Poseidon_hash_8_gadget p sbox ins zero out : pg _) (2 * permutation_gates p sbox) (permutation_rows p sbox + 1) any.
Proof. unfold Poseidon_hash_8_gadget. size_of; lia. Qed.
End Poseidon.
End Generic.
End Gadgets.
#[export] Hint Resolve size_scalar size_bit size_nonzero size_positive size_sum size_bounded size_member size_product size_not_member
  size_hamming size_mimc size_hash_2 size_hash_4 size_hash_8 size_hash_2_gadget size_hash_4_gadget size_hash_8_gadget : size.
