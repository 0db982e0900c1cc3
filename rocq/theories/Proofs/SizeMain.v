(** The sizes of the circuits of all proving and verifying functions, and of sessions. *)
From Coq Require Import ZArith String List Lia Arith.
From Verif.Base Require Import Outcome Fp Params Algebra.
From Verif.Model Require Import Transcript LinComb Prog IPP Prover Verifier Gadgets Hash Merkle MerkleGadget Randomizer.
From Verif.Spec Require Import R1CS Gadget Protocol IPPSpec Extractor R1CSTree R1CSExtractor Knowledge Games Verdict Compose GadgetGames RomSim RomSession CircuitSize.
From Verif.Proofs Require Import RunProofs CircuitProofs R1CSMain KernelTools KnowledgeMain ComposeMain GadgetError RomSession SizeTools SizeGadgets SizeMerkle.
Import ListNotations.
Local Open Scope nat_scope.
Local Notation length := List.length.

Section Main.
Context {P : Params}.
Local Notation any := (fun _ => True).

(** *** Verifying functions *)
Lemma size_remove0 l : takes (remove0 l) 0 0 (fun x => S (length (snd x)) = length l).
Proof. destruct l as [|x t]; [apply takes_panic|]. apply takes_ret. reflexivity. Qed.
Hint Resolve size_remove0 : size.

Lemma size_statics_v n g h : takes (allocate_statics_for_verifier n g h) 0 0 any.
Proof.
  unfold allocate_statics_for_verifier. cbv zeta. eapply takes_size.
  - eapply takes_bind; [apply takes_commit|]. intros v _. eapply (takes_bind _ _ 0 0 _ _ any).
    + destruct (Nat.ltb _ _); [|apply takes_ret; exact I]. size_of; reflexivity.
    + intros st _. apply (takes_fold_0 _ any); [exact I|]. intros s a _ _. size_of; reflexivity.
  - reflexivity.
  - reflexivity.
Qed.
Lemma size_received l n : takes (commit_received l n) 0 0 any.
Proof.
  unfold commit_received. eapply takes_size.
  - eapply takes_bind; [apply (takes_fold_0 _ any); [exact I|]|].
    + intros [cs vs] a _ _. size_of; reflexivity.
    + intros [cs vs] _. size_steps. exact I.
  - reflexivity.
  - reflexivity.
Qed.
Lemma size_first n l : takes (commit_first n l) 0 0 any.
Proof. unfold commit_first. apply (takes_fold_0 _ any); [exact I|]. intros [cs vs] a _ _. size_of; reflexivity. Qed.
Lemma size_drain_from l : forall vs0, takes (p_fold (fun proof_vars c => pbind (cs_commit c) (fun v => PRet (proof_vars ++ [v]))) l vs0 : vprog _)
  0 0 (fun vs => length vs = length vs0 + length l).
Proof.
  induction l as [|x l IH]; intros vs0; cbn [p_fold]; [apply takes_ret; cbn; lia|].
  change 0 with (0 + 0). eapply (takes_bind _ _ 0 0 0 0 (fun vs => length vs = S (length vs0))).
  - change 0 with (0 + 0). eapply takes_bind; [apply takes_commit|]. intros v _. apply takes_ret. rewrite app_length. cbn. lia.
  - intros vs Ev. eapply takes_conv; [apply IH|reflexivity|reflexivity|]. intros vs' E. cbv beta in *. cbn [length]. lia.
Qed.
Lemma size_drain l : takes (commit_drain l) 0 0 (fun vs => length vs = length l).
Proof. exact (size_drain_from l []). Qed.
Hint Resolve size_statics_v size_received size_first : size.

Section Verifier.
Context (checks : bool) (g h : G1).

Lemma size_member_v (set : list F) comms : takesR (verify_set_membership set comms) (2 * length set) (3 * length set + 1) any.
Proof.
  unfold verify_set_membership. eapply takesR_size.
  - eapply takes_bindR; [apply size_remove0|]. intros [c cs] _. eapply takes_bindR; [apply takes_commit|]. intros v _.
    eapply takes_bindR; [apply (takes_fold_0 _ any); [exact I|]|].
    + intros [cs1 ds] a _ _. size_of; reflexivity.
    + intros [cs1 ds] _. size_steps. exact I.
  - lia.
  - lia.
Qed.
Lemma size_member_alt_v set comms : takesR (verify_set_membership_alt set comms) (2 * (3 * length set)) (7 * length set + 2) any.
Proof.
  unfold verify_set_membership_alt. eapply takesR_size.
  - eapply takesR_try; [apply (takesR_fold _ 2 3 any); [exact I|]|].
    + intros [[cs1 bs] qs] a _ _. size_of; reflexivity.
    + intros [[cs1 bs] qs] _. size_steps. exact I.
  - rewrite seq_length. lia.
  - rewrite seq_length. lia.
Qed.
Lemma size_not_member_v (set : list F) comms : takesR (verify_set_non_membership set comms) (2 * (2 * length set)) (7 * length set) any.
Proof.
  unfold verify_set_non_membership. eapply takesR_size.
  - eapply takes_bindR; [apply size_remove0|]. intros [c cs] _. eapply takes_bindR; [apply takes_commit|]. intros v _.
    eapply takes_bindR; [apply (takes_fold_0 _ any); [exact I|]|].
    + intros [[cs1 ds] is] a _ _. size_of; reflexivity.
    + intros [[cs1 ds] is] _. size_steps. exact I.
  - lia.
  - lia.
Qed.
Lemma size_hamming_v (new : list F) count comms : takesR (verify_hamming_distance new count comms) (2 * (2 * length new)) (3 * length new + 1) any.
Proof.
  unfold verify_hamming_distance. eapply takesR_size.
  - eapply takes_bindR; [apply (takes_fold_0 _ any); [exact I|]|].
    + intros vs a _ _. size_of; reflexivity.
    + intros vs _. size_steps. exact I.
  - lia.
  - lia.
Qed.

Lemma size_verifies st comms : takesR (verifies checks g h st comms) (2 * gates st (length comms)) (rows st (length comms)) any.
Proof.
  destruct st as [|lower upper n|set|set|set|new count|image cs n|p sbox out|p sbox out|p sbox out|p sbox root depth|p sbox root depth|p depth us t db indices];
    cbn [verifies gates rows].
  - unfold verify_non_zero_val. size_of; reflexivity.
  - unfold verify_bounded_num. size_of; lia.
  - apply size_member_v.
  - apply size_member_alt_v.
  - apply size_not_member_v.
  - apply size_hamming_v.
  - unfold verify_mimc_preimage. size_of; lia.
  - unfold verify_Poseidon_2. size_of; lia.
  - unfold verify_Poseidon_4. size_of; lia.
  - unfold verify_Poseidon_8. size_of; lia.
  - unfold verify_leaf_inclusion_4_ary_merkle_tree. eapply takesR_size.
    + eapply takes_bindR; [apply size_remove0|]. intros [c1 cs1] E1. eapply takes_bindR; [apply takes_commit|]. intros v1 _.
      eapply takes_bindR; [apply size_remove0|]. intros [c2 cs2] E2. eapply takes_bindR; [apply takes_commit|]. intros v2 _.
      cbn [snd] in E1, E2. eapply takes_bindR; [apply size_drain|]. intros vs Ev.
      eapply takes_bindR; [apply size_statics_v|]. intros statics _.
      eapply takesR_try; [|intros; apply (takesR_ret tt any); exact I].
      assert (El : 2 + length vs = length comms) by (cbv beta in *; lia).
      lazymatch goal with |- takesR (vanilla_merkle_merkle_tree_4_verif_gadget _ _ ?d ?rt ?lf ?ix ?ns ?z) _ _ _ =>
        pose proof (size_merkle_4 (CA := G1) (CR := var) p sbox d rt lf ix ns z) as X end.
      rewrite El in X. exact X.
    + lia.
    + lia.
  - unfold verify_leaf_inclusion_8_ary_merkle_tree. eapply takesR_size.
    + eapply takes_bindR; [apply size_remove0|]. intros [c1 cs1] E1. eapply takes_bindR; [apply takes_commit|]. intros v1 _.
      eapply takes_bindR; [apply size_remove0|]. intros [c2 cs2] E2. eapply takes_bindR; [apply takes_commit|]. intros v2 _.
      cbn [snd] in E1, E2. eapply takes_bindR; [apply size_drain|]. intros vs Ev.
      eapply takes_bindR; [apply size_statics_v|]. intros statics _. eapply takes_bindR; [apply takes_lift|]. intros zero _.
      eapply takesR_try; [|intros; apply (takesR_ret tt any); exact I].
      assert (El : 2 + length vs = length comms) by (cbv beta in *; lia).
      lazymatch goal with |- takesR (vanilla_merkle_merkle_tree_8_verif_gadget _ _ ?d ?rt ?lf ?ix ?ns ?z) _ _ _ =>
        pose proof (size_merkle_8 (CA := G1) (CR := var) p sbox d rt lf ix ns z) as X end.
      rewrite El in X. exact X.
    + lia.
    + lia.
  - unfold verify_randomizer. eapply takesR_size.
    + eapply takes_bindR; [apply size_remove0|]. intros [c1 cs1] _. eapply takes_bindR; [apply takes_commit|]. intros v1 _.
      eapply takes_bindR; [apply (takes_fold_0 _ any); [exact I|]|].
      * intros [[cs vs] ps] a _ _. size_of; reflexivity.
      * intros [[cs vs] ps] _. size_steps. exact I.
    + lia.
    + lia.
Qed.

Lemma size_verify_all l : takesR (verify_all checks g h l)
  (2 * list_sum (map (fun '(st, comms) => gates st (length comms)) l)) (list_sum (map (fun '(st, comms) => rows st (length comms)) l)) any.
Proof.
  induction l as [|[st comms] l IH]; cbn [verify_all map]; [apply takesR_ret; exact I|]. eapply takesR_size.
  - eapply takesR_try; [apply size_verifies|]. intros _ _. exact IH.
  - unfold list_sum. cbn [fold_right]. lia.
  - unfold list_sum. cbn [fold_right]. lia.
Qed.
End Verifier.

(** *** Proving functions *)
Lemma size_check r rng : takesR (check_for_randomness_or_rng r rng) 0 0 any.
Proof. destruct r, rng; first [apply takesR_ret; exact I | apply takesR_err]. Qed.
Lemma size_check_vec r rng : takesR (check_for_randomness_or_rng_vec r rng) 0 0 any.
Proof. destruct r, rng; first [apply takesR_ret; exact I | apply takesR_err]. Qed.
Lemma size_rand r rng : takes (randomness_or_rng r rng) 0 0 any.
Proof. destruct r, rng; first [apply takes_ret; exact I | apply takes_random | apply takes_panic]. Qed.
Lemma size_rand_vec r rng n : takes (randomness_or_rng_vec r rng n) 0 0 any.
Proof.
  destruct r, rng; first [apply takes_ret; exact I | apply takes_panic | idtac]. cbn [randomness_or_rng_vec].
  apply (takes_fold_0 _ any); [exact I|]. intros s a _ _. size_of; reflexivity.
Qed.
Lemma size_check_length xs rs n : takesR (check_for_input_and_randomness_length xs rs n) 0 0 any.
Proof. unfold check_for_input_and_randomness_length. destruct (_ || _)%bool; [apply takesR_err|apply takesR_ret; exact I]. Qed.
Lemma size_pop0 l : takes (pop0 l) 0 0 any.
Proof. destruct l; [apply takes_panic|apply takes_ret; exact I]. Qed.
Hint Resolve size_check size_check_vec size_rand size_rand_vec size_check_length size_pop0 : size.
Lemma size_statics_p n : takes (allocate_statics_for_prover n) 0 0 any.
Proof.
  unfold allocate_statics_for_prover. cbv zeta. eapply takes_size.
  - eapply takes_bind; [apply takes_commit|]. intros [c v] _. eapply (takes_bind _ _ 0 0 _ _ any).
    + destruct (Nat.ltb _ _); [|apply takes_ret; exact I]. size_of; reflexivity.
    + intros st _. apply (takes_fold_0 _ any); [exact I|]. intros s a _ _. size_of; reflexivity.
  - reflexivity.
  - reflexivity.
Qed.
Lemma size_inputs xs rs n : takes (commit_inputs xs rs n) 0 0 any.
Proof.
  unfold commit_inputs. eapply takes_size.
  - eapply takes_bind; [apply (takes_fold_0 _ any); [exact I|]|].
    + intros [[[x r] cs] vs] a _ _. size_of; reflexivity.
    + intros [[[x r] cs] vs] _. size_steps. exact I.
  - reflexivity.
  - reflexivity.
Qed.
Hint Resolve size_statics_p size_inputs : size.

Lemma size_proof_from (l : list F) : forall comms0 vs0,
  takes (p_fold (fun '(comms, proof_vars) x => pbind p_random (fun r => pbind (cs_commit (x, r)) (fun '(c, v) => PRet (comms ++ [c], proof_vars ++ [v])))) l (comms0, vs0) : pprog _)
  0 0 (fun x => length (fst x) = length comms0 + length l /\ length (snd x) = length vs0 + length l).
Proof.
  induction l as [|x l IH]; intros comms0 vs0; cbn [p_fold]; [apply takes_ret; cbn; lia|].
  change 0 with (0 + 0). eapply (takes_bind _ _ 0 0 0 0 (fun y => length (fst y) = S (length comms0) /\ length (snd y) = S (length vs0))).
  - change 0 with (0 + 0). eapply takes_bind; [apply takes_random|]. intros r _.
    change 0 with (0 + 0). eapply takes_bind; [apply takes_commit|]. intros [c v] _. apply takes_ret. cbn. rewrite !app_length. cbn. lia.
  - intros [cs vs] [E1 E2]. cbn in E1, E2. eapply takes_conv; [apply IH|reflexivity|reflexivity|]. intros [cs' vs'] [E3 E4]. cbn in *. lia.
Qed.
Lemma size_proof proof comms0 : takes (commit_proof proof comms0) 0 0
  (fun x => length (fst x) = length comms0 + length (concat proof) /\ length (snd x) = length (concat proof)).
Proof. exact (size_proof_from (concat proof) comms0 []). Qed.

Lemma size_leaf_and_index x idx r rng :
  takesR (commit_leaf_and_index x idx r rng) 0 0 (fun y => length (fst (fst y)) = 2).
Proof.
  unfold commit_leaf_and_index. eapply takesR_size.
  - eapply takesR_try; [apply size_check_vec|]. intros _ _. eapply takes_bindR; [apply size_rand_vec|]. intros rands _.
    destruct (negb _); [apply (takesR_err _ 0 0)|]. eapply takesR_size.
    + eapply takes_bindR; [apply size_pop0|]. intros [r1 rs1] _. eapply takes_bindR; [apply takes_commit|]. intros [c1 v1] _.
      eapply takes_bindR; [apply size_pop0|]. intros [r2 rs2] _. eapply takes_bindR; [apply takes_commit|]. intros [c2 v2] _.
      apply takesR_ret. reflexivity.
    + reflexivity.
    + reflexivity.
  - reflexivity.
  - reflexivity.
Qed.

Lemma size_member_p x r (set : list F) rng : takesR (prove_set_membership x r set rng) (2 * length set) (3 * length set + 1) any.
Proof.
  unfold prove_set_membership. eapply takesR_size.
  - eapply takesR_try; [apply size_check|]. intros _ _. eapply takes_bindR; [apply size_rand|]. intros b _.
    eapply takes_bindR; [apply takes_commit|]. intros [c v] _.
    eapply takes_bindR; [apply (takes_fold_0 _ any); [exact I|]|].
    + intros [cs1 ds] a _ _. size_of; reflexivity.
    + intros [cs1 ds] _. size_steps. exact I.
  - lia.
  - lia.
Qed.
Lemma size_member_alt_p x r set rng : takesR (prove_set_membership_alt x r set rng) (2 * (3 * length set)) (7 * length set + 2) any.
Proof.
  unfold prove_set_membership_alt. cbv zeta. eapply takesR_size.
  - eapply takesR_try; [apply size_check|]. intros _ _.
    eapply takesR_try; [apply (takesR_fold _ 2 3 any); [exact I|]|].
    + intros [[cs1 bs] qs] a _ _. size_of; reflexivity.
    + intros [[cs1 bs] qs] _. size_steps. exact I.
  - rewrite map_length. lia.
  - rewrite map_length. lia.
Qed.
Lemma size_not_member_p x r (set : list F) rng : takesR (prove_set_non_membership x r set rng) (2 * (2 * length set)) (7 * length set) any.
Proof.
  unfold prove_set_non_membership. eapply takesR_size.
  - eapply takesR_try; [apply size_check|]. intros _ _. eapply takes_bindR; [apply size_rand|]. intros b _.
    eapply takes_bindR; [apply takes_commit|]. intros [c v] _.
    eapply takes_bindR; [apply (takes_fold_0 _ any); [exact I|]|].
    + intros [[cs1 ds] is] a _ _. size_of; reflexivity.
    + intros [[cs1 ds] is] _. size_steps. exact I.
  - lia.
  - lia.
Qed.
Lemma size_hamming_p xs (new : list F) count : takesR (prove_hamming_distance xs new count) (2 * (2 * length new)) (3 * length new + 1) any.
Proof.
  unfold prove_hamming_distance. destruct (negb _); [apply takesR_err|]. eapply takesR_size.
  - eapply takes_bindR; [apply (takes_fold_0 _ any); [exact I|]|].
    + intros [cs vs] a _ _. size_of; reflexivity.
    + intros [cs vs] _. size_steps. exact I.
  - lia.
  - lia.
Qed.

(** the number of commitments where the size depends on it *)
Definition opening (c : call) : nat :=
  match c with
  | PLeaf4 _ _ _ proof _ _ _ _ _ | PLeaf8 _ _ _ proof _ _ _ _ _ => 2 + length (concat proof)
  | _ => 0
  end.
Definition is_opening (c : call) : Prop :=
  match c with PLeaf4 _ _ _ _ _ _ _ _ _ | PLeaf8 _ _ _ _ _ _ _ _ _ => True | _ => False end.
Lemma other_size c m m' : ~ is_opening c -> gates (statement_of c) m = gates (statement_of c) m' /\ rows (statement_of c) m = rows (statement_of c) m'.
Proof. destruct c; cbn; intros H; try (split; reflexivity); contradiction H; exact I. Qed.

Lemma size_calls checks c : takesR (calls checks c) (2 * gates (statement_of c) (opening c)) (rows (statement_of c) (opening c))
  (fun comms => is_opening c -> length comms = opening c).
Proof.
  assert (Hany : forall (m : pprog (result (list G1))) g r, takesR m g r any -> ~ is_opening c -> takesR m g r (fun comms : list G1 => is_opening c -> length comms = opening c)).
  { intros m g r H Hn. eapply takesR_conv; [exact H|reflexivity|reflexivity|]. intros a _ Hc. contradiction. }
  destruct c as [x r rng|x r lower upper n rng|x r set rng|x r set rng|x r set rng|xs new count|xs r image cs n rng|xs r out p sbox rng
    |xs r out p sbox rng|xs r out p sbox rng|x idx r proof root depth p sbox rng|x idx r proof root depth p sbox rng|us t db us' t' db' indices values depth p];
    cbn [calls statement_of gates rows opening];
    try (apply Hany; [clear Hany|exact (fun H => H)]).
  - unfold prove_non_zero_val. size_of; reflexivity.
  - unfold prove_bounded_num. size_of; lia.
  - apply size_member_p.
  - apply size_member_alt_p.
  - apply size_not_member_p.
  - apply size_hamming_p.
  - unfold prove_mimc_preimage. size_of; lia.
  - unfold prove_Poseidon_2. size_of; lia.
  - unfold prove_Poseidon_4. size_of; lia.
  - unfold prove_Poseidon_8. size_of; lia.
  - unfold prove_leaf_inclusion_4_ary_merkle_tree. eapply takesR_size.
    + eapply takesR_try; [apply size_leaf_and_index|]. intros [[comms v1] v2] E0. cbn [fst] in E0.
      eapply takes_bindR; [apply size_proof|]. intros [comms' vs] [E1 E2]. cbn [fst snd] in E1, E2.
      eapply takes_bindR; [apply size_statics_p|]. intros statics _.
      eapply takesR_try; [|intros _ _; apply takesR_ret; intros _; lia].
      lazymatch goal with |- takesR (vanilla_merkle_merkle_tree_4_verif_gadget _ _ ?d ?rt ?lf ?ix ?ns ?z) _ _ _ =>
        pose proof (size_merkle_4 (CA := F * F) (CR := G1 * var) p sbox d rt lf ix ns z) as X end.
      rewrite E2 in X. exact X.
    + lia.
    + lia.
  - unfold prove_leaf_inclusion_8_ary_merkle_tree. eapply takesR_size.
    + eapply takesR_try; [apply size_leaf_and_index|]. intros [[comms v1] v2] E0. cbn [fst] in E0.
      eapply takes_bindR; [apply size_proof|]. intros [comms' vs] [E1 E2]. cbn [fst snd] in E1, E2.
      eapply takes_bindR; [apply size_statics_p|]. intros statics _. eapply takes_bindR; [apply takes_lift|]. intros zero _.
      eapply takesR_try; [|intros _ _; apply takesR_ret; intros _; lia].
      lazymatch goal with |- takesR (vanilla_merkle_merkle_tree_8_verif_gadget _ _ ?d ?rt ?lf ?ix ?ns ?z) _ _ _ =>
        pose proof (size_merkle_8 (CA := F * F) (CR := G1 * var) p sbox d rt lf ix ns z) as X end.
      rewrite E2 in X. exact X.
    + lia.
    + lia.
  - unfold prove_randomizer. eapply takesR_size.
    + eapply takes_bindR; [apply takes_random|]. intros b _. eapply takes_bindR; [apply takes_commit|]. intros [c v] _.
      eapply takesR_try; [apply (takesR_fold _ 0 0 any); [exact I|]|].
      * intros [[cs vs] ps] a _ _. unfold commit_original. eapply takesR_size.
        { eapply takes_bindR; [apply takes_lift|]. intros idx _. eapply takes_bindR; [apply takes_lift|]. intros [r mp] _.
          eapply (takesR_try _ _ 0 0 _ _ any); [destruct r; [apply takesR_ret; exact I|apply takesR_err]|]. intros x _.
          eapply takes_bindR; [apply takes_lift|]. intros x' _. eapply takes_bindR; [apply takes_lift|]. intros _ _.
          eapply takes_bindR; [apply takes_random|]. intros bl _. eapply takes_bindR; [apply takes_commit|]. intros [c1 v1] _.
          eapply takes_bindR; [apply takes_lift|]. intros mp' _. eapply takes_bindR; [apply size_proof|]. intros [cs' ps'] _.
          apply takesR_ret. exact I. }
        { reflexivity. }
        { reflexivity. }
      * intros [[cs vs] ps] _. eapply takes_bindR; [apply size_statics_p|]. intros statics _. size_steps. exact I.
    + lia.
    + lia.
Qed.

(** *** What the interpretations do *)
Lemma verifies_size W checks g h st comms s s' : vrun W false (verifies checks g h st comms) s = Done (Ok tt, s') ->
  v_num_vars s' = v_num_vars s + gates st (length comms) /\ length (v_constraints s') = length (v_constraints s) + rows st (length comms).
Proof. intros E. destruct (vrun_takes W _ _ _ _ _ _ _ (size_verifies checks g h st comms) E) as (A & B & _). auto. Qed.

Lemma calls_size W checks c s comms s' : prun W false (calls checks c) s = Done (Ok comms, s') ->
  length (p_aL s') = length (p_aL s) + gates (statement_of c) (length comms) /\
  length (p_constraints s') = length (p_constraints s) + rows (statement_of c) (length comms).
Proof.
  intros E. destruct (prun_takes W _ _ _ _ _ _ _ (size_calls checks c) E) as (A & B & Hl).
  assert (Hd : is_opening c \/ ~ is_opening c) by (destruct c; cbn; auto). destruct Hd as [Hc|Hc].
  - rewrite (Hl Hc). auto.
  - destruct (other_size c (length comms) (opening c) Hc) as [-> ->]. auto.
Qed.

Lemma total_combine f : forall sts (commss : list (list G1)), 
  list_sum (map (fun '(st, comms) => f st (length comms)) (combine sts commss)) = total_of f sts (map (@length G1) commss).
Proof.
  intros sts commss. unfold total_of. f_equal. revert commss. induction sts as [|st sts IH]; intros [|c cs]; cbn; try reflexivity.
  rewrite IH. reflexivity.
Qed.

Lemma verify_all_size W checks g h sts commss s s' : vrun W false (verify_all checks g h (combine sts commss)) s = Done (Ok tt, s') ->
  v_num_vars s' = v_num_vars s + total_of gates sts (map (@length G1) commss) /\
  length (v_constraints s') = length (v_constraints s) + total_of rows sts (map (@length G1) commss).
Proof.
  intros E. destruct (vrun_takes W _ _ _ _ _ _ _ (size_verify_all checks g h (combine sts commss)) E) as (A & B & _).
  rewrite !total_combine in *. auto.
Qed.

Lemma prove_all_size W checks : forall l s commss s', prun W false (prove_all checks l) s = Done (Ok commss, s') ->
  length commss = length l /\
  length (p_aL s') = length (p_aL s) + total_of gates (map statement_of l) (map (@length G1) commss) /\
  length (p_constraints s') = length (p_constraints s) + total_of rows (map statement_of l) (map (@length G1) commss).
Proof.
  induction l as [|c l IH]; intros s commss s' E; cbn [prove_all] in E.
  - cbn in E. injection E as <- <-. cbn. lia.
  - unfold ptry in E. rewrite prun_bind in E. destruct (prun W false (calls checks c) s) as [[[comms|e] s1]|] eqn:E1; cbn [obind] in E; try discriminate.
    rewrite prun_bind in E. destruct (prun W false (prove_all checks l) s1) as [[[rest|e] s2]|] eqn:E2; cbn [obind] in E; try discriminate.
    cbn in E. injection E as <- <-. destruct (calls_size W checks c s comms s1 E1) as [A1 A2].
    destruct (IH s1 rest s2 E2) as (B0 & B1 & B2). unfold total_of in *. cbn [map length combine]. rewrite A1 in B1. rewrite A2 in B2.
    cbn [list_sum fold_right map] in *. unfold list_sum in *. lia.
Qed.

(** *** Generators *)
Lemma prove_all_deferred W checks : forall l s commss s', prun W false (prove_all checks l) s = Done (Ok commss, s') -> p_deferred s' = p_deferred s.
Proof.
  induction l as [|c l IH]; intros s commss s' E; cbn [prove_all] in E.
  - cbn in E. injection E as _ <-. reflexivity.
  - unfold ptry in E. rewrite prun_bind in E. destruct (prun W false (calls checks c) s) as [[[comms|e] s1]|] eqn:E1; cbn [obind] in E; try discriminate.
    rewrite prun_bind in E. destruct (prun W false (prove_all checks l) s1) as [[[rest|e] s2]|] eqn:E2; cbn [obind] in E; try discriminate.
    cbn in E. injection E as _ <-. rewrite (IH s1 rest s2 E2). exact (prun_deferred W _ 0 0 _ _ _ _ (size_calls checks c 0 0) E1).
Qed.
End Main.

Section Session.
Context {P : Params} {OK : ParamsOk P}.

Lemma session_verify_generators W checks g h t sts commss vs proof G H :
  vrun W false (verify_all checks g h (combine sts commss)) (verifier_new t) = Done (Ok tt, vs) ->
  let N := next_power_of_two (total_of gates sts (map (@length G1) commss)) in
  (length G < N -> verify W vs proof g h G H = Done (Err InvalidGeneratorsLength)) /\
  (length H < N -> forall t', verify W vs proof g h G H <> Done (Ok t')).
Proof.
  intros E. destruct (verify_all_size W checks g h sts commss _ _ E) as [En _]. cbn [v_num_vars verifier_new Nat.add] in En.
  pose proof (vrun_deferred W _ 0 0 _ _ _ _ (size_verify_all checks g h (combine sts commss) 0 0) E) as Hd. cbn [v_deferred verifier_new] in Hd.
  set (s2 := v_with_transcript (r1cs_1phase_domain_sep (v_transcript (v_with_pending None (v_absorb proof vs)))) (v_with_pending None (v_absorb proof vs))).
  assert (H2 : v_second W proof vs s2).
  { unfold v_second, verifier_create_randomized_constraints. cbv zeta.
    change (v_deferred (v_with_pending None (v_absorb proof vs))) with (v_deferred vs). rewrite Hd. reflexivity. }
  destruct (verify_generators W vs s2 proof g h G H H2) as (A1 & A2 & _). change (v_num_vars s2) with (v_num_vars vs) in A1, A2.
  rewrite En in A1, A2. cbv zeta. auto.
Qed.

Lemma session_prove_generators W checks g h t l commss s G H :
  prun W false (prove_all checks l) (prover_new g h t) = Done (Ok commss, s) ->
  let n := total_of gates (map statement_of l) (map (@length G1) commss) in
  (length G < next_power_of_two n -> n <= length H -> prove W s G H = Done (Err InvalidGeneratorsLength)) /\
  (forall r, prove W s G H = Done (Ok r) -> next_power_of_two n <= length G /\ next_power_of_two n <= length H).
Proof.
  intros E. destruct (prove_all_size W checks l _ _ _ E) as (_ & En & _). cbn in En. pose proof (prove_all_deferred W checks l _ _ _ E) as Hd. cbn in Hd.
  destruct (prove_generators W g h t _ _ s G H E) as (A1 & A2 & A3). rewrite En in A1, A2, A3. cbv zeta.
  set (n := total_of gates _ _) in *.
  assert (E2 : prover_create_randomized_constraints W (hp_state1 W s G H) =
     Done (Ok (p_with_transcript (r1cs_1phase_domain_sep (p_transcript (hp_state1 W s G H))) (p_with_pending None (hp_state1 W s G H))))).
  { exact (proj1 (prover_second_phase_spec W (hp_state1 W s G H)) Hd). }
  set (s2 := p_with_transcript _ _) in E2. specialize (fun a b => A3 a b s2 E2). change (length (p_aL s2)) with (length (p_aL s)) in A3. rewrite En in A3.
  split.
  - intros HG HH. destruct (le_lt_dec n (length G)) as [Hle|Hlt]; [|apply A1, Hlt]. exact (proj1 (A3 Hle HH) HG).
  - intros r Er. destruct (le_lt_dec n (length G)) as [Hle|Hlt]; [|rewrite (A1 Hlt) in Er; discriminate Er].
    destruct (le_lt_dec n (length H)) as [Hle2|Hlt]; [|rewrite (A2 Hle Hlt) in Er; discriminate Er].
    exact (proj2 (A3 Hle Hle2) r Er).
Qed.

(** *** Variables in range, for statements that are shown *)
Lemma sound_in_range {ENC : EncodingOk P} W checks g h t l vs : Forall (fun '(st, comms) => sound_statement st comms) l ->
  vrun W false (verify_all checks g h l) (verifier_new t) = Done (Ok tt, vs) ->
  Forall (lc_in_range (v_num_vars vs) (length (v_V vs))) (v_constraints vs).
Proof.
  intros Hl E. destruct (all_determine W checks g h l Hl (fun _ => 0%fe) (verifier_new t) (ranged_new t) _ _ E) as (Hr & _).
  exact (rg_cs _ Hr).
Qed.

Lemma sound_session_accepted {ENC : EncodingOk P} W checks t g h sts ns G H k c tape1 tape2 commss0 vs0 :
  Forall (fun '(st, comms) => sound_statement st comms) (combine sts commss0) ->
  map (@length G1) commss0 = ns -> session_verifier W checks t g h sts commss0 = Some vs0 ->
  let n := total_of gates sts ns in
  next_power_of_two n = 2 ^ k -> 2 ^ k <= length G -> 2 ^ k <= length H -> k < 32 ->
  1 < n \/ batch_invert_empty_panics = false ->
  length tape1 = list_sum ns -> length c = 5 + k -> ~ In 0%fe c ->
  exists commss pf tp qs, simulated_session W checks t g h sts ns G H c tape1 tape2 = Some (commss, Some ((pf, tp), qs)) /\
    forall O r, gadgets_accept W t checks g h G H sts (programmed O qs c) r commss pf.
Proof.
  intros Hl Hs E n. pose proof E as E'. unfold session_verifier in E'.
  destruct (vrun W false _ _) as [[[[]|e] vs]|] eqn:Ev in E'; try discriminate. injection E' as ->.
  destruct (verify_all_size W checks g h sts commss0 _ _ Ev) as [En _]. cbn [v_num_vars verifier_new Nat.add] in En. rewrite Hs in En.
  pose proof (sound_in_range W checks g h t _ vs0 Hl Ev) as Hr.
  subst n. rewrite <- En. exact (session_accepted W checks t g h sts ns G H k c tape1 tape2 commss0 vs0 Hs E Hr).
Qed.

Lemma sized_knowledge_error {ENC : EncodingOk P} W t checks g h sts commss0 vs0 G H k D C R (A : adversary (list (list G1) * r1cs_proof)) Q
    (wins : oracle -> F -> bool) :
  let ms := map (@length G1) commss0 in
  let n := total_of gates sts ms in
  let q := total_of rows sts ms in
  vrun W false (verify_all checks g h (combine sts commss0)) (verifier_new t) = Done (Ok tt, vs0) ->
  Forall (fun '(st, comms) => sound_statement st comms) (combine sts commss0) ->
  next_power_of_two n = 2 ^ k -> 1 < n \/ batch_invert_empty_panics = false ->
  NoDup C -> ~ In 0%fe C -> NoDup D -> NoDup R -> at_most Q A ->
  (forall O r, In O (oracles D C) -> In r R -> wins O r = true ->
     let '(commss, pf) := output O A in
     map (@length G1) commss = ms /\ gadgets_accept W t checks g h G H sts O r commss pf /\
     incl (gadget_queries t g h sts n commss pf) D) ->
  (Q + 5 + k) * Nat.max (2 ^ k) (Nat.max q 7) * length C ^ length D * length R + length C * length C ^ length D <
    length C * length (filter (fun Or => wins (fst Or) (snd Or)) (list_prod (oracles D C) R)) ->
  exists O0 r0 f tree, In O0 (oracles D C) /\ In r0 R /\ wins O0 r0 = true /\
    let l := combine sts (fst (output O0 A)) in
    let V := all_commitments g h l in
    proof_tree_wf k q tree /\
    each_branch (fun pf c => exists O r commss, In O (oracles D C) /\ In r R /\ wins O r = true /\ output O A = (commss, pf) /\
      all_commitments g h (combine sts commss) = V /\ map O (gadget_queries t g h sts n commss pf) = c) f tree /\
    match circuit_extract n (length G) (length H) (length V) (v_constraints vs0) (own_positions 0 l) (tree_scalars tree) with
    | Got w =>
        (forall j, j < length V ->
           nth j V g1_id = g1_add (g1_mul (nth j (wit_v w) 0%fe) g) (g1_mul (nth j (wit_blinding w) 0%fe) h)) /\
        all_show l (wit_v w)
    | Broken c => generator_relation (g :: h :: G ++ H) c
    end.
Proof.
  intros ms n q Ev Hl HN. subst n q.
  destruct (verify_all_size W checks g h sts commss0 _ _ Ev) as [En Eq]. cbn [v_num_vars v_constraints verifier_new Nat.add List.length] in En, Eq.
  fold ms in En, Eq. rewrite <- En, <- Eq. rewrite <- En in HN. rewrite <- HN.
  exact (gadgets_knowledge_error W t checks g h sts commss0 vs0 G H k D C R A Q wins Ev Hl HN).
Qed.
End Session.
