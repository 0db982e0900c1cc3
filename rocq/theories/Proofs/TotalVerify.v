(** The verifying functions end, or panic, by the number of commitments. *)
From Coq Require Import ZArith String List Lia Arith Permutation Bool.
From Verif.Base Require Import Outcome Fp Params Algebra.
From Verif.Model Require Import Transcript LinComb Prog IPP Prover Verifier Gadgets Hash Merkle MerkleGadget Randomizer.
From Verif.Spec Require Import R1CS HashSpec Compose CircuitSize Behaviour.
From Verif.Proofs Require Import TotalTools TotalGadgets TotalOpenings.
Import ListNotations.
Local Open Scope nat_scope.
Local Notation length := List.length.
Local Notation vr := var_in_range.
Local Notation lr := lc_in_range.

Section Verify.
Context {P : Params} {OK : ParamsOk P}.
Local Notation any := (fun _ _ _ => True).
Local Notation qv n c := (Forall (fun q => vr n c (q_var q))).
Implicit Types comms : list G1.

Lemma fine_commit_k {B} x n c (f : var -> vprog B) R : fine (f (VCommitted c)) n (S c) R -> fine (pbind (cs_commit x) f) n c R.
Proof. intros H. apply fine_handed_k. intros y ->. exact H. Qed.
Lemma fineR_commit_k {B} x n c (f : var -> vprog (result B)) R : fineR (f (VCommitted c)) n (S c) R -> fineR (pbind (cs_commit x) f) n c R.
Proof. apply fine_commit_k. Qed.
Lemma crash_commit_k {B} x n c (f : var -> vprog B) : crash (f (VCommitted c)) n (S c) -> crash (pbind (cs_commit x) f) n c.
Proof. intros H. apply crash_handed_k. intros y ->. exact H. Qed.
Lemma unknown {A} (a : option A) : @given G1 var _ A a.
Proof. intros E. discriminate E. Qed.
Lemma all_unknown (l : list quantity) : Forall (fun q => @given G1 var _ F (q_assignment q)) l.
Proof. apply Forall_forall. intros q _. apply unknown. Qed.

Lemma fineR_end (m : vprog (result unit)) n c : fineR m n c any -> fineR (ptry m (fun _ => PRet (Ok tt))) n c any.
Proof. intros H. eapply fineR_try; [exact H|]. intros ? ? ? _ _ _. apply fineR_ret. exact I. Qed.
Lemma qv_mono n c n' c' l : n <= n' -> c <= c' -> qv n c l -> qv n' c' l.
Proof. intros Hn Hc. apply Forall_impl. intros a. apply vr_mono; assumption. Qed.

(** *** constant numbers of commitments *)
Ltac take := cbn [remove0 pbind].
Ltac takes := repeat (take; lazymatch goal with
  | |- fineR (pbind (cs_commit _) _) _ _ _ => apply fineR_commit_k
  | |- crash (pbind (cs_commit _) _) _ _ => apply crash_commit_k end; cbv beta iota zeta).

Lemma verify_non_zero comms n c : 2 <= length comms -> fineR (verify_non_zero_val comms) n c any.
Proof.
  destruct comms as [|x [|y comms]]; cbn [length]; try lia. intros _. unfold verify_non_zero_val. takes.
  apply fineR_end, fine_nonzero; rng_var.
Qed.
Lemma verify_bounded checks lo up k comms n c : 3 <= length comms -> checks = false \/ (lo <= up)%Z ->
  fineR (verify_bounded_num checks lo up k comms) n c any.
Proof.
  destruct comms as [|x [|y [|z comms]]]; cbn [length]; try lia. intros _ Hd. unfold verify_bounded_num. takes.
  apply fineR_end, fine_bounded; cbn [q_var]; first [apply unknown|rng_var].
Qed.
Lemma verify_bounded_crash lo up k comms n c : (up < lo)%Z -> crash (verify_bounded_num true lo up k comms) n c.
Proof.
  intros Hd. unfold verify_bounded_num. destruct comms as [|x [|y [|z comms]]]; takes; try exact I.
  apply crash_bind_l, crash_bounded; cbn [q_var]; rng_var.
Qed.
Lemma verify_mimc image cs k comms n c : 2 <= length comms -> k <= length cs -> fineR (verify_mimc_preimage image cs k comms) n c any.
Proof.
  destruct comms as [|x [|y comms]]; cbn [length]; try lia. intros _ Hk. unfold verify_mimc_preimage. takes.
  apply fineR_end, fine_mimc; cbn [q_var]; rng_var.
Qed.
Lemma verify_mimc_crash image cs k comms n c : length cs < k -> crash (verify_mimc_preimage image cs k comms) n c.
Proof.
  intros Hk. unfold verify_mimc_preimage. destruct comms as [|x [|y comms]]; takes; try exact I.
  apply crash_bind_l, crash_mimc; cbn [q_var]; rng_var.
Qed.

(** *** loops over the commitments *)
Lemma verify_member set comms n c : 1 + length set <= length comms -> fineR (verify_set_membership set comms) n c any.
Proof.
  destruct comms as [|x comms]; cbn [length]; try lia. intros HL. unfold verify_set_membership. takes.
  eapply fineR_bind; [apply (fine_fold _ (fun rest (st : list G1 * list quantity) n c =>
    length rest <= length (fst st) /\ length (snd st) + length rest = length set /\ qv n c (snd st)))|].
  - cbn [fst snd length]. rewrite seq_length. split; [lia|]. split; [lia|constructor].
  - intros [cs ds] i rest n' c' Hn Hc (H1 & H2 & H3). cbn [fst snd length] in *. destruct cs as [|y cs]; [cbn in H1; lia|]. take.
    apply fine_commit_k, fine_ret. cbn [fst snd length] in *. rewrite app_length. cbn [length]. split; [lia|]. split; [lia|].
    apply Forall_app. split; [eapply qv_mono; [| |exact H3]; lia|]. constructor; [cbn; lia|constructor].
  - intros [cs ds] n' c' Hn Hc (H1 & H2 & H3). cbn [fst snd length] in *. apply fineR_end, fine_member; [cbn [q_var]; rng_var|exact H3|lia].
Qed.
Lemma verify_member_crash set comms n c : length comms < 1 + length set -> crash (verify_set_membership set comms) n c.
Proof.
  destruct comms as [|x comms]; cbn [length]; intros HL; unfold verify_set_membership; takes; try exact I.
  apply crash_bind_l, (crash_fold _ (fun rest (st : list G1 * list quantity) n c => length (fst st) < length rest)).
  - cbn [fst]. rewrite seq_length. lia.
  - intros s n' c' H. cbn in H. lia.
  - intros [cs ds] i rest n' c' Hn Hc H1. cbn [fst snd length] in *. destruct cs as [|y cs]; take; [left; exact I|right].
    apply fine_commit_k, fine_ret. cbn [fst snd length] in *. lia.
Qed.
Lemma verify_not_member set comms n c : 1 + 2 * length set <= length comms -> fineR (verify_set_non_membership set comms) n c any.
Proof.
  destruct comms as [|x comms]; cbn [length]; try lia. intros HL. unfold verify_set_non_membership. takes.
  eapply fineR_bind; [apply (fine_fold _ (fun rest (st : list G1 * list quantity * list quantity) n c =>
    2 * length rest <= length (fst (fst st)) /\ length (snd (fst st)) + length rest = length set /\ length (snd st) + length rest = length set /\
    qv n c (snd (fst st)) /\ qv n c (snd st)))|].
  - cbn [fst snd length]. rewrite seq_length. split; [lia|]. split; [lia|]. split; [lia|]. split; constructor.
  - intros [[cs ds] es] i rest n' c' Hn Hc (H1 & H2 & H3 & H4 & H5). cbn [fst snd length] in *. destruct cs as [|y [|z cs]]; cbn [length] in H1; try lia.
    take. apply fine_commit_k. take. apply fine_commit_k, fine_ret. cbn [fst snd length] in *. rewrite !app_length. cbn [length].
    split; [lia|]. split; [lia|]. split; [lia|].
    split; apply Forall_app; (split; [eapply qv_mono; [| |eassumption]; lia|]); (constructor; [cbn; lia|constructor]).
  - intros [[cs ds] es] n' c' Hn Hc (H1 & H2 & H3 & H4 & H5). cbn [fst snd length] in *. apply fineR_end, fine_not_member; try assumption; try lia; cbn [q_var]; rng_var.
Qed.
Lemma verify_not_member_crash set comms n c : length comms < 1 + 2 * length set -> crash (verify_set_non_membership set comms) n c.
Proof.
  destruct comms as [|x comms]; cbn [length]; intros HL; unfold verify_set_non_membership; takes; try exact I.
  apply crash_bind_l, (crash_fold _ (fun rest (st : list G1 * list quantity * list quantity) n c => length (fst (fst st)) < 2 * length rest)).
  - cbn [fst]. rewrite seq_length. lia.
  - intros s n' c' H. cbn in H. lia.
  - intros [[cs ds] es] i rest n' c' Hn Hc H1. cbn [fst snd length] in *. destruct cs as [|y [|z cs]]; take; [left; exact I|left; apply crash_commit_k; exact I|right].
    apply fine_commit_k. take. apply fine_commit_k, fine_ret. cbn [fst snd length] in *. lia.
Qed.
Lemma verify_member_alt set comms n c : length set + 1 <= length comms -> fineR (verify_set_membership_alt set comms) n c any.
Proof.
  intros HL. unfold verify_set_membership_alt.
  eapply fineR_try; [apply (fineR_fold _ (fun rest (st : list G1 * list var * list quantity) n c =>
    length rest + 1 <= length (fst (fst st)) /\ length (snd st) + length rest = length set /\ Forall (vr n c) (snd (fst st)) /\ qv n c (snd st)))|].
  - cbn [fst snd length]. rewrite seq_length. split; [lia|]. split; [lia|]. split; constructor.
  - intros [[cs ds] es] i rest n' c' Hn Hc (H1 & H2 & H3 & H4). cbn [fst snd length] in *. destruct cs as [|y cs]; cbn [length] in H1; try lia.
    take. apply fineR_commit_k. cbv zeta. eapply fineR_try; [apply fine_bit; [cbn [q_var]; rng_var|apply unknown]|]. intros ? n2 c2 Hn2 Hc2 _.
    apply fineR_ret. cbn [fst snd length] in *. rewrite !app_length. cbn [length]. split; [lia|]. split; [lia|].
    split; apply Forall_app; (split; [first [eapply qv_mono; [| |exact H4]; lia|eapply Forall_vr_mono; [| |exact H3]; lia]|]); (constructor; [cbn; lia|constructor]).
  - intros [[cs ds] es] n' c' Hn Hc (H1 & H2 & H3 & H4). cbn [fst snd length] in *.
    eapply fineR_try; [apply fine_sum, H3|]. intros ? n2 c2 Hn2 Hc2 _. destruct cs as [|y cs]; cbn [length] in H1; [lia|].
    take. apply fineR_commit_k. apply fineR_end, fine_product; [cbn [q_var]; rng_var|eapply qv_mono; [| |exact H4]; lia|apply all_unknown|lia].
Qed.
Lemma verify_member_alt_crash set comms n c : length comms < length set + 1 -> crash (verify_set_membership_alt set comms) n c.
Proof.
  intros HL. unfold verify_set_membership_alt. destruct (Nat.eq_dec (length comms) (length set)) as [E|E].
  - eapply crash_try_r; [apply (fineR_fold _ (fun rest (st : list G1 * list var * list quantity) n c =>
      length rest = length (fst (fst st)) /\ Forall (vr n c) (snd (fst st))))|].
    + cbn [fst snd]. rewrite seq_length. split; [lia|constructor].
    + intros [[cs ds] es] i rest n' c' Hn Hc (H1 & H3). cbn [fst snd length] in *. destruct cs as [|y cs]; cbn [length] in H1; try lia.
      take. apply fineR_commit_k. cbv zeta. eapply fineR_try; [apply fine_bit; [cbn [q_var]; rng_var|apply unknown]|]. intros ? n2 c2 Hn2 Hc2 _.
      apply fineR_ret. cbn [fst snd length] in *. split; [lia|]. apply Forall_app.
      split; [eapply Forall_vr_mono; [| |exact H3]; lia|]. constructor; [cbn; lia|constructor].
    + intros [[cs ds] es] n' c' Hn Hc (H1 & H3). cbn [fst snd length] in *. destruct cs as [|y cs]; [|cbn in H1; lia].
      eapply crash_try_r; [apply fine_sum, H3|]. intros ? n2 c2 _ _ _. exact I.
  - apply crash_bind_l, (crashR_fold _ (fun rest (st : list G1 * list var * list quantity) n c => length (fst (fst st)) < length rest)).
    + cbn [fst]. rewrite seq_length. lia.
    + intros s n' c' H. cbn in H. lia.
    + intros [[cs ds] es] i rest n' c' Hn Hc H1. cbn [fst snd length] in *. destruct cs as [|y cs]; take; [left; exact I|right].
      apply fineR_commit_k. cbv zeta. eapply fineR_try; [apply fine_bit; [cbn [q_var]; rng_var|apply unknown]|]. intros ? n2 c2 Hn2 Hc2 _.
      apply fineR_ret. cbn [fst snd length] in *. lia.
Qed.
Lemma hamming_commits comms n c : fine (p_fold (fun allocs com => pbind (cs_commit com) (fun var => PRet (allocs ++ [Quantity var None]))) comms []) n c
  (fun qs n c => qv n c qs /\ length qs = length comms).
Proof.
  eapply fine_conv; [apply (fine_fold _ (fun rest (qs : list quantity) n c => qv n c qs /\ length qs + length rest = length comms))|].
  - split; [constructor|reflexivity].
  - intros qs x rest n' c' Hn Hc [H1 H2]. apply fine_commit_k, fine_ret. rewrite app_length. cbn [length] in *. split; [|lia].
    apply Forall_app. split; [eapply qv_mono; [| |exact H1]; lia|]. constructor; [cbn; lia|constructor].
  - intros qs n' c' _ _ [H1 H2]. cbn [length] in H2. split; [exact H1|lia].
Qed.
Lemma verify_hamming new k comms n c : length comms = length new -> fineR (verify_hamming_distance new k comms) n c any.
Proof.
  intros HL. unfold verify_hamming_distance. eapply fineR_bind; [apply hamming_commits|]. intros qs n' c' _ _ [H1 H2].
  apply fineR_end, fine_hamming; [exact H1|lia].
Qed.
Lemma verify_hamming_refuses new k comms n c : length comms <> length new ->
  fine (verify_hamming_distance new k comms) n c (fun r _ _ => r = Err (GadgetError "Original and new are of different lengths")).
Proof.
  intros HL. unfold verify_hamming_distance. eapply fine_bind; [apply hamming_commits|]. intros qs n' c' _ _ [H1 H2].
  unfold hamming_distance_gadget. destruct (Nat.eqb_spec (length qs) (length new)) as [E|E]; [lia|].
  cbn. auto.
Qed.

(** *** hashes *)
Lemma fine_received comms k n c : k <= length comms -> fine (commit_received comms k) n c (fun vs n c => Forall (vr n c) vs /\ length vs = k).
Proof.
  intros HL. unfold commit_received. eapply fine_bind; [apply (fine_fold _ (fun rest (st : list G1 * list var) n c =>
    length rest <= length (fst st) /\ length (snd st) + length rest = k /\ Forall (vr n c) (snd st)))|].
  - cbn [fst snd length]. rewrite seq_length. split; [lia|]. split; [lia|constructor].
  - intros [cs ds] i rest n' c' Hn Hc (H1 & H2 & H3). cbn [fst snd length] in *. destruct cs as [|y cs]; [cbn in H1; lia|]. take.
    apply fine_commit_k, fine_ret. cbn [fst snd length] in *. rewrite app_length. cbn [length]. split; [lia|]. split; [lia|].
    apply Forall_app. split; [eapply Forall_vr_mono; [| |exact H3]; lia|]. constructor; [cbn; lia|constructor].
  - intros [cs ds] n' c' Hn Hc (H1 & H2 & H3). cbn [fst snd length] in *. apply fine_ret. split; [exact H3|lia].
Qed.
Lemma crash_received comms k n c : length comms < k -> crash (commit_received comms k) n c.
Proof.
  intros HL. unfold commit_received. apply crash_bind_l, (crash_fold _ (fun rest (st : list G1 * list var) n c => length (fst st) < length rest)).
  - cbn [fst]. rewrite seq_length. lia.
  - intros s n' c' H. cbn in H. lia.
  - intros [cs ds] i rest n' c' Hn Hc H1. cbn [fst snd length] in *. destruct cs as [|y cs]; take; [left; exact I|right].
    apply fine_commit_k, fine_ret. cbn [fst snd length] in *. lia.
Qed.
Lemma statics_1 g h : @allocate_statics_for_verifier P 1 g h = pbind (cs_commit (commit g h (fe_of ZERO_CONST) 0%fe)) (fun v => PRet [v]).
Proof. reflexivity. Qed.
Lemma verify_hash_2 out p sbox g h comms n c : params_ok p -> width p = 3 -> 2 <= length comms ->
  fineR (verify_Poseidon_2 out p sbox g h comms) n c any.
Proof.
  destruct comms as [|x [|y comms]]; cbn [length]; try lia. intros HP Hw _. unfold verify_Poseidon_2. takes.
  apply fineR_commit_k. apply fineR_end, fine_hash_2_gadget; try assumption; rng_var.
Qed.
Lemma verify_hash_4 out p sbox g h comms n c : params_ok p -> width p = 5 -> 4 <= length comms ->
  fineR (verify_Poseidon_4 out p sbox g h comms) n c any.
Proof.
  intros HP Hw HL. unfold verify_Poseidon_4. eapply fineR_bind; [apply fine_received; exact HL|]. intros vs n' c' Hn Hc [H1 H2].
  rewrite statics_1. cbn [pbind cs_commit]. apply fineR_commit_k.
  apply fineR_end, fine_hash_4_gadget; try assumption; [|rng_var]. eapply Forall_vr_mono; [| |exact H1]; lia.
Qed.
Lemma verify_hash_8 out p sbox g h comms n c : params_ok p -> width p = 9 -> 8 <= length comms ->
  fineR (verify_Poseidon_8 out p sbox g h comms) n c any.
Proof.
  intros HP Hw HL. unfold verify_Poseidon_8. eapply fineR_bind; [apply fine_received; exact HL|]. intros vs n' c' Hn Hc [H1 H2].
  apply fineR_commit_k. apply fineR_end, fine_hash_8_gadget; try assumption; [|rng_var]. eapply Forall_vr_mono; [| |exact H1]; lia.
Qed.

(** *** openings *)
Lemma fine_drain comms n c : fine (commit_drain comms) n c (fun vs n c => Forall (vr n c) vs /\ length vs = length comms).
Proof.
  unfold commit_drain. eapply fine_conv; [apply (fine_fold _ (fun rest (qs : list var) n c => Forall (vr n c) qs /\ length qs + length rest = length comms))|].
  - split; [constructor|reflexivity].
  - intros qs x rest n' c' Hn Hc [H1 H2]. apply fine_commit_k, fine_ret. rewrite app_length. cbn [length] in *. split; [|lia].
    apply Forall_app. split; [eapply Forall_vr_mono; [| |exact H1]; lia|]. constructor; [cbn; lia|constructor].
  - intros qs n' c' _ _ [H1 H2]. cbn [length] in H2. split; [exact H1|lia].
Qed.

Section Openings.
Context (p : poseidon_params) (sbox : sbox_type) (HP : params_ok p).

Lemma verify_leaf_4 root depth g h comms n c : width p = 5 -> 2 <= length comms ->
  broken_level 4 (4 * ((depth * 2 + 7) / 8)) (length comms - 2) = false ->
  fineR (verify_leaf_inclusion_4_ary_merkle_tree root depth p sbox g h comms) n c any.
Proof.
  destruct comms as [|x [|y comms]]; cbn [length]; try lia. intros Hw _ HB. replace (S (S (length comms)) - 2) with (length comms) in HB by lia.
  unfold verify_leaf_inclusion_4_ary_merkle_tree. takes.
  eapply fineR_bind; [apply fine_drain|]. intros vs n' c' Hn Hc [H1 H2]. rewrite statics_1. cbn [pbind cs_commit]. apply fineR_commit_k.
  apply fineR_end, fine_opening_4; cbn [q_var q_assignment]; try rng_var; [apply unknown|intros []; reflexivity| |]; [eapply Forall_vr_mono; [| |exact H1]; lia|rewrite H2; exact HB].
Qed.
Lemma verify_leaf_4_crash root depth g h comms n c : width p = 5 -> 2 <= length comms ->
  broken_level 4 (4 * ((depth * 2 + 7) / 8)) (length comms - 2) = true ->
  crash (verify_leaf_inclusion_4_ary_merkle_tree root depth p sbox g h comms) n c.
Proof.
  destruct comms as [|x [|y comms]]; cbn [length]; try lia. intros Hw _ HB. replace (S (S (length comms)) - 2) with (length comms) in HB by lia.
  unfold verify_leaf_inclusion_4_ary_merkle_tree. takes.
  eapply crash_bind_r; [apply fine_drain|]. intros vs n' c' Hn Hc [H1 H2]. rewrite statics_1. cbn [pbind cs_commit]. apply crash_commit_k.
  apply crash_bind_l, crash_opening_4; cbn [q_var q_assignment]; try rng_var; [apply unknown|intros []; reflexivity| |]; [eapply Forall_vr_mono; [| |exact H1]; lia|rewrite H2; exact HB].
Qed.
Lemma verify_leaf_8 root depth g h comms n c : width p = 9 -> 2 <= length comms ->
  broken_level 8 depth (length comms - 2) = false ->
  fineR (verify_leaf_inclusion_8_ary_merkle_tree root depth p sbox g h comms) n c any.
Proof.
  destruct comms as [|x [|y comms]]; cbn [length]; try lia. intros Hw _ HB. replace (S (S (length comms)) - 2) with (length comms) in HB by lia.
  unfold verify_leaf_inclusion_8_ary_merkle_tree. takes.
  eapply fineR_bind; [apply fine_drain|]. intros vs n' c' Hn Hc [H1 H2]. rewrite statics_1. cbn [pbind cs_commit]. apply fineR_commit_k.
  cbn [index nth_error of_option p_lift pbind].
  apply fineR_end, fine_opening_8; cbn [q_var q_assignment]; try rng_var; [apply unknown|intros []; reflexivity| |]; [eapply Forall_vr_mono; [| |exact H1]; lia|rewrite H2; exact HB].
Qed.
Lemma verify_leaf_8_crash root depth g h comms n c : width p = 9 -> 2 <= length comms ->
  broken_level 8 depth (length comms - 2) = true ->
  crash (verify_leaf_inclusion_8_ary_merkle_tree root depth p sbox g h comms) n c.
Proof.
  destruct comms as [|x [|y comms]]; cbn [length]; try lia. intros Hw _ HB. replace (S (S (length comms)) - 2) with (length comms) in HB by lia.
  unfold verify_leaf_inclusion_8_ary_merkle_tree. takes.
  eapply crash_bind_r; [apply fine_drain|]. intros vs n' c' Hn Hc [H1 H2]. rewrite statics_1. cbn [pbind cs_commit]. apply crash_commit_k.
  cbn [index nth_error of_option p_lift pbind].
  apply crash_bind_l, crash_opening_8; cbn [q_var q_assignment]; try rng_var; [apply unknown|intros []; reflexivity| |]; [eapply Forall_vr_mono; [| |exact H1]; lia|rewrite H2; exact HB].
Qed.
End Openings.

(** *** too few commitments *)
Lemma too_few_randomizer t db indices depth p sbox g h comms n c : length comms < 1 + length indices * S (depth * 3) ->
  crash (verify_randomizer t db indices depth p sbox g h comms) n c.
Proof.
  destruct comms as [|x comms]; cbn [length]; intros HL; unfold verify_randomizer; takes; [exact I|].
  apply crash_bind_l, (crash_fold _ (fun rest (st : list G1 * list var * list (list var)) n c => length (fst (fst st)) < length rest * S (depth * 3))).
  - cbn [fst]. rewrite seq_length. lia.
  - intros s n' c' H. cbn in H. lia.
  - intros [[cs ds] es] i rest n' c' Hn Hc H1. cbn [fst snd length] in *. destruct cs as [|y cs]; take; [left; exact I|].
    destruct (Nat.le_gt_cases (depth * 3) (length cs)) as [H|H].
    + right. apply fine_commit_k.
      eapply fine_bind with (R1 := fun st _ _ => length (fst st) + depth * 3 = length cs).
      * unfold commit_first. eapply fine_conv; [apply (fine_fold _ (fun rest (st : list G1 * list var) n c => length rest <= length (fst st) /\ length (fst st) + depth * 3 = length cs + length rest))|].
        -- cbn [fst]. rewrite seq_length. lia.
        -- intros [cs' ps] j rest' n2 c2 _ _ (H2 & H3). cbn [fst snd length] in *. destruct cs' as [|z cs']; [cbn in H2; lia|]. take.
           apply fine_commit_k, fine_ret. cbn [fst snd length] in *. lia.
        -- intros [cs' ps] n2 c2 _ _ (H2 & H3). cbn [fst snd length] in *. lia.
      * intros [cs' ps] n2 c2 _ _ H2. apply fine_ret. cbn [fst snd length] in *. lia.
    + left. apply crash_commit_k, crash_bind_l. unfold commit_first.
      apply (crash_fold _ (fun rest (st : list G1 * list var) n c => length (fst st) < length rest)).
      * cbn [fst]. rewrite seq_length. lia.
      * intros s n2 c2 H2. cbn in H2. lia.
      * intros [cs' ps] j rest' n2 c2 _ _ H2. cbn [fst snd length] in *. destruct cs' as [|z cs']; take; [left; exact I|right].
        apply fine_commit_k, fine_ret. cbn [fst snd length] in *. lia.
Qed.
Theorem too_few checks g h st comms n c : length comms < needed st -> crash (verifies checks g h st comms) n c.
Proof.
  destruct st; cbn [needed verifies]; intros HL.
  - unfold verify_non_zero_val. destruct comms as [|x [|y comms]]; cbn [length] in HL; takes; try exact I; lia.
  - unfold verify_bounded_num. destruct comms as [|x [|y [|z comms]]]; cbn [length] in HL; takes; try exact I; lia.
  - apply verify_member_crash, HL.
  - apply verify_member_alt_crash, HL.
  - apply verify_not_member_crash, HL.
  - lia.
  - unfold verify_mimc_preimage. destruct comms as [|x [|y comms]]; cbn [length] in HL; takes; try exact I; lia.
  - unfold verify_Poseidon_2. destruct comms as [|x [|y comms]]; cbn [length] in HL; takes; try exact I; lia.
  - unfold verify_Poseidon_4. apply crash_bind_l, crash_received, HL.
  - unfold verify_Poseidon_8. apply crash_bind_l, crash_received, HL.
  - unfold verify_leaf_inclusion_4_ary_merkle_tree. destruct comms as [|x [|y comms]]; cbn [length] in HL; takes; try exact I; lia.
  - unfold verify_leaf_inclusion_8_ary_merkle_tree. destruct comms as [|x [|y comms]]; cbn [length] in HL; takes; try exact I; lia.
  - apply too_few_randomizer, HL.
Qed.

End Verify.
