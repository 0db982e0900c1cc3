(** The proving functions end, or panic, by their arguments. *)
From Coq Require Import ZArith String List Lia Arith Permutation Bool.
From Verif.Base Require Import Outcome Fp Params Algebra.
From Verif.Model Require Import Transcript LinComb Prog IPP Prover Verifier Gadgets Hash Merkle MerkleGadget Randomizer.
From Verif.Spec Require Import R1CS HashSpec MerkleSpec Compose CircuitSize Behaviour Attempt.
From Verif.Proofs Require Import TotalTools TotalGadgets MerkleTools MerkleTree MerkleOpen TotalOpenings TotalVerify TotalRandomizer.
Import ListNotations.
Local Open Scope nat_scope.
Local Notation length := List.length.
Local Notation vr := var_in_range.
Local Notation lr := lc_in_range.

Section Prove.
Context {P : Params} {OK : ParamsOk P}.
Local Notation any := (fun _ _ _ => True).
Local Notation qv n c := (Forall (fun q => vr n c (q_var q))).
(** so many commitments are returned *)
Definition returns (k : nat) : list G1 -> nat -> nat -> Prop := fun comms _ _ => length comms = k.

Lemma fine_c_k {B} x n c (f : G1 * var -> pprog B) R : (forall C, fine (f (C, VCommitted c)) n (S c) R) -> fine (pbind (cs_commit x) f) n c R.
Proof. intros H. apply fine_handed_k. intros [C v] E. cbn in E. subst v. apply H. Qed.
Lemma fineR_c_k {B} x n c (f : G1 * var -> pprog (result B)) R : (forall C, fineR (f (C, VCommitted c)) n (S c) R) -> fineR (pbind (cs_commit x) f) n c R.
Proof. apply fine_c_k. Qed.
Lemma crash_c_k {B} x n c (f : G1 * var -> pprog B) : (forall C, crash (f (C, VCommitted c)) n (S c)) -> crash (pbind (cs_commit x) f) n c.
Proof. intros H. apply crash_handed_k. intros [C v] E. cbn in E. subst v. apply H. Qed.
Lemma fine_r_k {B} n c (f : F -> pprog B) R : (forall x, fine (f x) n c R) -> fine (pbind p_random f) n c R.
Proof. intros H. eapply fine_bind; [apply fine_random|]. intros x n' c' _ _ (-> & ->). apply H. Qed.
Lemma fineR_r_k {B} n c (f : F -> pprog (result B)) R : (forall x, fineR (f x) n c R) -> fineR (pbind p_random f) n c R.
Proof. apply fine_r_k. Qed.
Lemma crash_r_k {B} n c (f : F -> pprog B) : (forall x, crash (f x) n c) -> crash (pbind p_random f) n c.
Proof. intros H. eapply crash_bind_r; [apply fine_random|]. intros x n' c' _ _ (-> & ->). apply H. Qed.
Lemma fine_end {A} (m : pprog (result unit)) (a : A) n c (R : A -> nat -> nat -> Prop) : fineR m n c any -> (forall n c, R a n c) -> fineR (ptry m (fun _ => PRet (Ok a))) n c R.
Proof. intros H HR. eapply fineR_try; [exact H|]. intros ? ? ? _ _ _. apply fineR_ret, HR. Qed.
Lemma known {A} (a : A) : @given (F * F) (G1 * var) _ A (Some a).
Proof. intros _. discriminate. Qed.

(** blindings *)
Lemma supplied_k {B} r rng n c (f : F -> pprog (result B)) R : supplied r rng = true -> (forall x, fineR (f x) n c R) ->
  fineR (pbind (randomness_or_rng r rng) f) n c R.
Proof. intros Hs H. destruct r as [x|]; [exact (H x)|]. cbn in Hs. subst rng. apply fineR_r_k, H. Qed.
Lemma checked_k {B} (r : option F) rng (f : unit -> pprog (result B)) : supplied r rng = true ->
  ptry (check_for_randomness_or_rng r rng) f = f tt.
Proof. intros H. destruct r; [reflexivity|]. cbn in H. subst rng. reflexivity. Qed.
Lemma unchecked_k {B} (r : option F) rng n c (f : unit -> pprog (result B)) : supplied r rng = false ->
  fine (ptry (check_for_randomness_or_rng r rng) f) n c (fun x _ _ => x = Err no_randomness).
Proof. intros H. destruct r; [discriminate|]. cbn in H. subst rng. cbn. repeat split; lia. Qed.
Lemma checked_vec_k {B} (r : option (list F)) rng (f : unit -> pprog (result B)) : supplied r rng = true ->
  ptry (check_for_randomness_or_rng_vec r rng) f = f tt.
Proof. intros H. destruct r; [reflexivity|]. cbn in H. subst rng. reflexivity. Qed.
Lemma unchecked_vec_k {B} (r : option (list F)) rng n c (f : unit -> pprog (result B)) : supplied r rng = false ->
  fine (ptry (check_for_randomness_or_rng_vec r rng) f) n c (fun x _ _ => x = Err no_randomness).
Proof. intros H. destruct r; [discriminate|]. cbn in H. subst rng. cbn. repeat split; lia. Qed.
Lemma fine_blindings r rng k n c : supplied r rng = true ->
  fine (randomness_or_rng_vec r rng k) n c (fun rs n' c' => length rs = blindings k r /\ n' = n /\ c' = c).
Proof.
  intros H. destruct r as [l|]; [cbn; repeat split; lia|]. cbn in H. subst rng. cbn [randomness_or_rng_vec blindings].
  eapply fine_conv; [apply (fine_fold _ (fun rest (rs : list F) n' c' => length rs + length rest = k /\ n' = n /\ c' = c))|].
  - cbn [length]. rewrite seq_length. repeat split; lia.
  - intros rs i rest n' c' _ _ (H & -> & ->). apply fine_r_k. intros x. apply fine_ret. rewrite app_length. cbn [length] in *. repeat split; lia.
  - intros rs n' c' _ _ (H & E1 & E2). cbn [length] in H. repeat split; lia.
Qed.

(** *** one value *)
Lemma prove_non_zero x r rng n c : supplied r rng = true -> fineR (prove_non_zero_val x r rng) n c (returns 2).
Proof.
  intros H. unfold prove_non_zero_val. rewrite checked_k by exact H. cbv zeta. apply supplied_k; [exact H|]. intros b.
  apply fineR_c_k. intros C1. apply fineR_r_k. intros b2. apply fineR_c_k. intros C2.
  apply fine_end; [apply fine_nonzero; rng_var|reflexivity].
Qed.
Lemma u64_sub_ok checks a b : checks = false \/ (b <= a)%Z -> exists d, u64_sub checks a b = Done d.
Proof.
  intros H. unfold u64_sub. destruct (Z.ltb_spec a b); [|eexists; reflexivity]. destruct checks; [|eexists; reflexivity].
  destruct H as [|H]; [discriminate|lia].
Qed.
Lemma u64_sub_panic a b : (a < b)%Z -> u64_sub true a b = Panic.
Proof. intros H. unfold u64_sub. destruct (Z.ltb_spec a b); [reflexivity|lia]. Qed.
Lemma prove_bounded checks x r lo up k rng n c : supplied r rng = true -> checks = false \/ (lo <= x <= up)%Z ->
  fineR (prove_bounded_num checks x r lo up k rng) n c (returns 3).
Proof.
  intros H Hd. unfold prove_bounded_num. rewrite checked_k by exact H.
  destruct (u64_sub_ok checks x lo) as [a Ea]; [destruct Hd; [auto|right; lia]|]. rewrite Ea.
  destruct (u64_sub_ok checks up x) as [b Eb]; [destruct Hd; [auto|right; lia]|]. rewrite Eb. cbn [p_lift pbind].
  apply supplied_k; [exact H|]. intros bl. apply fineR_c_k. intros C1. apply fineR_r_k. intros b2. apply fineR_c_k. intros C2.
  apply fineR_r_k. intros b3. apply fineR_c_k. intros C3.
  apply fine_end; [apply fine_bounded; cbn [q_var q_assignment]; first [apply known|rng_var|destruct Hd; [auto|right; lia]]|reflexivity].
Qed.
Lemma prove_bounded_crash x r lo up k rng n c : supplied r rng = true -> (x < lo \/ up < x)%Z ->
  crash (prove_bounded_num true x r lo up k rng) n c.
Proof.
  intros H Hd. unfold prove_bounded_num. rewrite checked_k by exact H. destruct (Z.lt_ge_cases x lo) as [H1|H1].
  - rewrite u64_sub_panic by exact H1. exact I.
  - destruct (u64_sub_ok true x lo) as [a Ea]; [right; lia|]. rewrite Ea. cbn [p_lift pbind]. rewrite u64_sub_panic by lia. exact I.
Qed.

(** *** sets *)
Lemma prove_member x r set rng n c : supplied r rng = true -> fineR (prove_set_membership x r set rng) n c (returns (1 + length set)).
Proof.
  intros H. unfold prove_set_membership. rewrite checked_k by exact H. apply supplied_k; [exact H|]. intros b. apply fineR_c_k. intros C.
  eapply fineR_bind; [apply (fine_fold _ (fun rest (st : list G1 * list quantity) n c =>
    length (fst st) + length rest = 1 + length set /\ length (snd st) + length rest = length set /\ (forall i, In i rest -> i < length set) /\ qv n c (snd st)))|].
  - cbn [fst snd length]. rewrite seq_length. split; [lia|]. split; [lia|]. split; [|constructor]. intros i Hi. apply in_seq in Hi. lia.
  - intros [cs ds] i rest n' c' Hn Hc (H1 & H2 & H3 & H4). cbn [fst snd length] in *.
    apply fine_index_k; [apply H3; left; reflexivity|]. intros si _. apply fine_r_k. intros b2. apply fine_c_k. intros C2. apply fine_ret.
    cbn [fst snd]. rewrite !app_length. cbn [length]. split; [lia|]. split; [lia|]. split; [intros j Hj; apply H3; right; exact Hj|].
    apply Forall_app. split; [eapply qv_mono; [| |exact H4]; lia|]. constructor; [cbn; lia|constructor].
  - intros [cs ds] n' c' Hn Hc (H1 & H2 & H3 & H4). cbn [fst snd length] in *.
    apply fine_end; [apply fine_member; [cbn [q_var]; rng_var|exact H4|lia]|]. intros ? ?. unfold returns. lia.
Qed.
Lemma prove_not_member x r set rng n c : supplied r rng = true -> fineR (prove_set_non_membership x r set rng) n c (returns (1 + 2 * length set)).
Proof.
  intros H. unfold prove_set_non_membership. rewrite checked_k by exact H. apply supplied_k; [exact H|]. intros b. apply fineR_c_k. intros C.
  eapply fineR_bind; [apply (fine_fold _ (fun rest (st : list G1 * list quantity * list quantity) n c =>
    length (fst (fst st)) + 2 * length rest = 1 + 2 * length set /\ length (snd (fst st)) + length rest = length set /\ length (snd st) + length rest = length set /\
    (forall i, In i rest -> i < length set) /\ qv n c (snd (fst st)) /\ qv n c (snd st)))|].
  - cbn [fst snd length]. rewrite seq_length. repeat (split; [lia|]). split; [|split; constructor]. intros i Hi. apply in_seq in Hi. lia.
  - intros [[cs ds] es] i rest n' c' Hn Hc (H1 & H2 & H3 & H4 & H5 & H6). cbn [fst snd length] in *.
    apply fine_index_k; [apply H4; left; reflexivity|]. intros si _. cbv zeta. apply fine_r_k. intros b2. apply fine_c_k. intros C2.
    apply fine_r_k. intros b3. apply fine_c_k. intros C3. apply fine_ret.
    cbn [fst snd]. rewrite !app_length. cbn [length]. repeat (split; [lia|]). split; [intros j Hj; apply H4; right; exact Hj|].
    split; apply Forall_app; (split; [eapply qv_mono; [| |eassumption]; lia|]); (constructor; [cbn; lia|constructor]).
  - intros [[cs ds] es] n' c' Hn Hc (H1 & H2 & H3 & H4 & H5 & H6). cbn [fst snd length] in *.
    apply fine_end; [apply fine_not_member; try assumption; try lia; cbn [q_var]; rng_var|]. intros ? ?. unfold returns. lia.
Qed.
Lemma prove_member_alt x r set rng n c : supplied r rng = true -> fineR (prove_set_membership_alt x r set rng) n c (returns (length set + 1)).
Proof.
  intros H. unfold prove_set_membership_alt. rewrite checked_k by exact H. cbv zeta.
  eapply fineR_try; [apply (fineR_fold _ (fun rest (st : list G1 * list var * list quantity) n c =>
    length (fst (fst st)) + length rest = length set /\ length (snd st) + length rest = length set /\ Forall (vr n c) (snd (fst st)) /\ qv n c (snd st) /\
    Forall (fun q => @given (F * F) (G1 * var) _ F (q_assignment q)) (snd st)))|].
  - cbn [fst snd length]. rewrite map_length. repeat (split; [lia|]). repeat split; constructor.
  - intros [[cs ds] es] i rest n' c' Hn Hc (H1 & H2 & H3 & H4 & H5). cbn [fst snd length] in *. apply fineR_r_k. intros b. apply fineR_c_k. intros C.
    eapply fineR_try; [apply fine_bit; [cbn [q_var]; rng_var|apply known]|]. intros ? n2 c2 Hn2 Hc2 _.
    apply fineR_ret. cbn [fst snd length] in *. rewrite !app_length. cbn [length]. repeat (split; [lia|]).
    split; [|split]; apply Forall_app; (split; [first [eapply qv_mono; [| |exact H4]; lia|eapply Forall_vr_mono; [| |exact H3]; lia|exact H5]|]);
      (constructor; [first [apply known|cbn; lia]|constructor]).
  - intros [[cs ds] es] n' c' Hn Hc (H1 & H2 & H3 & H4 & H5). cbn [fst snd length] in *.
    eapply fineR_try; [apply fine_sum, H3|]. intros ? n2 c2 Hn2 Hc2 _. apply supplied_k; [exact H|]. intros b. apply fineR_c_k. intros C.
    apply fine_end; [apply fine_product; [cbn [q_var]; rng_var|eapply qv_mono; [| |exact H4]; lia|exact H5|lia]|].
    intros ? ?. unfold returns. rewrite app_length. cbn [length]. lia.
Qed.
Lemma prove_hamming xs new k n c : length xs = length new -> fineR (prove_hamming_distance xs new k) n c (returns (length new)).
Proof.
  intros HL. unfold prove_hamming_distance. rewrite (proj2 (Nat.eqb_eq _ _) HL). cbn [negb].
  eapply fineR_bind; [apply (fine_fold _ (fun rest (st : list G1 * list quantity) n c =>
    length (fst st) + length rest = length new /\ length (snd st) + length rest = length new /\ (forall i, In i rest -> i < length xs) /\ qv n c (snd st)))|].
  - cbn [fst snd length]. rewrite seq_length. split; [lia|]. split; [lia|]. split; [|constructor]. intros i Hi. apply in_seq in Hi. lia.
  - intros [cs ds] i rest n' c' Hn Hc (H1 & H2 & H3 & H4). cbn [fst snd length] in *.
    apply fine_index_k; [apply H3; left; reflexivity|]. intros si _. apply fine_r_k. intros b2. apply fine_c_k. intros C2. apply fine_ret.
    cbn [fst snd]. rewrite !app_length. cbn [length]. split; [lia|]. split; [lia|]. split; [intros j Hj; apply H3; right; exact Hj|].
    apply Forall_app. split; [eapply qv_mono; [| |exact H4]; lia|]. constructor; [cbn; lia|constructor].
  - intros [cs ds] n' c' Hn Hc (H1 & H2 & H3 & H4). cbn [fst snd length] in *.
    apply fine_end; [apply fine_hamming; [exact H4|lia]|]. intros ? ?. unfold returns. lia.
Qed.
Lemma prove_hamming_fails xs new k n c : length xs <> length new ->
  fine (prove_hamming_distance xs new k) n c (fun x _ _ => x = Err (GadgetError "Original and new are of different lengths")).
Proof. intros HL. unfold prove_hamming_distance. rewrite (proj2 (Nat.eqb_neq _ _) HL). cbn. auto. Qed.

(** *** hashes *)
(** the beginning of the functions that hash [k] inputs *)
Section Inputs.
Context {B : Type} (k : nat) (xs : list F) (r : option (list F)) (rng : bool) (f : list F -> pprog (result B)).
Local Notation start := (ptry (check_for_randomness_or_rng_vec r rng) (fun _ => pbind (randomness_or_rng_vec r rng k) (fun rands =>
  ptry (check_for_input_and_randomness_length xs rands k) (fun _ => f rands)))).
Lemma inputs_fine n c R : supplied r rng = true -> length xs = k -> blindings k r = k ->
  (forall rands, length rands = k -> fineR (f rands) n c R) -> fineR start n c R.
Proof.
  intros Hs Hx Hr H. rewrite checked_vec_k by exact Hs. eapply fineR_bind; [apply fine_blindings, Hs|]. intros rands n' c' _ _ (HL & -> & ->).
  unfold check_for_input_and_randomness_length. rewrite HL, Hr, Hx, Nat.eqb_refl. cbn. apply H. lia.
Qed.
Lemma inputs_crash n c : supplied r rng = true -> length xs = k -> blindings k r = k ->
  (forall rands, length rands = k -> crash (f rands) n c) -> crash start n c.
Proof.
  intros Hs Hx Hr H. rewrite checked_vec_k by exact Hs. eapply crash_bind_r; [apply fine_blindings, Hs|]. intros rands n' c' _ _ (HL & -> & ->).
  unfold check_for_input_and_randomness_length. rewrite HL, Hr, Hx, Nat.eqb_refl. cbn. apply H. lia.
Qed.
Lemma inputs_fail n c e : with_inputs k xs r rng WillGo = WillFail e -> fine start n c (fun x _ _ => x = Err e).
Proof.
  unfold with_inputs. destruct (supplied r rng) eqn:Hs; cbn [negb].
  - destruct (negb (Nat.eqb (length xs) k) || negb (Nat.eqb (blindings k r) k)) eqn:E; [|discriminate]. intros [= <-].
    rewrite checked_vec_k by exact Hs. eapply fine_bind; [apply fine_blindings, Hs|]. intros rands n' c' _ _ (HL & -> & ->).
    unfold check_for_input_and_randomness_length. rewrite HL, E. cbn. repeat split; lia.
  - intros [= <-]. apply unchecked_vec_k, Hs.
Qed.
End Inputs.
Lemma with_inputs_go k xs r rng : with_inputs k xs r rng WillGo = WillGo -> supplied r rng = true /\ length xs = k /\ blindings k r = k.
Proof.
  unfold with_inputs. destruct (supplied r rng); cbn [negb]; [|discriminate].
  destruct (Nat.eqb_spec (length xs) k), (Nat.eqb_spec (blindings k r) k); cbn; try discriminate. auto.
Qed.

Lemma statics_p : @allocate_statics_for_prover P 1 = pbind (cs_commit (fe_of ZERO_CONST, 0%fe)) (fun '(_, v) => PRet [v]).
Proof. reflexivity. Qed.
Lemma prove_mimc xs r image cs k rng n c : supplied r rng = true -> length xs = 2 -> blindings 2 r = 2 -> k <= length cs ->
  fineR (prove_mimc_preimage xs r image cs k rng) n c (returns 2).
Proof.
  intros Hs Hx Hr Hk. unfold prove_mimc_preimage. apply inputs_fine; try assumption. intros rands HL.
  destruct xs as [|x0 [|x1 [|]]]; try discriminate. destruct rands as [|r0 [|r1 [|]]]; try discriminate.
  cbn [index nth_error of_option p_lift pbind pop0]. apply fineR_c_k. intros C1. cbn [index nth_error of_option p_lift pbind pop0].
  apply fineR_c_k. intros C2. apply fine_end; [apply fine_mimc; cbn [q_var]; try rng_var|reflexivity].
Qed.
Lemma prove_mimc_crash xs r image cs k rng n c : supplied r rng = true -> length xs = 2 -> blindings 2 r = 2 -> length cs < k ->
  crash (prove_mimc_preimage xs r image cs k rng) n c.
Proof.
  intros Hs Hx Hr Hk. unfold prove_mimc_preimage. apply inputs_crash; try assumption. intros rands HL.
  destruct xs as [|x0 [|x1 [|]]]; try discriminate. destruct rands as [|r0 [|r1 [|]]]; try discriminate.
  cbn [index nth_error of_option p_lift pbind pop0]. apply crash_c_k. intros C1. cbn [index nth_error of_option p_lift pbind pop0].
  apply crash_c_k. intros C2. apply crash_bind_l, crash_mimc; cbn [q_var]; try rng_var.
Qed.
Lemma prove_hash_2 xs r out p sbox rng n c : params_ok p -> width p = 3 -> supplied r rng = true -> length xs = 2 -> blindings 2 r = 2 ->
  fineR (prove_Poseidon_2 xs r out p sbox rng) n c (returns 2).
Proof.
  intros HP Hw Hs Hx Hr. unfold prove_Poseidon_2. apply inputs_fine; try assumption. intros rands HL.
  destruct xs as [|x0 [|x1 [|]]]; try discriminate. destruct rands as [|r0 [|r1 [|]]]; try discriminate.
  cbn [pop0 pbind]. apply fineR_c_k. intros C1. cbn [pop0 pbind]. apply fineR_c_k. intros C2.
  rewrite statics_p. cbn [pbind cs_commit]. apply fineR_c_k. intros C3.
  apply fine_end; [apply fine_hash_2_gadget; try assumption; rng_var|reflexivity].
Qed.
Lemma fine_inputs k xs rands n c : length xs = k -> length rands = k ->
  fine (commit_inputs xs rands k) n c (fun st n c => length (fst st) = k /\ length (snd st) = k /\ Forall (vr n c) (snd st)).
Proof.
  intros Hx Hr. unfold commit_inputs. eapply fine_bind; [apply (fine_fold _ (fun rest (st : list F * list F * list G1 * list var) n c =>
    length (fst (fst (fst st))) = length rest /\ length (snd (fst (fst st))) = length rest /\ length (snd (fst st)) + length rest = k /\
    length (snd st) + length rest = k /\ Forall (vr n c) (snd st)))|].
  - cbn [fst snd length]. rewrite seq_length. repeat (split; [lia|]). constructor.
  - intros [[[ys rs] cs] vs] i rest n' c' Hn Hc (H1 & H2 & H3 & H4 & H5). cbn [fst snd length] in *.
    destruct ys as [|y ys]; [discriminate|]. destruct rs as [|b rs]; [discriminate|]. cbn [pop0 pbind]. apply fine_c_k. intros C. apply fine_ret.
    cbn [fst snd length] in *. rewrite !app_length. cbn [length]. repeat (split; [lia|]). apply Forall_app.
    split; [eapply Forall_vr_mono; [| |exact H5]; lia|]. constructor; [cbn; lia|constructor].
  - intros [[[ys rs] cs] vs] n' c' Hn Hc (H1 & H2 & H3 & H4 & H5). cbn [fst snd length] in *. apply fine_ret. cbn [fst snd]. split; [lia|]. split; [lia|exact H5].
Qed.
Lemma prove_hash_4 xs r out p sbox rng n c : params_ok p -> width p = 5 -> supplied r rng = true -> length xs = 4 -> blindings 4 r = 4 ->
  fineR (prove_Poseidon_4 xs r out p sbox rng) n c (returns 4).
Proof.
  intros HP Hw Hs Hx Hr. unfold prove_Poseidon_4. apply inputs_fine; try assumption. intros rands HL.
  eapply fineR_bind; [apply fine_inputs; assumption|]. intros [cs vs] n' c' Hn Hc (H1 & H2 & H3). cbn [fst snd] in *.
  rewrite statics_p. cbn [pbind cs_commit]. apply fineR_c_k. intros C3.
  apply fine_end; [apply fine_hash_4_gadget; try assumption; [|rng_var]; eapply Forall_vr_mono; [| |exact H3]; lia|]. intros ? ?. exact H1.
Qed.
Lemma prove_hash_8 xs r out p sbox rng n c : params_ok p -> width p = 9 -> supplied r rng = true -> length xs = 8 -> blindings 8 r = 8 ->
  fineR (prove_Poseidon_8 xs r out p sbox rng) n c (returns 8).
Proof.
  intros HP Hw Hs Hx Hr. unfold prove_Poseidon_8. apply inputs_fine; try assumption. intros rands HL.
  eapply fineR_bind; [apply fine_inputs; assumption|]. intros [cs vs] n' c' Hn Hc (H1 & H2 & H3). cbn [fst snd] in *.
  apply fineR_c_k. intros C3.
  apply fine_end; [apply fine_hash_8_gadget; try assumption; [|rng_var]; eapply Forall_vr_mono; [| |exact H3]; lia|]. intros ? ?. exact H1.
Qed.

(** *** openings *)
Lemma fine_commit_proof proof comms n c : fine (commit_proof proof comms) n c
  (fun st n c => length (fst st) = length comms + length (concat proof) /\ length (snd st) = length (concat proof) /\ Forall (vr n c) (snd st)).
Proof.
  unfold commit_proof. eapply fine_conv; [apply (fine_fold _ (fun rest (st : list G1 * list var) n c =>
    length (fst st) + length rest = length comms + length (concat proof) /\ length (snd st) + length rest = length (concat proof) /\ Forall (vr n c) (snd st)))|].
  - cbn [fst snd length]. repeat (split; [lia|]). constructor.
  - intros [cs vs] i rest n' c' Hn Hc (H1 & H2 & H3). cbn [fst snd length] in *. apply fine_r_k. intros b. apply fine_c_k. intros C. apply fine_ret.
    cbn [fst snd length] in *. rewrite !app_length. cbn [length]. repeat (split; [lia|]). apply Forall_app.
    split; [eapply Forall_vr_mono; [| |exact H3]; lia|]. constructor; [cbn; lia|constructor].
  - intros [cs vs] n' c' _ _ (H1 & H2 & H3). cbn [fst snd length] in *. split; [lia|]. split; [lia|exact H3].
Qed.
Lemma leaf_fine x idx r rng n c : supplied r rng = true -> blindings 2 r = 2 ->
  fineR (commit_leaf_and_index x idx r rng) n c (fun st n c => length (fst (fst st)) = 2 /\ vr n c (snd (fst st)) /\ vr n c (snd st)).
Proof.
  intros Hs Hr. unfold commit_leaf_and_index. rewrite checked_vec_k by exact Hs. eapply fineR_bind; [apply fine_blindings, Hs|].
  intros rands n' c' _ _ (HL & -> & ->). rewrite Hr in HL. rewrite HL. cbn [Nat.eqb negb]. destruct rands as [|r0 [|r1 [|]]]; try discriminate.
  cbn [pop0 pbind]. apply fineR_c_k. intros C1. cbn [pop0 pbind]. apply fineR_c_k. intros C2. apply fineR_ret. cbn. repeat split; lia.
Qed.
Lemma leaf_fails arity levels nodes x idx r rng e n c : opens_with arity levels nodes r rng = WillFail e ->
  fine (commit_leaf_and_index x idx r rng) n c (fun st _ _ => st = Err e).
Proof.
  unfold opens_with, commit_leaf_and_index. destruct (supplied r rng) eqn:Hs; cbn [negb].
  - destruct (Nat.eqb (blindings 2 r) 2) eqn:E; cbn [negb]; [destruct (broken_level _ _ _); discriminate|]. intros [= <-].
    rewrite checked_vec_k by exact Hs. eapply fine_bind; [apply fine_blindings, Hs|]. intros rands n' c' _ _ (HL & -> & ->).
    rewrite HL, E. cbn. repeat split; lia.
  - intros [= <-]. apply unchecked_vec_k, Hs.
Qed.
Lemma fails_k {A B} (m : pprog (result A)) (f : A -> pprog (result B)) e n c : fine m n c (fun st _ _ => st = Err e) ->
  fine (ptry m f) n c (fun st _ _ => st = Err e).
Proof. intros H. eapply fine_bind; [exact H|]. intros x n' c' _ _ ->. cbn. auto. Qed.
Lemma opens_with_good arity levels nodes r rng a : opens_with arity levels nodes r rng = a -> (forall e, a <> WillFail e) ->
  supplied r rng = true /\ blindings 2 r = 2 /\ a = if broken_level arity levels nodes then WillPanic else WillGo.
Proof.
  unfold opens_with. destruct (supplied r rng); cbn [negb]; [|intros <- H; destruct (H _ eq_refl)].
  destruct (Nat.eqb_spec (blindings 2 r) 2); cbn [negb]; [|intros <- H; destruct (H _ eq_refl)]. intros <- _. auto.
Qed.
Ltac opening H5 H6 HB := first [apply known|assumption|intros _; assumption|rewrite H5; exact HB|eapply Forall_vr_mono; [| |exact H6]; lia|rng_var].
Section Openings.
Context (p : poseidon_params) (sbox : sbox_type) (HP : params_ok p).
Context (x idx : F) (r : option (list F)) (rng : bool) (proof : list (list F)) (root : F) (depth : nat).
Lemma prove_leaf_4 n c : width p = 5 -> (depth * 2 + 7) / 8 <= modbytes -> supplied r rng = true -> blindings 2 r = 2 ->
  broken_level 4 (4 * ((depth * 2 + 7) / 8)) (length (concat proof)) = false ->
  fineR (prove_leaf_inclusion_4_ary_merkle_tree x idx r proof root depth p sbox rng) n c (returns (2 + length (concat proof))).
Proof.
  intros Hw Hm Hs Hr HB. unfold prove_leaf_inclusion_4_ary_merkle_tree. eapply fineR_try; [apply leaf_fine; assumption|].
  intros [[cs v] i] n1 c1 Hn1 Hc1 (H1 & H2 & H3). cbn [fst snd] in *. eapply fineR_bind; [apply fine_commit_proof|].
  intros [cs2 vs] n2 c2 Hn2 Hc2 (H4 & H5 & H6). cbn [fst snd] in *. rewrite statics_p. cbn [pbind cs_commit]. apply fineR_c_k. intros C.
  apply fine_end; [apply fine_opening_4; cbn [q_var q_assignment]; opening H5 H6 HB|]. intros ? ?. unfold returns. lia.
Qed.
Lemma prove_leaf_4_crash n c : width p = 5 -> (depth * 2 + 7) / 8 <= modbytes -> supplied r rng = true -> blindings 2 r = 2 ->
  broken_level 4 (4 * ((depth * 2 + 7) / 8)) (length (concat proof)) = true ->
  crash (prove_leaf_inclusion_4_ary_merkle_tree x idx r proof root depth p sbox rng) n c.
Proof.
  intros Hw Hm Hs Hr HB. unfold prove_leaf_inclusion_4_ary_merkle_tree. eapply crash_try_r; [apply leaf_fine; assumption|].
  intros [[cs v] i] n1 c1 Hn1 Hc1 (H1 & H2 & H3). cbn [fst snd] in *. eapply crash_bind_r; [apply fine_commit_proof|].
  intros [cs2 vs] n2 c2 Hn2 Hc2 (H4 & H5 & H6). cbn [fst snd] in *. rewrite statics_p. cbn [pbind cs_commit]. apply crash_c_k. intros C.
  cbn [pbind]. apply crash_bind_l. eapply crash_opening_4; cbn [q_var q_assignment]; opening H5 H6 HB.
Qed.
Lemma prove_leaf_8 n c : width p = 9 -> (depth * 3 + 7) / 8 <= modbytes -> supplied r rng = true -> blindings 2 r = 2 ->
  broken_level 8 depth (length (concat proof)) = false ->
  fineR (prove_leaf_inclusion_8_ary_merkle_tree x idx r proof root depth p sbox rng) n c (returns (2 + length (concat proof))).
Proof.
  intros Hw Hm Hs Hr HB. unfold prove_leaf_inclusion_8_ary_merkle_tree. eapply fineR_try; [apply leaf_fine; assumption|].
  intros [[cs v] i] n1 c1 Hn1 Hc1 (H1 & H2 & H3). cbn [fst snd] in *. eapply fineR_bind; [apply fine_commit_proof|].
  intros [cs2 vs] n2 c2 Hn2 Hc2 (H4 & H5 & H6). cbn [fst snd] in *. rewrite statics_p. cbn [pbind cs_commit]. apply fineR_c_k. intros C.
  cbn [index nth_error of_option p_lift pbind].
  apply fine_end; [apply fine_opening_8; cbn [q_var q_assignment]; opening H5 H6 HB|]. intros ? ?. unfold returns. lia.
Qed.
Lemma prove_leaf_8_crash n c : width p = 9 -> supplied r rng = true -> blindings 2 r = 2 ->
  broken_level 8 depth (length (concat proof)) = true \/ modbytes < (depth * 3 + 7) / 8 ->
  crash (prove_leaf_inclusion_8_ary_merkle_tree x idx r proof root depth p sbox rng) n c.
Proof.
  intros Hw Hs Hr HB. unfold prove_leaf_inclusion_8_ary_merkle_tree. eapply crash_try_r; [apply leaf_fine; assumption|].
  intros [[cs v] i] n1 c1 Hn1 Hc1 (H1 & H2 & H3). cbn [fst snd] in *. eapply crash_bind_r; [apply fine_commit_proof|].
  intros [cs2 vs] n2 c2 Hn2 Hc2 (H4 & H5 & H6). cbn [fst snd] in *. rewrite statics_p. cbn [pbind cs_commit]. apply crash_c_k. intros C.
  cbn [index nth_error of_option p_lift pbind]. apply crash_bind_l.
  destruct (Nat.le_gt_cases ((depth * 3 + 7) / 8) modbytes) as [Hm|Hm].
  - destruct HB as [HB|HB]; [|lia]. eapply crash_opening_8; cbn [q_var q_assignment]; opening H5 H6 HB.
  - eapply crash_octets; [reflexivity|exact Hm].
Qed.
End Openings.

(** *** the randomizer *)
Section Randomizer.
Context (p : poseidon_params) (HP : params_ok p) (Hw : width p = 5).
Context (H : list F -> F) (d : nat) (Hd : d * 2 <= 8 * modbytes).
Context (m0 : contents) (t : merkle_tree) (db : @hash_db (list F)) (Ht : t = MerkleTree d (node 4 H m0 d 0)) (Hdb : db_has 2 H db m0 d).
Context (indices values : list F).
Local Notation opening idx := (siblings 4 H m0 d (leaf 4 d idx)).

Definition right_value (i : nat) : bool :=
  match nth_error values i with Some v => feqb (m0 (leaf 4 d (nth i indices 0%fe))) v | None => false end.
Lemma opening_nodes idx : length (concat (opening idx)) = d * 3.
Proof. destruct (siblings_3 4 H 2 m0 d (leaf 4 d idx) eq_refl ltac:(lia)) as [H1 H2]. rewrite (concat_len _ 3) by exact H1. rewrite H2. lia. Qed.
Lemma get_done idx : tree_4_get t idx (Some []) db = Done (Ok (m0 (leaf 4 d idx)), Some (opening idx)).
Proof. rewrite Ht. exact (tree_get_done 2 ltac:(lia) H db m0 d idx (Some []) ltac:(unfold fits; lia) Hdb). Qed.

Definition blocks (k : nat) (st : list G1 * list var * list (list var)) (n c : nat) : Prop :=
  length (fst (fst st)) = 1 + k * S (d * 3) /\ length (snd (fst st)) = k /\ Forall (vr n c) (snd (fst st)) /\
  length (snd st) = k /\ Forall (fun q => length q = 3 * d) (snd st) /\ Forall (Forall (vr n c)) (snd st).
Lemma fine_original i st n c : i < length indices -> right_value i = true -> blocks i st n c ->
  fineR (commit_original t db indices values st i) n c (blocks (S i)).
Proof.
  destruct st as [[cs hs] ts]. intros Hi Hv (H1 & H2 & H3 & H4 & H5 & H6). cbn [fst snd] in *.
  unfold commit_original. unfold right_value in Hv. rewrite (index_ok indices _ 0%fe) by exact Hi. cbn [p_lift pbind]. rewrite get_done. cbn [p_lift pbind ptry].
  destruct (nth_error values i) as [v|] eqn:Ev; [|discriminate]. unfold index. rewrite Ev. cbn [of_option p_lift pbind]. rewrite Hv. cbn [assertb p_lift pbind].
  apply fineR_r_k. intros b. apply fineR_c_k. intros C. cbn [of_option p_lift pbind].
  eapply fineR_bind; [apply fine_commit_proof|]. intros [cs2 vs] n2 c2 Hn2 Hc2 (Q1 & Q2 & Q3). rewrite opening_nodes in Q1, Q2. rewrite app_length in Q1. cbn [fst snd length] in *.
  apply fineR_ret. unfold blocks. cbn [fst snd]. rewrite !app_length. cbn [length]. split; [lia|]. split; [lia|]. split; [|split; [lia|split]].
  - apply Forall_app. split; [eapply Forall_vr_mono; [| |exact H3]; lia|]. constructor; [cbn; lia|constructor].
  - apply Forall_app. split; [exact H5|]. constructor; [lia|constructor].
  - apply Forall_app. split; [|constructor; [exact Q3|constructor]]. eapply Forall_impl; [|exact H6]. intros a. apply Forall_vr_mono; lia.
Qed.
Lemma crash_original i st n c : i < length indices -> right_value i = false -> crash (commit_original t db indices values st i) n c.
Proof.
  destruct st as [[cs hs] ts]. intros Hi Hv. unfold commit_original. unfold right_value in Hv. rewrite (index_ok indices _ 0%fe) by exact Hi.
  cbn [p_lift pbind]. rewrite get_done. cbn [p_lift pbind ptry].
  unfold index. destruct (nth_error values i) as [v|] eqn:Ev; cbn [of_option p_lift pbind]; [|exact I]. rewrite Hv. exact I.
Qed.
Local Notation loop := (p_try_fold (commit_original t db indices values) (seq 0 (length indices))).
Lemma fine_originals C n c : forallb right_value (seq 0 (length indices)) = true ->
  fineR (loop ([C], [], [])) n c (blocks (length indices)).
Proof.
  intros HV. rewrite forallb_forall in HV.
  eapply fineR_conv; [apply (fineR_fold _ (fun rest st n c => exists i, rest = seq i (length indices - i) /\ i <= length indices /\ blocks i st n c))|].
  - exists 0. rewrite Nat.sub_0_r. split; [reflexivity|]. split; [lia|]. unfold blocks. cbn [fst snd length]. repeat split; constructor.
  - intros st x rest n' c' Hn Hc (i & Er & Hi & HB). destruct (length indices - i) as [|r] eqn:E; [discriminate|]. cbn [seq] in Er. injection Er as -> ->.
    eapply fineR_conv; [apply fine_original; [lia|apply HV, in_seq; lia|exact HB]|]. intros st' n2 c2 _ _ HB'. exists (S i).
    replace (length indices - S i) with r by lia. split; [reflexivity|]. split; [lia|exact HB'].
  - intros st n' c' _ _ (i & Er & Hi & HB). destruct (length indices - i) eqn:E; [|discriminate]. replace (length indices) with i by lia. exact HB.
Qed.
Lemma crash_originals C n c : forallb right_value (seq 0 (length indices)) = false -> crash (loop ([C], [], [])) n c.
Proof.
  intros HV. apply (crashR_fold _ (fun rest st n c => exists i, rest = seq i (length indices - i) /\ i <= length indices /\ blocks i st n c /\ forallb right_value rest = false)).
  - exists 0. rewrite Nat.sub_0_r. split; [reflexivity|]. split; [lia|]. split; [|exact HV]. unfold blocks. cbn [fst snd length]. repeat split; constructor.
  - intros st n' c' (i & _ & _ & _ & E). discriminate E.
  - intros st x rest n' c' Hn Hc (i & Er & Hi & HB & HF). destruct (length indices - i) as [|r] eqn:E; [discriminate|]. cbn [seq] in Er. injection Er as -> ->.
    cbn [forallb] in HF. destruct (right_value i) eqn:Ev.
    + right. eapply fineR_conv; [apply fine_original; [lia|exact Ev|exact HB]|]. intros st' n2 c2 _ _ HB'. exists (S i).
      replace (length indices - S i) with r by lia. split; [reflexivity|]. split; [lia|]. split; [exact HB'|exact HF].
    + left. apply crash_original; [lia|exact Ev].
Qed.
Context (m1 : contents) (t' : merkle_tree) (db' : @hash_db (list F)) (Ht' : Merkle.root t' = node 4 H m1 d 0) (Hdb' : db_has 2 H db' m1 d).
Lemma prove_randomizer_fine n c : forallb right_value (seq 0 (length indices)) = true -> Merkle.depth t' = d ->
  fineR (prove_randomizer t db t' db' indices values d p Quint) n c (returns (1 + length indices * S (d * 3))).
Proof.
  intros HV HE. unfold prove_randomizer. apply fineR_r_k. intros b. apply fineR_c_k. intros C.
  eapply fineR_try; [apply fine_originals, HV|]. intros [[cs hs] ts] n' c' Hn Hc (H1 & H2 & H3 & H4 & H5 & H6). cbn [fst snd] in *.
  rewrite statics_p. cbn [pbind cs_commit]. apply fineR_c_k. intros C2. cbn [pbind].
  apply fine_end; [|intros ? ?; exact H1]. apply (fine_randomizer_gadget p HP Hw H d Hd m1); try assumption.
  - destruct t' as [td tr]. cbn [Merkle.depth Merkle.root] in *. subst. reflexivity.
  - split; [rng_var|]. split; [rng_var|]. split; [eapply Forall_vr_mono; [| |exact H3]; lia|].
    eapply Forall_impl; [|exact H6]. intros a. apply Forall_vr_mono; lia.
Qed.
Lemma prove_randomizer_crash n c : forallb right_value (seq 0 (length indices)) = false \/ Merkle.depth t' <> d ->
  crash (prove_randomizer t db t' db' indices values d p Quint) n c.
Proof.
  intros HB. unfold prove_randomizer. apply crash_r_k. intros b. apply crash_c_k. intros C.
  destruct (forallb right_value (seq 0 (length indices))) eqn:HV; [|apply crash_bind_l, crash_originals, HV]. destruct HB as [HB|HB]; [discriminate|].
  eapply crash_try_r; [apply fine_originals, HV|]. intros [[cs hs] ts] n' c' Hn Hc _.
  rewrite statics_p. cbn [pbind cs_commit]. apply crash_c_k. intros C2. cbn [pbind]. apply crash_bind_l, crash_wrong_depth, HB.
Qed.
End Randomizer.

(** *** every call *)
Theorem calls_attempt checks c n k : apt c ->
  match attempts checks c with
  | WillPanic => crash (calls checks c) n k
  | WillFail e => fine (calls checks c) n k (fun r _ _ => r = Err e)
  | WillGo => fineR (calls checks c) n k (returns (sent c))
  end.
Proof.
  intros HA.
  assert (Hneeds : forall A (r : option A) rng (m : pprog (result (list G1))) j, (supplied r rng = true -> fineR m n k (returns j)) ->
    (supplied r rng = false -> fine m n k (fun r _ _ => r = Err no_randomness)) ->
    match needs r rng WillGo with WillPanic => crash m n k | WillFail e => fine m n k (fun r _ _ => r = Err e) | WillGo => fineR m n k (returns j) end).
  { intros A r rng m j H1 H2. unfold needs. destruct (supplied r rng); auto. }
  assert (Hin : forall a j xs r rng (m : pprog (result (list G1))), (forall e, with_inputs j xs r rng WillGo = WillFail e -> fine m n k (fun r _ _ => r = Err e)) ->
    (supplied r rng = true -> length xs = j -> blindings j r = j -> match a with WillPanic => crash m n k | WillFail e => fine m n k (fun r _ _ => r = Err e) | WillGo => fineR m n k (returns j) end) ->
    match with_inputs j xs r rng a with WillPanic => crash m n k | WillFail e => fine m n k (fun r _ _ => r = Err e) | WillGo => fineR m n k (returns j) end).
  { intros a j xs r rng m H1 H2. destruct (with_inputs j xs r rng WillGo) eqn:E.
    - unfold with_inputs in E. destruct (negb (supplied r rng)); [discriminate|]. destruct (negb _ || negb _); discriminate.
    - specialize (H1 _ eq_refl). unfold with_inputs in *. destruct (negb (supplied r rng)); [injection E as <-; exact H1|]. destruct (negb _ || negb _); [injection E as <-; exact H1|discriminate].
    - destruct (with_inputs_go _ _ _ _ E) as (E1 & E2 & E3). unfold with_inputs in *. rewrite E1, E2, E3, Nat.eqb_refl. cbn. apply H2; assumption. }
  destruct c; cbn [attempts apt calls sent statement_of needed] in *.
  - apply Hneeds; intros Hs; [apply prove_non_zero, Hs|apply unchecked_k, Hs].
  - unfold needs. match goal with |- context [supplied ?a ?b] => destruct (supplied a b) eqn:Hs end; [|apply unchecked_k, Hs].
    destruct checks; cbn [andb].
    + match goal with |- context [Z.ltb ?a ?b || Z.ltb ?c ?d] => destruct (Z.ltb_spec a b), (Z.ltb_spec c d) end; cbn [orb];
        first [apply prove_bounded_crash; [exact Hs|lia]|apply prove_bounded; [exact Hs|right; lia]].
    + apply prove_bounded; [exact Hs|left; reflexivity].
  - apply Hneeds; intros Hs; [apply prove_member, Hs|apply unchecked_k, Hs].
  - apply Hneeds; intros Hs; [apply prove_member_alt, Hs|apply unchecked_k, Hs].
  - apply Hneeds; intros Hs; [apply prove_not_member, Hs|apply unchecked_k, Hs].
  - match goal with |- context [Nat.eqb ?a ?b] => destruct (Nat.eqb_spec a b) end; [apply prove_hamming; assumption|apply prove_hamming_fails; assumption].
  - apply Hin; [intros e He; apply inputs_fail, He|]. intros H1 H2 H3.
    match goal with |- context [Nat.ltb ?a ?b] => destruct (Nat.ltb_spec a b) end; [apply prove_mimc_crash|apply prove_mimc]; assumption.
  - apply Hin; [intros e He; apply inputs_fail, He|]. intros H1 H2 H3. apply prove_hash_2; tauto.
  - apply Hin; [intros e He; apply inputs_fail, He|]. intros H1 H2 H3. apply prove_hash_4; tauto.
  - apply Hin; [intros e He; apply inputs_fail, He|]. intros H1 H2 H3. apply prove_hash_8; tauto.
  - destruct HA as (HP & Hw & Hm). match goal with |- context [opens_with ?a ?b ?c ?d ?e] => destruct (opens_with a b c d e) as [|e0|] eqn:E end.
    + apply opens_with_good in E as (Hs & Hr & E); [|discriminate]. apply prove_leaf_4_crash; try assumption; [|destruct (broken_level _ _ _); [reflexivity|discriminate]].
      apply Nat.lt_succ_r, Nat.div_lt_upper_bound; lia.
    + apply fails_k. eapply leaf_fails, E.
    + apply opens_with_good in E as (Hs & Hr & E); [|discriminate]. apply prove_leaf_4; try assumption; [|destruct (broken_level _ _ _); [discriminate|reflexivity]].
      apply Nat.lt_succ_r, Nat.div_lt_upper_bound; lia.
  - destruct HA as (HP & Hw). match goal with |- context [opens_with ?a ?b ?c ?d ?e] => destruct (opens_with a b c d e) as [|e0|] eqn:E end.
    + apply opens_with_good in E as (Hs & Hr & E); [|discriminate]. apply prove_leaf_8_crash; try assumption. left. destruct (broken_level _ _ _); [reflexivity|discriminate].
    + apply fails_k. eapply leaf_fails, E.
    + apply opens_with_good in E as (Hs & Hr & E); [|discriminate].
      match goal with |- context [Nat.ltb ?a ?b] => destruct (Nat.ltb_spec a b) end; [apply prove_leaf_8_crash; try assumption; right; assumption|].
      apply prove_leaf_8; try assumption. destruct (broken_level _ _ _); [discriminate|reflexivity].
  - destruct HA as (HP & Hw & Hd & Hdt & (Hr & Hdb) & (Hr' & Hdb')). unfold right_values.
    match goal with |- context [forallb ?f ?l] => destruct (forallb f l) eqn:HV end; cbn [andb].
    + match goal with |- context [Nat.eqb ?a ?b] => destruct (Nat.eqb_spec a b) as [E|E] end.
      * eapply (prove_randomizer_fine _ HP Hw); try eassumption. match goal with |- ?t = _ => destruct t as [td tr] end. cbn [Merkle.depth Merkle.root] in *. subst. reflexivity.
      * eapply prove_randomizer_crash; try eassumption; [|right; exact E]. match goal with |- ?t = _ => destruct t as [td tr] end. cbn [Merkle.depth Merkle.root] in *. subst. reflexivity.
    + eapply prove_randomizer_crash; try eassumption; [|left; exact HV]. match goal with |- ?t = _ => destruct t as [td tr] end. cbn [Merkle.depth Merkle.root] in *. subst. reflexivity.
Qed.
End Prove.
