(** The gadgets that do not hash: their constraints determine the committed values. *)
From Coq Require Import ZArith String List Lia Bool Ring Field Arith.
From Verif.Base Require Import Outcome Fp Params Algebra.
From Verif.Model Require Import Transcript LinComb Prog IPP Prover Verifier Gadgets.
From Verif.Spec Require Import R1CS Protocol Gadget.
From Verif.Proofs Require Import LinCombProofs RunProofs ExtProofs GadgetTools GadgetBasic GadgetPrograms Recover KernelTools.
Import ListNotations.

Section KernelGadgets.
Context {P : Params} {OK : ParamsOk P}.
Local Open Scope fe_scope.
Add Field FFkg : (Fp_field_theory modulus modulus_prime).
Context (d : nat -> F) (W : world).
Local Notation dl := (delta_lc d).
Local Notation dv := (delta_var d).

Lemma zero_opp (x : F) : - (1) * x + 0 = 0 -> x = 0.
Proof. intros E. transitivity (- (- (1) * x + 0)); [ring|rewrite E; ring]. Qed.

Section Ph.
Context (ph : bool).
Local Notation okk := (okk d W ph).
Local Notation kspec := (kspec d W ph).

Lemma bit_k q s : inr s (q_var q) -> okk s (bit_gadget q) (fun _ s' => v_V s' = v_V s) (fun _ => dv (q_var q) = 0).
Proof.
  intros Hq. unfold bit_gadget. apply okk_allocate_multiplier_k. intros s1 a b o X1 V1 Ra Rb Ro Za Zb Zo. kcarry X1.
  apply okk_constrain_k; [inl0|]. intros s2 X2 V2. kcarry X2.
  apply okk_constrain_k; [inl0|]. intros s3 X3 V3. kcarry X3.
  apply okk_constrain_k; [inl0|]. intros s4 X4 V4.
  apply okk_ret; [congruence|]. intros _ _ E. dlv E. rewrite Zb in E. apply zero_opp.
  transitivity (0 + (- (1) * dv (q_var q) + 0)); [ring|exact E].
Qed.

Lemma nonzero_k x xi s : inr s x -> inr s xi ->
  okk s (is_nonzero_gadget x xi) (fun _ s' => v_V s' = v_V s) (fun _ => dv x = 0 /\ dv xi = 0).
Proof.
  intros Hx Hxi. unfold is_nonzero_gadget. apply okk_multiply_k; [inl0|inl0|]. intros s1 a b o X1 V1 Ra Rb Ro Za Zb Zo. kcarry X1.
  apply okk_constrain_k; [inl0|]. intros s2 X2 V2. kcarry X2.
  apply okk_multiply_k; [inl0|inl0|]. intros s3 a2 b2 o2 X3 V3 Ra2 Rb2 Ro2 Za2 Zb2 Zo2. kcarry X3.
  apply okk_constrain_k; [inl0|]. intros s4 X4 V4.
  apply okk_ret; [congruence|]. intros _ E1 E2 _ _ _. dlv E1. dlv E2. split; [exact E1|].
  etransitivity; [|exact E2]. ring.
Qed.

Lemma positive_k q n s : inr s (q_var q) ->
  okk s (positive_no_gadget q n) (fun _ s' => v_V s' = v_V s) (fun _ => dv (q_var q) = 0).
Proof.
  intros Hq. unfold positive_no_gadget.
  eapply okk_try; [apply (okk_try_fold d W ph (positive_no_step q)
    (fun j st s' => v_V s' = v_V s /\ inl s' (fst st) /\ dl (fst st) = - dv (q_var q)) (fun _ _ => True))|].
  - intros j i [cv e] s1 _ (V & R & Z). cbn [fst] in *. unfold positive_no_step.
    apply okk_allocate_multiplier_k. intros s2 a b o X1 V1 Ra Rb Ro Za Zb Zo. kcarry X1.
    apply okk_constrain_k; [inl0|]. intros s3 X3 V3. kcarry X3.
    apply okk_constrain_k; [inl0|]. intros s4 X4 V4. kcarry X4.
    apply okk_ret; [|auto]. cbn [fst]. split; [congruence|]. split; [inl0|]. rewrite dl_app, Z. cbn. rewrite Zb. ring.
  - cbn [fst]. split; [reflexivity|]. split; [inl0|]. cbn. ring.
  - exact I.
  - rewrite ?seq_length. intros [cv e] s1 X (V & R & Z). cbn [fst] in *.
    apply okk_constrain_k; [inl0|]. intros s2 X2 V2. apply okk_ret; [congruence|]. intros E _.
    transitivity (- dl cv); [rewrite Z; ring|rewrite E; ring].
Qed.

Lemma bound_check_k checks v a b max min n s : inr s (q_var v) -> inr s (q_var a) -> inr s (q_var b) ->
  okk s (bound_check_gadget checks v a b max min n) (fun _ s' => v_V s' = v_V s)
    (fun _ => dv (q_var v) = 0 /\ dv (q_var a) = 0 /\ dv (q_var b) = 0).
Proof.
  intros Hv Ha Hb. unfold bound_check_gadget, constrain_lc_with_scalar.
  apply okk_constrain_k; [inl0|]. intros s1 X1 V1. kcarry X1.
  apply okk_constrain_k; [inl0|]. intros s2 X2 V2. kcarry X2.
  apply okk_lift_k. intros dd _.
  apply okk_constrain_k; [inl0|]. intros s3 X3 V3. kcarry X3.
  eapply okk_try; [apply positive_k; assumption|]. intros [] s4 X4 V4. kcarry X4.
  eapply okk_try; [apply positive_k; assumption|]. intros [] s5 X5 V5.
  apply okk_ret; [congruence|]. intros Zb Za _ _ E. dlv E. rewrite Za in E. split; [|auto].
  transitivity (dv (q_var v) - 0 - 0); [ring|exact E].
Qed.

Lemma Forall_nth_inr s (l : list quantity) i q : Forall (inr s) (map q_var l) -> index l i = Done q -> inr s (q_var q).
Proof.
  intros H E. rewrite Forall_forall in H. apply H. apply in_map. unfold index in E.
  destruct (nth_error l i) eqn:En; [|discriminate]. injection E as <-. eapply nth_error_In, En.
Qed.

Lemma set_membership_k v ds set s : inr s (q_var v) -> Forall (inr s) (map q_var ds) ->
  okk s (set_membership_gadget v ds set) (fun _ s' => v_V s' = v_V s)
    (fun _ => (set <> [] -> dv (q_var v) = 0) /\ forall i, (i < length set)%nat -> exists q, nth_error ds i = Some q /\ dv (q_var q) = 0).
Proof.
  intros Hv Hd. unfold set_membership_gadget.
  eapply okk_bind; [apply (kspec_fold d W ph _
     (fun j product s' => v_V s' = v_V s /\ inl s' product /\ inr s' (q_var v) /\ Forall (inr s') (map q_var ds) /\ vext s s')
     (fun j _ => ((0 < j)%nat -> dv (q_var v) = 0) /\ forall i, (i < j)%nat -> exists q, nth_error ds i = Some q /\ dv (q_var q) = 0))|].
  - intros j i product s1 Hi (V1 & Rp & Rv & Rd & X). apply nth_error_seq0 in Hi as [-> Hj].
    apply kspec_lift_k. intros q Eq. apply kspec_lift_k. intros si _. pose proof (Forall_nth_inr _ _ _ _ Rd Eq) as Rq.
    unfold constrain_lc_with_scalar. apply kspec_constrain_k; [inl0|]. intros s2 X2 V2. kcarry X2.
    apply kspec_multiply_k; [inl0|inl0|]. intros s3 a b o X3 V3 Ra Rb Ro Za Zb Zo. kcarry X3.
    apply kspec_ret.
    + split; [congruence|]. split; [inl0|]. split; [assumption|]. split; [assumption|]. eauto using vext_trans.
    + intros _ E2 E1 (_ & Hall). dlv E1. dlv E2. split.
      * intros _. rewrite E2 in E1. etransitivity; [|exact E1]. ring.
      * intros i Hi. destruct (Nat.eq_dec i j) as [->|Hne]; [|apply Hall; lia]. exists q. split; [|exact E2].
        unfold index in Eq. destruct (nth_error ds j); [injection Eq as ->; reflexivity|discriminate].
  - split; [reflexivity|]. split; [inl0|]. split; [assumption|]. split; [assumption|]. apply vext_refl.
  - split; intros; lia.
  - rewrite ?seq_length. intros product s1 X (V & Rp & _). apply okk_constrain_k; [inl0|]. intros s2 X2 V2.
    apply okk_ret; [congruence|]. intros _ [H1 H2]. split; [|exact H2]. intros Hne. apply H1. destruct set; [congruence|cbn; lia].
Qed.

Lemma vector_sum_k vector sum s : Forall (inr s) vector ->
  okk s (vector_sum_constraints vector sum) (fun _ s' => v_V s' = v_V s) (fun _ => True).
Proof.
  intros Hv. unfold vector_sum_constraints. apply okk_constrain_k; [|intros s1 X V; apply okk_ret; auto].
  apply inl_cons; [exact I|]. intros v c Hi. apply in_map_iff in Hi as (w & E & Hi). injection E as <- <-.
  rewrite Forall_forall in Hv. exact (Hv w Hi).
Qed.

Lemma vector_product_k items vector value s : inr s (q_var value) ->
  okk s (vector_product_gadget items vector value) (fun _ s' => v_V s' = v_V s) (fun _ => dv (q_var value) = 0).
Proof.
  intros Hv. unfold vector_product_gadget.
  eapply okk_try; [apply (okk_try_fold d W ph _
     (fun j cs s' => v_V s' = v_V s /\ inl s' cs /\ inr s' (q_var value) /\ dl cs = - dv (q_var value)) (fun _ _ => True))|].
  - intros j i cs s1 Hi (V1 & Rc & Rv & Z). apply okk_lift_k. intros vi _. apply okk_lift_k. intros it _.
    apply okk_allocate_multiplier_k. intros s2 a b o X2 V2 Ra Rb Ro Za Zb Zo. kcarry X2.
    unfold constrain_lc_with_scalar. apply okk_constrain_k; [inl0|]. intros s3 X3 V3. kcarry X3.
    apply okk_multiply_k; [inl0|inl0|]. intros s4 a2 b2 o2 X4 V4 Ra2 Rb2 Ro2 Za2 Zb2 Zo2. kcarry X4.
    apply okk_constrain_k; [inl0|]. intros s5 X5 V5. kcarry X5.
    apply okk_ret; [|auto]. split; [congruence|]. split; [inl0|]. split; [assumption|]. rewrite dl_app, Z. cbn. rewrite Zo. ring.
  - split; [reflexivity|]. split; [inl0|]. split; [assumption|]. cbn. ring.
  - exact I.
  - intros cs s1 X (V & R & _ & Z). apply okk_constrain_k; [inl0|]. intros s2 X2 V2. apply okk_ret; [congruence|].
    intros E _. transitivity (- dl cs); [rewrite Z; ring|rewrite E; ring].
Qed.

Lemma set_non_membership_k v ds dis set s : inr s (q_var v) -> Forall (inr s) (map q_var ds) -> Forall (inr s) (map q_var dis) ->
  okk s (set_non_membership_gadget v ds dis set) (fun _ s' => v_V s' = v_V s)
    (fun _ => (set <> [] -> dv (q_var v) = 0) /\ forall i, (i < length set)%nat ->
       exists q qi, nth_error ds i = Some q /\ nth_error dis i = Some qi /\ dv (q_var q) = 0 /\ dv (q_var qi) = 0).
Proof.
  intros Hv Hd Hdi. unfold set_non_membership_gadget.
  eapply okk_conseq; [apply (okk_try_fold d W ph _
     (fun j (_ : unit) s' => v_V s' = v_V s /\ inr s' (q_var v) /\ Forall (inr s') (map q_var ds) /\ Forall (inr s') (map q_var dis))
     (fun j _ => ((0 < j)%nat -> dv (q_var v) = 0) /\ forall i, (i < j)%nat ->
       exists q qi, nth_error ds i = Some q /\ nth_error dis i = Some qi /\ dv (q_var q) = 0 /\ dv (q_var qi) = 0))|..].
  - intros j i [] s1 Hi (V1 & Rv & Rd & Rdi). apply nth_error_seq0 in Hi as [-> Hj].
    apply okk_lift_k. intros q Eq. apply okk_lift_k. intros si _. pose proof (Forall_nth_inr _ _ _ _ Rd Eq) as Rq.
    unfold constrain_lc_with_scalar. apply okk_constrain_k; [inl0|]. intros s2 X2 V2. kcarry X2.
    apply okk_lift_k. intros qi Eqi. pose proof (Forall_nth_inr _ _ _ _ Rdi Eqi) as Rqi.
    eapply okk_conseq; [apply nonzero_k; assumption| |].
    + intros [] s3 X3 V3. cbn in V3. kcarry X3. split; [congruence|]. auto.
    + intros [] [E2 E3] E1 (_ & Hall). dlv E1. split.
      * intros _. rewrite E2 in E1. etransitivity; [|exact E1]. ring.
      * intros i Hi. destruct (Nat.eq_dec i j) as [->|Hne]; [|apply Hall; lia]. exists q, qi.
        unfold index in Eq, Eqi. destruct (nth_error ds j); [injection Eq as ->|discriminate].
        destruct (nth_error dis j); [injection Eqi as ->|discriminate]. auto.
  - auto.
  - split; intros; lia.
  - rewrite ?seq_length. intros [] s1 X (V & _). exact V.
  - rewrite ?seq_length. intros [] [H1 H2]. split; [|exact H2]. intros Hne. apply H1. destruct set; [congruence|cbn; lia].
Qed.
End Ph.

(** *** the verifying functions *)
Local Notation okk := (okk d W false).
Local Notation kspec := (kspec d W false).

Lemma okk_remove0 {B} s l (f : G1 * list G1 -> vprog (result B)) U K :
  (forall c t, l = c :: t -> okk s (f (c, t)) U K) -> okk s (pbind (remove0 l) f) U K.
Proof. intros H. destruct l as [|c t]; [apply kspec_panic|]. exact (H c t eq_refl). Qed.
Lemma kspec_remove0 {B} s l (f : G1 * list G1 -> vprog B) U K :
  (forall c t, l = c :: t -> kspec s (f (c, t)) U K) -> kspec s (pbind (remove0 l) f) U K.
Proof. intros H. destruct l as [|c t]; [apply kspec_panic|]. exact (H c t eq_refl). Qed.

(** [vp] makes the [m] commitments [V], and all of them are determined *)
Definition determines (m : nat) (V : list G1) (vp : vprog (result unit)) : Prop :=
  forall s, okk s vp (fun _ s' => v_V s' = v_V s ++ V /\ length V = m) (fun _ => forall j, (j < m)%nat -> d (length (v_V s) + j)%nat = 0).

Lemma taken (V rest comms : list G1) m : V ++ rest = comms -> length V = m -> V = firstn m comms /\ length V = m.
Proof. intros <- <-. rewrite firstn_app, Nat.sub_diag, firstn_all. cbn. rewrite app_nil_r. auto. Qed.
Lemma taken_from (V0 V rest comms : list G1) m : V ++ rest = V0 ++ comms -> length V = (length V0 + m)%nat ->
  V = V0 ++ firstn m comms /\ length (firstn m comms) = m.
Proof.
  intros HC HV. destruct (taken _ _ _ _ HC HV) as [H _].
  assert (E : V = V0 ++ firstn m comms).
  { rewrite H, firstn_app, firstn_all2 by lia. f_equal. f_equal. lia. }
  split; [exact E|]. apply (f_equal (@length _)) in E. rewrite app_length in E. lia.
Qed.
Ltac dz := match goal with H : d ?x = 0 |- d ?y = 0 => replace y with x by lia; exact H end.

Lemma bounded_num_determines checks lower upper n comms : determines 3 (firstn 3 comms) (verify_bounded_num checks lower upper n comms).
Proof.
  intros s. unfold verify_bounded_num.
  apply okk_remove0. intros c1 t1 L1. apply okk_commit_k. intros s1 X1 V1 R1.
  apply okk_remove0. intros c2 t2 L2. apply okk_commit_k. intros s2 X2 V2 R2. kcarry X2.
  apply okk_remove0. intros c3 t3 L3. apply okk_commit_k. intros s3 X3 V3 R3. kcarry X3.
  eapply okk_try; [apply bound_check_k; cbn [q_var]; assumption|]. intros [] s4 X4 V4. apply okk_ret.
  - rewrite V4, V3, V2, V1, L1, L2, L3, <- !app_assoc. split; reflexivity.
  - cbn [q_var delta_var]. rewrite V2, V1, !app_length. cbn [length]. intros (E1 & E2 & E3) j Hj. destruct j as [|[|[|j]]]; [dz..|lia].
Qed.

Lemma non_zero_val_determines comms : determines 2 (firstn 2 comms) (verify_non_zero_val comms).
Proof.
  intros s. unfold verify_non_zero_val.
  apply okk_remove0. intros c1 t1 L1. apply okk_commit_k. intros s1 X1 V1 R1.
  apply okk_remove0. intros c2 t2 L2. apply okk_commit_k. intros s2 X2 V2 R2. kcarry X2.
  eapply okk_try; [apply nonzero_k; assumption|]. intros [] s4 X4 V4. apply okk_ret.
  - rewrite V4, V2, V1, L1, L2, <- !app_assoc. split; reflexivity.
  - cbn [q_var delta_var]. rewrite V1, !app_length. cbn [length]. intros (E1 & E2) j Hj. destruct j as [|[|j]]; [dz..|lia].
Qed.

Lemma seq_nth_error n j : (j < n)%nat -> nth_error (seq 0 n) j = Some j.
Proof. intros H. rewrite nth_error_nth' with (d := O) by (rewrite seq_length; exact H). rewrite seq_nth by exact H. reflexivity. Qed.

Lemma set_membership_determines set comms : set <> [] -> determines (1 + length set) (firstn (1 + length set) comms) (verify_set_membership set comms).
Proof.
  intros Hne s. unfold verify_set_membership. apply okk_remove0. intros c1 t1 L1. apply okk_commit_k. intros s1 X1 V1 R1.
  set (b := length (v_V s)) in *.
  eapply okk_bind; [apply (kspec_fold d W false _ (fun j st s' => v_V s' ++ fst st = v_V s ++ comms /\ inr s' (VCommitted b) /\ length (v_V s') = (b + S j)%nat /\
     map q_var (snd st) = map (fun i => VCommitted (b + S i)) (seq 0 j) /\ Forall (inr s') (map q_var (snd st))) (fun _ _ => True))|].
  - intros j x [cs ds] s2 _ (HC & R0 & HV & Hm & HR). cbn [fst snd] in *. apply kspec_remove0. intros c t L2. apply kspec_commit_k. intros s3 X3 V3 R3.
    kcarry X3. apply kspec_ret; [|auto]. cbn [fst snd]. rewrite HV in R3. split; [rewrite V3, <- app_assoc; cbn [app]; rewrite <- L2; exact HC|].
    split; [assumption|]. rewrite V3, app_length, HV, map_app, Hm, seq_S, map_app.
    split; [cbn; lia|]. split; [reflexivity|]. apply Forall_app. rewrite <- Hm. split; [exact HR|]. constructor; [exact R3|constructor].
  - cbn [fst snd]. rewrite V1, L1, <- app_assoc. split; [reflexivity|]. split; [exact R1|]. split; [rewrite app_length; cbn [length]; subst b; lia|]. split; [reflexivity|constructor].
  - exact I.
  - rewrite ?seq_length. intros [cs ds] s2 X2 (HC & R0 & HV & Hm & HR). cbn [fst snd] in *.
    eapply okk_try; [apply set_membership_k; assumption|]. intros [] s3 X3 V3. apply okk_ret; [rewrite V3; exact (taken_from _ _ _ _ _ HC HV)|].
    cbn [q_var delta_var]. intros (E & Eall) _ j Hj. destruct j as [|j]; [specialize (E Hne); dz|]. destruct (Eall j) as (q & Hq & Zq); [lia|].
    assert (Hq' : nth_error (map q_var ds) j = Some (q_var q)) by (apply map_nth_error, Hq). rewrite Hm in Hq'.
    rewrite (map_nth_error _ _ _ (d := j)) in Hq' by (apply seq_nth_error; lia).
    injection Hq' as Hq'. rewrite <- Hq' in Zq. exact Zq.
Qed.

Lemma set_non_membership_determines set comms : set <> [] ->
  determines (1 + 2 * length set) (firstn (1 + 2 * length set) comms) (verify_set_non_membership set comms).
Proof.
  intros Hne s. unfold verify_set_non_membership. apply okk_remove0. intros c1 t1 L1. apply okk_commit_k. intros s1 X1 V1 R1.
  set (b := length (v_V s)) in *.
  eapply okk_bind; [apply (kspec_fold d W false _ (fun j st s' => v_V s' ++ fst (fst st) = v_V s ++ comms /\ inr s' (VCommitted b) /\ length (v_V s') = (b + (1 + 2 * j))%nat /\
     map q_var (snd (fst st)) = map (fun i => VCommitted (b + (1 + 2 * i))) (seq 0 j) /\ Forall (inr s') (map q_var (snd (fst st))) /\
     map q_var (snd st) = map (fun i => VCommitted (b + (2 + 2 * i))) (seq 0 j) /\ Forall (inr s') (map q_var (snd st))) (fun _ _ => True))|].
  - intros j x [[cs ds] dis] s2 _ (HC & R0 & HV & Hm & HR & Hm' & HR'). cbn [fst snd] in *.
    apply kspec_remove0. intros c t L2. apply kspec_commit_k. intros s3 X3 V3 R3. kcarry X3.
    apply kspec_remove0. intros c' t' L3. apply kspec_commit_k. intros s4 X4 V4 R4. kcarry X4.
    apply kspec_ret; [|auto]. cbn [fst snd]. split; [rewrite V4, V3, <- !app_assoc; cbn [app]; rewrite <- L3, <- L2; exact HC|].
    split; [assumption|]. rewrite V4, V3, !app_length, HV, !map_app, Hm, Hm', seq_S, !map_app.
    rewrite V3, app_length, HV in R4. rewrite HV in R3.
    split; [cbn [length]; lia|]. split; [reflexivity|]. split.
    { apply Forall_app. rewrite <- Hm. split; [exact HR|]. constructor; [exact R3|constructor]. }
    split; [f_equal; cbn [map q_var length]; do 2 f_equal; lia|]. apply Forall_app. rewrite <- Hm'. split; [exact HR'|]. constructor; [|constructor]. cbn [q_var]. exact R4.
  - cbn [fst snd]. rewrite V1, L1, <- app_assoc. cbn [map seq]. split; [reflexivity|]. split; [exact R1|].
    split; [rewrite app_length; cbn [length]; subst b; lia|]. repeat split; constructor.
  - exact I.
  - rewrite ?seq_length. intros [[cs ds] dis] s2 X2 (HC & R0 & HV & Hm & HR & Hm' & HR'). cbn [fst snd] in *.
    eapply okk_try; [apply set_non_membership_k; assumption|]. intros [] s3 X3 V3. apply okk_ret; [rewrite V3; exact (taken_from _ _ _ _ _ HC HV)|].
    cbn [q_var delta_var]. intros (E & Eall) _ j Hj. destruct j as [|j]; [specialize (E Hne); dz|].
    assert (Hij : exists i, (j = 2 * i \/ j = 2 * i + 1)%nat).
    { destruct (Nat.Even_or_Odd j) as [[i Hi]|[i Hi]]; exists i; lia. }
    destruct Hij as [i Hij].
    destruct (Eall i) as (q & qi & Hq & Hqi & Zq & Zqi); [lia|].
    assert (Hq' : nth_error (map q_var ds) i = Some (q_var q)) by (apply map_nth_error, Hq). rewrite Hm in Hq'.
    assert (Hqi' : nth_error (map q_var dis) i = Some (q_var qi)) by (apply map_nth_error, Hqi). rewrite Hm' in Hqi'.
    assert (Hi : (i < length set)%nat) by lia.
    rewrite (map_nth_error _ _ _ (seq_nth_error _ i Hi)) in Hq'. rewrite (map_nth_error _ _ _ (seq_nth_error _ i Hi)) in Hqi'. injection Hq' as Hq'. injection Hqi' as Hqi'.
    rewrite <- Hq' in Zq. rewrite <- Hqi' in Zqi. cbn [delta_var] in Zq, Zqi. destruct Hij as [Hij|Hij].
    + replace (S j) with (1 + 2 * i)%nat by lia. exact Zq.
    + replace (S j) with (2 + 2 * i)%nat by lia. exact Zqi.
Qed.

Lemma set_membership_alt_determines set comms :
  determines (length set + 1) (firstn (length set + 1) comms) (verify_set_membership_alt set comms).
Proof.
  intros s. unfold verify_set_membership_alt. set (b := length (v_V s)) in *.
  eapply okk_try; [apply (okk_try_fold d W false _ (fun j st s' => v_V s' ++ fst (fst st) = v_V s ++ comms /\ length (v_V s') = (b + j)%nat /\ Forall (inr s') (snd (fst st)))
    (fun j _ => forall i, (i < j)%nat -> d (b + i)%nat = 0))|].
  - intros j x [[cs bv] ba] s1 _ (HC & HV & HR). cbn [fst snd] in *. apply okk_remove0. intros c t L1.
    apply okk_commit_k. intros s2 X2 V2 R2. kcarry X2. rewrite HV in R2. 
    eapply okk_try; [apply bit_k; cbn [q_var]; rewrite HV; exact R2|]. intros [] s3 X3 V3. kcarry X3. apply okk_ret.
    + cbn [fst snd]. split; [rewrite V3, V2, <- app_assoc; cbn [app]; rewrite <- L1; exact HC|]. split; [rewrite V3, V2, app_length, HV; cbn [length]; lia|]. apply Forall_app. split; [exact HR|]. rewrite HV. constructor; [exact R2|constructor].
    + cbn [q_var delta_var]. rewrite HV. intros E Hall i Hi. destruct (Nat.eq_dec i j) as [->|Hn]; [exact E|apply Hall; lia].
  - cbn [fst snd]. split; [reflexivity|]. split; [subst b; lia|constructor].
  - intros i Hi. lia.
  - rewrite ?seq_length. intros [[cs bv] ba] s1 X1 (HC & HV & HR). cbn [fst snd] in *.
    eapply okk_try; [apply vector_sum_k; exact HR|]. intros [] s2 X2 V2.
    apply okk_remove0. intros c t L1. apply okk_commit_k. intros s3 X3 V3 R3.
    eapply okk_try; [apply vector_product_k; exact R3|]. intros [] s4 X4 V4. apply okk_ret.
    + apply (taken_from _ _ t).
      * rewrite V4, V3, V2, <- app_assoc. cbn [app]. rewrite <- L1. exact HC.
      * rewrite V4, V3, app_length, V2, HV. cbn [length]. subst b. lia.
    + cbn [q_var delta_var]. rewrite V2, HV. intros E _ Hall j Hj. destruct (Nat.eq_dec j (length set)) as [->|Hn]; [exact E|apply Hall; lia].
Qed.
End KernelGadgets.
