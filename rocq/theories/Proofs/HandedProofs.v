(** Variables are fresh, exist, and keep their values. *)
From Coq Require Import ZArith String List Lia Bool Ring Field.
From Verif.Base Require Import Outcome Fp Params Algebra.
From Verif.Model Require Import Transcript LinComb Prog Prover Verifier.
From Verif.Spec Require Import R1CS Protocol Handed Session.
From Verif.Proofs Require Import RunProofs ExtProofs IPPProofs FlattenProofs VerifyProofs.
Import ListNotations.

Section HandedProofs.
Context {P : Params} {OK : ParamsOk P}.
Local Open Scope fe_scope.

(** variables that can no longer be handed out: [n] gates, [m] commitments, [pend] pending *)
Definition taken (n m : nat) (pend : option nat) (v : var) : Prop :=
  match v with
  | VCommitted i => (i < m)%nat
  | VLeft i => (i < n)%nat
  | VRight i | VOut i => (i < n)%nat /\ pend <> Some i
  | VOne => True
  end.
Definition ptaken (s : prover) := taken (length (p_aL s)) (length (p_v s)) (p_pending s).
Definition vtaken (s : verifier) := taken (v_num_vars s) (length (v_V s)) (v_pending s).

(** [new] are variables handed out between two states *)
Definition fresh (n m : nat) pd (n' m' : nat) pd' (new : list var) : Prop :=
  NoDup new /\ (forall v, In v new -> ~ taken n m pd v /\ taken n' m' pd' v) /\
  (forall v, taken n m pd v -> taken n' m' pd' v).

Lemma fresh_app n1 m1 d1 n2 m2 d2 n3 m3 d3 a b :
  fresh n1 m1 d1 n2 m2 d2 a -> fresh n2 m2 d2 n3 m3 d3 b -> fresh n1 m1 d1 n3 m3 d3 (a ++ b).
Proof.
  intros (A1 & A2 & A3) (B1 & B2 & B3). split; [|split].
  - clear - A1 A2 B1 B2. induction a as [|x t IH]; [assumption|].
    inversion A1; subst. simpl. constructor.
    + rewrite in_app_iff. intros [Hx|Hx]; [contradiction|].
      apply B2 in Hx as [Hx _]. apply Hx. apply A2. left. reflexivity.
    + apply IH; [assumption|]. intros v Hv. apply A2. right. assumption.
  - intros v Hv. apply in_app_iff in Hv as [Hv|Hv].
    + apply A2 in Hv as [H1 H2]. auto.
    + apply B2 in Hv as [H1 H2]. auto.
  - auto.
Qed.

Lemma fresh_nil n m d : fresh n m d n m d [].
Proof. split; [constructor|]. split; [intros v []|auto]. Qed.

Lemma fresh_gate n m pd : (forall i, pd = Some i -> (i < n)%nat) ->
  fresh n m pd (S n) m pd [VLeft n; VRight n; VOut n].
Proof.
  intros Hp. split; [|split].
  - repeat (constructor; [simpl; intuition discriminate|]). constructor.
  - assert (pd <> Some n) by (intros E; apply Hp in E; lia).
    intros v [<-|[<-|[<-|[]]]]; simpl; split; try lia; intuition lia.
  - intros [i|i|i|i|]; simpl; intuition lia.
Qed.

Lemma fresh_left n m : fresh n m None (S n) m (Some n) [VLeft n].
Proof.
  split; [|split].
  - constructor; [intros []|constructor].
  - intros v [<-|[]]; simpl; lia.
  - intros [i|i|i|i|]; simpl; try lia; intros [Hi _]; split; try lia; intros E; injection E as E; lia.
Qed.

Lemma fresh_right n m i : (i < n)%nat -> fresh n m (Some i) n m None [VRight i].
Proof.
  intros Hi. split; [|split].
  - constructor; [intros []|constructor].
  - intros v [<-|[]]; simpl. split; [intuition congruence|]. split; [assumption|discriminate].
  - intros [j|j|j|j|]; simpl; try lia; intros [Hj _]; split; try lia; discriminate.
Qed.

Lemma fresh_right_out n m i : (i < n)%nat -> fresh n m (Some i) n m None [VRight i; VOut i].
Proof.
  intros Hi. split; [|split].
  - repeat (constructor; [simpl; intuition discriminate|]). constructor.
  - intros v [<-|[<-|[]]]; simpl; (split; [intuition congruence|]; split; [assumption|discriminate]).
  - intros [j|j|j|j|]; simpl; try lia; intros [Hj _]; split; try lia; discriminate.
Qed.

Lemma fresh_commit n m pd : fresh n m pd n (S m) pd [VCommitted m].
Proof.
  split; [|split].
  - constructor; [intros []|constructor].
  - intros v [<-|[]]; simpl; lia.
  - intros [i|i|i|i|]; simpl; auto.
Qed.

Definition pfresh (s s' : prover) := fresh (length (p_aL s)) (length (p_v s)) (p_pending s)
  (length (p_aL s')) (length (p_v s')) (p_pending s').

Lemma pfresh_multiply l r s vs s' : pwf s -> prover_multiply l r s = Done (vs, s') -> pfresh s s' (vars3 vs).
Proof.
  intros Hwf. unfold prover_multiply. destruct (prover_eval s l); [|discriminate]. cbn [obind].
  destruct (prover_eval s r); [|discriminate]. cbn [obind]. intros E. injection E as <- <-.
  unfold pfresh. simpl. rewrite (pwf_aR _ Hwf), (pwf_aO _ Hwf), app_length. simpl. rewrite Nat.add_1_r.
  apply fresh_gate. apply (pwf_pending _ Hwf).
Qed.

Lemma pfresh_multiplier a s : pwf s ->
  pfresh s (snd (prover_allocate_multiplier a s)) (vars_multiplier (fst (prover_allocate_multiplier a s))).
Proof.
  intros Hwf. destruct a as [[l r]|]; simpl; [|apply fresh_nil].
  unfold pfresh. simpl. rewrite (pwf_aR _ Hwf), (pwf_aO _ Hwf), app_length. simpl. rewrite Nat.add_1_r.
  apply fresh_gate. apply (pwf_pending _ Hwf).
Qed.

Lemma pfresh_allocate a s r s' : pwf s -> prover_allocate a s = Done (r, s') ->
  pfresh s s' (vars_allocate r) /\
  (forall i, r = Ok (VRight i) -> pfresh s s' [VRight i; VOut i]) /\
  (forall v, r = Ok v -> exists i, v = VLeft i \/ v = VRight i).
Proof.
  intros Hwf. unfold prover_allocate. destruct a as [x|].
  2:{ intros E. injection E as <- <-. split; [apply fresh_nil|]. split; intros; discriminate. }
  destruct (p_pending s) as [i|] eqn:Ep.
  - pose proof (pwf_pending _ Hwf i Ep) as Hi. simpl.
    destruct (set_nth (p_aR s) i x) as [aR|] eqn:E1; [|discriminate]. simpl.
    destruct (index (p_aL s) i) as [l|] eqn:E2; [|discriminate]. simpl.
    destruct (index aR i) as [r0|] eqn:E3; [|discriminate]. simpl.
    destruct (set_nth (p_aO s) i (l * r0)) as [aO|] eqn:E4; [|discriminate]. simpl.
    intros E. injection E as <- <-. unfold pfresh. simpl. rewrite Ep.
    split; [apply fresh_right; assumption|]. split.
    + intros j Hj. injection Hj as <-. apply fresh_right_out. assumption.
    + intros v Hv. injection Hv as <-. eauto.
  - intros E. injection E as <- <-. unfold pfresh. simpl. rewrite Ep, app_length. simpl. rewrite Nat.add_1_r.
    split; [apply fresh_left|]. split; [intros; discriminate|]. intros v Hv. injection Hv as <-. eauto.
Qed.

Lemma pfresh_single a s r s' : pwf s -> prover_allocate_single a s = Done (r, s') -> pfresh s s' (vars_single r).
Proof.
  intros Hwf. unfold prover_allocate_single.
  destruct (prover_allocate a s) as [[r0 s0]|] eqn:E; [|discriminate]. cbn [obind].
  destruct (pfresh_allocate _ _ _ _ Hwf E) as (H1 & H2 & H3).
  destruct r0 as [v|e]; [|intros F; injection F as <- <-; exact H1].
  destruct (H3 v eq_refl) as (i & [->| ->]); intros F; injection F as <- <-; [exact H1|apply H2; reflexivity].
Qed.

Theorem prover_vars_fresh W ph {A} (m : pprog A) s a s' : pwf s -> prun W ph m s = Done (a, s') ->
  pfresh s s' (prover_vars W ph m s).
Proof.
  revert s a s'. induction m as [| | | | | | ? c IHc k IH | | | | ? x k IH | |]; intros s a0 s' Hwf;
    cbn [prun prover_vars].
  - intros E. injection E as <- <-. apply fresh_nil.
  - discriminate.
  - destruct (prover_multiply left right s) as [[vs s1]|] eqn:E; [|discriminate]. cbn [obind]. intros E'.
    eapply fresh_app; [eapply pfresh_multiply; eauto|]. eapply H; [|exact E']. eapply pwf_multiply; eauto.
  - destruct (prover_allocate assignment s) as [[r s1]|] eqn:E; [|discriminate]. cbn [obind]. intros E'.
    eapply fresh_app; [eapply pfresh_allocate; eauto|]. eapply H; [|exact E']. eapply pwf_allocate; eauto.
  - pose proof (pwf_allocate_multiplier assignment s Hwf) as Hm.
    pose proof (pfresh_multiplier assignment s Hwf) as Hf.
    destruct (prover_allocate_multiplier assignment s) as [r s1]. intros E'.
    eapply fresh_app; [exact Hf|]. eapply H; [exact Hm|exact E'].
  - intros E. apply (H tt) in E; [exact E|]. apply pwf_constrain. assumption.
  - destruct ph.
    + destruct (prun W true c s) as [[r s1]|] eqn:E; [|discriminate]. cbn [obind]. intros E'.
      eapply fresh_app; [eapply IHc; eassumption|]. eapply IH; [|exact E']. eapply prun_pwf; eassumption.
    + intros E. apply IH in E; [exact E|]. eapply pwf_same_wires; [..|exact Hwf]; reflexivity.
  - destruct (prover_eval s l) as [v|]; [|discriminate]. cbn [obind]. intros E. eapply H; eauto.
  - destruct (prover_allocate_single assignment s) as [[r s1]|] eqn:E; [|discriminate]. cbn [obind]. intros E'.
    eapply fresh_app; [eapply pfresh_single; eauto|]. eapply H; [|exact E']. eapply pwf_allocate_single; eauto.
  - destruct ph; [|discriminate]. cbn [challenge_scalar]. unfold challenge_scalar. intros E.
    apply H in E; [exact E|]. eapply pwf_same_wires; [..|exact Hwf]; reflexivity.
  - destruct x as [v b]. destruct ph; [discriminate|]. unfold prover_commit. cbn [prover_commit]. intros E.
    eapply (fresh_app _ _ _ (length (p_aL s)) (S (length (p_v s))) (p_pending s)); [apply fresh_commit|].
    apply IH in E.
    + unfold pfresh in E. simpl in E. rewrite app_length, Nat.add_1_r in E. exact E.
    + change (pwf (snd (prover_commit v b s))). apply pwf_commit. assumption.
  - intros E. apply H in E; [exact E|]. eapply pwf_same_wires; [..|exact Hwf]; reflexivity.
  - intros E. apply H in E; [exact E|]. eapply pwf_same_wires; [..|exact Hwf]; reflexivity.
Qed.

Lemma fresh_in_range n m pd n' m' pd' new v : fresh n m pd n' m' pd' new -> In v new -> var_in_range n' m' v.
Proof.
  intros (_ & H & _) Hv. apply H in Hv as [_ Hv]. destruct v; simpl in *; tauto.
Qed.

Lemma taken_value s s' v : pwf s -> pext s s' -> ptaken s v ->
  var_value (prover_assignment s') v = var_value (prover_assignment s) v.
Proof.
  intros Hwf Hx Hv. destruct v as [i|i|i|i|]; simpl in *.
  - destruct (px_v _ _ Hx) as [r ->]. rewrite app_nth1 by assumption. reflexivity.
  - destruct (px_aL _ _ Hx) as [r ->]. rewrite app_nth1 by assumption. reflexivity.
  - apply (px_aR _ _ Hx); [rewrite (pwf_aR _ Hwf); tauto|tauto].
  - apply (px_aO _ _ Hx); [rewrite (pwf_aO _ Hwf); tauto|tauto].
  - reflexivity.
Qed.

Lemma prover_callback_vars_fresh W cbs s s' : pwf s -> prover_run_callbacks W cbs s = Done (Ok s') ->
  pfresh s s' (prover_callback_vars W cbs s).
Proof.
  revert s; induction cbs as [|cb cbs IH]; intros s Hwf; cbn [prover_run_callbacks prover_callback_vars].
  - intros E. injection E as <-. apply fresh_nil.
  - destruct (prun W true cb s) as [[r s1]|] eqn:E; [|discriminate]. cbn [obind].
    destruct r as [[]|]; [|discriminate]. intros E'.
    eapply fresh_app; [eapply prover_vars_fresh; eassumption|]. apply IH; [|exact E'].
    eapply prun_pwf; eassumption.
Qed.

Lemma taken_reset n m pd v : taken n m pd v -> taken n m None v.
Proof. destruct v; simpl; intuition discriminate. Qed.

(** dropping a pending multiplier hands out nothing *)
Lemma fresh_reset n m pd n' m' pd' new :
  fresh n m None n' m' pd' new -> fresh n m pd n' m' pd' new.
Proof.
  intros (H1 & H2 & H3). split; [assumption|]. split.
  - intros v Hv. destruct (H2 v Hv) as [Ha Hb]. split; [|assumption].
    intros Ht. apply Ha. eapply taken_reset. exact Ht.
  - intros v Hv. apply H3. eapply taken_reset. exact Hv.
Qed.

Lemma prover_phase2_vars_fresh W s s' : pwf s -> prover_create_randomized_constraints W s = Done (Ok s') ->
  pfresh s s' (prover_phase2_vars W s).
Proof.
  intros Hwf. unfold prover_create_randomized_constraints, prover_phase2_vars.
  cbn [p_with_pending p_deferred p_with_transcript]. destruct (p_deferred s) as [|cb cbs] eqn:Ed.
  - intros E. injection E as <-. apply fresh_reset. unfold pfresh. cbn. apply fresh_nil.
  - intros E. apply fresh_reset.
    apply (prover_callback_vars_fresh W (cb :: cbs)) in E; [exact E|]. apply pwf_reset. assumption.
Qed.

(** *** Verifier *)
Definition vwf (s : verifier) : Prop := forall i, v_pending s = Some i -> (i < v_num_vars s)%nat.
Definition vfresh (s s' : verifier) := fresh (v_num_vars s) (length (v_V s)) (v_pending s)
  (v_num_vars s') (length (v_V s')) (v_pending s').

Lemma vwf_new t : vwf (verifier_new t).
Proof. intros i Hi. discriminate. Qed.

Lemma vwf_allocate s : vwf s -> vwf (snd (verifier_allocate s)).
Proof.
  intros H. unfold verifier_allocate. destruct (v_pending s) as [i|] eqn:E; intros j Hj; simpl in *; [discriminate|].
  injection Hj as <-. lia.
Qed.
Lemma vwf_allocate_single s : vwf s -> vwf (snd (verifier_allocate_single s)).
Proof.
  intros H. unfold verifier_allocate_single. pose proof (vwf_allocate s H) as Hw.
  destruct (verifier_allocate s) as [[[]|] s1]; exact Hw.
Qed.

Theorem vrun_vwf W ph {A} (m : vprog A) s a s' : vwf s -> vrun W ph m s = Done (a, s') -> vwf s'.
Proof.
  revert s a s'. induction m as [| | | | | | ? c IHc k IH | | | | ? x k IH | |]; intros s a0 s' Hwf; cbn [vrun].
  - intros E. injection E as <- <-. assumption.
  - discriminate.
  - intros E. eapply H; [|exact E]. intros i Hi. simpl in *. apply Hwf in Hi. lia.
  - pose proof (vwf_allocate s Hwf) as Hx. destruct (verifier_allocate s) as [r s1]. intros E. eapply H; [exact Hx|exact E].
  - intros E. eapply H; [|exact E]. intros i Hi. simpl in *. apply Hwf in Hi. lia.
  - intros E. eapply H; [|exact E]. exact Hwf.
  - destruct ph.
    + destruct (vrun W true c s) as [[r s1]|] eqn:E; [|discriminate]. cbn [obind]. intros E'.
      eapply IH; [|exact E']. eapply IHc; eassumption.
    + intros E. eapply IH; [|exact E]. exact Hwf.
  - intros E. eapply H; eauto.
  - pose proof (vwf_allocate_single s Hwf) as Hx. destruct (verifier_allocate_single s) as [r s1]. intros E. eapply H; [exact Hx|exact E].
  - destruct ph; [|discriminate]. intros E. eapply H; [|exact E]. exact Hwf.
  - destruct ph; [discriminate|]. intros E. eapply IH; [|exact E]. exact Hwf.
  - intros E. eapply H; [|exact E]. exact Hwf.
  - intros E. eapply H; [|exact E]. exact Hwf.
Qed.

Lemma vfresh_allocate s : vwf s ->
  vfresh s (snd (verifier_allocate s)) (vars_allocate (fst (verifier_allocate s))) /\
  (forall i, fst (verifier_allocate s) = Ok (VRight i) -> vfresh s (snd (verifier_allocate s)) [VRight i; VOut i]).
Proof.
  intros Hwf. unfold verifier_allocate, vfresh. destruct (v_pending s) as [i|] eqn:Ep; simpl.
  - split; [apply fresh_right; auto|]. intros j Hj. injection Hj as <-. apply fresh_right_out; auto.
  - split; [apply fresh_left|]. intros; discriminate.
Qed.

Lemma vfresh_single s : vwf s ->
  vfresh s (snd (verifier_allocate_single s)) (vars_single (fst (verifier_allocate_single s))).
Proof.
  intros Hwf. destruct (vfresh_allocate s Hwf) as [H1 H2]. unfold verifier_allocate_single, verifier_allocate in *.
  destruct (v_pending s) as [i|]; simpl in *; [apply H2; reflexivity|exact H1].
Qed.

Theorem verifier_vars_fresh W ph {A} (m : vprog A) s a s' : vwf s -> vrun W ph m s = Done (a, s') ->
  vfresh s s' (verifier_vars W ph m s).
Proof.
  revert s a s'. induction m as [| | | | | | ? c IHc k IH | | | | ? x k IH | |]; intros s a0 s' Hwf;
    cbn [vrun verifier_vars].
  - intros E. injection E as <- <-. apply fresh_nil.
  - discriminate.
  - intros E. eapply (fresh_app _ _ _ (S (v_num_vars s)) (length (v_V s)) (v_pending s));
      [apply fresh_gate; exact Hwf|].
    eapply H in E; [exact E|]. intros i Hi. simpl in *. apply Hwf in Hi. lia.
  - pose proof (proj1 (vfresh_allocate s Hwf)) as Hf. pose proof (vwf_allocate s Hwf) as Hw.
    destruct (verifier_allocate s) as [r s1]. intros E. eapply fresh_app; [exact Hf|]. eapply H; [exact Hw|exact E].
  - intros E. eapply (fresh_app _ _ _ (S (v_num_vars s)) (length (v_V s)) (v_pending s));
      [apply fresh_gate; exact Hwf|].
    eapply H in E; [exact E|]. intros i Hi. simpl in *. apply Hwf in Hi. lia.
  - intros E. apply (H tt) in E; [exact E|exact Hwf].
  - destruct ph.
    + destruct (vrun W true c s) as [[r s1]|] eqn:E; [|discriminate]. cbn [obind]. intros E'.
      eapply fresh_app; [eapply IHc; eassumption|]. eapply IH; [|exact E']. eapply vrun_vwf; eassumption.
    + intros E. apply IH in E; [exact E|exact Hwf].
  - intros E. eapply H; eauto.
  - pose proof (vfresh_single s Hwf) as Hf. pose proof (vwf_allocate_single s Hwf) as Hw.
    destruct (verifier_allocate_single s) as [r s1]. intros E. eapply fresh_app; [exact Hf|]. eapply H; [exact Hw|exact E].
  - destruct ph; [|discriminate]. unfold challenge_scalar. intros E. apply H in E; [exact E|exact Hwf].
  - destruct ph; [discriminate|]. unfold verifier_commit. intros E.
    eapply (fresh_app _ _ _ (v_num_vars s) (S (length (v_V s))) (v_pending s)); [apply fresh_commit|].
    apply IH in E; [|exact Hwf]. unfold vfresh in E. cbn in E. rewrite app_length, Nat.add_1_r in E. exact E.
  - intros E. apply H in E; [exact E|exact Hwf].
  - intros E. apply H in E; [exact E|exact Hwf].
Qed.

Lemma verifier_callback_vars_fresh W cbs s s' : vwf s -> verifier_run_callbacks W cbs s = Done (Ok s') ->
  vfresh s s' (verifier_callback_vars W cbs s).
Proof.
  revert s; induction cbs as [|cb cbs IH]; intros s Hwf; cbn [verifier_run_callbacks verifier_callback_vars].
  - intros E. injection E as <-. apply fresh_nil.
  - destruct (vrun W true cb s) as [[r s1]|] eqn:E; [|discriminate]. cbn [obind].
    destruct r as [[]|]; [|discriminate]. intros E'.
    eapply fresh_app; [eapply verifier_vars_fresh; eassumption|]. apply IH; [|exact E'].
    eapply vrun_vwf; eassumption.
Qed.

Lemma verifier_phase2_vars_fresh W s s' : verifier_create_randomized_constraints W s = Done (Ok s') ->
  vfresh s s' (verifier_phase2_vars W s).
Proof.
  unfold verifier_create_randomized_constraints, verifier_phase2_vars.
  cbn [v_with_pending v_deferred v_with_transcript]. destruct (v_deferred s) as [|cb cbs] eqn:Ed.
  - intros E. injection E as <-. apply fresh_reset. unfold vfresh. cbn. apply fresh_nil.
  - intros E. apply fresh_reset.
    apply (verifier_callback_vars_fresh W (cb :: cbs)) in E; [exact E|]. intros i Hi. discriminate.
Qed.

(** *** Whole sessions *)
Theorem prover_session_vars W g h t G H {A} (m : pprog A) a s s2 :
  prun W false m (prover_new g h t) = Done (a, s) ->
  prover_create_randomized_constraints W (hp_state1 W s G H) = Done (Ok s2) ->
  let vs1 := prover_vars W false m (prover_new g h t) in
  let vs2 := prover_phase2_vars W (hp_state1 W s G H) in
  NoDup (vs1 ++ vs2) /\
  (forall v, In v vs1 -> var_in_range (length (p_aL s)) (length (p_v s)) v) /\
  (forall v, In v (vs1 ++ vs2) -> var_in_range (length (p_aL s2)) (length (p_v s2)) v) /\
  (forall v, In v vs1 -> var_value (prover_assignment s2) v = var_value (prover_assignment s) v).
Proof.
  intros E1 E2 vs1 vs2.
  pose proof (pwf_new g h t) as W0. pose proof (prun_pwf _ _ _ _ _ _ W0 E1) as W1.
  pose proof (prover_vars_fresh _ _ _ _ _ _ W0 E1) as F1.
  assert (W1' : pwf (hp_state1 W s G H)) by (eapply pwf_same_wires; [..|exact W1]; reflexivity).
  pose proof (prover_phase2_vars_fresh _ _ _ W1' E2) as F2.
  pose proof (fresh_app _ _ _ _ _ _ _ _ _ _ _ F1 F2) as F3. fold vs1 vs2 in F3.
  split; [apply F3|]. split; [intros v Hv; eapply fresh_in_range; eassumption|].
  split; [intros v Hv; eapply fresh_in_range; eassumption|].
  intros v Hv. assert (Ht : ptaken s v) by (apply (proj1 (proj2 F1) v Hv)).
  destruct (prover_second_phase_ext _ _ _ W1' E2) as (_ & _ & _ & Ev & _ & Hle & EL & ER & EO & _).
  cbn [hp_state1 p_with_transcript p_with_nrand p_aL p_aR p_aO p_v] in *.
  pose proof (pwf_aR _ W1) as LR. pose proof (pwf_aO _ W1) as LO.
  destruct v as [i|i|i|i|]; simpl in *; [congruence| | | |reflexivity].
  - rewrite <- EL. rewrite nth_firstn_lt by lia. reflexivity.
  - rewrite <- ER. rewrite nth_firstn_lt by lia. reflexivity.
  - rewrite <- EO. rewrite nth_firstn_lt by lia. reflexivity.
Qed.

(** ... at every point of a run *)
Theorem prover_vars_stable W ph {A B} (m : pprog A) (k : A -> pprog B) s a s1 b s2 : pwf s ->
  prun W ph m s = Done (a, s1) -> prun W ph (pbind m k) s = Done (b, s2) ->
  forall v, In v (prover_vars W ph m s) ->
  var_value (prover_assignment s2) v = var_value (prover_assignment s1) v /\
  ~ In v (prover_vars W ph (k a) s1).
Proof.
  intros W0 E1 E2 v Hv. rewrite prun_bind, E1 in E2. cbn [obind] in E2.
  pose proof (prun_pwf _ _ _ _ _ _ W0 E1) as W1.
  pose proof (prover_vars_fresh _ _ _ _ _ _ W0 E1) as (_ & F1 & _).
  pose proof (prover_vars_fresh _ _ _ _ _ _ W1 E2) as (_ & F2 & _).
  destruct (F1 v Hv) as [_ Ht]. split.
  - eapply taken_value; [exact W1|eapply prun_pext; eassumption|exact Ht].
  - intros Hv'. destruct (F2 v Hv') as [Hn _]. exact (Hn Ht).
Qed.

Theorem verifier_session_vars W t proof {A} (m : vprog A) a s s2 :
  vrun W false m (verifier_new t) = Done (a, s) ->
  verifier_create_randomized_constraints W
    (v_with_transcript (first_phase_transcript proof (length (v_V s)) (v_transcript s)) s) = Done (Ok s2) ->
  let vs1 := verifier_vars W false m (verifier_new t) in
  let vs2 := verifier_phase2_vars W
    (v_with_transcript (first_phase_transcript proof (length (v_V s)) (v_transcript s)) s) in
  NoDup (vs1 ++ vs2) /\
  (forall v, In v vs1 -> var_in_range (v_num_vars s) (length (v_V s)) v) /\
  (forall v, In v (vs1 ++ vs2) -> var_in_range (v_num_vars s2) (length (v_V s2)) v).
Proof.
  intros E1 E2 vs1 vs2.
  pose proof (verifier_vars_fresh _ _ _ _ _ _ (vwf_new t) E1) as F1.
  pose proof (verifier_phase2_vars_fresh _ _ _ E2) as F2.
  pose proof (fresh_app _ _ _ _ _ _ _ _ _ _ _ F1 F2) as F3. fold vs1 vs2 in F3.
  split; [apply F3|]. split; intros v Hv; eapply fresh_in_range; eassumption.
Qed.
End HandedProofs.
