(** How runs extend the state: nothing that was handed out ever changes. *)
From Coq Require Import ZArith String List Lia Bool Ring Field Permutation.
From Verif.Base Require Import Outcome Fp Params Algebra.
From Verif.Model Require Import Transcript LinComb Prog VectorPoly IPP Prover Verifier.
From Verif.Spec Require Import R1CS Sim.
From Verif.Proofs Require Import LinCombProofs RunProofs.
Import ListNotations.

Definition prefix {A} (l l' : list A) : Prop := exists r, l' = l ++ r.

Lemma prefix_refl {A} (l : list A) : prefix l l.
Proof. exists []. rewrite app_nil_r. reflexivity. Qed.
Lemma prefix_trans {A} (a b c : list A) : prefix a b -> prefix b c -> prefix a c.
Proof. intros [r ->] [r' ->]. exists (r ++ r'). rewrite app_assoc. reflexivity. Qed.
Lemma prefix_app {A} (l r : list A) : prefix l (l ++ r).
Proof. exists r. reflexivity. Qed.
Lemma prefix_app2 {A} (l r r' : list A) : prefix l ((l ++ r) ++ r').
Proof. exists (r ++ r'). rewrite app_assoc. reflexivity. Qed.
Lemma prefix_nth {A} (l l' : list A) i d : prefix l l' -> (i < length l)%nat -> nth i l' d = nth i l d.
Proof. intros [r ->] H. apply app_nth1. assumption. Qed.
Lemma prefix_length {A} (l l' : list A) : prefix l l' -> (length l <= length l')%nat.
Proof. intros [r ->]. rewrite app_length. lia. Qed.
Lemma prefix_in {A} (l l' : list A) x : prefix l l' -> In x l -> In x l'.
Proof. intros [r ->] H. apply in_or_app. left. assumption. Qed.

#[global] Hint Resolve prefix_refl prefix_app prefix_app2 : ext.

Section ExtProofs.
Context {P : Params} {OK : ParamsOk P}.
Local Open Scope fe_scope.
Add Field FFext : (Fp_field_theory modulus modulus_prime).

Record pext (s s' : prover) : Prop := {
  px_g : p_g s' = p_g s;
  px_h : p_h s' = p_h s;
  px_aL : prefix (p_aL s) (p_aL s');
  px_aR : forall i, (i < length (p_aR s))%nat -> p_pending s <> Some i -> nth i (p_aR s') 0 = nth i (p_aR s) 0;
  px_aO : forall i, (i < length (p_aO s))%nat -> p_pending s <> Some i -> nth i (p_aO s') 0 = nth i (p_aO s) 0;
  px_pending : forall i, p_pending s' = Some i -> p_pending s = Some i \/ (length (p_aL s) <= i)%nat;
  px_v : prefix (p_v s) (p_v s');
  px_vb : prefix (p_v_blinding s) (p_v_blinding s');
  px_cs : prefix (p_constraints s) (p_constraints s');
  px_deferred : prefix (p_deferred s) (p_deferred s');
  px_transcript : prefix (p_transcript s) (p_transcript s');
  px_nrand : (p_nrand s <= p_nrand s')%nat
}.

Lemma pext_refl s : pext s s.
Proof. constructor; auto with ext. Qed.

Lemma pext_trans s1 s2 s3 : pwf s1 -> pwf s2 -> pext s1 s2 -> pext s2 s3 -> pext s1 s3.
Proof.
  intros W1 W2 H1 H2. destruct H1, H2. pose proof (prefix_length _ _ px_aL0) as Hlen.
  pose proof (pwf_aR _ W1). pose proof (pwf_aR _ W2). pose proof (pwf_aO _ W1). pose proof (pwf_aO _ W2).
  constructor; try congruence; try (eapply prefix_trans; eassumption); try lia.
  - intros i Hi Hp. rewrite px_aR1; [apply px_aR0; assumption|lia|].
    intros E. apply px_pending0 in E. destruct E as [E|E]; [congruence|lia].
  - intros i Hi Hp. rewrite px_aO1; [apply px_aO0; assumption|lia|].
    intros E. apply px_pending0 in E. destruct E as [E|E]; [congruence|lia].
  - intros i E. apply px_pending1 in E. destruct E as [E|E]; [|right; lia]. apply px_pending0. assumption.
Qed.

Ltac ext_tac :=
  constructor; simpl; auto with ext; try lia;
    try (intros i Hi _; rewrite app_nth1 by assumption; reflexivity).

Lemma pext_multiply l r s vs s' : prover_multiply l r s = Done (vs, s') -> pext s s'.
Proof.
  unfold prover_multiply.
  destruct (prover_eval s l); [|discriminate]. simpl.
  destruct (prover_eval s r); [|discriminate]. simpl. intros E. injection E as <- <-. ext_tac.
Qed.

Lemma pext_allocate o s r s' : pwf s -> prover_allocate o s = Done (r, s') -> pext s s'.
Proof.
  intros Hwf. unfold prover_allocate. destruct o as [x|]; [|intros E; injection E as <- <-; apply pext_refl].
  destruct (p_pending s) as [k|] eqn:Ep.
  - simpl. destruct (set_nth (p_aR s) k x) as [aR|] eqn:E1; [|discriminate]. simpl.
    destruct (index (p_aL s) k) as [l|] eqn:E2; [|discriminate]. simpl.
    destruct (index aR k) as [r0|] eqn:E3; [|discriminate]. simpl.
    destruct (set_nth (p_aO s) k (l * r0)) as [aO|] eqn:E4; [|discriminate]. simpl.
    intros E. injection E as <- <-. ext_tac.
    + intros i Hi Hn. rewrite (set_nth_nth _ _ _ _ i 0 E1).
      destruct (Nat.eqb_spec i k); [congruence|reflexivity].
    + intros i Hi Hn. rewrite (set_nth_nth _ _ _ _ i 0 E4).
      destruct (Nat.eqb_spec i k); [congruence|reflexivity].
    + discriminate.
  - intros E. injection E as <- <-. ext_tac. intros i Hi. injection Hi as <-. right. lia.
Qed.

Lemma pext_allocate_multiplier o s : pext s (snd (prover_allocate_multiplier o s)).
Proof. destruct o as [[l r]|]; simpl; [|apply pext_refl]. ext_tac. Qed.

Lemma pext_allocate_single o s r s' : pwf s -> prover_allocate_single o s = Done (r, s') -> pext s s'.
Proof.
  intros Hwf. unfold prover_allocate_single.
  destruct (prover_allocate o s) as [[r0 s0]|] eqn:E; [|discriminate]. simpl.
  pose proof (pext_allocate _ _ _ _ Hwf E).
  destruct r0 as [v|e]; [|intros F; injection F as <- <-; assumption].
  destruct v; intros F; injection F as <- <-; assumption.
Qed.

Theorem prun_pext W ph {A} (m : pprog A) s a s' : pwf s -> prun W ph m s = Done (a, s') -> pext s s'.
Proof.
  revert s a s'. induction m as [| | | | | | ? c IHc k IH | | | | ? x k IH | |]; intros s a0 s' Hwf; cbn [prun].
  - intros E. injection E as <- <-. apply pext_refl.
  - discriminate.
  - destruct (prover_multiply left right s) as [[vs s1]|] eqn:E; [|discriminate]. simpl. intros E'.
    pose proof (pwf_multiply _ _ _ _ _ Hwf E). pose proof (pext_multiply _ _ _ _ _ E).
    eapply pext_trans; [| |eassumption|]; eauto.
  - destruct (prover_allocate assignment s) as [[r s1]|] eqn:E; [|discriminate]. simpl. intros E'.
    pose proof (pwf_allocate _ _ _ _ Hwf E). pose proof (pext_allocate _ _ _ _ Hwf E).
    eapply pext_trans; [| |eassumption|]; eauto.
  - pose proof (pwf_allocate_multiplier assignment s Hwf) as Hm.
    pose proof (pext_allocate_multiplier assignment s) as Hx.
    destruct (prover_allocate_multiplier assignment s) as [r s1]. simpl in *. intros E'.
    eapply pext_trans; [| |eassumption|]; eauto.
  - intros E'. pose proof (pwf_constrain l s Hwf).
    eapply pext_trans; [exact Hwf|eassumption| |eapply H; eauto]. ext_tac.
  - destruct ph.
    + destruct (prun W true c s) as [[r s1]|] eqn:E; [|discriminate]. simpl. intros E'.
      pose proof (prun_pwf _ _ _ _ _ _ Hwf E).
      eapply pext_trans; [| |eapply IHc; eassumption|]; eauto.
    + intros E'. assert (pwf (p_with_deferred (p_deferred s ++ [c]) s))
        by (eapply pwf_same_wires; [..|exact Hwf]; reflexivity).
      eapply pext_trans; [exact Hwf|eassumption| |eapply IH; eauto]. ext_tac.
  - destruct (prover_eval s l); [|discriminate]. simpl. eauto.
  - destruct (prover_allocate_single assignment s) as [[r s1]|] eqn:E; [|discriminate]. simpl. intros E'.
    pose proof (pwf_allocate_single _ _ _ _ Hwf E). pose proof (pext_allocate_single _ _ _ _ Hwf E).
    eapply pext_trans; [| |eassumption|]; eauto.
  - destruct ph; [|discriminate]. unfold challenge_scalar. cbn [fst snd]. intros E'.
    match type of E' with prun _ _ _ ?s1 = _ =>
      assert (pwf s1) by (eapply pwf_same_wires; [..|exact Hwf]; reflexivity);
      eapply (pext_trans s s1); [exact Hwf|assumption| |eapply H; eauto]; ext_tac end.
  - destruct x as [v b]. destruct ph; [discriminate|]. intros E'.
    pose proof (pwf_commit v b s Hwf) as Hc. destruct (prover_commit v b s) as [r s1] eqn:Ec.
    eapply (pext_trans s s1); [exact Hwf|exact Hc| |eapply IH; eauto].
    unfold prover_commit in Ec. injection Ec as <- <-. ext_tac.
    unfold commit_point, append_message. auto with ext.
  - intros E'. eapply (pext_trans s (p_with_norder (S (p_norder s)) s)); [exact Hwf| | |eapply H; [|exact E']].
    all: try (eapply pwf_same_wires; [..|exact Hwf]; reflexivity). ext_tac.
  - intros E'. eapply (pext_trans s (p_with_nrand (S (p_nrand s)) s)); [exact Hwf| | |eapply H; [|exact E']].
    all: try (eapply pwf_same_wires; [..|exact Hwf]; reflexivity). ext_tac.
Qed.

(** the second phase adds no commitment and registers no callback *)
Theorem prun_phase2 W {A} (m : pprog A) s a s' : prun W true m s = Done (a, s') ->
  p_v s' = p_v s /\ p_v_blinding s' = p_v_blinding s /\ p_deferred s' = p_deferred s.
Proof.
  revert s a s'. induction m as [| | | | | | ? c IHc k IH | | | | ? x k IH | |]; intros s a0 s'; cbn [prun].
  - intros E. injection E as <- <-. auto.
  - discriminate.
  - unfold prover_multiply. destruct (prover_eval s left); [|discriminate].
    destruct (prover_eval s right); [|discriminate]. simpl. intros E. apply H in E. exact E.
  - destruct (prover_allocate assignment s) as [[r s1]|] eqn:E; [|discriminate]. simpl. intros E'.
    apply H in E'. unfold prover_allocate in E. destruct assignment; [|injection E as <- <-; assumption].
    destruct (p_pending s) as [k0|]; simpl in E; [|injection E as <- <-; assumption].
    repeat match type of E with obind ?x _ = _ => destruct x; simpl in E; [|discriminate] end.
    injection E as <- <-. assumption.
  - destruct assignment as [[l r]|]; simpl; intros E; apply H in E; exact E.
  - intros E. apply H in E. exact E.
  - destruct (prun W true c s) as [[r s1]|] eqn:E; [|discriminate]. simpl. intros E'.
    apply IHc in E. apply IH in E'. intuition congruence.
  - destruct (prover_eval s l); [|discriminate]. simpl. eauto.
  - destruct (prover_allocate_single assignment s) as [[r s1]|] eqn:E; [|discriminate]. simpl. intros E'.
    apply H in E'. unfold prover_allocate_single, prover_allocate in E.
    destruct assignment; [|simpl in E; injection E as <- <-; assumption].
    destruct (p_pending s) as [k0|]; simpl in E; [|injection E as <- <-; assumption].
    repeat match type of E with obind (obind ?x _) _ = _ => destruct x; simpl in E; [|discriminate] end.
    injection E as <- <-. assumption.
  - intros E. apply H in E. exact E.
  - destruct x. discriminate.
  - intros E. apply H in E. exact E.
  - intros E. apply H in E. exact E.
Qed.

Lemma prover_callbacks_ext W cbs s s' : pwf s -> prover_run_callbacks W cbs s = Done (Ok s') ->
  pwf s' /\ pext s s' /\ p_v s' = p_v s /\ p_v_blinding s' = p_v_blinding s.
Proof.
  revert s; induction cbs as [|cb cbs IH]; intros s Hwf; simpl.
  - intros E. injection E as <-. auto using pext_refl.
  - destruct (prun W true cb s) as [[r s1]|] eqn:E; [|discriminate]. simpl.
    destruct r; [|discriminate]. intros E'.
    pose proof (prun_pwf _ _ _ _ _ _ Hwf E) as Hwf1.
    destruct (prun_phase2 _ _ _ _ _ E) as (V1 & V2 & _).
    destruct (IH _ Hwf1 E') as (W2 & X2 & V3 & V4).
    split; [assumption|]. split; [|intuition congruence].
    eapply pext_trans; [| |eapply prun_pext; eassumption|]; eauto.
Qed.

Lemma pwf_reset d t s : pwf s -> pwf (p_with_deferred d (p_with_transcript t (p_with_pending None s))).
Proof. intros [H1 H2 H3 H4 H5]. constructor; simpl; auto. discriminate. Qed.

(** first-phase wires and commitments are those of the state before *)
Theorem prover_second_phase_ext W s s' : pwf s -> prover_create_randomized_constraints W s = Done (Ok s') ->
  pwf s' /\ p_g s' = p_g s /\ p_h s' = p_h s /\ p_v s' = p_v s /\ p_v_blinding s' = p_v_blinding s /\
  (length (p_aL s) <= length (p_aL s'))%nat /\
  firstn (length (p_aL s)) (p_aL s') = p_aL s /\
  firstn (length (p_aL s)) (p_aR s') = p_aR s /\
  firstn (length (p_aL s)) (p_aO s') = p_aO s /\
  prefix (p_constraints s) (p_constraints s') /\ prefix (p_transcript s) (p_transcript s') /\
  (p_nrand s <= p_nrand s')%nat.
Proof.
  intros Hwf. unfold prover_create_randomized_constraints. simpl. destruct (p_deferred s) as [|cb cbs] eqn:Ed.
  - intros E. injection E as <-. split.
    { destruct Hwf as [H1 H2 H3 H4 H5]. constructor; simpl; auto. discriminate. }
    simpl. rewrite firstn_all.
    rewrite (firstn_all2 (p_aR s)) by (rewrite (pwf_aR _ Hwf); reflexivity).
    rewrite (firstn_all2 (p_aO s)) by (rewrite (pwf_aO _ Hwf); reflexivity). unfold r1cs_1phase_domain_sep, append_message.
    repeat split; auto with ext.
  - intros E.
    apply prover_callbacks_ext in E; [|apply pwf_reset; assumption].
    destruct E as (W' & X & V1 & V2). simpl in V1, V2. destruct X; simpl in *.
    pose proof (prefix_length _ _ px_aL0). pose proof (pwf_aR _ Hwf). pose proof (pwf_aO _ Hwf).
    pose proof (pwf_aR _ W'). pose proof (pwf_aO _ W').
    assert (Hpre : forall l l' : list F, length l = length (p_aL s) -> length l' = length (p_aL s') ->
      (forall i, (i < length l)%nat -> nth i l' 0 = nth i l 0) -> firstn (length (p_aL s)) l' = l).
    { intros l l' L1 L2 Hn. apply nth_ext with (d := 0) (d' := 0).
      - rewrite firstn_length. lia.
      - rewrite firstn_length. intros i Hi. rewrite <- Hn by lia.
        rewrite <- (firstn_skipn (length (p_aL s)) l') at 2.
        rewrite app_nth1; [reflexivity|]. rewrite firstn_length. lia. }
    split; [assumption|]. repeat split; auto.
    + apply Hpre; auto. intros i Hi. apply prefix_nth; assumption.
    + apply Hpre; auto. intros i Hi. apply px_aR0; [lia|discriminate].
    + apply Hpre; auto. intros i Hi. apply px_aO0; [lia|discriminate].
    + eapply prefix_trans; [|eassumption]. unfold r1cs_2phase_domain_sep, append_message. auto with ext.
Qed.

(** *** Verifier *)
Record vext (s s' : verifier) : Prop := {
  vx_n : (v_num_vars s <= v_num_vars s')%nat;
  vx_V : prefix (v_V s) (v_V s');
  vx_cs : prefix (v_constraints s) (v_constraints s');
  vx_deferred : prefix (v_deferred s) (v_deferred s');
  vx_transcript : prefix (v_transcript s) (v_transcript s');
  vx_pending : forall i, v_pending s' = Some i -> v_pending s = Some i \/ (v_num_vars s <= i)%nat
}.

Lemma vext_refl s : vext s s.
Proof. constructor; auto with ext. Qed.

Lemma vext_trans s1 s2 s3 : vext s1 s2 -> vext s2 s3 -> vext s1 s3.
Proof.
  intros [] []. constructor; try (eapply prefix_trans; eassumption); try lia.
  intros i E. apply vx_pending1 in E. destruct E as [E|E]; [auto|right; lia].
Qed.

Ltac vext_tac := constructor; simpl; auto with ext; try lia.

Lemma vext_allocate s : vext s (snd (verifier_allocate s)).
Proof.
  unfold verifier_allocate. destruct (v_pending s) as [i|] eqn:E; vext_tac.
  - discriminate.
  - intros i Hi. injection Hi as <-. auto.
Qed.

Lemma vext_allocate_single s : vext s (snd (verifier_allocate_single s)).
Proof.
  unfold verifier_allocate_single. pose proof (vext_allocate s) as H.
  destruct (verifier_allocate s) as [[[]|] s1]; exact H.
Qed.

Theorem vrun_vext W ph {A} (m : vprog A) s a s' : vrun W ph m s = Done (a, s') -> vext s s'.
Proof.
  revert s a s'. induction m as [| | | | | | ? c IHc k IH | | | | ? x k IH | |]; intros s a0 s'; cbn [vrun].
  - intros E. injection E as <- <-. apply vext_refl.
  - discriminate.
  - intros E. eapply vext_trans; [|eapply H; exact E]. vext_tac.
  - pose proof (vext_allocate s) as Hx. destruct (verifier_allocate s) as [r s1]. intros E.
    eapply vext_trans; [exact Hx|eauto].
  - intros E. eapply vext_trans; [|eapply H; exact E]. vext_tac.
  - intros E. eapply vext_trans; [|eapply H; exact E]. vext_tac.
  - destruct ph.
    + destruct (vrun W true c s) as [[r s1]|] eqn:E; [|discriminate]. simpl. intros E'.
      eapply vext_trans; eauto.
    + intros E. eapply vext_trans; [|eapply IH; exact E]. vext_tac.
  - eauto.
  - pose proof (vext_allocate_single s) as Hx. destruct (verifier_allocate_single s) as [r s1]. intros E.
    eapply vext_trans; [exact Hx|eauto].
  - destruct ph; [|discriminate]. unfold challenge_scalar. intros E.
    eapply vext_trans; [|eapply H; exact E]. vext_tac.
  - destruct ph; [discriminate|]. intros E. eapply vext_trans; [|eapply IH; exact E]. vext_tac.
    unfold commit_point, append_message. auto with ext.
  - intros E. eapply vext_trans; [|eapply H; exact E]. vext_tac.
  - intros E. eapply vext_trans; [|eapply H; exact E]. vext_tac.
Qed.

Theorem vrun_phase2 W {A} (m : vprog A) s a s' : vrun W true m s = Done (a, s') ->
  v_V s' = v_V s /\ v_deferred s' = v_deferred s.
Proof.
  revert s a s'. induction m as [| | | | | | ? c IHc k IH | | | | ? x k IH | |]; intros s a0 s'; cbn [vrun].
  - intros E. injection E as <- <-. auto.
  - discriminate.
  - intros E. apply H in E. exact E.
  - unfold verifier_allocate. destruct (v_pending s); intros E; apply H in E; exact E.
  - intros E. apply H in E. exact E.
  - intros E. apply H in E. exact E.
  - destruct (vrun W true c s) as [[r s1]|] eqn:E; [|discriminate]. simpl. intros E'.
    apply IHc in E. apply IH in E'. intuition congruence.
  - eauto.
  - unfold verifier_allocate_single, verifier_allocate.
    destruct (v_pending s); intros E; apply H in E; exact E.
  - intros E. apply H in E. exact E.
  - discriminate.
  - intros E. apply H in E. exact E.
  - intros E. apply H in E. exact E.
Qed.

Lemma verifier_callbacks_ext W cbs s s' : verifier_run_callbacks W cbs s = Done (Ok s') ->
  vext s s' /\ v_V s' = v_V s.
Proof.
  revert s; induction cbs as [|cb cbs IH]; intros s; simpl.
  - intros E. injection E as <-. auto using vext_refl.
  - destruct (vrun W true cb s) as [[r s1]|] eqn:E; [|discriminate]. simpl.
    destruct r; [|discriminate]. intros E'.
    destruct (vrun_phase2 _ _ _ _ _ E) as (V1 & _). destruct (IH _ E') as (X2 & V3).
    split; [|congruence]. eapply vext_trans; [eapply vrun_vext; eassumption|assumption].
Qed.

Theorem verifier_second_phase_ext W s s' : verifier_create_randomized_constraints W s = Done (Ok s') ->
  (v_num_vars s <= v_num_vars s')%nat /\ v_V s' = v_V s /\
  prefix (v_constraints s) (v_constraints s') /\ prefix (v_transcript s) (v_transcript s').
Proof.
  unfold verifier_create_randomized_constraints. simpl. destruct (v_deferred s) as [|cb cbs] eqn:Ed.
  - intros E. injection E as <-. simpl. unfold r1cs_1phase_domain_sep, append_message. auto with ext.
  - intros E. apply verifier_callbacks_ext in E. destruct E as ([] & V). simpl in *.
    repeat split; auto. eapply prefix_trans; [|eassumption].
    unfold r1cs_2phase_domain_sep, append_message. auto with ext.
Qed.

End ExtProofs.
