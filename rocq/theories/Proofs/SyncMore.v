(** Reachable states; the variables handed out and the callbacks registered on
    the two sides. *)
From Coq Require Import ZArith String List Lia Bool Permutation.
From Verif.Base Require Import Outcome Fp Params Algebra.
From Verif.Model Require Import Transcript LinComb Prog VectorPoly IPP Prover Verifier.
From Verif.Spec Require Import R1CS Sim Handed Session.
From Verif.Proofs Require Import LinCombProofs RunProofs ExtProofs.
Import ListNotations.

Section SyncMore.
Context {P : Params} {OK : ParamsOk P}.
Local Open Scope fe_scope.

Lemma reachable_pwf ph s : p_reachable ph s -> pwf s.
Proof.
  induction 1 as [W g h t A m a s E|W t k A m a s s' _ IH E].
  - eapply prun_pwf; [apply pwf_new|exact E].
  - eapply prun_pwf; [|exact E]. destruct IH as [? ? ? ? ?]. constructor; simpl; auto. discriminate.
Qed.

Lemma sync_same ps vs : sync_base ps vs -> same_circuit ps vs.
Proof.
  intros [Hwf Ht Hc Hn HV Hp]. constructor; auto.
  - split; [apply (pwf_aR _ Hwf)|apply (pwf_aO _ Hwf)].
  - rewrite HV, zipw_length, (pwf_vb _ Hwf), Nat.min_id. reflexivity.
Qed.

Lemma sim_vars2 W W' g h {A B} (R : A -> B -> Prop) pp vp : sim g h R pp vp ->
  forall ps vs a ps', sync_base ps vs -> prun W true pp ps = Done (a, ps') ->
  prover_vars W true pp ps = verifier_vars W' true vp vs.
Proof.
  induction 1 as [A B R a b HR|A B R m|A B R l r l' r' k k' Hl Hr _ IH|A B R x o k k' _ IH
    |A B R x o k k' _ IH|A B R l l' k k' Hl _ IH|A B R c c' k k' Hc IHc _ IH|A B R l l' k k' _ IH
    |A B R x o k k' _ IH|A B R label k k' _ IH|A B R v b k k' _ IH|A B R l l' k k' _ IH|A B R k m _ IH];
    intros ps vs a0 ps' Hs E; cbn [prun vrun prover_vars verifier_vars] in E |- *.
  - reflexivity.
  - discriminate.
  - destruct (prover_multiply l r ps) as [[p s1]|] eqn:E1; [|discriminate]. simpl in E.
    destruct (sync_multiply _ _ _ _ _ _ _ _ Hs Hl Hr E1) as (vs1 & Ev & Hs1 & _).
    rewrite Ev. f_equal. eapply IH; eauto.
  - destruct (prover_allocate (Some x) ps) as [[r s1]|] eqn:E1; [|discriminate]. simpl in E.
    destruct (sync_allocate _ _ _ _ _ Hs E1) as (vs1 & w & Ev & -> & Hs1 & _). rewrite Ev.
    f_equal. eapply IH; eauto.
  - destruct x as [l r]. simpl in E |- *.
    pose proof (pwf_alloc_vars l r ps (sy_wf _ _ Hs)) as Hwf'.
    destruct Hs as [Hwf Ht Hc Hn HV Hp].
    rewrite (pwf_aR _ Hwf), (pwf_aO _ Hwf) in E |- *. rewrite <- Hn in E |- *. do 3 f_equal.
    eapply IH; [|exact E]. constructor; simpl; auto. rewrite app_length. simpl. lia.
  - eapply IH; [|exact E]. destruct Hs as [Hwf Ht Hc Hn HV Hp]. constructor; simpl; auto.
    + apply pwf_constrain. assumption.
    + apply Forall2_snoc; assumption.
  - destruct (prun W true c ps) as [[r s1]|] eqn:E1; [|discriminate]. simpl in E.
    rewrite (IHc _ _ _ _ Hs E1).
    destruct (sim_related2 W W' g h _ _ _ Hc _ _ _ _ Hs E1) as (b & vs1 & Ev & Hs1 & <-). rewrite Ev.
    f_equal. eapply IH; eauto.
  - destruct (prover_eval ps l) as [x|]; [|discriminate]. simpl in E. eapply IH; eauto.
  - destruct (prover_allocate_single (Some x) ps) as [[r s1]|] eqn:E1; [|discriminate]. simpl in E.
    destruct (sync_allocate_single _ _ _ _ _ Hs E1) as (vs1 & v & w & Ev & -> & Hs1 & _). rewrite Ev.
    f_equal. eapply IH; eauto.
  - rewrite (sy_transcript _ _ Hs) in E |- *. unfold challenge_scalar in E |- *. eapply IH; [|exact E].
    apply sync_base_transcript. assumption.
  - discriminate.
  - eapply IH; [..|exact E]; try apply permute_perm.
    destruct Hs as [Hwf Ht Hc Hn HV Hp]. constructor; simpl; auto.
    eapply pwf_same_wires; [..|exact Hwf]; reflexivity.
  - eapply IH; [|exact E]. destruct Hs as [Hwf Ht Hc Hn HV Hp]. constructor; simpl; auto.
    eapply pwf_same_wires; [..|exact Hwf]; reflexivity.
Qed.

Theorem sim_vars W W' g h {A B} (R : A -> B -> Prop) pp vp : sim g h R pp vp ->
  forall ps vs a ps' b vs', p_g ps = g -> p_h ps = h -> sync W W' ps vs ->
  Forall2 (sim g h eq) (p_deferred ps) (v_deferred vs) ->
  prun W false pp ps = Done (a, ps') -> vrun W' false vp vs = Done (b, vs') ->
  prover_vars W false pp ps = verifier_vars W' false vp vs /\
  Forall2 (sim g h eq) (p_deferred ps') (v_deferred vs').
Proof.
  induction 1 as [A B R a b HR|A B R m|A B R l r l' r' k k' Hl Hr _ IH|A B R x o k k' _ IH
    |A B R x o k k' _ IH|A B R l l' k k' Hl _ IH|A B R c c' k k' Hc _ _ IH|A B R l l' k k' _ IH
    |A B R x o k k' _ IH|A B R label k k' _ IH|A B R v b k k' _ IH|A B R l l' k k' _ IH|A B R k m _ IH];
    intros ps vs a0 ps' b0 vs' Eg Eh Hs Hcb E E'; cbn [prun vrun prover_vars verifier_vars] in E, E' |- *.
  - injection E as <- <-. injection E' as <- <-. auto.
  - discriminate.
  - destruct (prover_multiply l r ps) as [[p s1]|] eqn:E1; [|discriminate]. cbn [obind] in E.
    destruct Hs as [Hs Hd].
    destruct (sync_multiply _ _ _ _ _ _ _ _ Hs Hl Hr E1) as (vs1 & Ev & Hs1 & D1 & D2 & D3 & D4).
    rewrite Ev in E' |- *. destruct (IH p s1 vs1 a0 ps' b0 vs') as [I1 I2]; [congruence|congruence|split; [assumption|rewrite D1, D2; assumption]|rewrite D1, D2; assumption|exact E|exact E'|].
    rewrite I1. auto.
  - destruct (prover_allocate (Some x) ps) as [[r s1]|] eqn:E1; [|discriminate]. cbn [obind] in E.
    destruct Hs as [Hs Hd].
    destruct (sync_allocate _ _ _ _ _ Hs E1) as (vs1 & w & Ev & -> & Hs1 & D1 & D2 & D3 & D4).
    rewrite Ev in E' |- *. destruct (IH w s1 vs1 a0 ps' b0 vs') as [I1 I2]; [congruence|congruence|split; [assumption|rewrite D1, D2; assumption]|rewrite D1, D2; assumption|exact E|exact E'|].
    rewrite I1. auto.
  - destruct x as [l r]. destruct Hs as [Hs Hd].
    pose proof (pwf_alloc_vars l r ps (sy_wf _ _ Hs)) as Hwf'.
    destruct Hs as [Hwf Ht Hc Hn HV Hp].
    cbn [prover_allocate_multiplier verifier_allocate_multiplier verifier_allocate_vars prover_allocate_vars] in E, E' |- *.
    rewrite (pwf_aR _ Hwf), (pwf_aO _ Hwf), <- Hn in E |- *.
    eapply IH in E'; [| | | | |exact E]; [|exact Eg|exact Eh| |exact Hcb].
    + destruct E' as [I1 I2]. split; [|exact I2]. cbn [vars_multiplier]. rewrite I1. reflexivity.
    + split; [|assumption]. constructor; simpl; auto. rewrite app_length. simpl. lia.
  - eapply IH in E'; [exact E'|exact Eg|exact Eh| |exact Hcb|exact E]. destruct Hs as [[Hwf Ht Hc Hn HV Hp] Hd].
    split; [|assumption]. constructor; simpl; auto.
    + apply pwf_constrain. assumption.
    + apply Forall2_snoc; assumption.
  - eapply IH in E'; [exact E'|exact Eg|exact Eh| | |exact E]. destruct Hs as [[Hwf Ht Hc2 Hn HV Hp] Hd].
    + split; [|cbn [p_with_deferred v_with_deferred p_deferred v_deferred]; apply Forall2_snoc; [assumption|eapply sim_related2; eassumption]].
      constructor; simpl; auto. eapply pwf_same_wires; [..|exact Hwf]; reflexivity.
    + cbn [p_with_deferred v_with_deferred p_deferred v_deferred]. apply Forall2_snoc; assumption.
  - destruct (prover_eval ps l) as [x|]; [|discriminate]. cbn [obind] in E. eapply IH; eauto.
  - destruct (prover_allocate_single (Some x) ps) as [[r s1]|] eqn:E1; [|discriminate]. cbn [obind] in E.
    destruct Hs as [Hs Hd].
    destruct (sync_allocate_single _ _ _ _ _ Hs E1) as (vs1 & v & w & Ev & -> & Hs1 & D1 & D2 & D3 & D4).
    rewrite Ev in E' |- *. destruct (IH v w s1 vs1 a0 ps' b0 vs') as [I1 I2]; [congruence|congruence|split; [assumption|rewrite D1, D2; assumption]|rewrite D1, D2; assumption|exact E|exact E'|].
    rewrite I1. auto.
  - discriminate.
  - destruct (sync_commit W W' ps vs v b Hs) as [E1 E2].
    rewrite Eg, Eh in E1, E2.
    destruct (prover_commit v b ps) as [pr s1] eqn:Epc.
    destruct (verifier_commit (commit g h v b) vs) as [w vs1] eqn:Evc. cbn [fst snd] in E1, E2. subst pr.
    assert (p_g s1 = g /\ p_h s1 = h /\ p_deferred s1 = p_deferred ps) as (G1' & G2' & G3').
    { unfold prover_commit in Epc. injection Epc as _ _ <-. simpl. auto. }
    assert (v_deferred vs1 = v_deferred vs) as G4'.
    { unfold verifier_commit in Evc. injection Evc as _ <-. reflexivity. }
    eapply IH in E'; [| | | | |exact E]; [|exact G1'|exact G2'|exact E2|rewrite G3', G4'; exact Hcb].
    destruct E' as [I1 I2]. split; [|exact I2]. cbn [snd]. rewrite I1. reflexivity.
  - eapply IH in E'; [exact E'|apply permute_perm|apply permute_perm|exact Eg|exact Eh| |exact Hcb|exact E].
    destruct Hs as [[Hwf Ht Hc Hn HV Hp] Hd]. split; [|assumption]. constructor; simpl; auto.
    eapply pwf_same_wires; [..|exact Hwf]; reflexivity.
  - eapply IH in E'; [exact E'|exact Eg|exact Eh| |exact Hcb|exact E].
    destruct Hs as [[Hwf Ht Hc Hn HV Hp] Hd]. split; [|assumption]. constructor; simpl; auto.
    eapply pwf_same_wires; [..|exact Hwf]; reflexivity.
Qed.

Lemma sim_callback_vars W W' g h cbs cbs' : Forall2 (sim g h eq) cbs cbs' ->
  forall ps vs ps', sync_base ps vs -> prover_run_callbacks W cbs ps = Done (Ok ps') ->
  prover_callback_vars W cbs ps = verifier_callback_vars W' cbs' vs.
Proof.
  induction 1 as [|c c' cbs cbs' Hc _ IH]; intros ps vs ps' Hs; simpl; [reflexivity|].
  destruct (prun W true c ps) as [[r s1]|] eqn:E1; [|discriminate]. simpl.
  destruct (sim_related2 W W' g h _ _ _ Hc _ _ _ _ Hs E1) as (b & vs1 & Ev & Hs1 & <-). rewrite Ev.
  rewrite (sim_vars2 W W' g h _ _ _ Hc _ _ _ _ Hs E1). destruct r as [u|]; [|discriminate].
  intros E. rewrite (IH _ _ _ Hs1 E). reflexivity.
Qed.
End SyncMore.
