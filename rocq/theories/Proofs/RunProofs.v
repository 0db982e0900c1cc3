(** Proofs about running circuit-building programs on both sides
    (src/r1cs/prover.rs, src/r1cs/verifier.rs). *)
From Coq Require Import ZArith String List Lia Bool Ring Field Permutation.
From Verif.Base Require Import Outcome Fp Params Algebra.
From Verif.Model Require Import Transcript LinComb Prog VectorPoly IPP Prover Verifier.
From Verif.Spec Require Import R1CS Sim.
From Verif.Proofs Require Import LinCombProofs.
Import ListNotations.

Lemma set_nth_length {A} (l : list A) i a l' : set_nth l i a = Done l' -> length l' = length l.
Proof.
  revert i l'; induction l; intros i l' H; destruct i; simpl in *; try discriminate.
  - injection H as <-. reflexivity.
  - destruct (set_nth l i a) eqn:E; simpl in H; [|discriminate]. injection H as <-. simpl. erewrite IHl; eauto.
Qed.

Lemma set_nth_ok {A} (l : list A) i a : (i < length l)%nat -> exists l', set_nth l i a = Done l'.
Proof.
  revert i; induction l; intros i H; simpl in *; [lia|]. destruct i; [eauto|].
  destruct (IHl i) as [l' ->]; [lia|]. simpl. eauto.
Qed.

Lemma set_nth_out {A} (l : list A) i a : (length l <= i)%nat -> set_nth l i a = Panic.
Proof.
  revert i; induction l; intros i H; destruct i; simpl in *; try reflexivity; try lia.
  rewrite IHl by lia. reflexivity.
Qed.

Lemma set_nth_nth {A} (l : list A) i a l' j d : set_nth l i a = Done l' ->
  nth j l' d = if Nat.eqb j i then a else nth j l d.
Proof.
  revert i l' j; induction l; intros i l' j H; destruct i; simpl in *; try discriminate.
  - injection H as <-. destruct j; reflexivity.
  - destruct (set_nth l i a) eqn:E; simpl in H; [|discriminate]. injection H as <-.
    destruct j; simpl; [reflexivity|]. apply IHl. assumption.
Qed.

Section RunProofs.
Context {P : Params} {OK : ParamsOk P}.
Local Open Scope fe_scope.
Add Field FFrun : (Fp_field_theory modulus modulus_prime).

#[local] Arguments verifier_multiply : simpl never.

(** *** Monad laws and runs of compound programs *)
Lemma prun_bind W ph {A B} (m : pprog A) (f : A -> pprog B) s :
  prun W ph (pbind m f) s = obind (prun W ph m s) (fun '(a, s') => prun W ph (f a) s').
Proof.
  revert s. induction m as [| | | | | | ? c _ k IH | | | | ? a k IH | |]; intros s; simpl; auto.
  - destruct (prover_multiply left right s) as [[vs s']|]; simpl; auto.
  - destruct (prover_allocate assignment s) as [[r s']|]; simpl; auto.
  - destruct (prover_allocate_multiplier assignment s) as [r s']; simpl; auto.
  - destruct ph; [|apply IH].
    destruct (prun W true c s) as [[r s']|]; simpl; auto.
  - destruct (prover_eval s l); simpl; auto.
  - destruct (prover_allocate_single assignment s) as [[r s']|]; simpl; auto.
  - destruct ph; auto.
  - destruct a as [v b]. destruct ph; auto.
Qed.

Lemma vrun_bind W ph {A B} (m : vprog A) (f : A -> vprog B) s :
  vrun W ph (pbind m f) s = obind (vrun W ph m s) (fun '(a, s') => vrun W ph (f a) s').
Proof.
  revert s. induction m as [| | | | | | ? c _ k IH | | | | ? a k IH | |]; intros s; simpl; auto.
  - destruct (verifier_allocate s) as [r s']; simpl; auto.
  - destruct ph; [|apply IH].
    destruct (vrun W true c s) as [[r s']|]; simpl; auto.
  - destruct (verifier_allocate_single s) as [r s']; simpl; auto.
  - destruct ph; auto.
  - destruct ph; auto.
Qed.

(** *** Prover state invariant: equally long wire vectors, every gate
    multiplies, the pending multiplier exists, as many blindings as values *)
Record pwf (s : prover) : Prop := {
  pwf_aR : length (p_aR s) = length (p_aL s);
  pwf_aO : length (p_aO s) = length (p_aL s);
  pwf_vb : length (p_v_blinding s) = length (p_v s);
  pwf_gate : forall i, (i < length (p_aL s))%nat ->
    nth i (p_aL s) 0 * nth i (p_aR s) 0 = nth i (p_aO s) 0;
  pwf_pending : forall i, p_pending s = Some i -> (i < length (p_aL s))%nat
}.

Lemma pwf_new g h t : pwf (prover_new g h t).
Proof. constructor; simpl; auto; try discriminate. intros i Hi. lia. Qed.

Lemma nth_snoc {A} (l : list A) x i d :
  nth i (l ++ [x]) d = if Nat.eqb i (length l) then x else nth i l d.
Proof.
  destruct (Nat.eqb_spec i (length l)) as [->|Hne].
  - rewrite app_nth2, Nat.sub_diag by lia. reflexivity.
  - destruct (Nat.lt_ge_cases i (length l)).
    + rewrite app_nth1 by assumption. reflexivity.
    + rewrite !nth_overflow; [reflexivity|assumption|rewrite app_length; simpl; lia].
Qed.

Lemma pwf_alloc_vars l r s : pwf s -> pwf (snd (prover_allocate_vars l r (l * r) s)).
Proof.
  intros [H1 H2 H3 H4 H5]. constructor; simpl.
  - rewrite !app_length, H1. reflexivity.
  - rewrite !app_length, H2. reflexivity.
  - assumption.
  - intros i Hi. rewrite !nth_snoc, H1, H2. destruct (Nat.eqb_spec i (length (p_aL s))) as [->|]; [reflexivity|].
    apply H4. rewrite app_length in Hi. simpl in Hi. lia.
  - intros i Hi. rewrite app_length. apply H5 in Hi. lia.
Qed.

Lemma pwf_constrain l s : pwf s -> pwf (prover_constrain l s).
Proof. intros [H1 H2 H3 H4 H5]. constructor; simpl; auto. Qed.

Lemma pwf_multiply l r s vs s' : pwf s -> prover_multiply l r s = Done (vs, s') -> pwf s'.
Proof.
  intros H. unfold prover_multiply.
  destruct (prover_eval s l) as [x|]; [|discriminate]. simpl.
  destruct (prover_eval s r) as [y|]; [|discriminate]. simpl.
  intros E. injection E as <- <-.
  apply pwf_constrain, pwf_constrain. apply (pwf_alloc_vars x y s H).
Qed.

Lemma pwf_allocate o s r s' : pwf s -> prover_allocate o s = Done (r, s') -> pwf s'.
Proof.
  intros [H1 H2 H3 H4 H5]. unfold prover_allocate.
  destruct o as [x|]; [|intros E; injection E as <- <-; constructor; auto].
  destruct (p_pending s) as [i|] eqn:Ep.
  - simpl. destruct (set_nth (p_aR s) i x) as [aR|] eqn:E1; [|discriminate]. simpl.
    destruct (index (p_aL s) i) as [l|] eqn:E2; [|discriminate]. simpl.
    destruct (index aR i) as [r0|] eqn:E3; [|discriminate]. simpl.
    destruct (set_nth (p_aO s) i (l * r0)) as [aO|] eqn:E4; [|discriminate]. simpl.
    intros E. injection E as <- <-.
    assert (Hi : (i < length (p_aL s))%nat) by (apply H5; reflexivity).
    rewrite (index_ok _ _ 0) in E2 by assumption. injection E2 as <-.
    pose proof (set_nth_length _ _ _ _ E1) as L1. pose proof (set_nth_length _ _ _ _ E4) as L4.
    rewrite (index_ok _ _ 0) in E3 by lia. injection E3 as <-.
    constructor; simpl; try congruence; try discriminate.
    intros j Hj. rewrite (set_nth_nth _ _ _ _ j 0 E4), (set_nth_nth _ _ _ _ j 0 E1).
    destruct (Nat.eqb_spec j i) as [->|]; [|apply H4; assumption].
    rewrite (set_nth_nth _ _ _ _ i 0 E1), Nat.eqb_refl. reflexivity.
  - intros E. injection E as <- <-. constructor; simpl.
    + rewrite !app_length, H1. reflexivity.
    + rewrite !app_length, H2. reflexivity.
    + assumption.
    + intros i Hi. rewrite !nth_snoc, H1, H2.
      destruct (Nat.eqb_spec i (length (p_aL s))) as [->|]; [ring|].
      apply H4. rewrite app_length in Hi. simpl in Hi. lia.
    + intros i Hi. injection Hi as <-. rewrite app_length. simpl. lia.
Qed.

Lemma pwf_allocate_multiplier o s : pwf s -> pwf (snd (prover_allocate_multiplier o s)).
Proof.
  intros H. destruct o as [[l r]|]; simpl; [|assumption].
  apply (pwf_alloc_vars l r s H).
Qed.

Lemma pwf_allocate_single o s r s' : pwf s -> prover_allocate_single o s = Done (r, s') -> pwf s'.
Proof.
  intros H. unfold prover_allocate_single.
  destruct (prover_allocate o s) as [[r0 s0]|] eqn:E; [|discriminate]. simpl.
  pose proof (pwf_allocate _ _ _ _ H E) as H'.
  destruct r0 as [v|e]; [|intros F; injection F as <- <-; assumption].
  destruct v; intros F; injection F as <- <-; assumption.
Qed.

Lemma pwf_same_wires s s' :
  p_aL s' = p_aL s -> p_aR s' = p_aR s -> p_aO s' = p_aO s -> p_v s' = p_v s ->
  p_v_blinding s' = p_v_blinding s -> p_pending s' = p_pending s -> pwf s -> pwf s'.
Proof.
  intros E1 E2 E3 E4 E5 E6 [H1 H2 H3 H4 H5].
  constructor; rewrite ?E1, ?E2, ?E3, ?E4, ?E5, ?E6; assumption.
Qed.

Lemma pwf_commit v b s : pwf s -> pwf (snd (prover_commit v b s)).
Proof.
  intros [H1 H2 H3 H4 H5]. constructor; simpl; auto.
  rewrite !app_length, H3. reflexivity.
Qed.

Theorem prun_pwf W ph {A} (m : pprog A) s a s' : pwf s -> prun W ph m s = Done (a, s') -> pwf s'.
Proof.
  revert s a s'. induction m as [| | | | | | ? c IHc k IH | | | | ? x k IH | |]; intros s a0 s' Hwf; simpl.
  - intros E. injection E as <- <-. assumption.
  - discriminate.
  - destruct (prover_multiply left right s) as [[vs s1]|] eqn:E; [|discriminate]. simpl.
    apply H. eapply pwf_multiply; eauto.
  - destruct (prover_allocate assignment s) as [[r s1]|] eqn:E; [|discriminate]. simpl.
    apply H. eapply pwf_allocate; eauto.
  - pose proof (pwf_allocate_multiplier assignment s Hwf) as Hm.
    destruct (prover_allocate_multiplier assignment s) as [r s1]. apply H. assumption.
  - apply H. apply pwf_constrain. assumption.
  - destruct ph.
    + destruct (prun W true c s) as [[r s1]|] eqn:E; [|discriminate]. simpl.
      apply IH. eapply IHc; eauto.
    + apply IH. eapply pwf_same_wires; [..|exact Hwf]; reflexivity.
  - destruct (prover_eval s l); [|discriminate]. simpl. apply H. assumption.
  - destruct (prover_allocate_single assignment s) as [[r s1]|] eqn:E; [|discriminate]. simpl.
    apply H. eapply pwf_allocate_single; eauto.
  - destruct ph; [|discriminate]. apply H. eapply pwf_same_wires; [..|exact Hwf]; reflexivity.
  - destruct x as [v b]. destruct ph; [discriminate|].
    pose proof (pwf_commit v b s Hwf) as Hc. apply IH. exact Hc.
  - apply H. eapply pwf_same_wires; [..|exact Hwf]; reflexivity.
  - apply H. eapply pwf_same_wires; [..|exact Hwf]; reflexivity.
Qed.

(** *** Synchrony of the two sides *)
Record sync_base (ps : prover) (vs : verifier) : Prop := {
  sy_wf : pwf ps;
  sy_transcript : p_transcript ps = v_transcript vs;
  sy_constraints : Forall2 lc_same (p_constraints ps) (v_constraints vs);
  sy_num_vars : v_num_vars vs = length (p_aL ps);
  sy_V : v_V vs = zipw (commit (p_g ps) (p_h ps)) (p_v ps) (p_v_blinding ps);
  sy_pending : p_pending ps = v_pending vs
}.

(** related second-phase programs *)
Definition related2 (W W' : world) {A B} (R : A -> B -> Prop) (pp : pprog A) (vp : vprog B) : Prop :=
  forall ps vs a ps', sync_base ps vs -> prun W true pp ps = Done (a, ps') ->
  exists b vs', vrun W' true vp vs = Done (b, vs') /\ sync_base ps' vs' /\ R a b.

Definition sync (W W' : world) (ps : prover) (vs : verifier) : Prop :=
  sync_base ps vs /\ Forall2 (related2 W W' eq) (p_deferred ps) (v_deferred vs).

Definition related (W W' : world) {A B} (R : A -> B -> Prop) (pp : pprog A) (vp : vprog B) : Prop :=
  forall ps vs a ps', sync W W' ps vs -> prun W false pp ps = Done (a, ps') ->
  exists b vs', vrun W' false vp vs = Done (b, vs') /\ sync W W' ps' vs' /\ R a b
    /\ p_g ps' = p_g ps /\ p_h ps' = p_h ps.

Lemma sync_base_new g h t : sync_base (prover_new g h t) (verifier_new t).
Proof. constructor; simpl; auto. apply pwf_new. Qed.

Lemma sync_new W W' g h t : sync W W' (prover_new g h t) (verifier_new t).
Proof. split; [apply sync_base_new|constructor]. Qed.

Lemma Forall2_snoc {A B} (R : A -> B -> Prop) l l' x y :
  Forall2 R l l' -> R x y -> Forall2 R (l ++ [x]) (l' ++ [y]).
Proof. intros H1 H2. apply Forall2_app; [assumption|]. constructor; [assumption|constructor]. Qed.

Lemma lc_same_refl l : lc_same l l.
Proof. split; intros v; reflexivity. Qed.

Lemma lc_same_app a b a' b' : lc_same a a' -> lc_same b b' -> lc_same (a ++ b) (a' ++ b').
Proof.
  intros [H1 K1] [H2 K2]. split; intros v.
  - rewrite !coeff_app, H1, H2. reflexivity.
  - rewrite !map_app, !in_app_iff, K1, K2. reflexivity.
Qed.

Lemma sync_multiply l r l' r' ps vs p ps' :
  sync_base ps vs -> lc_same l l' -> lc_same r r' -> prover_multiply l r ps = Done (p, ps') ->
  exists vs', verifier_multiply l' r' vs = (p, vs') /\ sync_base ps' vs'
    /\ p_deferred ps' = p_deferred ps /\ v_deferred vs' = v_deferred vs
    /\ p_g ps' = p_g ps /\ p_h ps' = p_h ps.
Proof.
  intros Hs Hl Hr E. pose proof (pwf_multiply _ _ _ _ _ (sy_wf _ _ Hs) E) as Hwf'.
  destruct Hs as [Hwf Ht Hc Hn HV Hp]. unfold prover_multiply in E.
  destruct (prover_eval ps l) as [x|]; [|discriminate]. simpl in E.
  destruct (prover_eval ps r) as [y|]; [|discriminate]. simpl in E.
  injection E as <- <-. unfold verifier_multiply. simpl.
  rewrite (pwf_aR _ Hwf), (pwf_aO _ Hwf), Hn.
  eexists. split; [reflexivity|]. split; [|auto].
  constructor; simpl; auto.
  - rewrite (pwf_aR _ Hwf) in Hwf'. exact Hwf'.
  - repeat apply Forall2_snoc; auto; apply lc_same_app; auto using lc_same_refl.
  - rewrite app_length. simpl. lia.
Qed.

Lemma sync_allocate x ps vs r ps' :
  sync_base ps vs -> prover_allocate (Some x) ps = Done (r, ps') ->
  exists vs' w, verifier_allocate vs = (r, vs') /\ r = Ok w /\ sync_base ps' vs'
    /\ p_deferred ps' = p_deferred ps /\ v_deferred vs' = v_deferred vs
    /\ p_g ps' = p_g ps /\ p_h ps' = p_h ps.
Proof.
  intros Hs E. pose proof (pwf_allocate _ _ _ _ (sy_wf _ _ Hs) E) as Hwf'.
  destruct Hs as [Hwf Ht Hc Hn HV Hp]. unfold prover_allocate in E. unfold verifier_allocate.
  rewrite <- Hp. destruct (p_pending ps) as [i|] eqn:Ep.
  - simpl in E. destruct (set_nth (p_aR ps) i x) as [aR|] eqn:E1; [|discriminate]. simpl in E.
    destruct (index (p_aL ps) i) as [l|] eqn:E2; [|discriminate]. simpl in E.
    destruct (index aR i) as [r0|] eqn:E3; [|discriminate]. simpl in E.
    destruct (set_nth (p_aO ps) i (l * r0)) as [aO|] eqn:E4; [|discriminate]. simpl in E.
    injection E as <- <-. eexists _, _. split; [reflexivity|]. split; [reflexivity|]. split; [|auto].
    constructor; simpl; auto.
  - injection E as <- <-. rewrite Hn. eexists _, _. split; [reflexivity|]. split; [reflexivity|]. split; [|auto].
    constructor; simpl; auto. rewrite app_length. simpl. lia.
Qed.

Lemma sync_allocate_single x ps vs r ps' :
  sync_base ps vs -> prover_allocate_single (Some x) ps = Done (r, ps') ->
  exists vs' v w, verifier_allocate_single vs = (r, vs') /\ r = Ok (v, w) /\ sync_base ps' vs'
    /\ p_deferred ps' = p_deferred ps /\ v_deferred vs' = v_deferred vs
    /\ p_g ps' = p_g ps /\ p_h ps' = p_h ps.
Proof.
  intros Hs E. unfold prover_allocate_single in E.
  destruct (prover_allocate (Some x) ps) as [[r0 s0]|] eqn:E0; [|discriminate]. simpl in E.
  destruct (sync_allocate _ _ _ _ _ Hs E0) as (vs' & w & Ev & -> & Hs' & Hd).
  unfold verifier_allocate_single. rewrite Ev.
  unfold prover_allocate in E0. destruct (p_pending ps) as [i|].
  - simpl in E0. destruct (set_nth (p_aR ps) i x) as [aR|]; [|discriminate]. simpl in E0.
    destruct (index (p_aL ps) i) as [l|]; [|discriminate]. simpl in E0.
    destruct (index aR i) as [r1|]; [|discriminate]. simpl in E0.
    destruct (set_nth (p_aO ps) i (l * r1)) as [aO|]; [|discriminate]. simpl in E0.
    injection E0 as <- <-. injection E as <- <-. eauto 10.
  - injection E0 as <- <-. injection E as <- <-. eauto 10.
Qed.

Lemma sync_base_transcript ps vs t :
  sync_base ps vs -> sync_base (p_with_transcript t ps) (v_with_transcript t vs).
Proof.
  intros [Hwf Ht Hc Hn HV Hp]. constructor; simpl; auto.
  eapply pwf_same_wires; [..|exact Hwf]; reflexivity.
Qed.

Theorem sim_related2 W W' g h {A B} (R : A -> B -> Prop) pp vp :
  sim g h R pp vp -> related2 W W' R pp vp.
Proof.
  induction 1 as [A B R a b HR|A B R m|A B R l r l' r' k k' Hl Hr _ IH|A B R x o k k' _ IH
    |A B R x o k k' _ IH|A B R l l' k k' Hl _ IH|A B R c c' k k' _ IHc _ IH|A B R l l' k k' _ IH
    |A B R x o k k' _ IH|A B R label k k' _ IH|A B R v b k k' _ IH|A B R l l' k k' _ IH|A B R k m _ IH];
    intros ps vs a0 ps' Hs E; cbn [prun vrun] in E |- *.
  - injection E as <- <-. eauto.
  - discriminate.
  - destruct (prover_multiply l r ps) as [[p s1]|] eqn:E1; [|discriminate]. simpl in E.
    destruct (sync_multiply _ _ _ _ _ _ _ _ Hs Hl Hr E1) as (vs1 & Ev & Hs1 & _).
    rewrite Ev. eapply IH; eauto.
  - destruct (prover_allocate (Some x) ps) as [[r s1]|] eqn:E1; [|discriminate]. simpl in E.
    destruct (sync_allocate _ _ _ _ _ Hs E1) as (vs1 & w & Ev & -> & Hs1 & _). rewrite Ev.
    eapply IH; eauto.
  - destruct x as [l r]. simpl in E.
    pose proof (pwf_alloc_vars l r ps (sy_wf _ _ Hs)) as Hwf'.
    destruct Hs as [Hwf Ht Hc Hn HV Hp].
    rewrite (pwf_aR _ Hwf), (pwf_aO _ Hwf) in E. rewrite <- Hn in E.
    eapply IH; [|exact E]. constructor; simpl; auto. rewrite app_length. simpl. lia.
  - eapply IH; [|exact E]. destruct Hs as [Hwf Ht Hc Hn HV Hp]. constructor; simpl; auto.
    + apply pwf_constrain. assumption.
    + apply Forall2_snoc; assumption.
  - destruct (prun W true c ps) as [[r s1]|] eqn:E1; [|discriminate]. simpl in E.
    destruct (IHc _ _ _ _ Hs E1) as (b & vs1 & Ev & Hs1 & <-). rewrite Ev. simpl.
    eapply IH; eauto.
  - destruct (prover_eval ps l) as [x|]; [|discriminate]. simpl in E. eapply IH; eauto.
  - destruct (prover_allocate_single (Some x) ps) as [[r s1]|] eqn:E1; [|discriminate]. simpl in E.
    destruct (sync_allocate_single _ _ _ _ _ Hs E1) as (vs1 & v & w & Ev & -> & Hs1 & _). rewrite Ev.
    eapply IH; eauto.
  - rewrite (sy_transcript _ _ Hs) in E. eapply IH; [|exact E].
    apply sync_base_transcript. assumption.
  - discriminate.
  - eapply IH; [..|exact E]; try apply permute_perm.
    destruct Hs as [Hwf Ht Hc Hn HV Hp]. constructor; simpl; auto.
    eapply pwf_same_wires; [..|exact Hwf]; reflexivity.
  - eapply IH; [|exact E]. destruct Hs as [Hwf Ht Hc Hn HV Hp]. constructor; simpl; auto.
    eapply pwf_same_wires; [..|exact Hwf]; reflexivity.
Qed.

Lemma zipw_snoc {A B C} (f : A -> B -> C) a b x y : length a = length b ->
  zipw f (a ++ [x]) (b ++ [y]) = zipw f a b ++ [f x y].
Proof. intros H. rewrite zipw_app by assumption. reflexivity. Qed.

(** one [commit] on each side *)
Lemma sync_commit W W' ps vs v b :
  sync W W' ps vs ->
  fst (prover_commit v b ps) = (commit (p_g ps) (p_h ps) v b, fst (verifier_commit (commit (p_g ps) (p_h ps) v b) vs)) /\
  sync W W' (snd (prover_commit v b ps)) (snd (verifier_commit (commit (p_g ps) (p_h ps) v b) vs)).
Proof.
  intros [Hs Hd]. pose proof (pwf_commit v b ps (sy_wf _ _ Hs)) as Hwf'.
  destruct Hs as [Hwf Ht Hc Hn HV Hp]. split.
  - simpl. rewrite HV, zipw_length, (pwf_vb _ Hwf), Nat.min_id. reflexivity.
  - split; [|exact Hd]. constructor; simpl; auto.
    + congruence.
    + rewrite zipw_snoc by (symmetry; apply (pwf_vb _ Hwf)). congruence.
Qed.

Theorem sim_related W W' {A B} (R : A -> B -> Prop) g h pp vp :
  sim g h R pp vp ->
  forall ps vs a ps', p_g ps = g -> p_h ps = h -> sync W W' ps vs -> prun W false pp ps = Done (a, ps') ->
  exists b vs', vrun W' false vp vs = Done (b, vs') /\ sync W W' ps' vs' /\ R a b
    /\ p_g ps' = g /\ p_h ps' = h.
Proof.
  induction 1 as [A B R a b HR|A B R m|A B R l r l' r' k k' Hl Hr _ IH|A B R x o k k' _ IH
    |A B R x o k k' _ IH|A B R l l' k k' Hl _ IH|A B R c c' k k' Hc _ _ IH|A B R l l' k k' _ IH
    |A B R x o k k' _ IH|A B R label k k' _ IH|A B R v b k k' _ IH|A B R l l' k k' _ IH|A B R k m _ IH];
    intros ps vs a0 ps' Eg Eh Hs E; cbn [prun vrun] in E |- *.
  - injection E as <- <-. eauto 10.
  - discriminate.
  - destruct (prover_multiply l r ps) as [[p s1]|] eqn:E1; [|discriminate]. simpl in E.
    destruct Hs as [Hs Hd].
    destruct (sync_multiply _ _ _ _ _ _ _ _ Hs Hl Hr E1) as (vs1 & Ev & Hs1 & D1 & D2 & D3 & D4).
    rewrite Ev. eapply IH; [| | |exact E]; [congruence|congruence|]. split; [assumption|rewrite D1, D2; assumption].
  - destruct (prover_allocate (Some x) ps) as [[r s1]|] eqn:E1; [|discriminate]. simpl in E.
    destruct Hs as [Hs Hd].
    destruct (sync_allocate _ _ _ _ _ Hs E1) as (vs1 & w & Ev & -> & Hs1 & D1 & D2 & D3 & D4). rewrite Ev.
    eapply IH; [| | |exact E]; [congruence|congruence|]. split; [assumption|rewrite D1, D2; assumption].
  - destruct x as [l r]. simpl in E. destruct Hs as [Hs Hd].
    pose proof (pwf_alloc_vars l r ps (sy_wf _ _ Hs)) as Hwf'.
    destruct Hs as [Hwf Ht Hc Hn HV Hp].
    rewrite (pwf_aR _ Hwf), (pwf_aO _ Hwf) in E. rewrite <- Hn in E.
    eapply IH; [| | |exact E]; [exact Eg|exact Eh|]. split; [|assumption].
    constructor; simpl; auto. rewrite app_length. simpl. lia.
  - eapply IH; [| | |exact E]; [exact Eg|exact Eh|]. destruct Hs as [[Hwf Ht Hc Hn HV Hp] Hd].
    split; [|assumption]. constructor; simpl; auto.
    + apply pwf_constrain. assumption.
    + apply Forall2_snoc; assumption.
  - eapply IH; [| | |exact E]; [exact Eg|exact Eh|]. destruct Hs as [[Hwf Ht Hc2 Hn HV Hp] Hd]. split.
    + constructor; simpl; auto. eapply pwf_same_wires; [..|exact Hwf]; reflexivity.
    + simpl. apply Forall2_snoc; [assumption|]. eapply sim_related2; eassumption.
  - destruct (prover_eval ps l) as [x|]; [|discriminate]. simpl in E. eapply IH; eauto.
  - destruct (prover_allocate_single (Some x) ps) as [[r s1]|] eqn:E1; [|discriminate]. simpl in E.
    destruct Hs as [Hs Hd].
    destruct (sync_allocate_single _ _ _ _ _ Hs E1) as (vs1 & v & w & Ev & -> & Hs1 & D1 & D2 & D3 & D4).
    rewrite Ev. eapply IH; [| | |exact E]; [congruence|congruence|]. split; [assumption|rewrite D1, D2; assumption].
  - discriminate.
  - destruct (sync_commit W W' ps vs v b Hs) as [E1 E2].
    rewrite Eg, Eh in E1, E2.
    destruct (prover_commit v b ps) as [pr s1] eqn:Epc.
    destruct (verifier_commit (commit g h v b) vs) as [w vs1]. cbn [fst snd] in E1, E2. subst pr.
    assert (p_g s1 = g /\ p_h s1 = h) as [G1' G2'].
    { unfold prover_commit in Epc. injection Epc as _ _ <-. simpl. auto. }
    eapply IH; eassumption.
  - eapply IH; [| | | | |exact E]; [apply permute_perm|apply permute_perm|exact Eg|exact Eh|].
    destruct Hs as [[Hwf Ht Hc Hn HV Hp] Hd]. split; [|assumption]. constructor; simpl; auto.
    eapply pwf_same_wires; [..|exact Hwf]; reflexivity.
  - eapply IH; [| | |exact E]; [exact Eg|exact Eh|].
    destruct Hs as [[Hwf Ht Hc Hn HV Hp] Hd]. split; [|assumption]. constructor; simpl; auto.
    eapply pwf_same_wires; [..|exact Hwf]; reflexivity.
Qed.

(** second phase on both sides *)
Lemma sync_callbacks W W' cbs cbs' ps vs ps' :
  Forall2 (related2 W W' eq) cbs cbs' -> sync_base ps vs ->
  prover_run_callbacks W cbs ps = Done (Ok ps') ->
  exists vs', verifier_run_callbacks W' cbs' vs = Done (Ok vs') /\ sync_base ps' vs'.
Proof.
  intros H; revert ps vs; induction H as [|cb cb' cbs cbs' Hcb H IH]; intros ps vs Hs; simpl.
  - intros E. injection E as <-. eauto.
  - destruct (prun W true cb ps) as [[r s1]|] eqn:E1; [|discriminate]. simpl.
    destruct (Hcb _ _ _ _ Hs E1) as (b & vs1 & Ev & Hs1 & <-). rewrite Ev. simpl.
    destruct r; [|discriminate]. intros E. eapply IH; eauto.
Qed.

Lemma sync_create_randomized W W' ps vs ps' :
  sync W W' ps vs -> prover_create_randomized_constraints W ps = Done (Ok ps') ->
  exists vs', verifier_create_randomized_constraints W' vs = Done (Ok vs') /\ sync_base ps' vs'.
Proof.
  intros [Hs Hd]. unfold prover_create_randomized_constraints, verifier_create_randomized_constraints.
  simpl. assert (Hs0 : forall d d', sync_base (p_with_deferred d (p_with_pending None ps)) (v_with_deferred d' (v_with_pending None vs))).
  { intros d d'. destruct Hs as [[? ? ? ? ?] Ht Hc Hn HV Hp]. constructor; simpl; auto. constructor; simpl; auto. discriminate. }
  destruct Hd as [|cb cb' cbs cbs' Hcb Hd].
  - intros E. injection E as <-. eexists. split; [reflexivity|].
    rewrite (sy_transcript _ _ Hs). specialize (Hs0 [] []).
    apply (sync_base_transcript _ _ (r1cs_1phase_domain_sep (v_transcript vs))) in Hs0.
    destruct Hs0 as [[? ? ? ? ?] Ht Hc Hn HV Hp]. constructor; simpl; auto. constructor; simpl; auto.
  - intros E. rewrite (sy_transcript _ _ Hs) in E.
    eapply (sync_callbacks W W' (cb :: cbs)); [constructor; eassumption| |exact E].
    specialize (Hs0 [] []).
    apply (sync_base_transcript _ _ (r1cs_2phase_domain_sep (v_transcript vs))) in Hs0. exact Hs0.
Qed.

End RunProofs.
