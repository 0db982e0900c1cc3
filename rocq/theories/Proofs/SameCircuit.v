(** The circuit a verifying function builds depends on how many commitments it is
    given, not on which. *)
From Coq Require Import ZArith String List Lia Bool.
From Verif.Base Require Import Outcome Fp Params Algebra.
From Verif.Model Require Import Transcript LinComb Prog IPP Prover Verifier Gadgets Hash Merkle MerkleGadget Randomizer.
From Verif.Spec Require Import Compose.
Import ListNotations.
Local Notation length := List.length.

Section Same.
Context {P : Params}.
Local Open Scope prog_scope.

(** two programs that differ in the points committed only, and in their results as [R] says *)
Inductive sim {A B} (R : A -> B -> Prop) : vprog A -> vprog B -> Prop :=
| sim_ret a b : R a b -> sim R (PRet a) (PRet b)
| sim_panic : sim R PPanic PPanic
| sim_multiply l r k k' : (forall x, sim R (k x) (k' x)) -> sim R (PMultiply l r k) (PMultiply l r k')
| sim_allocate a k k' : (forall x, sim R (k x) (k' x)) -> sim R (PAllocate a k) (PAllocate a k')
| sim_alloc_multiplier a k k' : (forall x, sim R (k x) (k' x)) -> sim R (PAllocMultiplier a k) (PAllocMultiplier a k')
| sim_constrain l k k' : (forall x, sim R (k x) (k' x)) -> sim R (PConstrain l k) (PConstrain l k')
| sim_specify c k k' : (forall x, sim R (k x) (k' x)) -> sim R (PSpecify c k) (PSpecify c k')
| sim_evaluate l k k' : (forall x, sim R (k x) (k' x)) -> sim R (PEvaluate l k) (PEvaluate l k')
| sim_alloc_single a k k' : (forall x, sim R (k x) (k' x)) -> sim R (PAllocSingle a k) (PAllocSingle a k')
| sim_challenge s k k' : (forall x, sim R (k x) (k' x)) -> sim R (PChallenge s k) (PChallenge s k')
| sim_commit V V' k k' : (forall x, sim R (k x) (k' x)) -> sim R (PCommit V k) (PCommit V' k')
| sim_shuffle l k k' : (forall x, sim R (k x) (k' x)) -> sim R (PShuffle l k) (PShuffle l k')
| sim_random k k' : (forall x, sim R (k x) (k' x)) -> sim R (PRandom k) (PRandom k').

Lemma sim_refl {A} (R : A -> A -> Prop) (p : vprog A) : (forall a, R a a) -> sim R p p.
Proof. intros HR. induction p; constructor; auto. Qed.
Lemma sim_bind {A B A' B'} (R : A -> B -> Prop) (R' : A' -> B' -> Prop) p p' f f' :
  sim R p p' -> (forall a b, R a b -> sim R' (f a) (f' b)) -> sim R' (pbind p f) (pbind p' f').
Proof. intros Hp Hf. induction Hp; cbn [pbind]; try (constructor; auto; fail). apply Hf. assumption. Qed.
Lemma sim_same {A A' B'} (R' : A' -> B' -> Prop) (p : vprog A) f f' :
  (forall a, sim R' (f a) (f' a)) -> sim R' (pbind p f) (pbind p f').
Proof. intros Hf. apply (sim_bind eq); [apply sim_refl; reflexivity|]. intros a b <-. apply Hf. Qed.

(** the states then differ in the commitments and the transcript only *)
Definition same_but (s s' : verifier) : Prop :=
  v_constraints s = v_constraints s' /\ v_num_vars s = v_num_vars s' /\ length (v_V s) = length (v_V s') /\
  v_deferred s = v_deferred s' /\ v_pending s = v_pending s' /\ v_nrand s = v_nrand s' /\ v_norder s = v_norder s'.

Lemma sim_run {A B} (R : A -> B -> Prop) W p p' : sim R p p' -> forall s s' a t,
  same_but s s' -> vrun W false p s = Done (a, t) -> exists b t', vrun W false p' s' = Done (b, t') /\ R a b /\ same_but t t'.
Proof.
  induction 1 as [a b Hab| |l r k k' _ IH|o k k' _ IH|o k k' _ IH|l k k' _ IH|c k k' _ IH|l k k' _ IH|o k k' _ IH|lb k k' _ IH|V V' k k' _ IH|l k k' _ IH|k k' _ IH];
    intros s s' a0 t (E1 & E2 & E3 & E4 & E5 & E6 & E7) E; cbn [vrun] in E |- *.
  - injection E as <- <-. exists b, s'. split; [reflexivity|]. split; [exact Hab|]. unfold same_but. auto 8.
  - discriminate E.
  - unfold verifier_multiply, verifier_allocate_vars, verifier_constrain in *. cbn in E |- *. rewrite <- E1, <- E2.
    revert E. apply IH. unfold same_but. cbn. auto 8.
  - unfold verifier_allocate in *. rewrite <- E5, <- E2. destruct (v_pending s); revert E; apply IH; unfold same_but; cbn; repeat split; congruence.
  - unfold verifier_allocate_multiplier, verifier_allocate_vars in *. cbn in E |- *. rewrite <- E2.
    revert E. apply IH. unfold same_but. cbn. auto 8.
  - revert E. apply IH. unfold same_but. cbn. repeat split; congruence.
  - revert E. apply IH. unfold same_but. cbn. repeat split; congruence.
  - revert E. apply IH. unfold same_but. auto 8.
  - unfold verifier_allocate_single, verifier_allocate in *. rewrite <- E5, <- E2.
    destruct (v_pending s); cbn in E |- *; revert E; apply IH; unfold same_but; cbn; repeat split; congruence.
  - discriminate E.
  - unfold verifier_commit in *. rewrite <- E3. revert E. apply IH. unfold same_but. cbn. rewrite !app_length. cbn [length]. repeat split; congruence.
  - rewrite <- E7. revert E. apply IH. unfold same_but. cbn. repeat split; congruence.
  - rewrite <- E6. revert E. apply IH. unfold same_but. cbn. repeat split; congruence.
Qed.

(** *** Programs that commit to received points *)
Definition same_length (l l' : list G1) : Prop := length l = length l'.
Lemma sim_remove0 {A B} (R : A -> B -> Prop) l l' f f' : same_length l l' ->
  (forall c c' l l', same_length l l' -> sim R (f (c, l)) (f' (c', l'))) ->
  sim R (pbind (remove0 l) f) (pbind (remove0 l') f').
Proof.
  unfold same_length. intros Hl Hf. destruct l as [|c l], l' as [|c' l']; try discriminate Hl; cbn; [constructor|]. apply Hf. injection Hl. auto.
Qed.
Lemma sim_cs_commit {A B} (R : A -> B -> Prop) c c' f f' : (forall v, sim R (f v) (f' v)) ->
  sim R (pbind (cs_commit c) f) (pbind (cs_commit c') f').
Proof. intros Hf. cbn. constructor. exact Hf. Qed.
Lemma sim_fold {A S S'} (R : S -> S' -> Prop) (f : S -> A -> vprog S) f' l : forall s s', R s s' ->
  (forall s s' a, R s s' -> sim R (f s a) (f' s' a)) -> sim R (p_fold f l s) (p_fold f' l s').
Proof.
  induction l as [|a l IH]; intros s s' Hs Hf; cbn [p_fold]; [constructor; exact Hs|].
  apply (sim_bind R); [apply Hf, Hs|]. intros s1 s1' H1. apply IH; assumption.
Qed.
Definition same_result {A B} (R : A -> B -> Prop) (r : result A) (r' : result B) : Prop :=
  match r, r' with Ok a, Ok b => R a b | Err e, Err e' => e = e' | _, _ => False end.
Lemma sim_try {A B A' B'} (R : A -> B -> Prop) (R' : A' -> B' -> Prop) p p' f f' :
  sim (same_result R) p p' -> (forall a b, R a b -> sim (same_result R') (f a) (f' b)) -> sim (same_result R') (ptry p f) (ptry p' f').
Proof.
  intros Hp Hf. unfold ptry. apply (sim_bind (same_result R)); [exact Hp|].
  intros [a|e] [b|e'] Hr; try contradiction; [apply Hf, Hr|]. constructor. exact Hr.
Qed.
Lemma same_result_refl {A} (r : result A) : same_result eq r r.
Proof. destruct r; reflexivity. Qed.
Lemma sim_try_same {A A' B'} (R' : A' -> B' -> Prop) (p : vprog (result A)) f f' :
  (forall a, sim (same_result R') (f a) (f' a)) -> sim (same_result R') (ptry p f) (ptry p f').
Proof. intros Hf. apply (sim_try eq); [apply sim_refl, same_result_refl|]. intros a b <-. apply Hf. Qed.
Lemma sim_try_fold {A S S'} (R : S -> S' -> Prop) (f : S -> A -> vprog (result S)) f' l : forall s s', R s s' ->
  (forall s s' a, R s s' -> sim (same_result R) (f s a) (f' s' a)) -> sim (same_result R) (p_try_fold f l s) (p_try_fold f' l s').
Proof.
  induction l as [|a l IH]; intros s s' Hs Hf; cbn [p_try_fold]; [constructor; exact Hs|].
  apply (sim_try R); [apply Hf, Hs|]. intros s1 s1' H1. apply IH; assumption.
Qed.
(** over the commitments themselves *)
Lemma sim_fold_commits {S} (f : S -> G1 -> vprog S) l : forall l' s, same_length l l' ->
  (forall s c c', sim eq (f s c) (f s c')) -> sim eq (p_fold f l s) (p_fold f l' s).
Proof.
  unfold same_length. induction l as [|c l IH]; intros [|c' l'] s Hl Hf; try discriminate Hl; cbn [p_fold]; [constructor; reflexivity|].
  apply (sim_bind eq); [apply Hf|]. intros s1 s1' <-. apply IH; [injection Hl; auto|exact Hf].
Qed.

Definition loop_state {S} (x y : list G1 * S) : Prop := same_length (fst x) (fst y) /\ snd x = snd y.
Definition loop_state2 {S S'} (x y : list G1 * S * S') : Prop :=
  same_length (fst (fst x)) (fst (fst y)) /\ snd (fst x) = snd (fst y) /\ snd x = snd y.

Local Notation done := (sim (same_result eq)).
Ltac fin := apply sim_refl, same_result_refl.
Ltac step := first
  [ apply sim_remove0; [assumption|intros ? ? ? ? ?]; cbv beta iota
  | apply sim_cs_commit; intros ? ].

Lemma sim_received l l' n : same_length l l' -> sim eq (commit_received l n) (commit_received l' n).
Proof.
  intros Hl. unfold commit_received. apply (sim_bind loop_state).
  - apply sim_fold; [split; [exact Hl|reflexivity]|]. intros [x v] [y v'] _ [Hx Ev]. cbn in Hx, Ev. subst v'. repeat step.
    constructor. split; [assumption|reflexivity].
  - intros [x v] [y v'] [_ Ev]. cbn in Ev. subst v'. constructor. reflexivity.
Qed.
Lemma sim_first l l' n : same_length l l' -> sim loop_state (commit_first n l) (commit_first n l').
Proof.
  intros Hl. unfold commit_first. apply sim_fold; [split; [exact Hl|reflexivity]|].
  intros [x v] [y v'] _ [Hx Ev]. cbn in Hx, Ev. subst v'. repeat step. constructor. split; [assumption|reflexivity].
Qed.
Lemma sim_drain l l' : same_length l l' -> sim eq (commit_drain l) (commit_drain l').
Proof.
  intros Hl. unfold commit_drain. apply sim_fold_commits; [exact Hl|]. intros s c c'. repeat step. constructor. reflexivity.
Qed.

Lemma sim_verifies checks g h st comms comms' : same_length comms comms' ->
  done (verifies checks g h st comms) (verifies checks g h st comms').
Proof.
  intros Hl. destruct st; cbn [verifies].
  - unfold verify_non_zero_val. repeat step. fin.
  - unfold verify_bounded_num. repeat step. fin.
  - unfold verify_set_membership. repeat step. apply (sim_bind loop_state).
    + apply sim_fold; [split; [assumption|reflexivity]|]. intros [lx vx] [ly vy] _ [Hx Ev]. cbn in Hx, Ev. subst vy. repeat step.
      constructor. split; [assumption|reflexivity].
    + intros [lx dx] [ly dy] [_ Ev]. cbn in Ev. subst dy. fin.
  - unfold verify_set_membership_alt. apply (sim_try loop_state2).
    + apply sim_try_fold; [repeat split; assumption|]. intros [[lx vx] bx] [[ly vy] by'] _ (Hx & Ev & Eb). cbn in Hx, Ev, Eb. subst vy by'. repeat step.
      cbv zeta. apply sim_try_same. intros _. constructor. repeat split. assumption.
    + intros [[lx vx] bx] [[ly vy] by'] (Hx & Ev & Eb). cbn in Hx, Ev, Eb. subst vy by'. apply sim_try_same. intros _. repeat step. fin.
  - unfold verify_set_non_membership. repeat step. apply (sim_bind loop_state2).
    + apply sim_fold; [repeat split; assumption|]. intros [[lx vx] bx] [[ly vy] by'] _ (Hx & Ev & Eb). cbn in Hx, Ev, Eb. subst vy by'. repeat step.
      constructor. repeat split. assumption.
    + intros [[lx vx] bx] [[ly vy] by'] (Hx & Ev & Eb). cbn in Hx, Ev, Eb. subst vy by'. fin.
  - unfold verify_hamming_distance. apply (sim_bind eq).
    + apply sim_fold_commits; [exact Hl|]. intros s c c'. repeat step. constructor. reflexivity.
    + intros a b <-. fin.
  - unfold verify_mimc_preimage. repeat step. fin.
  - unfold verify_Poseidon_2. repeat step. fin.
  - unfold verify_Poseidon_4. apply (sim_bind eq); [apply sim_received, Hl|]. intros a b <-. fin.
  - unfold verify_Poseidon_8. apply (sim_bind eq); [apply sim_received, Hl|]. intros a b <-. fin.
  - unfold verify_leaf_inclusion_4_ary_merkle_tree. repeat step. apply (sim_bind eq); [apply sim_drain; assumption|]. intros a b <-. fin.
  - unfold verify_leaf_inclusion_8_ary_merkle_tree. repeat step. apply (sim_bind eq); [apply sim_drain; assumption|]. intros a b <-. fin.
  - unfold verify_randomizer. repeat step. apply (sim_bind loop_state2).
    + apply sim_fold; [repeat split; assumption|]. intros [[lx vx] bx] [[ly vy] by'] _ (Hx & Ev & Eb). cbn in Hx, Ev, Eb. subst vy by'. repeat step.
      apply (sim_bind loop_state); [apply sim_first; assumption|]. intros [lz wz] [lz' wz'] [Hz Ew]. cbn in Hz, Ew. subst wz'.
      constructor. repeat split. assumption.
    + intros [[lx vx] bx] [[ly vy] by'] (Hx & Ev & Eb). cbn in Hx, Ev, Eb. subst vy by'. fin.
Qed.

Lemma sim_verify_all checks g h sts : forall commss commss', map (@length G1) commss = map (@length G1) commss' ->
  done (verify_all checks g h (combine sts commss)) (verify_all checks g h (combine sts commss')).
Proof.
  induction sts as [|st sts IH]; intros commss commss' Hl; [fin|].
  destruct commss as [|c commss], commss' as [|c' commss']; try discriminate Hl; [fin|]. injection Hl as Hc Hl.
  cbn [combine verify_all]. apply (sim_try eq); [apply sim_verifies; exact Hc|]. intros a b _. apply IH, Hl.
Qed.

Theorem same_circuit W t checks g h sts commss commss' vs : map (@length G1) commss = map (@length G1) commss' ->
  vrun W false (verify_all checks g h (combine sts commss)) (verifier_new t) = Done (Ok tt, vs) ->
  exists vs', vrun W false (verify_all checks g h (combine sts commss')) (verifier_new t) = Done (Ok tt, vs') /\
    v_num_vars vs' = v_num_vars vs /\ v_constraints vs' = v_constraints vs /\ length (v_V vs') = length (v_V vs).
Proof.
  intros Hl E. destruct (sim_run _ W _ _ (sim_verify_all checks g h sts commss commss' Hl) (verifier_new t) (verifier_new t) _ _
    ltac:(unfold same_but; auto 8) E) as (b & vs' & E' & Hr & E1 & E2 & E3 & _).
  destruct b as [[]|e]; [|destruct Hr]. exists vs'. repeat split; congruence.
Qed.
End Same.
