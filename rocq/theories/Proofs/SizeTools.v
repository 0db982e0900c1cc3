(** Counting gates and constraints of a program, for prover and verifier at once: the
    number does not depend on the answers to its calls, only on its success. *)
From Coq Require Import ZArith String List Lia Arith.
From Verif.Base Require Import Outcome Fp Params Algebra.
From Verif.Model Require Import Transcript LinComb Prog IPP Prover Verifier.
Import ListNotations.
Local Open Scope nat_scope.
Local Notation length := List.length.

Section Size.
Context {P : Params}.

Section Generic.
Context {CA CR : Type}.
Local Notation pg := (prog CA CR).

(** [k] counts the wires allocated, two for every gate, and [c] the constraints *)
Fixpoint cost {A} (m : pg A) (k c : nat) (Q : A -> nat -> nat -> Prop) : Prop :=
  match m with
  | PRet a => Q a k c
  | PPanic => True
  | PMultiply _ _ f => forall x, cost (f x) (2 + k) (2 + c) Q
  | PAllocate _ f => (forall x, cost (f (Ok x)) (1 + k) c Q) /\ (forall e, cost (f (Err e)) k c Q)
  | PAllocMultiplier _ f => (forall x, cost (f (Ok x)) (2 + k) c Q) /\ (forall e, cost (f (Err e)) k c Q)
  | PConstrain _ f => cost (f tt) k (1 + c) Q
  | PSpecify _ _ => False
  | PEvaluate _ f => forall x, cost (f x) k c Q
  | PAllocSingle _ f => (forall x, cost (f (Ok x)) (1 + k) c Q) /\ (forall e, cost (f (Err e)) k c Q)
  | PChallenge _ _ => False
  | PCommit _ f => forall x, cost (f x) k c Q
  | PShuffle _ f => forall x, cost (f x) k c Q
  | PRandom f => forall x, cost (f x) k c Q
  end.

Lemma cost_mono {A} (m : pg A) : forall k c (Q Q' : A -> nat -> nat -> Prop),
  (forall a k c, Q a k c -> Q' a k c) -> cost m k c Q -> cost m k c Q'.
Proof.
  induction m; intros k0 c Q Q' HQ; cbn [cost]; intros Hm; auto; try contradiction;
    try (destruct Hm as [H1 H2]; split; intros; eapply H; eauto; fail); try (intros; eapply H; eauto).
Qed.

Lemma cost_bind {A B} (m : pg A) (f : A -> pg B) : forall k c Q,
  cost m k c (fun a k c => cost (f a) k c Q) -> cost (pbind m f) k c Q.
Proof.
  induction m; intros k0 c Q; cbn [cost pbind]; intros Hm; auto; try contradiction;
    try (destruct Hm as [H1 H2]; split; intros; apply H; auto; fail); try (intros; apply H; auto).
Qed.

(** the program adds [g] wires and [r] constraints, and its result is in [R] *)
Definition takes {A} (m : pg A) (g r : nat) (R : A -> Prop) : Prop :=
  forall k c, cost m k c (fun a k' c' => k' = k + g /\ c' = c + r /\ R a).
(** ... if it is not an error *)
Definition takesR {A} (m : pg (result A)) (g r : nat) (R : A -> Prop) : Prop :=
  forall k c, cost m k c (fun x k' c' => forall a, x = Ok a -> k' = k + g /\ c' = c + r /\ R a).

Lemma takes_conv {A} (m : pg A) g r R g' r' (R' : A -> Prop) :
  takes m g r R -> g = g' -> r = r' -> (forall a, R a -> R' a) -> takes m g' r' R'.
Proof. intros H -> -> HR k c. eapply cost_mono; [|apply H]. intros a k' c' (A1 & A2 & A3). auto. Qed.
Lemma takesR_conv {A} (m : pg (result A)) g r R g' r' (R' : A -> Prop) :
  takesR m g r R -> g = g' -> r = r' -> (forall a, R a -> R' a) -> takesR m g' r' R'.
Proof. intros H -> -> HR k c. eapply cost_mono; [|apply H]. intros a k' c' A1 b E. destruct (A1 b E) as (B1 & B2 & B3). auto. Qed.

Lemma takes_ret {A} (a : A) (R : A -> Prop) : R a -> takes (PRet a) 0 0 R.
Proof. intros H k c. cbn. split; [lia|]. split; [lia|exact H]. Qed.
Lemma takesR_ret {A} (a : A) (R : A -> Prop) : R a -> takesR (PRet (Ok a)) 0 0 R.
Proof. intros H k c. cbn. intros b [= <-]. split; [lia|]. split; [lia|exact H]. Qed.
Lemma takesR_err {A} e g r (R : A -> Prop) : takesR (PRet (Err e)) g r R.
Proof. intros k c. cbn. discriminate. Qed.
Lemma takes_panic {A} g r (R : A -> Prop) : takes PPanic g r R.
Proof. intros k c. exact I. Qed.
Lemma takesR_panic {A} g r (R : A -> Prop) : takesR PPanic g r R.
Proof. intros k c. exact I. Qed.
Lemma takes_lift {A} (o : outcome A) : takes (p_lift o) 0 0 (fun a => o = Done a).
Proof. destruct o; [apply takes_ret; reflexivity|apply takes_panic]. Qed.

Lemma takes_bind {A B} (m : pg A) (f : A -> pg B) g1 r1 g2 r2 R1 R2 :
  takes m g1 r1 R1 -> (forall a, R1 a -> takes (f a) g2 r2 R2) -> takes (pbind m f) (g1 + g2) (r1 + r2) R2.
Proof.
  intros H1 H2 k c. apply cost_bind. eapply cost_mono; [|apply H1].
  intros a k' c' (-> & -> & Ha). eapply cost_mono; [|apply (H2 a Ha)]. intros b k' c' (-> & -> & Hb).
  split; [lia|]. split; [lia|exact Hb].
Qed.
Lemma takes_bindR {A B} (m : pg A) (f : A -> pg (result B)) g1 r1 g2 r2 R1 R2 :
  takes m g1 r1 R1 -> (forall a, R1 a -> takesR (f a) g2 r2 R2) -> takesR (pbind m f) (g1 + g2) (r1 + r2) R2.
Proof.
  intros H1 H2 k c. apply cost_bind. eapply cost_mono; [|apply H1].
  intros a k' c' (-> & -> & Ha). eapply cost_mono; [|apply (H2 a Ha)]. intros x k' c' Hx b Ex.
  destruct (Hx b Ex) as (-> & -> & Hb). split; [lia|]. split; [lia|exact Hb].
Qed.
Lemma takesR_try {A B} (m : pg (result A)) (f : A -> pg (result B)) g1 r1 g2 r2 R1 R2 :
  takesR m g1 r1 R1 -> (forall a, R1 a -> takesR (f a) g2 r2 R2) -> takesR (ptry m f) (g1 + g2) (r1 + r2) R2.
Proof.
  intros H1 H2 k c. apply cost_bind. eapply cost_mono; [|apply H1].
  intros [a|e] k' c' Hx; [|cbn; discriminate].
  destruct (Hx a eq_refl) as (-> & -> & Ha). eapply cost_mono; [|apply (H2 a Ha)]. intros x k' c' Hx' b Ex.
  destruct (Hx' b Ex) as (-> & -> & Hb). split; [lia|]. split; [lia|exact Hb].
Qed.

Lemma takes_multiply l r : takes (cs_multiply l r) 2 2 (fun _ => True).
Proof. intros k c x. cbn. repeat split; lia. Qed.
Lemma takes_constrain l : takes (cs_constrain l) 0 1 (fun _ => True).
Proof. intros k c. cbn. repeat split; lia. Qed.
Lemma takes_evaluate l : takes (cs_evaluate l) 0 0 (fun _ => True).
Proof. intros k c x. cbn. repeat split; lia. Qed.
Lemma takes_commit a : takes (cs_commit a) 0 0 (fun _ => True).
Proof. intros k c x. cbn. repeat split; lia. Qed.
Lemma takes_random : takes p_random 0 0 (fun _ => True).
Proof. intros k c x. cbn. repeat split; lia. Qed.
Lemma takes_simplify l : takes (p_simplify l) 0 0 (fun _ => True).
Proof. intros k c x. cbn. repeat split; lia. Qed.
Lemma takesR_multiplier a : takesR (cs_allocate_multiplier a) 2 0 (fun _ => True).
Proof. intros k c. split; intros x; cbn; intros b Eb; [|discriminate]. repeat split; lia. Qed.
Lemma takesR_single a : takesR (cs_allocate_single a) 1 0 (fun _ => True).
Proof. intros k c. split; intros x; cbn; intros b Eb; [|discriminate]. repeat split; lia. Qed.

(** loops *)
Lemma takes_fold {A S} (f : S -> A -> pg S) g r (I : S -> Prop) : forall l s, I s ->
  (forall s a, In a l -> I s -> takes (f s a) g r I) -> takes (p_fold f l s) (length l * g) (length l * r) I.
Proof.
  induction l as [|a l IH]; intros s Hs Hf; cbn [p_fold length Nat.mul]; [apply takes_ret; exact Hs|].
  eapply takes_bind; [apply Hf; [left; reflexivity|exact Hs]|]. intros s' Hs'. apply IH; [exact Hs'|].
  intros s2 b Hb. apply Hf. right. exact Hb.
Qed.
Lemma takes_fold_0 {A S} (f : S -> A -> pg S) (I : S -> Prop) l s : I s ->
  (forall s a, In a l -> I s -> takes (f s a) 0 0 I) -> takes (p_fold f l s) 0 0 I.
Proof. intros Hs Hf. generalize (takes_fold f 0 0 I l s Hs Hf). rewrite Nat.mul_0_r. auto. Qed.
Lemma takesR_fold_sum {A S} (f : S -> A -> pg (result S)) (g r : A -> nat) (I : S -> Prop) : forall l s, I s ->
  (forall s a, In a l -> I s -> takesR (f s a) (g a) (r a) I) ->
  takesR (p_try_fold f l s) (list_sum (map g l)) (list_sum (map r l)) I.
Proof.
  induction l as [|a l IH]; intros s Hs Hf; cbn [p_try_fold map list_sum fold_right]; [apply takesR_ret; exact Hs|].
  eapply takesR_try; [apply Hf; [left; reflexivity|exact Hs]|]. intros s' Hs'. apply IH; [exact Hs'|].
  intros s2 b Hb. apply Hf. right. exact Hb.
Qed.
Lemma list_sum_const {A} (g : nat) (l : list A) : list_sum (map (fun _ => g) l) = length l * g.
Proof. induction l as [|a l IH]; cbn; [reflexivity|]. unfold list_sum in IH. rewrite IH. reflexivity. Qed.
Lemma takesR_fold {A S} (f : S -> A -> pg (result S)) g r (I : S -> Prop) l s : I s ->
  (forall s a, In a l -> I s -> takesR (f s a) g r I) -> takesR (p_try_fold f l s) (length l * g) (length l * r) I.
Proof.
  intros Hs Hf. rewrite <- (list_sum_const g l), <- (list_sum_const r l).
  apply (takesR_fold_sum f (fun _ => g) (fun _ => r)); assumption.
Qed.
End Generic.

(** *** The two interpretations *)
Definition waiting (o : option nat) : nat := match o with Some _ => 1 | None => 0 end.

Lemma vrun_cost {A} W (m : vprog A) : forall k c Q s a s', cost m k c Q -> vrun W false m s = Done (a, s') ->
  exists k' c', Q a k' c' /\
    2 * v_num_vars s' + waiting (v_pending s) + k = 2 * v_num_vars s + waiting (v_pending s') + k' /\
    length (v_constraints s') + c = length (v_constraints s) + c'.
Proof.
  induction m; intros k0 c Q s b s' HQ E; cbn [vrun cost] in *; try contradiction; try discriminate.
  - injection E as <- <-. exists k0, c. split; [exact HQ|lia].
  - unfold verifier_multiply, verifier_allocate_vars in E. cbn in E.
    destruct (H _ _ _ _ _ _ _ (HQ _) E) as (k' & c' & Hq & E1 & E2). exists k', c'. split; [exact Hq|].
    cbn in E1, E2. rewrite !app_length in E2. cbn in E2. lia.
  - unfold verifier_allocate in E. destruct HQ as [HQ _].
    destruct (v_pending s) as [i|] eqn:Ep; cbn in E;
      destruct (H _ _ _ _ _ _ _ (HQ _) E) as (k' & c' & Hq & E1 & E2); exists k', c'; (split; [exact Hq|]); cbn in *; lia.
  - unfold verifier_allocate_multiplier, verifier_allocate_vars in E. cbn in E. destruct HQ as [HQ _].
    destruct (H _ _ _ _ _ _ _ (HQ _) E) as (k' & c' & Hq & E1 & E2). exists k', c'. split; [exact Hq|]. cbn in *. lia.
  - destruct (H _ _ _ _ _ _ _ HQ E) as (k' & c' & Hq & E1 & E2). exists k', c'. split; [exact Hq|].
    cbn in E1, E2. rewrite app_length in E2. cbn in E2. lia.
  - destruct (H _ _ _ _ _ _ _ (HQ _) E) as (k' & c' & Hq & E1 & E2). exists k', c'. auto.
  - unfold verifier_allocate_single, verifier_allocate in E. destruct HQ as [HQ _].
    destruct (v_pending s) as [i|] eqn:Ep; cbn in E;
      destruct (H _ _ _ _ _ _ _ (HQ _) E) as (k' & c' & Hq & E1 & E2); exists k', c'; (split; [exact Hq|]); cbn in *; lia.
  - destruct (H _ _ _ _ _ _ _ (HQ _) E) as (k' & c' & Hq & E1 & E2). exists k', c'. auto.
  - destruct (H _ _ _ _ _ _ _ (HQ _) E) as (k' & c' & Hq & E1 & E2). exists k', c'. auto.
  - destruct (H _ _ _ _ _ _ _ (HQ _) E) as (k' & c' & Hq & E1 & E2). exists k', c'. auto.
Qed.

Lemma prun_cost {A} W (m : pprog A) : forall k c Q s a s', cost m k c Q -> prun W false m s = Done (a, s') ->
  exists k' c', Q a k' c' /\
    2 * length (p_aL s') + waiting (p_pending s) + k = 2 * length (p_aL s) + waiting (p_pending s') + k' /\
    length (p_constraints s') + c = length (p_constraints s) + c'.
Proof.
  induction m; intros k0 c Q s b s' HQ E; cbn [prun cost] in *; try contradiction; try discriminate.
  - injection E as <- <-. exists k0, c. split; [exact HQ|lia].
  - unfold prover_multiply in E.
    destruct (prover_eval s left); [|discriminate]. destruct (prover_eval s right); [|discriminate]. cbn in E.
    destruct (H _ _ _ _ _ _ _ (HQ _) E) as (k' & c' & Hq & E1 & E2). exists k', c'. split; [exact Hq|].
    cbn in E1, E2. repeat rewrite app_length in E1. repeat rewrite app_length in E2. cbn in E1, E2. lia.
  - destruct (prover_allocate assignment s) as [[r s1]|] eqn:Ea; [|discriminate]. cbn in E.
    unfold prover_allocate in Ea. destruct assignment as [x|].
    + destruct HQ as [HQ _]. destruct (p_pending s) as [i|] eqn:Ep.
      * cbn in Ea. destruct (set_nth (p_aR s) i x); [|discriminate]. cbn in Ea.
        destruct (index (p_aL s) i); [|discriminate]. cbn in Ea. destruct (index _ i) in Ea; [|discriminate]. cbn in Ea.
        destruct (set_nth (p_aO s) i _) in Ea; [|discriminate]. injection Ea as <- <-.
        destruct (H _ _ _ _ _ _ _ (HQ _) E) as (k' & c' & Hq & E1 & E2); exists k', c'; (split; [exact Hq|]); cbn in *; lia.
      * cbn in Ea. injection Ea as <- <-.
        destruct (H _ _ _ _ _ _ _ (HQ _) E) as (k' & c' & Hq & E1 & E2); exists k', c'; (split; [exact Hq|]); cbn in *.
        rewrite app_length in E1. cbn in E1. lia.
    + destruct HQ as [_ HQ]. injection Ea as <- <-.
      destruct (H _ _ _ _ _ _ _ (HQ _) E) as (k' & c' & Hq & E1 & E2); exists k', c'; auto.
  - unfold prover_allocate_multiplier in E. destruct assignment as [[x y]|]; cbn in E.
    + destruct HQ as [HQ _].
      destruct (H _ _ _ _ _ _ _ (HQ _) E) as (k' & c' & Hq & E1 & E2). exists k', c'. split; [exact Hq|]. cbn in *.
      rewrite app_length in E1. cbn in E1. lia.
    + destruct HQ as [_ HQ]. destruct (H _ _ _ _ _ _ _ (HQ _) E) as (k' & c' & Hq & E1 & E2). exists k', c'. auto.
  - destruct (H _ _ _ _ _ _ _ HQ E) as (k' & c' & Hq & E1 & E2). exists k', c'. split; [exact Hq|].
    cbn in E1, E2. rewrite app_length in E2. cbn in E2. lia.
  - destruct (prover_eval s l); [|discriminate]. cbn in E.
    destruct (H _ _ _ _ _ _ _ (HQ _) E) as (k' & c' & Hq & E1 & E2). exists k', c'. auto.
  - unfold prover_allocate_single in E.
    destruct (prover_allocate assignment s) as [[r s1]|] eqn:Ea; [|discriminate]. cbn in E.
    unfold prover_allocate in Ea. destruct assignment as [x|].
    + destruct HQ as [HQ _]. destruct (p_pending s) as [i|] eqn:Ep.
      * cbn in Ea. destruct (set_nth (p_aR s) i x); [|discriminate]. cbn in Ea.
        destruct (index (p_aL s) i); [|discriminate]. cbn in Ea. destruct (index _ i) in Ea; [|discriminate]. cbn in Ea.
        destruct (set_nth (p_aO s) i _) in Ea; [|discriminate]. injection Ea as <- <-. cbn in E.
        destruct (H _ _ _ _ _ _ _ (HQ _) E) as (k' & c' & Hq & E1 & E2); exists k', c'; (split; [exact Hq|]); cbn in *; lia.
      * cbn in Ea. injection Ea as <- <-. cbn in E.
        destruct (H _ _ _ _ _ _ _ (HQ _) E) as (k' & c' & Hq & E1 & E2); exists k', c'; (split; [exact Hq|]); cbn in *.
        rewrite app_length in E1. cbn in E1. lia.
    + destruct HQ as [_ HQ]. injection Ea as <- <-. cbn in E.
      destruct (H _ _ _ _ _ _ _ (HQ _) E) as (k' & c' & Hq & E1 & E2); exists k', c'; auto.
  - destruct a as [v b0]. destruct (prover_commit v b0 s) as [r s1] eqn:Ec. unfold prover_commit in Ec. injection Ec as <- <-.
    destruct (H _ _ _ _ _ _ _ (HQ _) E) as (k' & c' & Hq & E1 & E2). exists k', c'. auto.
  - destruct (H _ _ _ _ _ _ _ (HQ _) E) as (k' & c' & Hq & E1 & E2). exists k', c'. auto.
  - destruct (H _ _ _ _ _ _ _ (HQ _) E) as (k' & c' & Hq & E1 & E2). exists k', c'. auto.
Qed.

(** a program without callbacks registers none *)
Lemma vrun_deferred {A} W (m : vprog A) : forall k c Q s a s', cost m k c Q -> vrun W false m s = Done (a, s') -> v_deferred s' = v_deferred s.
Proof.
  induction m; intros k0 c Q s b s' HQ E; cbn [vrun cost] in *; try contradiction; try discriminate.
  - injection E as _ <-. reflexivity.
  - unfold verifier_multiply, verifier_allocate_vars in E. cbn in E. exact (H _ _ _ _ _ _ _ (HQ _) E).
  - unfold verifier_allocate in E. destruct HQ as [HQ _]. destruct (v_pending s) as [i|]; cbn in E; exact (H _ _ _ _ _ _ _ (HQ _) E).
  - unfold verifier_allocate_multiplier, verifier_allocate_vars in E. cbn in E. destruct HQ as [HQ _]. exact (H _ _ _ _ _ _ _ (HQ _) E).
  - exact (H _ _ _ _ _ _ _ HQ E).
  - exact (H _ _ _ _ _ _ _ (HQ _) E).
  - unfold verifier_allocate_single, verifier_allocate in E. destruct HQ as [HQ _].
    destruct (v_pending s) as [i|]; cbn in E; exact (H _ _ _ _ _ _ _ (HQ _) E).
  - exact (H _ _ _ _ _ _ _ (HQ _) E).
  - exact (H _ _ _ _ _ _ _ (HQ _) E).
  - exact (H _ _ _ _ _ _ _ (HQ _) E).
Qed.
Lemma prun_deferred {A} W (m : pprog A) : forall k c Q s a s', cost m k c Q -> prun W false m s = Done (a, s') -> p_deferred s' = p_deferred s.
Proof.
  induction m; intros k0 c Q s b s' HQ E; cbn [prun cost] in *; try contradiction; try discriminate.
  - injection E as _ <-. reflexivity.
  - unfold prover_multiply in E.
    destruct (prover_eval s left); [|discriminate]. destruct (prover_eval s right); [|discriminate]. cbn in E. exact (H _ _ _ _ _ _ _ (HQ _) E).
  - destruct (prover_allocate assignment s) as [[r s1]|] eqn:Ea; [|discriminate]. cbn in E.
    assert (Ed : p_deferred s1 = p_deferred s).
    { unfold prover_allocate in Ea. destruct assignment; [|injection Ea as _ <-; reflexivity]. destruct (p_pending s); cbn in Ea.
      - destruct (set_nth (p_aR s) _ _); [|discriminate]. cbn in Ea. destruct (index (p_aL s) _); [|discriminate]. cbn in Ea.
        destruct (index _ _) in Ea; [|discriminate]. cbn in Ea. destruct (set_nth (p_aO s) _ _) in Ea; [|discriminate]. injection Ea as _ <-. reflexivity.
      - injection Ea as _ <-. reflexivity. }
    rewrite <- Ed. destruct HQ as [H1 H2]. destruct r as [x|e]; [exact (H _ _ _ _ _ _ _ (H1 _) E)|exact (H _ _ _ _ _ _ _ (H2 _) E)].
  - unfold prover_allocate_multiplier in E. destruct HQ as [H1 H2]. destruct assignment as [[x y]|]; cbn in E;
      [exact (H _ _ _ _ _ _ _ (H1 _) E)|exact (H _ _ _ _ _ _ _ (H2 _) E)].
  - exact (H _ _ _ _ _ _ _ HQ E).
  - destruct (prover_eval s l); [|discriminate]. cbn in E. exact (H _ _ _ _ _ _ _ (HQ _) E).
  - destruct (prover_allocate_single assignment s) as [[r s1]|] eqn:Es; [|discriminate]. cbn in E.
    assert (Ed : p_deferred s1 = p_deferred s).
    { unfold prover_allocate_single in Es. destruct (prover_allocate assignment s) as [[r' s1']|] eqn:Ea; [|discriminate]. cbn in Es.
      assert (s1 = s1') as -> by (destruct r' as [[]|]; injection Es as _ <-; reflexivity).
      unfold prover_allocate in Ea. destruct assignment; [|injection Ea as _ <-; reflexivity]. destruct (p_pending s); cbn in Ea.
      - destruct (set_nth (p_aR s) _ _); [|discriminate]. cbn in Ea. destruct (index (p_aL s) _); [|discriminate]. cbn in Ea.
        destruct (index _ _) in Ea; [|discriminate]. cbn in Ea. destruct (set_nth (p_aO s) _ _) in Ea; [|discriminate]. injection Ea as _ <-. reflexivity.
      - injection Ea as _ <-. reflexivity. }
    rewrite <- Ed. destruct HQ as [H1 H2]. destruct r as [x|e]; [exact (H _ _ _ _ _ _ _ (H1 _) E)|exact (H _ _ _ _ _ _ _ (H2 _) E)].
  - destruct a as [v b0]. destruct (prover_commit v b0 s) as [r s1] eqn:Ec. unfold prover_commit in Ec. injection Ec as <- <-.
    exact (H _ _ _ _ _ _ _ (HQ _) E).
  - exact (H _ _ _ _ _ _ _ (HQ _) E).
  - exact (H _ _ _ _ _ _ _ (HQ _) E).
Qed.

Lemma waiting_cases o : waiting o = 0 \/ waiting o = 1.
Proof. destruct o; auto. Qed.

Lemma vrun_takes {A} W (m : vprog (result A)) g r R s a s' : takesR m (2 * g) r R -> vrun W false m s = Done (Ok a, s') ->
  v_num_vars s' = v_num_vars s + g /\ length (v_constraints s') = length (v_constraints s) + r /\ R a.
Proof.
  intros Hm E. destruct (vrun_cost W m 0 0 _ s _ s' (Hm 0 0) E) as (k' & c' & Hq & E1 & E2).
  destruct (Hq a eq_refl) as (-> & -> & Ha).
  destruct (waiting_cases (v_pending s)), (waiting_cases (v_pending s')); split; try lia; (split; [lia|exact Ha]).
Qed.
Lemma prun_takes {A} W (m : pprog (result A)) g r R s a s' : takesR m (2 * g) r R -> prun W false m s = Done (Ok a, s') ->
  length (p_aL s') = length (p_aL s) + g /\ length (p_constraints s') = length (p_constraints s) + r /\ R a.
Proof.
  intros Hm E. destruct (prun_cost W m 0 0 _ s _ s' (Hm 0 0) E) as (k' & c' & Hq & E1 & E2).
  destruct (Hq a eq_refl) as (-> & -> & Ha).
  destruct (waiting_cases (p_pending s)), (waiting_cases (p_pending s')); split; try lia; (split; [lia|exact Ha]).
Qed.
End Size.
