(** Rules for reasoning about gadgets: what the verifier's circuit forces
    ([vspec]), and a prover and a verifier running in step with all constraints
    satisfied ([both]). *)
From Coq Require Import ZArith String List Lia Bool Ring Field Arith Permutation.
From Verif.Base Require Import Outcome Fp Params Algebra.
From Verif.Model Require Import Transcript LinComb Prog VectorPoly IPP Prover Verifier.
From Verif.Spec Require Import R1CS Sim Session Protocol Verdict Gadget.
From Verif.Proofs Require Import IPPProofs LinCombProofs RunProofs ExtProofs HandedProofs CircuitProofs SyncMore CircuitMain.
Import ListNotations.

Section Tools.
Context {P : Params} {OK : ParamsOk P}.
Local Open Scope fe_scope.
Add Field FFgt : (Fp_field_theory modulus modulus_prime).

#[local] Arguments verifier_multiply : simpl never.

(** *** The verifier's circuit *)
Section Verifier.
Context (W : world) (ph : bool) (asg : assignment).
Local Notation val := (var_value asg).

Definition vspec {A} (s : verifier) (m : vprog A) (Q : A -> verifier -> Prop) : Prop :=
  forall a s', vrun W ph m s = Done (a, s') -> satisfies asg (v_num_vars s') (v_constraints s') -> Q a s'.

(** the frame of a call that is no [commit]: same commitments, same pending multiplier *)
Definition vkeep (s s' : verifier) : Prop := v_pending s' = v_pending s /\ v_V s' = v_V s.

Lemma vkeep_refl s : vkeep s s.
Proof. split; reflexivity. Qed.
Lemma vkeep_trans s1 s2 s3 : vkeep s1 s2 -> vkeep s2 s3 -> vkeep s1 s3.
Proof. intros [] []. split; congruence. Qed.

Lemma satisfies_vext s s' : vext s s' -> satisfies asg (v_num_vars s') (v_constraints s') ->
  satisfies asg (v_num_vars s) (v_constraints s).
Proof.
  intros Hx [H1 H2]. split.
  - intros i Hi. apply H1. pose proof (vx_n _ _ Hx). lia.
  - intros l Hl. apply H2. eapply prefix_in; [apply (vx_cs _ _ Hx)|exact Hl].
Qed.

Lemma vspec_bind {A B} s (m : vprog A) (f : A -> vprog B) (Q : B -> verifier -> Prop) :
  vspec s m (fun a s' => vspec s' (f a) Q) -> vspec s (pbind m f) Q.
Proof.
  intros H b s2 E Hs. rewrite vrun_bind in E.
  destruct (vrun W ph m s) as [[a s1]|] eqn:E1; [|discriminate]. cbn [obind] in E.
  apply (H a s1 E1); [|exact E|exact Hs]. eapply satisfies_vext; [eapply vrun_vext; exact E|exact Hs].
Qed.

Lemma vspec_conseq {A} s (m : vprog A) (Q Q' : A -> verifier -> Prop) :
  vspec s m Q -> (forall a s', Q a s' -> Q' a s') -> vspec s m Q'.
Proof. intros H HQ a s' E Hs. apply HQ. apply H; assumption. Qed.

Lemma vspec_ret {A} s (a : A) (Q : A -> verifier -> Prop) : Q a s -> vspec s (PRet a) Q.
Proof. intros H a' s' E _. injection E as <- <-. exact H. Qed.

Lemma vspec_panic {A} s (Q : A -> verifier -> Prop) : vspec s PPanic Q.
Proof. intros a' s' E. discriminate. Qed.

Lemma vspec_try {A B} s (m : vprog (result A)) (f : A -> vprog (result B)) (Q : result B -> verifier -> Prop) :
  vspec s m (fun r s' => match r with Ok a => vspec s' (f a) Q | Err e => Q (Err e) s' end) -> vspec s (ptry m f) Q.
Proof.
  intros H. unfold ptry. apply vspec_bind. eapply vspec_conseq; [exact H|].
  intros [a|e] s' Hr; [exact Hr|]. apply vspec_ret. exact Hr.
Qed.

Lemma vspec_constrain s l (Q : unit -> verifier -> Prop) :
  (forall s', vkeep s s' -> lc_value asg l = 0 -> Q tt s') -> vspec s (cs_constrain l) Q.
Proof.
  intros H a s' E Hs. cbn in E. injection E as <- <-. apply H; [split; reflexivity|].
  apply Hs. simpl. apply in_or_app. right. left. reflexivity.
Qed.

Lemma vspec_multiply s l r (Q : var * var * var -> verifier -> Prop) :
  (forall s' vl vr vo, vkeep s s' -> val vl = lc_value asg l -> val vr = lc_value asg r ->
     val vo = lc_value asg l * lc_value asg r -> Q (vl, vr, vo) s') -> vspec s (cs_multiply l r) Q.
Proof.
  intros H a s' E Hs. cbn in E. injection E as <- <-.
  destruct Hs as [Hg Hc].
  pose proof (Hg (v_num_vars s)) as Hgate. unfold gate_ok in Hgate. cbn in Hgate. specialize (Hgate (Nat.lt_succ_diag_r _)).
  assert (Hl : lc_value asg (l ++ [(VLeft (v_num_vars s), - (1))]) = 0).
  { apply Hc. cbn. rewrite !in_app_iff. left. right. left. reflexivity. }
  assert (Hr : lc_value asg (r ++ [(VRight (v_num_vars s), - (1))]) = 0).
  { apply Hc. cbn. rewrite !in_app_iff. right. left. reflexivity. }
  rewrite lc_value_app in Hl, Hr. cbn [lc_value var_value] in Hl, Hr.
  assert (E1 : as_left asg (v_num_vars s) = lc_value asg l).
  { transitivity (lc_value asg l - (lc_value asg l + (- (1) * as_left asg (v_num_vars s) + 0))); [ring|rewrite Hl; ring]. }
  assert (E2 : as_right asg (v_num_vars s) = lc_value asg r).
  { transitivity (lc_value asg r - (lc_value asg r + (- (1) * as_right asg (v_num_vars s) + 0))); [ring|rewrite Hr; ring]. }
  apply H; cbn [var_value]; try assumption.
  - split; reflexivity.
  - rewrite <- Hgate, E1, E2. reflexivity.
Qed.

Lemma vspec_allocate_multiplier s o (Q : result (var * var * var) -> verifier -> Prop) :
  (forall s' vl vr vo, vkeep s s' -> val vo = val vl * val vr -> Q (Ok (vl, vr, vo)) s') ->
  vspec s (cs_allocate_multiplier o) Q.
Proof.
  intros H a s' E [Hg Hc]. cbn in E. injection E as <- <-.
  apply H; [split; reflexivity|]. cbn. symmetry. apply (Hg (v_num_vars s)). cbn. lia.
Qed.

Lemma vspec_evaluate s l (Q : option F -> verifier -> Prop) : Q None s -> vspec s (cs_evaluate l) Q.
Proof. intros H a s' E Hs. cbn in E. injection E as <- <-. exact H. Qed.

Lemma vspec_commit s c (Q : var -> verifier -> Prop) :
  (forall s', v_pending s' = v_pending s -> v_V s' = v_V s ++ [c] -> Q (VCommitted (length (v_V s))) s') ->
  vspec s (cs_commit c) Q.
Proof.
  intros H a s' E Hs. cbn in E. destruct ph; [discriminate|]. cbn in E. injection E as <- <-.
  apply H; reflexivity.
Qed.

Lemma vspec_lift {A} s (o : outcome A) (Q : A -> verifier -> Prop) : (forall a, o = Done a -> Q a s) -> vspec s (p_lift o) Q.
Proof. intros H a s' E Hs. destruct o; cbn in E; [|discriminate]. injection E as <- <-. apply H. reflexivity. Qed.

(** two calls of [allocate_single] in a row, nothing pending *)
Lemma vspec_singles {A} s o o' (k : result (var * option var) -> vprog A) (k2 : nat -> result (var * option var) -> vprog A)
  (Q : A -> verifier -> Prop) :
  v_pending s = None ->
  (forall i, k (Ok (VLeft i, None)) = PAllocSingle o' (k2 i)) ->
  (forall i s', vkeep s s' -> val (VOut i) = val (VLeft i) * val (VRight i) ->
     vspec s' (k2 i (Ok (VRight i, Some (VOut i)))) Q) ->
  vspec s (PAllocSingle o k) Q.
Proof.
  intros Hp Hk H a s' E Hs. cbn [vrun] in E. unfold verifier_allocate_single, verifier_allocate in E.
  rewrite Hp in E. rewrite Hk in E. cbn in E. pose proof (vrun_vext _ _ _ _ _ _ E) as Hx.
  apply (H (v_num_vars s)) in E; [exact (E Hs)| |].
  - split; [cbn; congruence|reflexivity].
  - cbn. symmetry. apply (satisfies_vext _ _ Hx) in Hs. destruct Hs as [Hg _].
    apply (Hg (v_num_vars s)). cbn. lia.
Qed.

(** loops *)
Lemma vspec_fold {A S} (f : S -> A -> vprog S) (I : nat -> S -> verifier -> Prop) l : forall s st,
  (forall j x st s, nth_error l j = Some x -> I j st s -> vspec s (f st x) (I (Datatypes.S j))) ->
  I O st s -> vspec s (p_fold f l st) (I (length l)).
Proof.
  revert I. induction l as [|x t IH]; intros I s st Hf H0; cbn [p_fold].
  - apply vspec_ret. exact H0.
  - apply vspec_bind. eapply vspec_conseq; [apply (Hf O x st s eq_refl H0)|].
    intros st' s' H1. apply (IH (fun j => I (Datatypes.S j)) s' st'); [|exact H1].
    intros j y st2 s2 Hj. apply (Hf (Datatypes.S j)). exact Hj.
Qed.

Lemma vspec_try_fold {A S} (f : S -> A -> vprog (result S)) (I : nat -> S -> verifier -> Prop) l : forall s st,
  (forall j x st s, nth_error l j = Some x -> I j st s ->
     vspec s (f st x) (fun r s' => forall st', r = Ok st' -> I (Datatypes.S j) st' s')) ->
  I O st s -> vspec s (p_try_fold f l st) (fun r s' => forall st', r = Ok st' -> I (length l) st' s').
Proof.
  revert I. induction l as [|x t IH]; intros I s st Hf H0; cbn [p_try_fold].
  - apply vspec_ret. intros st' E. injection E as <-. exact H0.
  - apply vspec_try. eapply vspec_conseq; [apply (Hf O x st s eq_refl H0)|].
    intros [st'|e] s' H1; [|intros ? E; discriminate].
    apply (IH (fun j => I (Datatypes.S j)) s' st'); [|apply H1; reflexivity].
    intros j y st2 s2 Hj. apply (Hf (Datatypes.S j)). exact Hj.
Qed.
End Verifier.

Lemma vspec_forces W ph {B} (m : vprog (result B)) vs (Q : assignment -> B -> Prop) :
  (forall s, vspec W ph s vs m (fun r _ => forall b, r = Ok b -> Q s b)) -> forces W ph m vs Q.
Proof. intros H b vs' s E Hs. exact (H s (Ok b) vs' E Hs b eq_refl). Qed.

(** *** Values held by the prover *)
Record grew (k r : nat) (s s' : prover) : Prop := {
  gr_wf : pwf s;
  gr_wf' : pwf s';
  gr_ext : pext s s';
  gr_deferred : p_deferred s' = p_deferred s;
  gr_pending : p_pending s' = p_pending s;
  gr_mult : length (p_aL s') = (length (p_aL s) + k)%nat;
  gr_rand : p_nrand s' = (p_nrand s + r)%nat
}.

Lemma grew_refl s : pwf s -> grew 0 0 s s.
Proof. intros H. constructor; auto using pext_refl; lia. Qed.

Lemma grew_trans k r k' r' s1 s2 s3 : grew k r s1 s2 -> grew k' r' s2 s3 -> grew (k + k') (r + r') s1 s3.
Proof.
  intros H1 H2. destruct H1, H2. constructor; auto; try congruence; try lia.
  eapply pext_trans; [| |eassumption|eassumption]; assumption.
Qed.

Lemma settled_taken s v : settled s v <-> ptaken s v.
Proof. destruct v; simpl; tauto. Qed.

Lemma settled_in_range s v : settled s v -> var_in_range (length (p_aL s)) (length (p_v s)) v.
Proof. destruct v; simpl; tauto. Qed.

Lemma settled_ext s s' v : pwf s -> pext s s' -> settled s v -> settled s' v.
Proof.
  intros Hwf Hx. pose proof (prefix_length _ _ (px_aL _ _ Hx)). pose proof (prefix_length _ _ (px_v _ _ Hx)).
  assert (Hp : forall i, (i < length (p_aL s))%nat /\ p_pending s <> Some i -> (i < length (p_aL s'))%nat /\ p_pending s' <> Some i).
  { intros i [H1 H2]. split; [lia|]. intros E. destruct (px_pending _ _ Hx i E); [contradiction|lia]. }
  destruct v; simpl; auto; lia.
Qed.

Lemma has_value_ext s s' v x : pwf s -> pext s s' -> has_value s v x -> has_value s' v x.
Proof.
  intros Hwf Hx [H1 H2]. split; [eapply settled_ext; eassumption|].
  rewrite <- H2. apply taken_value; [exact Hwf|exact Hx|apply settled_taken; exact H1].
Qed.

Lemma has_value_grew k r s s' v x : grew k r s s' -> has_value s v x -> has_value s' v x.
Proof. intros Hg. apply has_value_ext; apply Hg. Qed.

Lemma has_value_fun s v x y : has_value s v x -> has_value s v y -> x = y.
Proof. intros [_ <-] [_ <-]. reflexivity. Qed.

Definition lc_has (s : prover) (l : lc) (x : F) : Prop :=
  (forall v c, In (v, c) l -> settled s v) /\ lc_value (prover_assignment s) l = x.

Lemma lc_has_grew k r s s' l x : grew k r s s' -> lc_has s l x -> lc_has s' l x.
Proof.
  intros Hg [H1 H2]. split.
  - intros v c Hv. eapply settled_ext; [apply (gr_wf _ _ _ _ Hg)|apply Hg|eauto].
  - rewrite <- H2. clear H2. induction l as [|[v c] t IH]; [reflexivity|]. cbn [lc_value].
    rewrite IH by (intros w d Hw; apply (H1 w d); right; exact Hw).
    destruct (has_value_grew k r s s' v _ Hg (conj (H1 v c (or_introl eq_refl)) eq_refl)) as [_ ->]. reflexivity.
Qed.

Lemma lc_has_eq s l x y : lc_has s l x -> x = y -> lc_has s l y.
Proof. intros H <-. exact H. Qed.
Lemma lc_has_nil s : lc_has s [] 0.
Proof. split; [intros v c []|reflexivity]. Qed.
Lemma lc_has_cons s v c l x y : has_value s v x -> lc_has s l y -> lc_has s ((v, c) :: l) (c * x + y).
Proof.
  intros [H1 H2] [H3 H4]. split.
  - intros w d [E|Hw]; [injection E as <- <-; assumption|eauto].
  - cbn [lc_value]. rewrite H2, H4. reflexivity.
Qed.
Lemma lc_has_app s a b x y : lc_has s a x -> lc_has s b y -> lc_has s (a ++ b) (x + y).
Proof.
  intros [H1 H2] [H3 H4]. split.
  - intros v c Hv. apply in_app_iff in Hv as [Hv|Hv]; eauto.
  - rewrite lc_value_app, H2, H4. reflexivity.
Qed.
Lemma lc_has_add s a b x y : lc_has s a x -> lc_has s b y -> lc_has s (lc_add a b) (x + y).
Proof. apply lc_has_app. Qed.
Lemma lc_has_map s (f : var * F -> var * F) a x y :
  (forall v c, fst (f (v, c)) = v) -> lc_has s a x -> lc_value (prover_assignment s) (map f a) = y -> lc_has s (map f a) y.
Proof.
  intros Hf [H1 _] E. split; [|exact E]. intros v c Hv. apply in_map_iff in Hv as [[w d] [Ef Hw]].
  apply (H1 w d) in Hw. specialize (Hf w d). rewrite Ef in Hf. simpl in Hf. subst. exact Hw.
Qed.
Lemma lc_has_neg s a x : lc_has s a x -> lc_has s (lc_neg a) (- x).
Proof.
  intros H. apply (lc_has_map s _ a x); [reflexivity|exact H|].
  change (lc_value (prover_assignment s) (lc_neg a) = - x). rewrite lc_value_neg. destruct H as [_ ->]. reflexivity.
Qed.
Lemma lc_has_sub s a b x y : lc_has s a x -> lc_has s b y -> lc_has s (lc_sub a b) (x - y).
Proof.
  intros H1 H2. apply (lc_has_eq s _ (x + - y)); [|ring]. apply lc_has_app; [exact H1|].
  apply (lc_has_neg s b y H2).
Qed.
Lemma lc_has_mul s c a x : lc_has s a x -> lc_has s (fe_mul_lc c a) (c * x).
Proof.
  intros H. apply (lc_has_map s _ a x); [reflexivity|exact H|].
  change (lc_value (prover_assignment s) (fe_mul_lc c a) = c * x). rewrite lc_value_fe_mul. destruct H as [_ ->]. reflexivity.
Qed.
Lemma lc_has_var s v x : has_value s v x -> lc_has s (lc_of_var v) x.
Proof. intros H. eapply lc_has_eq; [apply lc_has_cons; [exact H|apply lc_has_nil]|ring]. Qed.
Lemma has_value_one s : has_value s VOne 1.
Proof. split; [exact I|reflexivity]. Qed.
Lemma lc_has_fe s c : lc_has s (lc_of_fe c) c.
Proof. eapply lc_has_eq; [apply lc_has_cons; [apply has_value_one|apply lc_has_nil]|ring]. Qed.
Lemma lc_has_var_sub s v l x y : has_value s v x -> lc_has s l y -> lc_has s (var_sub_lc v l) (x - y).
Proof. intros H1 H2. apply lc_has_sub; [apply lc_has_var; exact H1|exact H2]. Qed.
Lemma lc_has_var_add s v l x y : has_value s v x -> lc_has s l y -> lc_has s (var_add_lc v l) (x + y).
Proof. intros H1 H2. apply lc_has_app; [apply lc_has_var; exact H1|exact H2]. Qed.
Lemma lc_same_sym a b : lc_same a b -> lc_same b a.
Proof. intros [H1 H2]. split; intros v; symmetry; auto. Qed.
Lemma lc_same_trans a b c : lc_same a b -> lc_same b c -> lc_same a c.
Proof. intros [H1 H2] [H3 H4]. split; intros v; [rewrite H1; apply H3|rewrite H2; apply H4]. Qed.
Lemma accumulate_perm_same c d : Permutation (lc_accumulate c) d -> lc_same c d.
Proof.
  intros H. split; intros v.
  - rewrite <- (coeff_perm v _ _ H). symmetry. apply lc_accumulate_coeff.
  - rewrite <- lc_accumulate_keys. split; apply Permutation_in; [|apply Permutation_sym]; apply Permutation_map; exact H.
Qed.
Lemma lc_has_same s a b x : lc_same a b -> lc_has s a x -> lc_has s b x.
Proof.
  intros [H1 H2] [H3 H4]. split.
  - intros v c Hv. assert (Hm : In v (map fst a)).
    { apply H2. apply in_map_iff. exists (v, c). split; [reflexivity|exact Hv]. }
    apply in_map_iff in Hm as [[w d] [E Hw]]. simpl in E. subst. eauto.
  - rewrite <- H4. symmetry. apply lc_equiv_value. exact H1.
Qed.

Lemma lc_has_in_range s l x : lc_has s l x -> lc_in_range (length (p_aL s)) (length (p_v s)) l.
Proof. intros [H _] v c Hv. apply settled_in_range. eauto. Qed.

Lemma lc_has_eval s l x : pwf s -> lc_has s l x -> prover_eval s l = Done x.
Proof.
  intros Hwf H. rewrite prover_eval_ok; [|exact Hwf|eapply lc_has_in_range; exact H].
  destruct H as [_ ->]. reflexivity.
Qed.

Lemma honest_has s : honest s <-> forall l, In l (p_constraints s) -> lc_has s l 0.
Proof. reflexivity. Qed.

(** constraints of the old state keep holding *)
Lemma honest_grew k r s s' new : grew k r s s' -> p_constraints s' = p_constraints s ++ new -> honest s ->
  (forall l, In l new -> lc_has s' l 0) -> honest s'.
Proof.
  intros Hg E H Hn l Hl. rewrite E in Hl. apply in_app_iff in Hl as [Hl|Hl].
  - apply (lc_has_grew k r s s'); [exact Hg|]. apply H. exact Hl.
  - apply Hn. exact Hl.
Qed.

(** *** Both sides in step *)
Section Both.
Context (W W' : world) (ph : bool).

Definition both (k r : nat) {A B} (m : pprog A) (m' : vprog B) (ps : prover) (vs : verifier)
  (Q : A -> B -> prover -> Prop) : Prop :=
  honest ps -> sync_base ps vs -> exists a ps' b vs',
    prun W ph m ps = Done (a, ps') /\ vrun W' ph m' vs = Done (b, vs') /\
    grew k r ps ps' /\ honest ps' /\ sync_base ps' vs' /\ v_deferred vs' = v_deferred vs /\ Q a b ps'.

Lemma both_cost k r k' r' {A B} (m : pprog A) (m' : vprog B) ps vs Q :
  both k r m m' ps vs Q -> k = k' -> r = r' -> both k' r' m m' ps vs Q.
Proof. intros H -> ->. exact H. Qed.

Lemma both_conseq k r {A B} (m : pprog A) (m' : vprog B) ps vs (Q Q' : A -> B -> prover -> Prop) :
  both k r m m' ps vs Q ->
  (forall a b ps', grew k r ps ps' -> Q a b ps' -> Q' a b ps') -> both k r m m' ps vs Q'.
Proof.
  intros H HQ Hh Hs. destruct (H Hh Hs) as (a & ps' & b & vs' & E & E' & Hg & Hh' & Hs' & Hd & Hq).
  exists a, ps', b, vs'. repeat (split; [assumption|]). apply HQ; assumption.
Qed.

Lemma both_bind k1 r1 k2 r2 {A B A' B'} (m : pprog A) (m' : vprog B) (f : A -> pprog A') (f' : B -> vprog B') ps vs
  (Q : A -> B -> prover -> Prop) (Q' : A' -> B' -> prover -> Prop) :
  both k1 r1 m m' ps vs Q ->
  (forall a b ps' vs', grew k1 r1 ps ps' -> Q a b ps' -> both k2 r2 (f a) (f' b) ps' vs' Q') ->
  both (k1 + k2) (r1 + r2) (pbind m f) (pbind m' f') ps vs Q'.
Proof.
  intros H Hf Hh Hs. destruct (H Hh Hs) as (a & ps' & b & vs' & E & E' & Hg & Hh' & Hs' & Hd & Hq).
  destruct (Hf a b ps' vs' Hg Hq Hh' Hs') as (a2 & ps2 & b2 & vs2 & E2 & E2' & Hg2 & Hh2 & Hs2 & Hd2 & Hq2).
  exists a2, ps2, b2, vs2. rewrite prun_bind, E, vrun_bind, E'. cbn [obind].
  split; [exact E2|]. split; [exact E2'|]. split; [eapply grew_trans; eassumption|].
  repeat (split; [assumption|]). split; [congruence|assumption].
Qed.

Lemma both_try k1 r1 k2 r2 {A B A' B'} (m : pprog (result A)) (m' : vprog (result B))
  (f : A -> pprog (result A')) (f' : B -> vprog (result B')) ps vs
  (Q : A -> B -> prover -> Prop) (Q' : result A' -> result B' -> prover -> Prop) :
  both k1 r1 m m' ps vs (fun ra rb ps' => exists a b, ra = Ok a /\ rb = Ok b /\ Q a b ps') ->
  (forall a b ps' vs', grew k1 r1 ps ps' -> Q a b ps' -> both k2 r2 (f a) (f' b) ps' vs' Q') ->
  both (k1 + k2) (r1 + r2) (ptry m f) (ptry m' f') ps vs Q'.
Proof.
  intros H Hf. unfold ptry. eapply both_bind; [exact H|].
  intros ra rb ps' vs' Hg (a & b & -> & -> & Hq). apply Hf; assumption.
Qed.

Lemma both_ret {A B} (a : A) (b : B) ps vs (Q : A -> B -> prover -> Prop) : Q a b ps -> both 0 0 (PRet a) (PRet b) ps vs Q.
Proof.
  intros H Hh Hs. exists a, ps, b, vs. pose proof (grew_refl ps (sy_wf _ _ Hs)). auto 10.
Qed.

(** a computation on the prover's side only *)
Lemma both_bind_l k r {A B A'} a (m : pprog A) (f : A -> pprog A') (m' : vprog B) ps vs Q :
  m = PRet a -> both k r (f a) m' ps vs Q -> both k r (pbind m f) m' ps vs Q.
Proof. intros -> H. exact H. Qed.

Lemma both_constrain l l' ps vs (Q : unit -> unit -> prover -> Prop) :
  lc_same l l' -> lc_has ps l 0 -> (forall ps', grew 0 0 ps ps' -> Q tt tt ps') ->
  both 0 0 (cs_constrain l) (cs_constrain l') ps vs Q.
Proof.
  intros Hl H0 HQ Hh Hs. pose proof (sy_wf _ _ Hs) as Hwf.
  assert (Hg : grew 0 0 ps (prover_constrain l ps)).
  { constructor; auto using pwf_constrain; try (simpl; lia).
    eapply (prun_pext W ph (cs_constrain l) ps tt); [assumption|reflexivity]. }
  exists tt, (prover_constrain l ps), tt, (verifier_constrain l' vs).
  split; [reflexivity|]. split; [reflexivity|]. split; [exact Hg|]. split; [|split; [|split; [reflexivity|auto]]].
  - eapply honest_grew; [exact Hg|reflexivity|exact Hh|]. intros x [<-|[]].
    eapply lc_has_grew; [exact Hg|exact H0].
  - destruct Hs as [H1 H2 H3 H4 H5 H6]. constructor; simpl; auto using pwf_constrain.
    apply Forall2_snoc; assumption.
Qed.

Lemma fresh_values x y ps ps' : pwf ps -> p_aL ps' = p_aL ps ++ [x] -> p_aR ps' = p_aR ps ++ [y] ->
  p_aO ps' = p_aO ps ++ [x * y] -> p_pending ps' = p_pending ps ->
  has_value ps' (VLeft (length (p_aL ps))) x /\ has_value ps' (VRight (length (p_aL ps))) y /\
  has_value ps' (VOut (length (p_aL ps))) (x * y).
Proof.
  intros Hwf E1 E2 E3 E4.
  assert (Hp : p_pending ps <> Some (length (p_aL ps))).
  { intros E. apply (pwf_pending _ Hwf) in E. lia. }
  unfold has_value, settled, prover_assignment, assignment_of, var_value, as_left, as_right, as_out.
  rewrite E1, E2, E3, E4, !nth_snoc, app_length, (pwf_aR _ Hwf), (pwf_aO _ Hwf), Nat.eqb_refl. simpl.
  repeat split; auto; lia.
Qed.

Lemma both_multiply l r l' r' x y ps vs (Q : var * var * var -> var * var * var -> prover -> Prop) :
  lc_same l l' -> lc_same r r' -> lc_has ps l x -> lc_has ps r y ->
  (forall ps' vl vr vo, grew 1 0 ps ps' -> has_value ps' vl x -> has_value ps' vr y -> has_value ps' vo (x * y) ->
     Q (vl, vr, vo) (vl, vr, vo) ps') ->
  both 1 0 (cs_multiply l r) (cs_multiply l' r') ps vs Q.
Proof.
  intros Sl Sr Hl Hr HQ Hh Hs. pose proof (sy_wf _ _ Hs) as Hwf.
  pose proof (lc_has_eval _ _ _ Hwf Hl) as El. pose proof (lc_has_eval _ _ _ Hwf Hr) as Er.
  assert (E : exists p ps', prover_multiply l r ps = Done (p, ps')).
  { unfold prover_multiply. rewrite El, Er. cbn. eauto. }
  destruct E as (p & ps' & E).
  destruct (sync_multiply _ _ _ _ _ _ _ _ Hs Sl Sr E) as (vs' & Ev & Hs' & D1 & D2 & _ & _).
  pose proof (pwf_multiply _ _ _ _ _ Hwf E) as Hwf'. pose proof (pext_multiply _ _ _ _ _ E) as Hx.
  unfold prover_multiply in E. rewrite El, Er in E. cbn in E. injection E as <- <-.
  match type of Hs' with sync_base ?s _ => set (ps' := s) in * end.
  assert (Hg : grew 1 0 ps ps').
  { constructor; auto; try reflexivity; try (simpl; rewrite ?app_length; simpl; lia). }
  destruct (fresh_values x y ps ps' Hwf eq_refl eq_refl eq_refl eq_refl) as (V1 & V2 & V3).
  rewrite (pwf_aR _ Hwf), (pwf_aO _ Hwf) in Ev.
  exists (VLeft (length (p_aL ps)), VRight (length (p_aL ps)), VOut (length (p_aL ps))), ps'.
  eexists _, vs'. split.
  { cbn [cs_multiply prun]. unfold prover_multiply. rewrite El, Er. cbn. unfold ps'.
    rewrite (pwf_aR _ Hwf), (pwf_aO _ Hwf). reflexivity. }
  split. { cbn [cs_multiply vrun]. rewrite Ev. reflexivity. }
  split; [exact Hg|]. split; [|split; [exact Hs'|split; [congruence|apply HQ; auto]]].
  eapply honest_grew; [exact Hg| |exact Hh|].
  - unfold ps'. cbn. rewrite <- app_assoc. reflexivity.
  - rewrite (pwf_aR _ Hwf). intros c [<-|[<-|[]]].
    + eapply lc_has_eq; [apply lc_has_app; [eapply lc_has_grew; [exact Hg|exact Hl]|
        apply lc_has_cons; [exact V1|apply lc_has_nil]]|ring].
    + eapply lc_has_eq; [apply lc_has_app; [eapply lc_has_grew; [exact Hg|exact Hr]|
        apply lc_has_cons; [exact V2|apply lc_has_nil]]|ring].
Qed.

Lemma both_allocate_multiplier x y o ps vs (Q : result (var * var * var) -> result (var * var * var) -> prover -> Prop) :
  (forall ps' vl vr vo, grew 1 0 ps ps' -> has_value ps' vl x -> has_value ps' vr y -> has_value ps' vo (x * y) ->
     Q (Ok (vl, vr, vo)) (Ok (vl, vr, vo)) ps') ->
  both 1 0 (cs_allocate_multiplier (Some (x, y))) (cs_allocate_multiplier o) ps vs Q.
Proof.
  intros HQ Hh Hs. pose proof (sy_wf _ _ Hs) as Hwf.
  set (ps' := snd (prover_allocate_vars x y (x * y) ps)).
  assert (Hwf' : pwf ps') by (apply pwf_alloc_vars; exact Hwf).
  assert (Hx : pext ps ps') by (exact (pext_allocate_multiplier (Some (x, y)) ps)).
  assert (Hg : grew 1 0 ps ps').
  { constructor; auto; try reflexivity; try (simpl; rewrite ?app_length; simpl; lia). }
  destruct (fresh_values x y ps ps' Hwf eq_refl eq_refl eq_refl eq_refl) as (V1 & V2 & V3).
  exists (Ok (VLeft (length (p_aL ps)), VRight (length (p_aL ps)), VOut (length (p_aL ps)))), ps'.
  eexists _, _. split.
  { cbn. rewrite (pwf_aR _ Hwf), (pwf_aO _ Hwf). reflexivity. }
  split; [reflexivity|]. split; [exact Hg|]. split; [|split; [|split; [reflexivity|]]].
  - eapply (honest_grew _ _ _ _ []); [exact Hg|symmetry; apply app_nil_r|exact Hh|]. intros l [].
  - destruct Hs as [H1 H2 H3 H4 H5 H6]. constructor; cbn; auto. rewrite app_length. cbn. lia.
  - rewrite (sy_num_vars _ _ Hs). apply HQ; auto.
Qed.

Lemma both_evaluate l l' x ps vs (Q : option F -> option F -> prover -> Prop) :
  lc_has ps l x -> Q (Some x) None ps -> both 0 0 (cs_evaluate l) (cs_evaluate l') ps vs Q.
Proof.
  intros Hl HQ Hh Hs. pose proof (sy_wf _ _ Hs) as Hwf.
  exists (Some x), ps, None, vs. cbn [cs_evaluate prun vrun]. rewrite (lc_has_eval _ _ _ Hwf Hl).
  pose proof (grew_refl ps Hwf). auto 10.
Qed.

Lemma both_lift {A B} (o : outcome A) (o' : outcome B) a b ps vs (Q : A -> B -> prover -> Prop) :
  o = Done a -> o' = Done b -> Q a b ps -> both 0 0 (p_lift o) (p_lift o') ps vs Q.
Proof. intros -> -> H. apply both_ret. exact H. Qed.

Lemma both_random k r {A B} (f : F -> pprog A) (m' : vprog B) ps vs Q :
  (forall ps', grew 0 1 ps ps' -> both k r (f (w_random W (p_nrand ps))) m' ps' vs Q) ->
  both k (S r) (pbind p_random f) m' ps vs Q.
Proof.
  intros H Hh Hs. pose proof (sy_wf _ _ Hs) as Hwf.
  set (ps1 := p_with_nrand (S (p_nrand ps)) ps).
  assert (Hwf1 : pwf ps1) by (eapply pwf_same_wires; [..|exact Hwf]; reflexivity).
  assert (Hg : grew 0 1 ps ps1).
  { constructor; auto; try (simpl; lia).
    eapply (prun_pext W ph p_random ps); [assumption|reflexivity]. }
  assert (Hh1 : honest ps1).
  { eapply (honest_grew _ _ _ _ []); [exact Hg|symmetry; apply app_nil_r|exact Hh|]. intros l []. }
  assert (Hs1 : sync_base ps1 vs).
  { destruct Hs as [H1 H2 H3 H4 H5 H6]. constructor; auto. }
  destruct (H ps1 Hg Hh1 Hs1) as (a & ps' & b & vs' & E & E' & Hg' & Hrest).
  exists a, ps', b, vs'. split; [exact E|]. split; [exact E'|].
  split; [|exact Hrest]. exact (grew_trans 0 1 k r _ _ _ Hg Hg').
Qed.

Lemma both_shuffle l l' ps vs (Q : lc -> lc -> prover -> Prop) :
  (forall m m' ps', grew 0 0 ps ps' -> Permutation l m -> Permutation l' m' -> Q m m' ps') ->
  both 0 0 (PShuffle l PRet) (PShuffle l' PRet) ps vs Q.
Proof.
  intros HQ Hh Hs. pose proof (sy_wf _ _ Hs) as Hwf.
  set (ps1 := p_with_norder (S (p_norder ps)) ps).
  assert (Hwf1 : pwf ps1) by (eapply pwf_same_wires; [..|exact Hwf]; reflexivity).
  assert (Hg : grew 0 0 ps ps1).
  { constructor; auto; try (simpl; lia).
    eapply (prun_pext W ph (PShuffle [] PRet) ps); [assumption|reflexivity]. }
  eexists _, ps1, _, _. split; [reflexivity|]. split; [reflexivity|].
  split; [exact Hg|]. split; [|split; [|split; [reflexivity|apply HQ; auto; apply permute_perm]]].
  - eapply (honest_grew _ _ _ _ []); [exact Hg|symmetry; apply app_nil_r|exact Hh|]. intros c [].
  - destruct Hs as [H1 H2 H3 H4 H5 H6]. constructor; auto.
Qed.

Lemma both_simplify l l' ps vs (Q : lc -> lc -> prover -> Prop) :
  lc_same l l' ->
  (forall m m' ps', grew 0 0 ps ps' -> lc_same l m -> lc_same m m' -> Q m m' ps') ->
  both 0 0 (p_simplify l) (p_simplify l') ps vs Q.
Proof.
  intros Hl HQ. apply both_shuffle. intros m m' ps' Hg H1 H2.
  apply accumulate_perm_same in H1. apply accumulate_perm_same in H2. apply HQ; auto.
  eapply lc_same_trans; [apply lc_same_sym; exact H1|]. eapply lc_same_trans; [exact Hl|exact H2].
Qed.

Lemma both_singles k r x y o o' {A B} (c1 : result (var * option var) -> pprog A) c2
  (c1' : result (var * option var) -> vprog B) c2' ps vs (Q : A -> B -> prover -> Prop) :
  p_pending ps = None ->
  (forall i, c1 (Ok (VLeft i, None)) = PAllocSingle (Some y) (c2 i)) ->
  (forall i, c1' (Ok (VLeft i, None)) = PAllocSingle o' (c2' i)) ->
  (forall i ps' vs', grew 1 0 ps ps' -> has_value ps' (VLeft i) x -> has_value ps' (VRight i) y ->
     has_value ps' (VOut i) (x * y) ->
     both k r (c2 i (Ok (VRight i, Some (VOut i)))) (c2' i (Ok (VRight i, Some (VOut i)))) ps' vs' Q) ->
  both (S k) r (PAllocSingle (Some x) c1) (PAllocSingle o c1') ps vs Q.
Proof.
  intros Hp H1 H2 HK Hh Hs. pose proof (sy_wf _ _ Hs) as Hwf.
  set (i := length (p_aL ps)).
  assert (E1 : prover_allocate_single (Some x) ps = Done (Ok (VLeft i, None),
     p_with_wires (p_aL ps ++ [x]) (p_aR ps ++ [0]) (p_aO ps ++ [0]) (p_with_pending (Some i) ps))).
  { unfold prover_allocate_single, prover_allocate. rewrite Hp. reflexivity. }
  match type of E1 with _ = Done (_, ?s) => set (ps1 := s) in * end.
  assert (Hwf1 : pwf ps1) by (eapply pwf_allocate_single; [exact Hwf|exact E1]).
  assert (E2 : exists r2 ps2, prover_allocate_single (Some y) ps1 = Done (r2, ps2)).
  { unfold prover_allocate_single, prover_allocate. cbn [p_pending ps1 p_with_wires p_with_pending p_aR p_aL p_aO].
    destruct (set_nth_ok (p_aR ps ++ [0]) i y) as [aR EaR]; [rewrite app_length, (pwf_aR _ Hwf); simpl; unfold i; lia|].
    rewrite EaR. cbn [obind]. rewrite (index_ok _ i 0) by (rewrite app_length; simpl; unfold i; lia). cbn [obind].
    rewrite (index_ok _ i 0) by (rewrite (set_nth_length _ _ _ _ EaR), app_length, (pwf_aR _ Hwf); simpl; unfold i; lia). cbn [obind].
    match goal with |- context [set_nth ?l ?j ?z] => destruct (set_nth_ok l j z) as [aO EaO]; [rewrite app_length, (pwf_aO _ Hwf); simpl; unfold i; lia|] end.
    rewrite EaO. cbn. eauto. }
  destruct E2 as (r2 & ps2 & E2).
  destruct (sync_allocate_single _ _ _ _ _ Hs E1) as (vs1 & v & w & Ev1 & Er & Hs1 & D1 & D2 & _).
  destruct (sync_allocate_single _ _ _ _ _ Hs1 E2) as (vs2 & v2 & w2 & Ev2 & Er2 & Hs2 & D3 & D4 & _).
  assert (Hwf2 : pwf ps2) by (apply (sy_wf _ _ Hs2)).
  assert (Hx2 : pext ps1 ps2) by (eapply pext_allocate_single; eassumption).
  assert (Hx1 : pext ps ps1) by (eapply pext_allocate_single; eassumption).
  assert (Hall : r2 = Ok (VRight i, Some (VOut i)) /\ p_pending ps2 = None /\ p_aL ps2 = p_aL ps ++ [x] /\
     nth i (p_aR ps2) 0 = y /\ nth i (p_aO ps2) 0 = x * y /\ p_constraints ps2 = p_constraints ps /\
     p_nrand ps2 = p_nrand ps).
  { unfold prover_allocate_single, prover_allocate in E2.
    cbn [p_pending ps1 p_with_wires p_with_pending p_aR p_aL p_aO] in E2.
    destruct (set_nth (p_aR ps ++ [0]) i y) as [aR|] eqn:EaR; [|discriminate]. cbn [obind] in E2.
    rewrite (index_ok _ i 0) in E2 by (rewrite app_length; simpl; unfold i; lia). cbn [obind] in E2.
    rewrite (index_ok _ i 0) in E2 by (rewrite (set_nth_length _ _ _ _ EaR), app_length, (pwf_aR _ Hwf); simpl; unfold i; lia).
    cbn [obind] in E2.
    match type of E2 with context [set_nth ?l ?j ?z] => destruct (set_nth l j z) as [aO|] eqn:EaO; [|discriminate] end.
    cbn in E2. injection E2 as <- <-. cbn. repeat (split; [reflexivity|]).
    rewrite (set_nth_nth _ _ _ _ i 0 EaO), (set_nth_nth _ _ _ _ i 0 EaR), Nat.eqb_refl. split; [reflexivity|].
    split; [|split; reflexivity].
    rewrite nth_snoc. unfold i. rewrite Nat.eqb_refl. reflexivity. }
  destruct Hall as (-> & Hp2 & EL & ER & EO & EC & EN).
  assert (Hg : grew 1 0 ps ps2).
  { constructor; auto; try congruence; try lia.
    - eapply pext_trans; [| |exact Hx1|exact Hx2]; assumption.
    - rewrite EL, app_length. simpl. lia. }
  assert (Hh2 : honest ps2).
  { eapply (honest_grew _ _ _ _ []); [exact Hg|rewrite EC; symmetry; apply app_nil_r|exact Hh|]. intros l []. }
  assert (Hi : (i < length (p_aL ps2))%nat) by (rewrite EL, app_length; simpl; unfold i; lia).
  destruct (HK i ps2 vs2 Hg) as (a & ps' & b & vs' & E & E' & Hg' & Hh' & Hs' & Hd' & HQ); auto.
  - split; [exact Hi|]. cbn. rewrite EL, nth_snoc. unfold i. rewrite Nat.eqb_refl. reflexivity.
  - split; [split; [exact Hi|congruence]|exact ER].
  - split; [split; [exact Hi|congruence]|exact EO].
  - exists a, ps', b, vs'. injection Er as <- <-.
    split. { cbn [prun]. rewrite E1. cbn [obind]. rewrite H1. cbn [prun]. rewrite E2. exact E. }
    split. { cbn [vrun]. rewrite Ev1. cbn [obind]. rewrite H2. cbn [vrun]. rewrite Ev2. exact E'. }
    split; [exact (grew_trans 1 0 k r _ _ _ Hg Hg')|]. repeat (split; [assumption|]). split; [congruence|exact HQ].
Qed.

(** loops over lists of the same length, constant cost per iteration *)
Lemma both_fold k r {A A' T T'} (f : T -> A -> pprog T) (f' : T' -> A' -> vprog T') l l' :
  forall ps vs st st' (I : nat -> T -> T' -> prover -> Prop),
  length l = length l' ->
  (forall j x x' st st' ps' vs', nth_error l j = Some x -> nth_error l' j = Some x' ->
     grew (j * k) (j * r) ps ps' -> I j st st' ps' -> both k r (f st x) (f' st' x') ps' vs' (I (S j))) ->
  (sync_base ps vs -> I O st st' ps) ->
  both (length l * k) (length l * r) (p_fold f l st) (p_fold f' l' st') ps vs (I (length l)).
Proof.
  revert l'. induction l as [|x t IH]; intros l' ps vs st st' I HL Hf H0; destruct l' as [|x' t']; try discriminate HL.
  - cbn [p_fold length Nat.mul]. intros Hh Hs. apply both_ret; auto.
  - cbn [p_fold length Nat.mul]. intros Hh Hs. generalize Hh Hs. change (both (k + length t * k) (r + length t * r)
      (pbind (f st x) (fun s' => p_fold f t s')) (pbind (f' st' x') (fun s' => p_fold f' t' s')) ps vs (I (S (length t)))).
    eapply both_bind.
    + apply (Hf O x x' st st' ps vs); auto. apply grew_refl. apply (sy_wf _ _ Hs).
    + intros a b ps1 vs1 Hg H1. apply (IH t' ps1 vs1 a b (fun j => I (S j))); [simpl in HL; lia| |auto].
      intros j y y' s2 s2' ps2 vs2 E E' Hg2. apply (Hf (S j) y y' s2 s2' ps2 vs2); [exact E|exact E'|].
      exact (grew_trans k r (j * k) (j * r) _ _ _ Hg Hg2).
Qed.

Lemma both_try_fold k r {A A' T T'} (f : T -> A -> pprog (result T)) (f' : T' -> A' -> vprog (result T')) l l' :
  forall ps vs st st' (I : nat -> T -> T' -> prover -> Prop),
  length l = length l' ->
  (forall j x x' st st' ps' vs', nth_error l j = Some x -> nth_error l' j = Some x' ->
     grew (j * k) (j * r) ps ps' -> I j st st' ps' -> both k r (f st x) (f' st' x') ps' vs'
       (fun a b ps2 => exists st2 st2', a = Ok st2 /\ b = Ok st2' /\ I (S j) st2 st2' ps2)) ->
  (sync_base ps vs -> I O st st' ps) ->
  both (length l * k) (length l * r) (p_try_fold f l st) (p_try_fold f' l' st') ps vs
    (fun a b ps2 => exists st2 st2', a = Ok st2 /\ b = Ok st2' /\ I (length l) st2 st2' ps2).
Proof.
  revert l'. induction l as [|x t IH]; intros l' ps vs st st' I HL Hf H0; destruct l' as [|x' t']; try discriminate HL.
  - cbn [p_try_fold length Nat.mul]. intros Hh Hs. apply both_ret; auto. exists st, st'. auto.
  - cbn [p_try_fold length Nat.mul]. intros Hh Hs. generalize Hh Hs.
    match goal with |- honest _ -> sync_base _ _ -> ?X => change (both (k + length t * k) (r + length t * r)
      (ptry (f st x) (fun s' => p_try_fold f t s')) (ptry (f' st' x') (fun s' => p_try_fold f' t' s')) ps vs
      (fun a b ps2 => exists st2 st2', a = Ok st2 /\ b = Ok st2' /\ I (S (length t)) st2 st2' ps2)) end.
    eapply both_try.
    + apply (Hf O x x' st st' ps vs); auto. apply grew_refl. apply (sy_wf _ _ Hs).
    + intros a b ps1 vs1 Hg H1. apply (IH t' ps1 vs1 a b (fun j => I (S j))); [simpl in HL; lia| |auto].
      intros j y y' s2 s2' ps2 vs2 E E' Hg2. apply (Hf (S j) y y' s2 s2' ps2 vs2); [exact E|exact E'|].
      exact (grew_trans k r (j * k) (j * r) _ _ _ Hg Hg2).
Qed.
End Both.

Lemma both_commit W W' v b c ps vs (Q : G1 * var -> var -> prover -> Prop) :
  c = commit (p_g ps) (p_h ps) v b ->
  (forall ps' w, grew 0 0 ps ps' -> has_value ps' w v -> Q (c, w) w ps') ->
  both W W' false 0 0 (cs_commit (v, b)) (cs_commit c) ps vs Q.
Proof.
  intros -> HQ Hh Hs. pose proof (sy_wf _ _ Hs) as Hwf.
  pose proof (pwf_commit v b ps Hwf) as Hwf'.
  set (ps' := snd (prover_commit v b ps)) in *.
  assert (Hx : pext ps ps') by (eapply (prun_pext W false (cs_commit (v, b)) ps); [exact Hwf|reflexivity]).
  assert (Hg : grew 0 0 ps ps') by (constructor; auto; simpl; lia).
  assert (HV : length (v_V vs) = length (p_v ps)).
  { rewrite (sy_V _ _ Hs), zipw_length, (pwf_vb _ Hwf), Nat.min_id. reflexivity. }
  exists (commit (p_g ps) (p_h ps) v b, VCommitted (length (p_v ps))), ps'.
  eexists _, _. split; [reflexivity|]. split; [reflexivity|]. split; [exact Hg|].
  split; [|split; [|split; [reflexivity|]]].
  - eapply (honest_grew _ _ _ _ []); [exact Hg|symmetry; apply app_nil_r|exact Hh|]. intros l [].
  - destruct Hs as [H1 H2 H3 H4 H5 H6]. constructor; simpl; auto; [rewrite H2; reflexivity|].
    rewrite zipw_snoc by (symmetry; apply (pwf_vb _ Hwf)). rewrite H5. reflexivity.
  - rewrite HV. apply HQ; [exact Hg|]. split; cbn; [rewrite app_length; simpl; lia|].
    rewrite nth_snoc, Nat.eqb_refl. reflexivity.
Qed.

(** *** Connection with the specification *)
Lemma session_sync ph ps vs : session ph ps vs -> honest ps /\ sync_base ps vs.
Proof.
  intros (H1 & H2 & H3). split; [exact H3|]. destruct H2. constructor; auto.
  eapply reachable_pwf. exact H1.
Qed.

Lemma both_completes W W' ph k r {A B} (m : pprog A) (m' : vprog B) ps vs a b :
  session ph ps vs -> both W W' ph k r m m' ps vs (fun a' b' _ => a' = a /\ b' = b) ->
  completes W W' ph m m' k ps vs a b.
Proof.
  intros Hs H. destruct (session_sync _ _ _ Hs) as [Hh Hy].
  destruct (H Hh Hy) as (a' & ps' & b' & vs' & E & E' & Hg & Hh' & Hs' & Hd & -> & ->).
  exists ps', vs'. split; [exact E|]. split; [exact E'|]. split; [apply sync_same; exact Hs'|].
  split; [exact Hh'|]. split; [apply Hg|]. split; [apply Hg|]. intros v x. apply (has_value_grew k r). exact Hg.
Qed.

(** *** Calls followed by a continuation *)
Section Cps.
Context (W W' : world) (ph : bool) {A B : Type}.
Local Notation both := (both W W' ph).

Lemma b_constrain k r l l' (f : unit -> pprog A) (f' : unit -> vprog B) ps vs Q :
  lc_same l l' -> lc_has ps l 0 ->
  (forall ps' vs', grew 0 0 ps ps' -> both k r (f tt) (f' tt) ps' vs' Q) ->
  both k r (pbind (cs_constrain l) f) (pbind (cs_constrain l') f') ps vs Q.
Proof.
  intros Hl H0 H. apply (both_bind W W' ph 0 0 k r _ _ f f' ps vs (fun _ _ _ => True)).
  - apply both_constrain; auto.
  - intros [] [] ps' vs' Hg _. apply H. exact Hg.
Qed.

Lemma b_multiply k r l r0 l' r0' x y (f : var * var * var -> pprog A) (f' : var * var * var -> vprog B) ps vs Q :
  lc_same l l' -> lc_same r0 r0' -> lc_has ps l x -> lc_has ps r0 y ->
  (forall ps' vs' vl vr vo, grew 1 0 ps ps' -> has_value ps' vl x -> has_value ps' vr y -> has_value ps' vo (x * y) ->
     both k r (f (vl, vr, vo)) (f' (vl, vr, vo)) ps' vs' Q) ->
  both (S k) r (pbind (cs_multiply l r0) f) (pbind (cs_multiply l' r0') f') ps vs Q.
Proof.
  intros Hl Hr H1 H2 H.
  apply (both_bind W W' ph 1 0 k r _ _ f f' ps vs (fun a b ps' => exists vl vr vo, a = (vl, vr, vo) /\ b = (vl, vr, vo) /\
     has_value ps' vl x /\ has_value ps' vr y /\ has_value ps' vo (x * y))).
  - apply (both_multiply W W' ph l r0 l' r0' x y); auto. intros ps' vl vr vo Hg V1 V2 V3. exists vl, vr, vo. auto.
  - intros a b ps' vs' Hg (vl & vr & vo & -> & -> & V1 & V2 & V3). apply H; assumption.
Qed.

Lemma b_evaluate k r l l' x (f : option F -> pprog A) (f' : option F -> vprog B) ps vs Q :
  lc_has ps l x -> both k r (f (Some x)) (f' None) ps vs Q ->
  both k r (pbind (cs_evaluate l) f) (pbind (cs_evaluate l') f') ps vs Q.
Proof.
  intros Hl H Hh Hs. cbn [pbind cs_evaluate]. destruct (H Hh Hs) as (a & ps' & b & vs' & E & E' & Hrest).
  exists a, ps', b, vs'. split; [|split; [exact E'|exact Hrest]].
  cbn [prun]. rewrite (lc_has_eval _ _ _ (sy_wf _ _ Hs) Hl). exact E.
Qed.

Lemma b_lift k r {A0 B0} (o : outcome A0) (o' : outcome B0) a b (f : A0 -> pprog A) (f' : B0 -> vprog B) ps vs Q :
  o = Done a -> o' = Done b -> both k r (f a) (f' b) ps vs Q ->
  both k r (pbind (p_lift o) f) (pbind (p_lift o') f') ps vs Q.
Proof. intros -> -> H. exact H. Qed.

Lemma b_simplify k r l l' (f : lc -> pprog A) (f' : lc -> vprog B) ps vs Q :
  lc_same l l' ->
  (forall m m' ps' vs', grew 0 0 ps ps' -> lc_same l m -> lc_same m m' -> both k r (f m) (f' m') ps' vs' Q) ->
  both k r (pbind (p_simplify l) f) (pbind (p_simplify l') f') ps vs Q.
Proof.
  intros Hl H. apply (both_bind W W' ph 0 0 k r _ _ f f' ps vs (fun m m' _ => lc_same l m /\ lc_same m m')).
  - apply both_simplify; auto.
  - intros m m' ps' vs' Hg [H1 H2]. apply H; assumption.
Qed.
End Cps.

Lemma b_allocate_multiplier W W' ph {A B} k r x y o (f : var * var * var -> pprog (result A))
  (f' : var * var * var -> vprog (result B)) ps vs Q :
  (forall ps' vs' vl vr vo, grew 1 0 ps ps' -> has_value ps' vl x -> has_value ps' vr y -> has_value ps' vo (x * y) ->
     both W W' ph k r (f (vl, vr, vo)) (f' (vl, vr, vo)) ps' vs' Q) ->
  both W W' ph (S k) r (ptry (cs_allocate_multiplier (Some (x, y))) f) (ptry (cs_allocate_multiplier o) f') ps vs Q.
Proof.
  intros H.
  apply (both_try W W' ph 1 0 k r _ _ f f' ps vs (fun a b ps' => exists vl vr vo, a = (vl, vr, vo) /\ b = (vl, vr, vo) /\
     has_value ps' vl x /\ has_value ps' vr y /\ has_value ps' vo (x * y))).
  - apply both_allocate_multiplier. intros ps' vl vr vo Hg V1 V2 V3.
    exists (vl, vr, vo), (vl, vr, vo). repeat (split; [reflexivity|]). exists vl, vr, vo. auto.
  - intros a b ps' vs' Hg (vl & vr & vo & -> & -> & V1 & V2 & V3). apply H; assumption.
Qed.

Lemma b_commit W W' {A B} k r v b c (f : G1 * var -> pprog A) (f' : var -> vprog B) ps vs Q :
  c = commit (p_g ps) (p_h ps) v b ->
  (forall ps' vs' w, grew 0 0 ps ps' -> has_value ps' w v -> both W W' false k r (f (c, w)) (f' w) ps' vs' Q) ->
  both W W' false k r (pbind (cs_commit (v, b)) f) (pbind (cs_commit c) f') ps vs Q.
Proof.
  intros Hc H. apply (both_bind W W' false 0 0 k r _ _ f f' ps vs (fun p w ps' => p = (c, w) /\ has_value ps' w v)).
  - apply both_commit; auto.
  - intros p w ps' vs' Hg [-> Hv]. apply H; assumption.
Qed.

(** a sub-gadget that returns [Ok] *)
Lemma b_gadget W W' ph {A B} k1 k2 r1 r2 (m : pprog (result unit)) (m' : vprog (result unit))
  (f : unit -> pprog (result A)) (f' : unit -> vprog (result B)) ps vs Q :
  both W W' ph k1 r1 m m' ps vs (fun a b _ => a = Ok tt /\ b = Ok tt) ->
  (forall ps' vs', grew k1 r1 ps ps' -> both W W' ph k2 r2 (f tt) (f' tt) ps' vs' Q) ->
  both W W' ph (k1 + k2) (r1 + r2) (ptry m f) (ptry m' f') ps vs Q.
Proof.
  intros H1 H. apply (both_try W W' ph k1 r1 k2 r2 _ _ f f' ps vs (fun _ _ _ => True)).
  - eapply both_conseq; [exact H1|]. intros a b ps' _ [-> ->]. exists tt, tt. auto.
  - intros [] [] ps' vs' Hg _. apply H. exact Hg.
Qed.

(** *** Specifications of successful runs, with continuations *)
Section Oks.
Context (W : world) (ph : bool) (asg : assignment).
Local Notation val := (var_value asg).

Definition okspec {B} (s : verifier) (m : vprog (result B)) (Q : B -> verifier -> Prop) : Prop :=
  vspec W ph asg s m (fun r s' => forall b, r = Ok b -> Q b s').

Lemma ok_ret {B} s (b : B) (Q : B -> verifier -> Prop) : Q b s -> okspec s (PRet (Ok b)) Q.
Proof. intros H. apply vspec_ret. intros b' E. injection E as <-. exact H. Qed.
Lemma ok_err {B} s e (Q : B -> verifier -> Prop) : okspec s (PRet (Err e)) Q.
Proof. apply vspec_ret. discriminate. Qed.
Lemma ok_conseq {B} s (m : vprog (result B)) (Q Q' : B -> verifier -> Prop) :
  okspec s m Q -> (forall b s', Q b s' -> Q' b s') -> okspec s m Q'.
Proof. intros H HQ. eapply vspec_conseq; [exact H|]. intros r s' H1 b E. apply HQ, H1, E. Qed.
Lemma ok_constrain {B} s l (f : unit -> vprog (result B)) Q :
  (forall s', vkeep s s' -> lc_value asg l = 0 -> okspec s' (f tt) Q) -> okspec s (pbind (cs_constrain l) f) Q.
Proof. intros H. apply vspec_bind, vspec_constrain. exact H. Qed.
Lemma ok_multiply {B} s l r (f : var * var * var -> vprog (result B)) Q :
  (forall s' vl vr vo, vkeep s s' -> val vl = lc_value asg l -> val vr = lc_value asg r ->
     val vo = lc_value asg l * lc_value asg r -> okspec s' (f (vl, vr, vo)) Q) -> okspec s (pbind (cs_multiply l r) f) Q.
Proof. intros H. apply vspec_bind, vspec_multiply. exact H. Qed.
Lemma ok_allocate_multiplier {B} s o (f : var * var * var -> vprog (result B)) Q :
  (forall s' vl vr vo, vkeep s s' -> val vo = val vl * val vr -> okspec s' (f (vl, vr, vo)) Q) ->
  okspec s (ptry (cs_allocate_multiplier o) f) Q.
Proof. intros H. apply vspec_try, vspec_allocate_multiplier. exact H. Qed.
Lemma ok_evaluate {B} s l (f : option F -> vprog (result B)) Q :
  okspec s (f None) Q -> okspec s (pbind (cs_evaluate l) f) Q.
Proof. intros H. apply vspec_bind, vspec_evaluate. exact H. Qed.
Lemma ok_commit {B} s c (f : var -> vprog (result B)) Q :
  (forall s', v_pending s' = v_pending s -> v_V s' = v_V s ++ [c] -> okspec s' (f (VCommitted (length (v_V s)))) Q) ->
  okspec s (pbind (cs_commit c) f) Q.
Proof. intros H. apply vspec_bind, vspec_commit. exact H. Qed.
Lemma ok_lift {A B} s (o : outcome A) (f : A -> vprog (result B)) Q :
  (forall a, o = Done a -> okspec s (f a) Q) -> okspec s (pbind (p_lift o) f) Q.
Proof. intros H. apply vspec_bind, vspec_lift. exact H. Qed.
Lemma ok_try {A B} s (m : vprog (result A)) (f : A -> vprog (result B)) Q1 Q :
  okspec s m Q1 -> (forall a s', Q1 a s' -> okspec s' (f a) Q) -> okspec s (ptry m f) Q.
Proof.
  intros H1 H. apply vspec_try. eapply vspec_conseq; [exact H1|]. intros [a|e] s' Ha.
  - apply H. apply Ha. reflexivity.
  - discriminate.
Qed.
Lemma ok_bind {A B} s (m : vprog A) (f : A -> vprog (result B)) Q1 Q :
  vspec W ph asg s m Q1 -> (forall a s', Q1 a s' -> okspec s' (f a) Q) -> okspec s (pbind m f) Q.
Proof. intros H1 H. apply vspec_bind. eapply vspec_conseq; [exact H1|]. exact H. Qed.
Lemma ok_try_fold {A S} (f : S -> A -> vprog (result S)) (I : nat -> S -> verifier -> Prop) l s st :
  (forall j x st s, nth_error l j = Some x -> I j st s -> okspec s (f st x) (I (Datatypes.S j))) ->
  I O st s -> okspec s (p_try_fold f l st) (I (length l)).
Proof. intros Hf H0. apply vspec_try_fold; assumption. Qed.
Lemma ok_simplify {B} s l (f : lc -> vprog (result B)) Q :
  (forall m s', vkeep s s' -> lc_value asg m = lc_value asg l -> okspec s' (f m) Q) -> okspec s (pbind (p_simplify l) f) Q.
Proof.
  intros H. apply vspec_bind. intros m s' E Hs. unfold p_simplify in E. cbn in E. injection E as <- <-.
  apply H; [split; reflexivity|]. rewrite <- (lc_accumulate_value asg l).
  symmetry. apply lc_value_perm. apply permute_perm.
Qed.
End Oks.

Lemma grew_g k r s s' : grew k r s s' -> p_g s' = p_g s.
Proof. intros H. apply (px_g _ _ (gr_ext _ _ _ _ H)). Qed.
Lemma grew_h k r s s' : grew k r s s' -> p_h s' = p_h s.
Proof. intros H. apply (px_h _ _ (gr_ext _ _ _ _ H)). Qed.
End Tools.

(** move everything known about the old state to the new one *)
Ltac carry Hg :=
  match type of Hg with grew _ _ ?ps _ =>
    repeat match goal with
    | H : has_value ps _ _ |- _ => apply (has_value_grew _ _ _ _ _ _ Hg) in H
    | H : lc_has ps _ _ |- _ => apply (lc_has_grew _ _ _ _ _ _ Hg) in H
    end
  end.

(** the value of a linear combination *)
Ltac lch0 :=
  repeat first
    [ eassumption
    | match goal with
      | |- lc_has _ (var_sub_lc _ _) _ => apply lc_has_var_sub
      | |- lc_has _ (var_add_lc _ _) _ => apply lc_has_var_add
      | |- lc_has _ (lc_sub _ _) _ => apply lc_has_sub
      | |- lc_has _ (lc_add _ _) _ => apply lc_has_add
      | |- lc_has _ (fe_mul_lc _ _) _ => apply lc_has_mul
      | |- lc_has _ (lc_neg _) _ => apply lc_has_neg
      | |- lc_has _ (lc_of_fe _) _ => apply lc_has_fe
      | |- lc_has _ (lc_of_var _) _ => apply lc_has_var
      | |- lc_has _ (_ :: _) _ => apply lc_has_cons
      | |- lc_has _ [] _ => apply lc_has_nil
      | |- lc_has _ (_ ++ _) _ => apply lc_has_app
      | |- has_value _ VOne _ => apply has_value_one
      end ].
Ltac lch := eapply lc_has_eq; [lch0|].

(** normalise the value of a linear combination *)
Ltac lcv H :=
  repeat progress rewrite ?lc_value_sub, ?lc_value_add, ?lc_value_var_sub, ?lc_value_var_add, ?lc_value_app, ?lc_value_neg,
    ?lc_value_fe_mul, ?lc_value_of_fe, ?lc_value_of_var, ?lc_value_fe_add_var, ?lc_value_fe_sub_var, ?lc_value_fe_mul_var,
    ?lc_value_var_neg in H;
  cbn [lc_value] in H.
