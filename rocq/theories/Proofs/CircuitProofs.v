(** The constraint-system API: multiply, second-phase callbacks. *)
From Coq Require Import ZArith String List Lia Bool Ring Field.
From Verif.Base Require Import Outcome Fp Params Algebra.
From Verif.Model Require Import Transcript LinComb Prog VectorPoly IPP Prover Verifier.
From Verif.Spec Require Import R1CS Protocol Callbacks Session.
From Verif.Proofs Require Import LinCombProofs RunProofs ExtProofs IPPProofs VerifyProofs ProveProofs.
Import ListNotations.

Section CircuitProofs.
Context {P : Params} {OK : ParamsOk P}.
Local Open Scope fe_scope.
Add Field FFcirc : (Fp_field_theory modulus modulus_prime).

Lemma prover_var_value_ok s v : pwf s -> var_in_range (length (p_aL s)) (length (p_v s)) v ->
  prover_var_value s v = Done (var_value (prover_assignment s) v).
Proof.
  intros Hwf Hv. destruct v as [i|i|i|i|]; simpl in *; try (apply (index_ok _ i 0)); auto.
  - rewrite (pwf_aR _ Hwf). assumption.
  - rewrite (pwf_aO _ Hwf). assumption.
Qed.

Lemma prover_eval_ok s l : pwf s -> lc_in_range (length (p_aL s)) (length (p_v s)) l ->
  prover_eval s l = Done (lc_value (prover_assignment s) l).
Proof.
  intros Hwf Hl. unfold prover_eval.
  assert (G : forall l a, lc_in_range (length (p_aL s)) (length (p_v s)) l ->
    foldM (fun sum '(v, coeff) => obind (prover_var_value s v) (fun val => Done (sum + coeff * val))) l a =
    Done (a + lc_value (prover_assignment s) l)).
  { clear l Hl. induction l as [|[v c] t IH]; intros a Hl; simpl; [f_equal; ring|].
    rewrite prover_var_value_ok; [|assumption|apply (Hl v c); left; reflexivity]. cbn [obind].
    rewrite IH; [f_equal; ring|]. intros w d Hd. apply (Hl w d). right. assumption. }
  rewrite G by assumption. f_equal. ring.
Qed.

Lemma prover_eval_panic s l v c : pwf s -> In (v, c) l -> ~ var_in_range (length (p_aL s)) (length (p_v s)) v ->
  prover_eval s l = Panic.
Proof.
  intros Hwf Hin Hv. unfold prover_eval. generalize (0 : F) as a. induction l as [|[w d] t IH]; intros a; simpl; [contradiction|].
  destruct Hin as [E|Hin].
  - injection E as -> ->. destruct v as [i|i|i|i|]; simpl in *; try tauto;
      rewrite index_out by (rewrite ?(pwf_aR _ Hwf), ?(pwf_aO _ Hwf); lia); reflexivity.
  - destruct (prover_var_value s w); [|reflexivity]. cbn [obind]. apply IH. assumption.
Qed.

Theorem prover_multiply_spec l r s : pwf s ->
  lc_in_range (length (p_aL s)) (length (p_v s)) l -> lc_in_range (length (p_aL s)) (length (p_v s)) r ->
  exists s' cl cr,
    let n := length (p_aL s) in
    let vl := lc_value (prover_assignment s) l in
    let vr := lc_value (prover_assignment s) r in
    prover_multiply l r s = Done ((VLeft n, VRight n, VOut n), s') /\
    var_value (prover_assignment s') (VLeft n) = vl /\
    var_value (prover_assignment s') (VRight n) = vr /\
    var_value (prover_assignment s') (VOut n) = vl * vr /\
    (forall v, var_in_range n (length (p_v s)) v ->
       var_value (prover_assignment s') v = var_value (prover_assignment s) v) /\
    p_constraints s' = p_constraints s ++ [cl; cr] /\
    (forall sigma, lc_value sigma cl = 0 <-> var_value sigma (VLeft n) = lc_value sigma l) /\
    (forall sigma, lc_value sigma cr = 0 <-> var_value sigma (VRight n) = lc_value sigma r).
Proof.
  intros Hwf Hl Hr. unfold prover_multiply.
  rewrite (prover_eval_ok s l), (prover_eval_ok s r) by assumption. cbn [obind prover_allocate_vars].
  rewrite (pwf_aR _ Hwf), (pwf_aO _ Hwf).
  eexists _, _, _. cbn zeta. split; [reflexivity|]. simpl.
  rewrite !nth_snoc, (pwf_aR _ Hwf), (pwf_aO _ Hwf), !Nat.eqb_refl.
  split; [reflexivity|]. split; [reflexivity|]. split; [reflexivity|]. split.
  { intros v Hv. destruct v as [i|i|i|i|]; simpl in *; try reflexivity; rewrite nth_snoc;
      rewrite ?(pwf_aR _ Hwf), ?(pwf_aO _ Hwf); (destruct (Nat.eqb_spec i (length (p_aL s))); [lia|reflexivity]). }
  split; [rewrite <- app_assoc; reflexivity|].
  split; intros sigma; rewrite lc_value_app; simpl; split; intros E.
  - apply F_sub_zero. transitivity (- (lc_value sigma l + (- (1) * as_left sigma (length (p_aL s)) + 0))); [ring|rewrite E; ring].
  - rewrite E. ring.
  - apply F_sub_zero. transitivity (- (lc_value sigma r + (- (1) * as_right sigma (length (p_aL s)) + 0))); [ring|rewrite E; ring].
  - rewrite E. ring.
Qed.

(** *** Second phase *)
Lemma p_ran_run W cbs s s' : p_ran W cbs s s' <-> prover_run_callbacks W cbs s = Done (Ok s').
Proof.
  split.
  - induction 1 as [|cb cbs s s1 s2 E _ IH]; simpl; [reflexivity|]. rewrite E. exact IH.
  - revert s; induction cbs as [|cb cbs IH]; intros s; simpl.
    + intros E. injection E as <-. constructor.
    + destruct (prun W true cb s) as [[[[]|] s1]|] eqn:E; try discriminate. intros E'. econstructor; eauto.
Qed.

Lemma p_failed_run W cbs s e : p_failed W cbs s e <-> prover_run_callbacks W cbs s = Done (Err e).
Proof.
  split.
  - intros (b & cb & a & s1 & s2 & -> & Hr & E). induction Hr as [|cb' cbs s s1 s3 E1 _ IH]; simpl.
    + rewrite E. reflexivity.
    + rewrite E1. apply IH. assumption.
  - revert s; induction cbs as [|cb cbs IH]; intros s; simpl; [discriminate|].
    destruct (prun W true cb s) as [[[[]|] s1]|] eqn:E; try discriminate.
    + intros E'. destruct (IH _ E') as (b & c & a & s3 & s2 & -> & Hr & E2).
      exists (cb :: b), c, a, s3, s2. split; [reflexivity|]. split; [|exact E2]. econstructor; eauto.
    + intros E'. cbn in E'. injection E' as <-. exists [], cb, cbs, s, s1. repeat split; auto. constructor.
Qed.

Lemma v_ran_run W cbs s s' : v_ran W cbs s s' <-> verifier_run_callbacks W cbs s = Done (Ok s').
Proof.
  split.
  - induction 1 as [|cb cbs s s1 s2 E _ IH]; simpl; [reflexivity|]. rewrite E. exact IH.
  - revert s; induction cbs as [|cb cbs IH]; intros s; simpl.
    + intros E. injection E as <-. constructor.
    + destruct (vrun W true cb s) as [[[[]|] s1]|] eqn:E; try discriminate. intros E'. econstructor; eauto.
Qed.

Lemma v_failed_run W cbs s e : v_failed W cbs s e <-> verifier_run_callbacks W cbs s = Done (Err e).
Proof.
  split.
  - intros (b & cb & a & s1 & s2 & -> & Hr & E). induction Hr as [|cb' cbs s s1 s3 E1 _ IH]; simpl.
    + rewrite E. reflexivity.
    + rewrite E1. apply IH. assumption.
  - revert s; induction cbs as [|cb cbs IH]; intros s; simpl; [discriminate|].
    destruct (vrun W true cb s) as [[[[]|] s1]|] eqn:E; try discriminate.
    + intros E'. destruct (IH _ E') as (b & c & a & s3 & s2 & -> & Hr & E2).
      exists (cb :: b), c, a, s3, s2. split; [reflexivity|]. split; [|exact E2]. econstructor; eauto.
    + intros E'. cbn in E'. injection E' as <-. exists [], cb, cbs, s, s1. repeat split; auto. constructor.
Qed.

Theorem prover_second_phase_spec W s :
  (p_deferred s = [] -> prover_create_randomized_constraints W s =
     Done (Ok (p_with_transcript (r1cs_1phase_domain_sep (p_transcript s)) (p_with_pending None s)))) /\
  (p_deferred s <> [] ->
     (forall s', prover_create_randomized_constraints W s = Done (Ok s') <-> p_ran W (p_deferred s) (p_start2 s) s') /\
     (forall e, prover_create_randomized_constraints W s = Done (Err e) <-> p_failed W (p_deferred s) (p_start2 s) e)).
Proof.
  unfold prover_create_randomized_constraints, p_start2. cbn [p_with_pending p_with_transcript p_deferred p_transcript].
  split; intros Hd.
  - rewrite Hd. reflexivity.
  - destruct (p_deferred s) as [|cb cbs] eqn:E; [congruence|].
    split; intros; [rewrite p_ran_run|rewrite p_failed_run]; reflexivity.
Qed.

Theorem verifier_second_phase_spec W s :
  (v_deferred s = [] -> verifier_create_randomized_constraints W s =
     Done (Ok (v_with_transcript (r1cs_1phase_domain_sep (v_transcript s)) (v_with_pending None s)))) /\
  (v_deferred s <> [] ->
     (forall s', verifier_create_randomized_constraints W s = Done (Ok s') <-> v_ran W (v_deferred s) (v_start2 s) s') /\
     (forall e, verifier_create_randomized_constraints W s = Done (Err e) <-> v_failed W (v_deferred s) (v_start2 s) e)).
Proof.
  unfold verifier_create_randomized_constraints, v_start2. cbn [v_with_pending v_with_transcript v_deferred v_transcript].
  split; intros Hd.
  - rewrite Hd. reflexivity.
  - destruct (v_deferred s) as [|cb cbs] eqn:E; [congruence|].
    split; intros; [rewrite v_ran_run|rewrite v_failed_run]; reflexivity.
Qed.

(** [prove] and [verify] up to the second phase *)
Lemma prove_phase2_eq W s G H : pwf s -> (length (p_aL s) <= length G)%nat -> (length (p_aL s) <= length H)%nat ->
  forall r, prover_create_randomized_constraints W (hp_state1 W s G H) = r ->
  match r with
  | Panic => prove W s G H = Panic
  | Done (Err e) => prove W s G H = Done (Err e)
  | Done (Ok s2) => (length G < next_power_of_two (length (p_aL s2)))%nat ->
                    prove W s G H = Done (Err InvalidGeneratorsLength)
  end.
Proof.
  intros Hwf HG HH r E. unfold prove.
  cbn [p_with_transcript p_with_nrand p_transcript p_aL p_aR p_aO p_g p_h p_v p_v_blinding p_nrand].
  pose proof (pwf_aR _ Hwf) as LaR. pose proof (pwf_aO _ Hwf) as LaO.
  set (n1 := length (p_aL s)) in *.
  destruct (Nat.ltb_spec (length G) n1); [lia|].
  rewrite (slice_to_ok s n1 G), (slice_to_ok s n1 H) by lia. cbn [obind].
  rewrite commit_vectors_ok by (rewrite firstn_length; fold n1; lia). cbn [obind].
  rewrite msm_checked_ok by (rewrite firstn_length; lia). cbn [obind].
  rewrite commit_vectors_ok by (rewrite firstn_length, randoms_length; lia). cbn [obind].
  match goal with |- context [prover_create_randomized_constraints W ?e] => change e with (hp_state1 W s G H) end.
  rewrite E. destruct r as [[s2|e]|]; cbn [orbind]; try reflexivity.
  intros Hlt. destruct (Nat.ltb_spec (length G) (next_power_of_two (length (p_aL s2)))); [reflexivity|lia].
Qed.

Lemma verify_phase2_eq W s proof g h G H r :
  verifier_create_randomized_constraints W
    (v_with_transcript (first_phase_transcript proof (length (v_V s)) (v_transcript s)) s) = r ->
  match r with
  | Panic => verify W s proof g h G H = Panic
  | Done (Err e) => verify W s proof g h G H = Done (Err e)
  | Done (Ok s2) => (length G < next_power_of_two (v_num_vars s2))%nat ->
                    verify W s proof g h G H = Done (Err InvalidGeneratorsLength)
  end.
Proof.
  intros E. unfold verify. unfold first_phase_transcript in E. rewrite E.
  destruct r as [[s2|e]|]; cbn [orbind]; try reflexivity.
  intros Hlt. destruct (Nat.ltb_spec (length G) (next_power_of_two (v_num_vars s2))); [reflexivity|lia].
Qed.
End CircuitProofs.
