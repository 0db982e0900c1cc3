(** Final forms of the circuit-building properties (C01-C10). *)
From Coq Require Import ZArith String List Lia Bool Ring Permutation Arith.
From Verif.Base Require Import Outcome Fp Params Algebra.
From Verif.Model Require Import Transcript LinComb Prog Prover Verifier.
From Verif.Spec Require Import R1CS Sim Session Protocol Handed Callbacks Verdict.
From Verif.Proofs Require Import LinCombProofs RunProofs FlattenProofs ProveProofs RoundTrip HandedProofs RootProofs ExtProofs VerifyProofs CircuitProofs VerdictProofs SyncMore.
Import ListNotations.

Section Main.
Context {P : Params} {OK : ParamsOk P}.
Local Open Scope fe_scope.
Add Field CMF : (Fp_field_theory modulus modulus_prime).

(** *** C02 *)
Lemma simplify_ok (code : list nat) (l : lc) :
  NoDup (map fst (lc_simplify code l)) /\
  (forall v, In v (map fst (lc_simplify code l)) <-> In v (map fst l)) /\
  (forall v, coeff v (lc_simplify code l) = coeff v l) /\
  (forall s, lc_value s (lc_simplify code l) = lc_value s l).
Proof.
  unfold lc_simplify. pose proof (permute_perm code (lc_accumulate l)) as HP.
  pose proof (Permutation_map fst HP) as HM. repeat split.
  - eapply Permutation_NoDup; [exact HM|]. apply lc_accumulate_nodup.
  - intros H. apply lc_accumulate_keys. eapply Permutation_in; [symmetry; exact HM|exact H].
  - intros H. eapply Permutation_in; [exact HM|]. apply lc_accumulate_keys; exact H.
  - intros v. rewrite <- (lc_accumulate_coeff v l). symmetry. apply coeff_perm. exact HP.
  - intros s. rewrite <- (lc_accumulate_value s l). symmetry. apply lc_value_perm. exact HP.
Qed.

Lemma simplify_run W W' ph l ps vs :
  (exists code, prun W ph (p_simplify l) ps = Done (lc_simplify code l, p_with_norder (S (p_norder ps)) ps)) /\
  (exists code, vrun W' ph (p_simplify l) vs = Done (lc_simplify code l, v_with_norder (S (v_norder vs)) vs)).
Proof. split; eexists; reflexivity. Qed.

(** *** C03 *)
Lemma gates_reachable ph s : p_reachable ph s ->
  length (p_aR s) = length (p_aL s) /\ length (p_aO s) = length (p_aL s) /\
  forall i, (i < length (p_aL s))%nat -> gate_ok (prover_assignment s) i.
Proof. intros H. destruct (reachable_pwf _ _ H) as [H1 H2 _ H3 _]. repeat split; auto. Qed.

Lemma pwf_state1 W s G H : pwf s -> pwf (hp_state1 W s G H).
Proof. intros [? ? ? ? ?]. constructor; auto. Qed.

Lemma gates_session W g h t G H {A} (m : pprog A) a s s2 :
  prun W false m (prover_new g h t) = Done (a, s) ->
  prover_create_randomized_constraints W (hp_state1 W s G H) = Done (Ok s2) ->
  length (p_aR s2) = length (p_aL s2) /\ length (p_aO s2) = length (p_aL s2) /\
  forall i, (i < length (p_aL s2))%nat -> gate_ok (prover_assignment s2) i.
Proof.
  intros E E2. assert (Hs : pwf s) by (eapply reachable_pwf; econstructor; exact E).
  assert (Hp : pwf s2) by (eapply prover_second_phase_ext; [|exact E2]; apply pwf_state1; exact Hs).
  destruct Hp as [H1 H2 _ H3 _]. repeat split; auto.
Qed.

(** *** C04: values never change *)
Lemma vars_stable W ph {A B} (m : pprog A) (k : A -> pprog B) s a s1 b s2 phs :
  p_reachable phs s ->
  prun W ph m s = Done (a, s1) ->
  prun W ph (x <- m ;; k x)%prog s = Done (b, s2) ->
  forall v, In v (prover_vars W ph m s) ->
    var_value (prover_assignment s2) v = var_value (prover_assignment s1) v /\
    ~ In v (prover_vars W ph (k a) s1).
Proof. intros H. apply prover_vars_stable. eapply reachable_pwf; eauto. Qed.

(** *** C05 *)
Lemma multiply_reachable ph s l r :
  p_reachable ph s ->
  lc_in_range (length (p_aL s)) (length (p_v s)) l ->
  lc_in_range (length (p_aL s)) (length (p_v s)) r ->
  exists s' cl cr,
    let n := length (p_aL s) in
    let vl := lc_value (prover_assignment s) l in
    let vr := lc_value (prover_assignment s) r in
    prover_multiply l r s = Done ((VLeft n, VRight n, VOut n), s') /\
    var_value (prover_assignment s') (VLeft n) = vl /\
    var_value (prover_assignment s') (VRight n) = vr /\
    var_value (prover_assignment s') (VOut n) = vl * vr /\
    (forall v, var_in_range n (length (p_v s)) v ->
       var_value (prover_assignment s') v = var_value (prover_assignment s) v) /\
    p_constraints s' = p_constraints s ++ [cl; cr] /\
    (forall sigma, lc_value sigma cl = 0 <-> var_value sigma (VLeft n) = lc_value sigma l) /\
    (forall sigma, lc_value sigma cr = 0 <-> var_value sigma (VRight n) = lc_value sigma r).
Proof. intros H. apply prover_multiply_spec. eapply reachable_pwf; eauto. Qed.

(** the verifier adds the same two constraints *)
Lemma verifier_multiply_ok l r s :
  let n := v_num_vars s in
  exists s' cl cr,
    verifier_multiply l r s = ((VLeft n, VRight n, VOut n), s') /\
    v_num_vars s' = S n /\ v_constraints s' = v_constraints s ++ [cl; cr] /\
    (forall sigma, lc_value sigma cl = 0 <-> var_value sigma (VLeft n) = lc_value sigma l) /\
    (forall sigma, lc_value sigma cr = 0 <-> var_value sigma (VRight n) = lc_value sigma r).
Proof.
  cbn. eexists _, _, _. split; [reflexivity|]. split; [reflexivity|]. cbn.
  rewrite <- app_assoc. split; [reflexivity|].
  split; intros sigma; rewrite lc_value_app; cbn [lc_value var_value]; split; intros E.
  - apply F_sub_zero. transitivity (- (lc_value sigma l + (- (1) * as_left sigma (v_num_vars s) + 0))); [ring|rewrite E; ring].
  - rewrite <- E. ring.
  - apply F_sub_zero. transitivity (- (lc_value sigma r + (- (1) * as_right sigma (v_num_vars s) + 0))); [ring|rewrite E; ring].
  - rewrite <- E. ring.
Qed.

(** *** C06 *)
Lemma first_phase_same W W' g h t {A B} (R : A -> B -> Prop) pp vp a s :
  sim g h R pp vp -> prun W false pp (prover_new g h t) = Done (a, s) ->
  exists b vs, vrun W' false vp (verifier_new t) = Done (b, vs) /\ R a b /\ same_circuit s vs /\
    prover_vars W false pp (prover_new g h t) = verifier_vars W' false vp (verifier_new t) /\
    Forall2 (sim g h eq) (p_deferred s) (v_deferred vs).
Proof.
  intros Hsim E. pose proof (sync_new W W' g h t) as H0.
  destruct (sim_related W W' R g h pp vp Hsim (prover_new g h t) (verifier_new t) _ _ eq_refl eq_refl H0 E) as (b & vs & Ev & Hs & HR & _).
  exists b, vs. split; [exact Ev|]. split; [exact HR|]. split; [apply sync_same, Hs|].
  eapply sim_vars; [exact Hsim|reflexivity|reflexivity|exact H0|constructor|exact E|exact Ev].
Qed.

Lemma second_phase_same W W' g h t {A B} (R : A -> B -> Prop) pp vp a b s vs t1 k s2 :
  sim g h R pp vp -> prun W false pp (prover_new g h t) = Done (a, s) ->
  vrun W' false vp (verifier_new t) = Done (b, vs) ->
  prover_create_randomized_constraints W (p_with_transcript t1 (p_with_nrand k s)) = Done (Ok s2) ->
  exists vs2,
    verifier_create_randomized_constraints W' (v_with_transcript t1 vs) = Done (Ok vs2) /\
    same_circuit s2 vs2 /\
    prover_phase2_vars W (p_with_transcript t1 (p_with_nrand k s)) =
    verifier_phase2_vars W' (v_with_transcript t1 vs).
Proof.
  intros Hsim E Ev E2. pose proof (sync_new W W' g h t) as H0.
  destruct (sim_related W W' R g h pp vp Hsim (prover_new g h t) (verifier_new t) _ _ eq_refl eq_refl H0 E) as (b' & vs' & Ev' & Hs & HR & _).
  rewrite Ev in Ev'. injection Ev' as <- <-.
  pose proof (sync_transcript_nrand W W' s vs t1 k Hs) as Hs1.
  change (p_with_transcript t1 (p_with_nrand k (p_with_transcript t1 s))) with (p_with_transcript t1 (p_with_nrand k s)) in Hs1.
  destruct (sync_create_randomized W W' _ _ _ Hs1 E2) as (vs2 & Ev2 & Hs2).
  exists vs2. split; [exact Ev2|]. split; [apply sync_same, Hs2|].
  destruct (sim_vars W W' g h R pp vp Hsim (prover_new g h t) (verifier_new t) a s b vs eq_refl eq_refl H0 (Forall2_nil _) E Ev) as [_ Hd].
  unfold prover_phase2_vars, verifier_phase2_vars.
  cbn [p_deferred v_deferred p_with_transcript p_with_nrand v_with_transcript].
  unfold prover_create_randomized_constraints in E2. cbn [p_deferred p_with_pending p_with_transcript p_with_nrand] in E2.
  destruct (p_deferred s) as [|cb cbs] eqn:Ed; [inversion Hd; reflexivity|].
  eapply sim_callback_vars; [exact Hd| |exact E2].
  destruct Hs1 as [[Hwf Ht Hc Hn HV Hp] _]. constructor; cbn; auto. apply (pwf_reset [] _ _ Hwf).
Qed.

(** *** C07 *)
Lemma missing_assignments (s : prover) :
  prover_allocate None s = Done (Err MissingAssignment, s) /\
  prover_allocate_multiplier None s = (Err MissingAssignment, s) /\
  prover_allocate_single None s = Done (Err MissingAssignment, s).
Proof. repeat split. Qed.

Lemma present_assignments ph s x l r : p_reachable ph s ->
  (exists v s', prover_allocate (Some x) s = Done (Ok v, s') /\ var_value (prover_assignment s') v = x) /\
  (exists vl vr vo s', prover_allocate_multiplier (Some (l, r)) s = (Ok (vl, vr, vo), s') /\
     var_value (prover_assignment s') vl = l /\ var_value (prover_assignment s') vr = r /\
     var_value (prover_assignment s') vo = l * r) /\
  (exists v o s', prover_allocate_single (Some x) s = Done (Ok (v, o), s') /\
     var_value (prover_assignment s') v = x /\
     match o with
     | None => p_pending s = None
     | Some o => exists i, p_pending s = Some i /\ o = VOut i /\
         var_value (prover_assignment s') o = nth i (p_aL s) 0 * x
     end).
Proof.
  intros H. destruct (reachable_pwf _ _ H) as [H1 H2 _ _ H5].
  assert (Hx : forall l (y : F), nth (length l) (l ++ [y]) 0 = y) by (intros; rewrite app_nth2, Nat.sub_diag; auto).
  unfold prover_allocate_single, prover_allocate. split; [|split].
  - destruct (p_pending s) as [i|] eqn:Ep.
    + pose proof (H5 i eq_refl) as Hi.
      destruct (set_nth_ok (p_aR s) i x) as [aR E1]; [lia|]. pose proof (set_nth_length _ _ _ _ E1) as L1.
      destruct (set_nth_ok (p_aO s) i (nth i (p_aL s) 0 * x)) as [aO E2]; [lia|].
      cbn [p_with_pending p_aR p_aL p_aO]. rewrite E1. cbn [obind].
      rewrite (index_ok (p_aL s) i 0) by lia. cbn [obind]. rewrite (index_ok aR i 0) by lia. cbn [obind].
      rewrite (set_nth_nth _ _ _ _ i 0 E1), Nat.eqb_refl, E2. cbn [obind].
      eexists _, _. split; [reflexivity|]. cbn. rewrite (set_nth_nth _ _ _ _ i 0 E1), Nat.eqb_refl. reflexivity.
    + eexists _, _. split; [reflexivity|]. cbn. apply Hx.
  - eexists _, _, _, _. split; [reflexivity|]. cbn. repeat split; apply Hx.
  - destruct (p_pending s) as [i|] eqn:Ep.
    + pose proof (H5 i eq_refl) as Hi.
      destruct (set_nth_ok (p_aR s) i x) as [aR E1]; [lia|]. pose proof (set_nth_length _ _ _ _ E1) as L1.
      destruct (set_nth_ok (p_aO s) i (nth i (p_aL s) 0 * x)) as [aO E2]; [lia|].
      cbn [p_with_pending p_aR p_aL p_aO]. rewrite E1. cbn [obind].
      rewrite (index_ok (p_aL s) i 0) by lia. cbn [obind]. rewrite (index_ok aR i 0) by lia. cbn [obind].
      rewrite (set_nth_nth _ _ _ _ i 0 E1), Nat.eqb_refl, E2. cbn [obind].
      eexists _, _, _. split; [reflexivity|]. cbn. rewrite (set_nth_nth _ _ _ _ i 0 E1), Nat.eqb_refl. split; [reflexivity|].
      exists i. repeat split. rewrite (set_nth_nth _ _ _ _ i 0 E2), Nat.eqb_refl. reflexivity.
    + eexists _, _, _. split; [reflexivity|]. cbn. split; [apply Hx|reflexivity].
Qed.

Lemma verifier_ignores_assignments W ph {A} a a' m m' x x' s
    (k : result var -> vprog A) (k3 : result (var * var * var) -> vprog A) (k1 : result (var * option var) -> vprog A) :
  vrun W ph (PAllocate a k) s = vrun W ph (PAllocate a' k) s /\
  vrun W ph (PAllocMultiplier m k3) s = vrun W ph (PAllocMultiplier m' k3) s /\
  vrun W ph (PAllocSingle x k1) s = vrun W ph (PAllocSingle x' k1) s /\
  (exists v s', vrun W ph (cs_allocate a) s = Done (Ok v, s')) /\
  (exists vs s', vrun W ph (cs_allocate_multiplier m) s = Done (Ok vs, s')) /\
  (exists r s', vrun W ph (cs_allocate_single x) s = Done (Ok r, s')).
Proof.
  do 3 (split; [reflexivity|]). cbn. unfold verifier_allocate_single, verifier_allocate.
  destruct (v_pending s); cbn; repeat split; eauto.
Qed.

(** *** C08 *)
Lemma prove_callbacks ph W s G H :
  p_reachable ph s -> p_deferred s <> [] ->
  (length (p_aL s) <= length G)%nat -> (length (p_aL s) <= length H)%nat ->
  let s1 := p_start2 (hp_state1 W s G H) in
  (forall pf t, prove W s G H = Done (Ok (pf, t)) -> exists s2, p_ran W (p_deferred s) s1 s2) /\
  (forall e, p_failed W (p_deferred s) s1 e -> prove W s G H = Done (Err e)).
Proof.
  intros Hr Hd HG HH s1. pose proof (reachable_pwf _ _ Hr) as Hwf.
  destruct (prover_second_phase_spec W (hp_state1 W s G H)) as [_ Hs]. destruct (Hs Hd) as [Ha Hb]. clear Hs.
  pose proof (prove_phase2_eq W s G H Hwf HG HH _ eq_refl) as Hp. split.
  - intros pf t E. destruct (prove_inv W s G H _ Hwf E) as (s2 & E2 & _). exists s2. apply Ha. exact E2.
  - intros e He. apply Hb in He. rewrite He in Hp. exact Hp.
Qed.

Lemma verify_callbacks W s proof g h G H :
  v_deferred s <> [] ->
  let s1 := v_start2 (v_absorb proof s) in
  (forall t, verify W s proof g h G H = Done (Ok t) -> exists s2, v_ran W (v_deferred s) s1 s2) /\
  (forall e, v_failed W (v_deferred s) s1 e -> verify W s proof g h G H = Done (Err e)).
Proof.
  intros Hd s1. destruct (verifier_second_phase_spec W (v_absorb proof s)) as [_ Hs]. destruct (Hs Hd) as [Ha Hb]. clear Hs.
  split.
  - intros t E. destruct (verify_inv W s proof g h G H t E) as (s2 & E2 & _). exists s2. apply Ha. exact E2.
  - intros e He. apply Hb in He.
    pose proof (verify_phase2_eq W s proof g h G H _ eq_refl) as Hp. unfold v_absorb in He. rewrite He in Hp. exact Hp.
Qed.

(** *** C09 *)
Lemma tab_seq n (f : nat -> F) : tab n f = map f (seq 0 n). Proof. reflexivity. Qed.

Lemma ip_tab n (f : nat -> F) (a : nat -> F) :
  ip (tab n f) (map a (seq 0 n)) = fsum (map (fun j => f j * a j) (seq 0 n)).
Proof. apply ip_map. Qed.

Lemma flatten_verifier s z :
  Forall (lc_in_range (v_num_vars s) (length (v_V s))) (v_constraints s) ->
  exists wL wR wO wV wc,
    verifier_flattened_constraints s z = Done (wL, wR, wO, wV, wc) /\
    length wL = v_num_vars s /\ length wR = v_num_vars s /\ length wO = v_num_vars s /\ length wV = length (v_V s) /\
    forall sigma,
      ip wL (map (as_left sigma) (seq 0 (v_num_vars s))) + ip wR (map (as_right sigma) (seq 0 (v_num_vars s))) +
      ip wO (map (as_out sigma) (seq 0 (v_num_vars s))) - ip wV (map (as_committed sigma) (seq 0 (length (v_V s)))) - wc
      = zsum sigma (v_constraints s) z.
Proof.
  intros Hr. eexists _, _, _, _, _. split; [apply (verifier_flattened_ok s z Hr)|].
  repeat split; try apply tab_length. intros sigma.
  rewrite <- (flatten_zsum sigma _ _ (v_constraints s) z Hr). rewrite !ip_tab.
  assert (Hn : forall n (f a : nat -> F), fsum (map (fun j => - f j * a j) (seq 0 n)) = - fsum (map (fun j => f j * a j) (seq 0 n))).
  { intros n f a0. induction (seq 0 n) as [|i l IH]; cbn [map fsum]; [ring|]. rewrite IH. ring. }
  rewrite Hn. ring.
Qed.

Lemma lc_same_in_range n m l l' : lc_same l l' -> lc_in_range n m l -> lc_in_range n m l'.
Proof.
  intros [_ H] Hr v c Hv. assert (Hi : In v (map fst l)) by (apply H; apply in_map_iff; exists (v, c); auto).
  apply in_map_iff in Hi. destruct Hi as ((v', c') & <- & Hi). eapply Hr; exact Hi.
Qed.

Lemma flatten_same ps vs z wL wR wO wV wc :
  same_circuit ps vs ->
  verifier_flattened_constraints vs z = Done (wL, wR, wO, wV, wc) ->
  prover_flattened_constraints ps z = Done (wL, wR, wO, wV).
Proof.
  intros [Hn Hw HV HVn Hc Hp Ht] E.
  assert (Hr : Forall (lc_in_range (v_num_vars vs) (length (v_V vs))) (v_constraints vs)).
  { apply Forall_forall. intros l Hl v c Hv. destruct (var_in_range_dec (v_num_vars vs) (length (v_V vs)) v) as [H|H]; [exact H|].
    rewrite (verifier_flattened_panic vs z l v c Hl Hv H) in E. discriminate. }
  rewrite (verifier_flattened_ok vs z Hr) in E. injection E as <- <- <- <- _.
  rewrite prover_flattened_ok.
  - rewrite <- Hn, <- HVn. assert (Hw' : forall n (f f' : nat -> F), (forall j, f j = f' j) -> tab n f = tab n f') by (intros; apply map_ext; auto).
    repeat match goal with |- context [tab ?n (fun j => weight (p_constraints ps) z (@?v j))] =>
      rewrite (Hw' n _ (fun j => weight (v_constraints vs) z (v j)) (fun j => weight_equiv _ _ z (v j) Hc)) end.
    rewrite (Hw' (length (v_V vs)) _ (fun j => - weight (v_constraints vs) z (VCommitted j)) (fun j => f_equal (@fopp modulus) (weight_equiv _ _ z (VCommitted j) Hc))).
    reflexivity.
  - rewrite <- Hn, <- HVn. clear - Hr Hc. induction Hc as [|l l' cs cs' Hl _ IH]; [constructor|].
    inversion Hr; subst. constructor; [|auto]. eapply lc_same_in_range; [|eassumption].
    destruct Hl as [H1' H2']. split; [intros v; symmetry; apply H1'|intros v; symmetry; apply H2'].
Qed.

(** *** C10 *)
Lemma gate_roots sigma n ys i :
  (i < n)%nat -> ~ gate_ok sigma i -> NoDup ys ->
  (forall y, In y ys -> sum_n n (fun j => fpow y j * (as_left sigma j * as_right sigma j - as_out sigma j)) = 0) ->
  (length ys <= n - 1)%nat.
Proof.
  intros Hi Hg Hnd Hy.
  enough (length ys < n)%nat by lia.
  eapply (ysum_roots (fun j => as_left sigma j * as_right sigma j - as_out sigma j)); [exact Hi| |exact Hnd|exact Hy].
  intros E. apply Hg. unfold gate_ok. apply F_sub_zero. exact E.
Qed.
End Main.
