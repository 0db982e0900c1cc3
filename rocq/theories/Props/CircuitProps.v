(** Properties C01-C10: linear combinations, circuit building, flattening.

    [ParamsOk P] says that the field modulus is prime and that the group is a
    vector space over the field.  Vocabulary: Spec/R1CS.v (assignments, values),
    Spec/Session.v (reachable states, same circuit), Spec/Sim.v (matching
    programs), Spec/Handed.v (variables handed out), Spec/Callbacks.v. *)
From Coq Require Import ZArith String List Lia Bool Permutation.
From Verif.Base Require Import Outcome Fp Params Algebra Instances.
From Verif.Model Require Import Transcript LinComb Prog Prover Verifier.
From Verif.Spec Require Import R1CS Sim Session Protocol Handed Callbacks Verdict.
From Verif.Proofs Require Import LinCombProofs FlattenProofs RoundTrip HandedProofs RootProofs CircuitProofs CircuitMain.
From Verif.Props Require Import Demo.
Import ListNotations.

Section Props.
Context {P : Params} {OK : ParamsOk P}.
Local Open Scope fe_scope.

(** ** C01 Linear combination arithmetic is faithful *)
Theorem C01_linear_combination_arithmetic (s : assignment) (v : var) (c : F) (a b : lc) :
  lc_value s (lc_of_var v) = var_value s v /\
  lc_value s (lc_of_fe c) = c /\
  lc_value s lc_default = 0 /\
  lc_value s (lc_add a b) = lc_value s a + lc_value s b /\
  lc_value s (lc_sub a b) = lc_value s a - lc_value s b /\
  lc_value s (lc_neg a) = - lc_value s a /\
  lc_value s (fe_mul_lc c a) = c * lc_value s a /\
  lc_value s (var_add_lc v a) = var_value s v + lc_value s a /\
  lc_value s (var_sub_lc v a) = var_value s v - lc_value s a /\
  lc_value s (var_neg v) = - var_value s v /\
  lc_value s (fe_add_var c v) = c + var_value s v /\
  lc_value s (fe_sub_var c v) = c - var_value s v /\
  lc_value s (fe_mul_var c v) = c * var_value s v.
Proof.
  exact (conj (lc_value_of_var s v) (conj (lc_value_of_fe s c) (conj eq_refl (conj (lc_value_add s a b)
    (conj (lc_value_sub s a b) (conj (lc_value_neg s a) (conj (lc_value_fe_mul s c a) (conj (lc_value_var_add s v a)
    (conj (lc_value_var_sub s v a) (conj (lc_value_var_neg s v) (conj (lc_value_fe_add_var s c v)
    (conj (lc_value_fe_sub_var s c v) (lc_value_fe_mul_var s c v))))))))))))).
Qed.

(** ** C02 simplify preserves meaning under every hash iteration order *)
(** [code] ranges over the iteration orders; by the second theorem every
    permutation of the map's entries is one of them. *)
Theorem C02_simplify (code : list nat) (l : lc) :
  NoDup (map fst (lc_simplify code l)) /\
  (forall v, In v (map fst (lc_simplify code l)) <-> In v (map fst l)) /\
  (forall v, coeff v (lc_simplify code l) = coeff v l) /\
  (forall s, lc_value s (lc_simplify code l) = lc_value s l).
Proof. exact (simplify_ok code l). Qed.

Theorem C02_all_orders (l m : lc) :
  Permutation (lc_accumulate l) m -> exists code, lc_simplify code l = m.
Proof. exact (permute_complete (lc_accumulate l) m). Qed.

(** simplify inside prover and verifier code *)
Theorem C02_simplify_in_programs W W' ph l ps vs :
  (exists code, prun W ph (p_simplify l) ps = Done (lc_simplify code l, p_with_norder (S (p_norder ps)) ps)) /\
  (exists code, vrun W' ph (p_simplify l) vs = Done (lc_simplify code l, v_with_norder (S (v_norder vs)) vs)).
Proof. exact (simplify_run W W' ph l ps vs). Qed.

(** ** C03 Prover's multiplication gates are always satisfied *)
(** in every state client code can reach, in either phase *)
Theorem C03_gates_satisfied (second : bool) (s : prover) :
  p_reachable second s ->
  length (p_aR s) = length (p_aL s) /\ length (p_aO s) = length (p_aL s) /\
  forall i, (i < length (p_aL s))%nat -> gate_ok (prover_assignment s) i.
Proof. exact (gates_reachable second s). Qed.

(** ... and in the state from which the proof is computed *)
Theorem C03_gates_satisfied_at_proof W g h t G H {A} (m : pprog A) a s s2 :
  prun W false m (prover_new g h t) = Done (a, s) ->
  prover_create_randomized_constraints W (hp_state1 W s G H) = Done (Ok s2) ->
  length (p_aR s2) = length (p_aL s2) /\ length (p_aO s2) = length (p_aL s2) /\
  forall i, (i < length (p_aL s2))%nat -> gate_ok (prover_assignment s2) i.
Proof. exact (gates_session W g h t G H m a s s2). Qed.

(** ** C04 Variables handed out are valid and never aliased *)
Theorem C04_prover_variables W g h t G H {A} (m : pprog A) a s s2 :
  prun W false m (prover_new g h t) = Done (a, s) ->
  prover_create_randomized_constraints W (hp_state1 W s G H) = Done (Ok s2) ->
  let vs1 := prover_vars W false m (prover_new g h t) in
  let vs2 := prover_phase2_vars W (hp_state1 W s G H) in
  NoDup (vs1 ++ vs2) /\
  (forall v, In v vs1 -> var_in_range (length (p_aL s)) (length (p_v s)) v) /\
  (forall v, In v (vs1 ++ vs2) -> var_in_range (length (p_aL s2)) (length (p_v s2)) v) /\
  (forall v, In v vs1 -> var_value (prover_assignment s2) v = var_value (prover_assignment s) v).
Proof. exact (prover_session_vars W g h t G H m a s s2). Qed.

(** the value of a variable handed out by [m] does not change in [k], and [k]
    never hands it out again *)
Theorem C04_prover_values_stable W ph second {A B} (m : pprog A) (k : A -> pprog B) s a s1 b s2 :
  p_reachable second s ->
  prun W ph m s = Done (a, s1) ->
  prun W ph (x <- m ;; k x)%prog s = Done (b, s2) ->
  forall v, In v (prover_vars W ph m s) ->
    var_value (prover_assignment s2) v = var_value (prover_assignment s1) v /\
    ~ In v (prover_vars W ph (k a) s1).
Proof. exact (vars_stable W ph m k s a s1 b s2 second). Qed.

Theorem C04_verifier_variables W t proof {A} (m : vprog A) a s s2 :
  vrun W false m (verifier_new t) = Done (a, s) ->
  v_second W proof s s2 ->
  let vs1 := verifier_vars W false m (verifier_new t) in
  let vs2 := verifier_phase2_vars W (v_absorb proof s) in
  NoDup (vs1 ++ vs2) /\
  (forall v, In v vs1 -> var_in_range (v_num_vars s) (length (v_V s)) v) /\
  (forall v, In v (vs1 ++ vs2) -> var_in_range (v_num_vars s2) (length (v_V s2)) v).
Proof. exact (verifier_session_vars W t proof m a s s2). Qed.

(** ** C05 multiply constrains exactly its inputs *)
Theorem C05_multiply (second : bool) (s : prover) (l r : lc) :
  p_reachable second s ->
  lc_in_range (length (p_aL s)) (length (p_v s)) l ->
  lc_in_range (length (p_aL s)) (length (p_v s)) r ->
  exists s' cl cr,
    let n := length (p_aL s) in
    let vl := lc_value (prover_assignment s) l in
    let vr := lc_value (prover_assignment s) r in
    prover_multiply l r s = Done ((VLeft n, VRight n, VOut n), s') /\
    var_value (prover_assignment s') (VLeft n) = vl /\
    var_value (prover_assignment s') (VRight n) = vr /\
    var_value (prover_assignment s') (VOut n) = vl * vr /\
    (forall v, var_in_range n (length (p_v s)) v ->
       var_value (prover_assignment s') v = var_value (prover_assignment s) v) /\
    p_constraints s' = p_constraints s ++ [cl; cr] /\
    (forall sigma, lc_value sigma cl = 0 <-> var_value sigma (VLeft n) = lc_value sigma l) /\
    (forall sigma, lc_value sigma cr = 0 <-> var_value sigma (VRight n) = lc_value sigma r).
Proof. exact (multiply_reachable second s l r). Qed.

Theorem C05_multiply_verifier (l r : lc) (s : verifier) :
  let n := v_num_vars s in
  exists s' cl cr,
    verifier_multiply l r s = ((VLeft n, VRight n, VOut n), s') /\
    v_num_vars s' = S n /\ v_constraints s' = v_constraints s ++ [cl; cr] /\
    (forall sigma, lc_value sigma cl = 0 <-> var_value sigma (VLeft n) = lc_value sigma l) /\
    (forall sigma, lc_value sigma cr = 0 <-> var_value sigma (VRight n) = lc_value sigma r).
Proof. exact (verifier_multiply_ok l r s). Qed.

(** ** C06 Prover and verifier build the same circuit *)
Theorem C06_first_phase W W' g h t {A B} (R : A -> B -> Prop) pp vp a s :
  sim g h R pp vp -> prun W false pp (prover_new g h t) = Done (a, s) ->
  exists b vs,
    vrun W' false vp (verifier_new t) = Done (b, vs) /\ R a b /\
    same_circuit s vs /\
    prover_vars W false pp (prover_new g h t) = verifier_vars W' false vp (verifier_new t) /\
    Forall2 (sim g h eq) (p_deferred s) (v_deferred vs).
Proof. exact (first_phase_same W W' g h t R pp vp a s). Qed.

(** whatever transcript [t1] and amount of randomness [k] the second phase
    starts with *)
Theorem C06_second_phase W W' g h t {A B} (R : A -> B -> Prop) pp vp a b s vs t1 k s2 :
  sim g h R pp vp -> prun W false pp (prover_new g h t) = Done (a, s) ->
  vrun W' false vp (verifier_new t) = Done (b, vs) ->
  prover_create_randomized_constraints W (p_with_transcript t1 (p_with_nrand k s)) = Done (Ok s2) ->
  exists vs2,
    verifier_create_randomized_constraints W' (v_with_transcript t1 vs) = Done (Ok vs2) /\
    same_circuit s2 vs2 /\
    prover_phase2_vars W (p_with_transcript t1 (p_with_nrand k s)) =
    verifier_phase2_vars W' (v_with_transcript t1 vs).
Proof. exact (second_phase_same W W' g h t R pp vp a b s vs t1 k s2). Qed.

(** ** C07 Missing assignments *)
Theorem C07_missing_assignment (s : prover) :
  prover_allocate None s = Done (Err MissingAssignment, s) /\
  prover_allocate_multiplier None s = (Err MissingAssignment, s) /\
  prover_allocate_single None s = Done (Err MissingAssignment, s).
Proof. exact (missing_assignments s). Qed.

Theorem C07_present_assignment (second : bool) (s : prover) (x l r : F) :
  p_reachable second s ->
  (exists v s', prover_allocate (Some x) s = Done (Ok v, s') /\ var_value (prover_assignment s') v = x) /\
  (exists vl vr vo s', prover_allocate_multiplier (Some (l, r)) s = (Ok (vl, vr, vo), s') /\
     var_value (prover_assignment s') vl = l /\ var_value (prover_assignment s') vr = r /\
     var_value (prover_assignment s') vo = l * r) /\
  (exists v o s', prover_allocate_single (Some x) s = Done (Ok (v, o), s') /\
     var_value (prover_assignment s') v = x /\
     match o with
     | None => p_pending s = None
     | Some o => exists i, p_pending s = Some i /\ o = VOut i /\
         var_value (prover_assignment s') o = nth i (p_aL s) 0 * x
     end).
Proof. exact (present_assignments second s x l r). Qed.

Theorem C07_verifier_ignores_assignments W ph {A} a a' m m' x x' s
    (k : result var -> vprog A) (k3 : result (var * var * var) -> vprog A) (k1 : result (var * option var) -> vprog A) :
  vrun W ph (PAllocate a k) s = vrun W ph (PAllocate a' k) s /\
  vrun W ph (PAllocMultiplier m k3) s = vrun W ph (PAllocMultiplier m' k3) s /\
  vrun W ph (PAllocSingle x k1) s = vrun W ph (PAllocSingle x' k1) s /\
  (exists v s', vrun W ph (cs_allocate a) s = Done (Ok v, s')) /\
  (exists vs s', vrun W ph (cs_allocate_multiplier m) s = Done (Ok vs, s')) /\
  (exists r s', vrun W ph (cs_allocate_single x) s = Done (Ok r, s')).
Proof. exact (verifier_ignores_assignments W ph a a' m m' x x' s k k3 k1). Qed.

(** ** C08 Second-phase callbacks *)
(** [p_start2], [v_start2]: the two-phase separator absorbed, nothing pending,
    no callback left.  [p_ran]: each callback ran once, in order. *)
Theorem C08_prover_callbacks W (s : prover) :
  (p_deferred s = [] -> prover_create_randomized_constraints W s =
     Done (Ok (p_with_transcript (r1cs_1phase_domain_sep (p_transcript s)) (p_with_pending None s)))) /\
  (p_deferred s <> [] ->
     (forall s', prover_create_randomized_constraints W s = Done (Ok s') <-> p_ran W (p_deferred s) (p_start2 s) s') /\
     (forall e, prover_create_randomized_constraints W s = Done (Err e) <-> p_failed W (p_deferred s) (p_start2 s) e)).
Proof. exact (prover_second_phase_spec W s). Qed.

Theorem C08_verifier_callbacks W (s : verifier) :
  (v_deferred s = [] -> verifier_create_randomized_constraints W s =
     Done (Ok (v_with_transcript (r1cs_1phase_domain_sep (v_transcript s)) (v_with_pending None s)))) /\
  (v_deferred s <> [] ->
     (forall s', verifier_create_randomized_constraints W s = Done (Ok s') <-> v_ran W (v_deferred s) (v_start2 s) s') /\
     (forall e, verifier_create_randomized_constraints W s = Done (Err e) <-> v_failed W (v_deferred s) (v_start2 s) e)).
Proof. exact (verifier_second_phase_spec W s). Qed.

(** the callbacks start after the first-phase commitments were absorbed
    ([hp_state1], [v_absorb]); an error aborts prove and verify *)
Theorem C08_prove second W s G H :
  p_reachable second s -> p_deferred s <> [] ->
  (length (p_aL s) <= length G)%nat -> (length (p_aL s) <= length H)%nat ->
  let s1 := p_start2 (hp_state1 W s G H) in
  (forall pf t, prove W s G H = Done (Ok (pf, t)) -> exists s2, p_ran W (p_deferred s) s1 s2) /\
  (forall e, p_failed W (p_deferred s) s1 e -> prove W s G H = Done (Err e)).
Proof. exact (prove_callbacks second W s G H). Qed.

Theorem C08_verify W s proof g h G H :
  v_deferred s <> [] ->
  let s1 := v_start2 (v_absorb proof s) in
  (forall t, verify W s proof g h G H = Done (Ok t) -> exists s2, v_ran W (v_deferred s) s1 s2) /\
  (forall e, v_failed W (v_deferred s) s1 e -> verify W s proof g h G H = Done (Err e)).
Proof. exact (verify_callbacks W s proof g h G H). Qed.

(** ** C09 Flattening computes the z-weighted sum of all constraints *)
Theorem C09_flatten_verifier (s : verifier) (z : F) :
  Forall (lc_in_range (v_num_vars s) (length (v_V s))) (v_constraints s) ->
  exists wL wR wO wV wc,
    verifier_flattened_constraints s z = Done (wL, wR, wO, wV, wc) /\
    length wL = v_num_vars s /\ length wR = v_num_vars s /\ length wO = v_num_vars s /\ length wV = length (v_V s) /\
    forall sigma,
      ip wL (map (as_left sigma) (seq 0 (v_num_vars s))) + ip wR (map (as_right sigma) (seq 0 (v_num_vars s))) +
      ip wO (map (as_out sigma) (seq 0 (v_num_vars s))) - ip wV (map (as_committed sigma) (seq 0 (length (v_V s)))) - wc
      = zsum sigma (v_constraints s) z.
Proof. exact (flatten_verifier s z). Qed.

Theorem C09_flatten_prover (ps : prover) (vs : verifier) (z : F) wL wR wO wV wc :
  same_circuit ps vs ->
  verifier_flattened_constraints vs z = Done (wL, wR, wO, wV, wc) ->
  prover_flattened_constraints ps z = Done (wL, wR, wO, wV).
Proof. exact (flatten_same ps vs z wL wR wO wV wc). Qed.

(** a constraint over a variable that does not exist makes both panic *)
Theorem C09_flatten_out_of_range (ps : prover) (vs : verifier) (z : F) l v c :
  In (v, c) l ->
  (In l (p_constraints ps) -> ~ var_in_range (length (p_aL ps)) (length (p_v ps)) v ->
     prover_flattened_constraints ps z = Panic) /\
  (In l (v_constraints vs) -> ~ var_in_range (v_num_vars vs) (length (v_V vs)) v ->
     verifier_flattened_constraints vs z = Panic).
Proof.
  exact (fun Hv => conj (fun Hl => prover_flattened_panic ps z l v c Hl Hv)
                        (fun Hl => verifier_flattened_panic vs z l v c Hl Hv)).
Qed.

(** ** C10 A violated constraint survives batching for all but few challenges *)
Theorem C10_z_batching (s : assignment) (cs : list lc) (zs : list F) (l : lc) :
  In l cs -> lc_value s l <> 0 -> NoDup zs ->
  (forall z, In z zs -> zsum s cs z = 0) ->
  (length zs <= length cs)%nat.
Proof. exact (zsum_roots s cs zs l). Qed.

Theorem C10_y_batching (s : assignment) (n : nat) (ys : list F) (i : nat) :
  (i < n)%nat -> ~ gate_ok s i -> NoDup ys ->
  (forall y, In y ys -> sum_n n (fun j => fpow y j * (as_left s j * as_right s j - as_out s j)) = 0) ->
  (length ys <= n - 1)%nat.
Proof. exact (gate_roots s n ys i). Qed.
End Props.

Print Assumptions C01_linear_combination_arithmetic.
Print Assumptions C02_simplify.
Print Assumptions C02_all_orders.
Print Assumptions C02_simplify_in_programs.
Print Assumptions C03_gates_satisfied.
Print Assumptions C03_gates_satisfied_at_proof.
Print Assumptions C04_prover_variables.
Print Assumptions C04_prover_values_stable.
Print Assumptions C04_verifier_variables.
Print Assumptions C05_multiply.
Print Assumptions C05_multiply_verifier.
Print Assumptions C06_first_phase.
Print Assumptions C06_second_phase.
Print Assumptions C07_missing_assignment.
Print Assumptions C07_present_assignment.
Print Assumptions C07_verifier_ignores_assignments.
Print Assumptions C08_prover_callbacks.
Print Assumptions C08_verifier_callbacks.
Print Assumptions C08_prove.
Print Assumptions C08_verify.
Print Assumptions C09_flatten_verifier.
Print Assumptions C09_flatten_prover.
Print Assumptions C09_flatten_out_of_range.
Print Assumptions C10_z_batching.
Print Assumptions C10_y_batching.

(** ** The hypotheses are met: a concrete two-phase session (Demo.v) *)
Section Examples.
#[local] Existing Instance toyP.
#[local] Existing Instance toyP_ok.
Local Open Scope fe_scope.

Opaque demo_s demo_s2 demo_vs demo_vs2 demo_proof demo_result.

(** repeated variables, cancelling coefficients, a non-trivial order *)
Example C02_example :
  let l := [(VLeft 0, fe 2); (VOne, fe 5); (VLeft 0, fe 3); (VRight 1, fe 1); (VOne, - fe 5)] in
  map (fun '(v, c) => (v, fval c)) (lc_simplify [2; 0; 0]%nat l) = [(VRight 1, 1%Z); (VLeft 0, 5%Z); (VOne, 0%Z)].
Proof. vm_compute. reflexivity. Qed.

Example C03_example : p_reachable false demo_s /\ length (p_aL demo_s) = 2%nat /\ length (p_aL demo_s2) = 3%nat.
Proof. split; [exact demo_reachable|]. vm_compute. auto. Qed.

(** the session of C03, C04: one multiplier comes from [multiply], one from two
    [allocate]s, one from the second phase; eight variables are handed out *)
Example C04_example :
  prun demoW false demo_pp (prover_new demo_g demo_h []) = Done (Ok tt, demo_s) /\
  prover_create_randomized_constraints demoW (hp_state1 demoW demo_s demo_G demo_H) = Done (Ok demo_s2) /\
  prover_vars demoW false demo_pp (prover_new demo_g demo_h []) =
    [VCommitted 0; VCommitted 1; VCommitted 2; VLeft 0; VRight 0; VOut 0; VLeft 1; VRight 1] /\
  prover_phase2_vars demoW (hp_state1 demoW demo_s demo_G demo_H) = [VLeft 2; VRight 2; VOut 2].
Proof. split; [exact demo_run|]. split; [exact demo_second|]. vm_compute. auto. Qed.

Example C04_verifier_example :
  vrun demoW' false demo_vp (verifier_new []) = Done (Ok tt, demo_vs) /\
  v_second demoW' demo_proof demo_vs demo_vs2 /\
  verifier_phase2_vars demoW' (v_absorb demo_proof demo_vs) = [VLeft 2; VRight 2; VOut 2].
Proof. split; [exact demo_vrun|]. split; [exact demo_vsecond|]. vm_compute. reflexivity. Qed.

Example C05_example :
  let l := [(VOut 0, fe 3); (VCommitted 1, fe 2)] in
  let r := [(VRight 1, fe 1); (VOne, fe 9)] in
  p_reachable false demo_s /\
  lc_in_range (length (p_aL demo_s)) (length (p_v demo_s)) l /\
  lc_in_range (length (p_aL demo_s)) (length (p_v demo_s)) r /\
  fval (lc_value (prover_assignment demo_s) l) = 140%Z /\ fval (lc_value (prover_assignment demo_s) r) = 16%Z.
Proof.
  split; [exact demo_reachable|]. split; [|split; [|vm_compute; auto]];
  intros v c; cbn [In]; intros [H|[H|[]]]; injection H as <- _; vm_compute; auto.
Qed.

Example C06_example :
  sim demo_g demo_h eq demo_pp demo_vp /\
  prun demoW false demo_pp (prover_new demo_g demo_h []) = Done (Ok tt, demo_s) /\
  vrun demoW' false demo_vp (verifier_new []) = Done (Ok tt, demo_vs) /\
  length (p_deferred demo_s) = 1%nat /\ length (p_constraints demo_s) = 5%nat.
Proof. split; [apply demo_sim|]. split; [exact demo_run|]. split; [exact demo_vrun|]. vm_compute. auto. Qed.

Example C08_example :
  p_deferred demo_s <> [] /\ v_deferred demo_vs <> [] /\
  (exists s2, p_ran demoW (p_deferred demo_s) (p_start2 (hp_state1 demoW demo_s demo_G demo_H)) s2) /\
  p_failed demoW [PRet (Ok tt); PRet (Err FormatError); PPanic] demo_s FormatError.
Proof.
  assert (Hl : length (p_deferred demo_s) = 1%nat) by (vm_compute; reflexivity).
  assert (Hl' : length (v_deferred demo_vs) = 1%nat) by (vm_compute; reflexivity).
  assert (Hd : p_deferred demo_s <> []) by (intros E; rewrite E in Hl; discriminate Hl).
  split; [exact Hd|]. split; [intros E; rewrite E in Hl'; discriminate Hl'|]. split.
  - exists demo_s2.
    apply (proj1 (proj2 (C08_prover_callbacks demoW (hp_state1 demoW demo_s demo_G demo_H)) Hd) demo_s2). exact demo_second.
  - exists [PRet (Ok tt)], (PRet (Err FormatError)), [PPanic], demo_s, demo_s. split; [reflexivity|].
    split; [econstructor; [reflexivity|constructor]|reflexivity].
Qed.

Example C09_example :
  Forall (lc_in_range (v_num_vars demo_vs2) (length (v_V demo_vs2))) (v_constraints demo_vs2) /\
  length (v_constraints demo_vs2) = 8%nat /\ v_num_vars demo_vs2 = 3%nat.
Proof.
  split; [|vm_compute; auto]. apply Forall_forall. intros l Hl v c Hv.
  destruct (var_in_range_dec (v_num_vars demo_vs2) (length (v_V demo_vs2)) v) as [H|H]; [exact H|exfalso].
  pose proof (verifier_flattened_panic demo_vs2 (fe 2) l v c Hl Hv H) as E.
  assert (X : match verifier_flattened_constraints demo_vs2 (fe 2) with Done _ => true | Panic => false end = true) by (vm_compute; reflexivity).
  rewrite E in X. discriminate X.
Qed.

(** two constraints, violated, with the largest possible number of roots *)
Example C10_example :
  let s := assignment_of [fe 3] [] [] [] in
  let cs := [[(VCommitted 0, fe 1)]; [(VOne, - fe 3)]] in
  lc_value s [(VCommitted 0, fe 1)] <> 0 /\ zsum s cs (fe 0) = 0 /\ zsum s cs (fe 1) = 0 /\ zsum s cs (fe 2) <> 0.
Proof.
  cbv zeta. repeat split; try (apply Fp_ext; vm_compute; reflexivity); intros E; apply (f_equal (@fval _)) in E; vm_compute in E; discriminate E.
Qed.
End Examples.
