(** C61: the weight matrices used for debugging. *)
From Coq Require Import ZArith String List Bool Lia.
From Verif.Base Require Import Outcome Fp Params Algebra Instances.
From Verif.Model Require Import Transcript LinComb Prog VectorPoly IPP Prover Verifier Weights.
From Verif.Spec Require Import R1CS Sim Session Protocol WeightSpec.
From Verif.Proofs Require Import LinCombProofs WeightProofs.
From Verif.Props Require Import Demo CircuitProps.
Import ListNotations.

Section WeightProps.
Context {P : Params} {OK : ParamsOk P}.
Local Open Scope fe_scope.

(** ** C61 The debugging matrices hold one row per constraint *)

(** Every entry is the coefficient of the last term on its variable. *)
Theorem C61_prover_matrices (s : prover) :
  Forall (lc_in_range (length (p_aL s)) (length (p_v s))) (p_constraints s) ->
  let cs := p_constraints s in let q := length cs in let n := length (p_aL s) in
  exists WL WR WO WV, prover_weight_matrices s = Done (WL, WR, WO, WV) /\
    is_matrix q n WL (fun r i => last_coeff (VLeft i) (nth r cs [])) /\
    is_matrix q n WR (fun r i => last_coeff (VRight i) (nth r cs [])) /\
    is_matrix q n WO (fun r i => last_coeff (VOut i) (nth r cs [])) /\
    is_matrix q (length (p_v s)) WV (fun r i => last_coeff (VCommitted i) (nth r cs [])).
Proof. exact (prover_matrices s). Qed.

(** The verifier's also return minus the sum of all constants. *)
Theorem C61_verifier_matrices (s : verifier) :
  Forall (lc_in_range (v_num_vars s) (length (v_V s))) (v_constraints s) ->
  let cs := v_constraints s in let q := length cs in let n := v_num_vars s in
  exists WL WR WO WV wc, verifier_weight_matrices s = Done (WL, WR, WO, WV, wc) /\
    is_matrix q n WL (fun r i => last_coeff (VLeft i) (nth r cs [])) /\
    is_matrix q n WR (fun r i => last_coeff (VRight i) (nth r cs [])) /\
    is_matrix q n WO (fun r i => last_coeff (VOut i) (nth r cs [])) /\
    is_matrix q (length (v_V s)) WV (fun r i => last_coeff (VCommitted i) (nth r cs [])) /\
    wc = - fsum (map (coeff VOne) cs).
Proof. exact (verifier_matrices s). Qed.

(** A constraint in which no variable is repeated is the inner product of its
    rows with the assignment, plus its constant. *)
Theorem C61_rows_are_constraints (s : prover) (sigma : assignment) WL WR WO WV r :
  prover_weight_matrices s = Done (WL, WR, WO, WV) ->
  (r < length (p_constraints s))%nat ->
  let l := nth r (p_constraints s) [] in
  no_repeats l ->
  let n := length (p_aL s) in
  ip (nth r WL []) (map (as_left sigma) (seq 0 n)) + ip (nth r WR []) (map (as_right sigma) (seq 0 n)) +
  ip (nth r WO []) (map (as_out sigma) (seq 0 n)) +
  ip (nth r WV []) (map (as_committed sigma) (seq 0 (length (p_v s)))) + coeff VOne l = lc_value sigma l.
Proof. exact (rows_are_constraints s sigma WL WR WO WV r). Qed.

(** Both panic on a variable that does not exist. *)
Theorem C61_out_of_range (ps : prover) (vs : verifier) l v c :
  In (v, c) l ->
  (In l (p_constraints ps) -> ~ var_in_range (length (p_aL ps)) (length (p_v ps)) v ->
     prover_weight_matrices ps = Panic) /\
  (In l (v_constraints vs) -> ~ var_in_range (v_num_vars vs) (length (v_V vs)) v ->
     verifier_weight_matrices vs = Panic).
Proof.
  exact (fun Hv => conj (fun Hl => prover_matrices_panic ps l v c Hl Hv)
                        (fun Hl => verifier_matrices_panic vs l v c Hl Hv)).
Qed.

(** The flattening computed from the matrices is the one the prover uses, for
    circuits whose constraints do not repeat a variable. *)
Theorem C61_elaborated_agrees (s : prover) (z : F) :
  p_constraints s <> [] -> Forall no_repeats (p_constraints s) ->
  Forall (lc_in_range (length (p_aL s)) (length (p_v s))) (p_constraints s) ->
  prover_flattened_elaborated s z = prover_flattened_constraints s z.
Proof. exact (elaborated_agrees s z). Qed.

(** Simplified combinations never repeat a variable. *)
Theorem C61_simplified (code : list nat) (l : lc) : no_repeats (lc_simplify code l).
Proof. exact (no_repeats_nodup _ (proj1 (C02_simplify code l))). Qed.

(** With a repeated variable the two flattenings differ: one commitment [x] and
    the constraint [x + x], for every non-zero challenge. *)
Theorem C61_elaborated_agrees_refuted (g h : G1) (t : transcript) (v b z : F) : z <> 0 ->
  let '((_, x), s1) := prover_commit v b (prover_new g h t) in
  let s := prover_constrain (lc_add (lc_of_var x) (lc_of_var x)) s1 in
  prover_flattened_elaborated s z = Done ([], [], [], [- z]) /\
  prover_flattened_constraints s z = Done ([], [], [], [- (z + z)]) /\
  - z <> - (z + z).
Proof. exact (elaborated_differs g h t v b z). Qed.

End WeightProps.

Print Assumptions C61_prover_matrices.
Print Assumptions C61_verifier_matrices.
Print Assumptions C61_rows_are_constraints.
Print Assumptions C61_out_of_range.
Print Assumptions C61_elaborated_agrees.
Print Assumptions C61_simplified.
Print Assumptions C61_elaborated_agrees_refuted.

#[local] Existing Instance toyP.
#[local] Existing Instance toyP_ok.

Definition var_dec (a b : var) : {a = b} + {a <> b}.
Proof. decide equality; apply Nat.eq_dec. Defined.

(** The demo circuit after both phases: none of its eight constraints repeats a
    variable, the matrices exist, and the row of the constraint [out - z] has
    the entries one expects. *)
Example C61_example :
  Forall no_repeats (p_constraints demo_s2) /\ length (p_constraints demo_s2) = 8%nat /\
  Forall (lc_in_range (length (p_aL demo_s2)) (length (p_v demo_s2))) (p_constraints demo_s2) /\
  match prover_weight_matrices demo_s2 with
  | Done (WL, WR, WO, WV) => map fval (nth 2 WO []) = [1; 0; 0]%Z /\ map fval (nth 2 WV []) = [0; 0; 10006]%Z
  | Panic => False
  end.
Proof.
  assert (Hn : forallb (fun l => Nat.eqb (length (nodup var_dec (map fst l))) (length l))
                 (p_constraints demo_s2) = true) by (vm_compute; reflexivity).
  split; [|split; [vm_compute; reflexivity|split]].
  - apply Forall_forall. intros l Hl. rewrite forallb_forall in Hn. specialize (Hn l Hl).
    apply Nat.eqb_eq in Hn. apply no_repeats_nodup.
    refine (@NoDup_incl_NoDup _ (nodup var_dec (map fst l)) (map fst l) _ _ _).
    + apply NoDup_nodup.
    + rewrite map_length. rewrite Hn. apply le_n.
    + intros x Hx. apply nodup_In in Hx. exact Hx.
  - apply Forall_forall. intros l Hl v c Hv.
    destruct (RoundTrip.var_in_range_dec (length (p_aL demo_s2)) (length (p_v demo_s2)) v) as [H|H]; [exact H|exfalso].
    pose proof (prover_matrices_panic demo_s2 l v c Hl Hv H) as E.
    assert (X : match prover_weight_matrices demo_s2 with Done _ => true | Panic => false end = true) by (vm_compute; reflexivity).
    rewrite E in X. discriminate X.
  - vm_compute. auto.
Qed.
