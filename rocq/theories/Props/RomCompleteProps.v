(** C67: how often honest proofs are rejected. *)
From Coq Require Import ZArith String List Lia.
From Verif.Base Require Import Outcome Fp Params Algebra Instances.
From Verif.Model Require Import Transcript LinComb Prog IPP Prover Verifier.
From Verif.Spec Require Import HashSpec R1CS Sim Session Protocol Indist Simulator Games RomSim Compose RomSession RomComplete.
From Verif.Proofs Require Import RunProofs CircuitMain TreeCheck RomZK RomComplete RomCompleteSession.
From Verif.Props Require Import Demo IndistProps SoundProps GameProps R1CSProps RomZKProps SessionZKProps.
Import ListNotations.
Local Notation length := List.length.

Section Props.
Context {P : Params} {OK : ParamsOk P}.
Local Open Scope fe_scope.

(** ** C67 Honest proofs are rejected with probability at most (1 + k) / |C| *)
(** A prover without second phase whose values satisfy its constraints, and a verifier of
    the same circuit, which is padded to 2 ^ k gates.  [C] are the possible answers of the
    oracle (zero may be one of them), [D] contains every question that the verification of
    a proof of this size can lead to.  Whatever random values the prover and the verifier
    draw, the fraction of the oracles with which [prove] fails or [verify] does not accept
    its proof is at most (1 + k) / |C|. *)
Theorem C67_completeness_error (s : prover) (vs : verifier) G H k tape r (C : list F) D :
  let n := length (p_aL s) in
  p_reachable false s -> p_deferred s = [] -> same_circuit s vs ->
  satisfies (prover_assignment s) n (p_constraints s) ->
  Forall (lc_in_range n (length (p_v s))) (p_constraints s) ->
  next_power_of_two n = (2 ^ k)%nat -> (2 ^ k <= length G)%nat -> (2 ^ k <= length H)%nat ->
  (k < 32)%nat -> (1 < n)%nat \/ batch_invert_empty_panics = false ->
  NoDup C -> NoDup D ->
  (forall pf, length (ipp_L (proof_ipp pf)) = k -> length (ipp_R (proof_ipp pf)) = k ->
     incl (proof_queries (length (v_V vs)) n (v_transcript vs) pf) D) ->
  (length C * length (filter (fun O => rejected s vs G H O tape r) (oracles D C)) <= (1 + k) * length (oracles D C))%nat.
Proof. exact (completeness_error s vs G H k tape r C D). Qed.

(** The honest prover is an interactive prover: what it sends after some challenges depends
    on these challenges only, and [prove] is this prover with the challenges taken from the
    transcript.  The interactive proof is accepted whenever the first challenge and the
    challenges of the rounds of the inner-product argument are not zero. *)
Theorem C67_interactive (s : prover) (vs : verifier) G H k tape :
  let n := length (p_aL s) in
  p_reachable false s -> p_deferred s = [] -> same_circuit s vs ->
  satisfies (prover_assignment s) n (p_constraints s) ->
  Forall (lc_in_range n (length (p_v s))) (p_constraints s) ->
  next_power_of_two n = (2 ^ k)%nat -> (2 ^ k <= length G)%nat -> (2 ^ k <= length H)%nat ->
  (k < 32)%nat -> (1 < n)%nat \/ batch_invert_empty_panics = false ->
  exists st : strategy,
    (forall O, exists pf tp, real_proof s G H O tape = Some (pf, tp) /\
       pf = strategy_proof st (map O (proof_queries (length (v_V vs)) n (v_transcript vs) pf))) /\
    (forall c, length c = (5 + k)%nat -> nth 0 c 0 <> 0 -> Forall (fun u => u <> 0) (skipn 5 c) ->
       accepted_for (p_g s) (p_h s) G H (v_V vs) n n (v_constraints vs) (strategy_proof st c) c).
Proof. exact (interactive_prover s vs G H k tape). Qed.

(** Honest calls of any of the proving functions on one prover: the verifying functions
    accept the commitments, and the same bound holds for the whole session. *)
Theorem C67_session {ENC : EncodingOk P} W W' checks t g h (l : list call) : Forall honest_call l ->
  exists commss s vs, prun W false (prove_all checks l) (prover_new g h t) = Done (Ok commss, s) /\
    session_verifier W' checks t g h (map statement_of l) commss = Some vs /\
    let n := v_num_vars vs in
    forall G H k tape r (C : list F) D,
      next_power_of_two n = (2 ^ k)%nat -> (2 ^ k <= length G)%nat -> (2 ^ k <= length H)%nat -> (k < 32)%nat ->
      (1 < n)%nat \/ batch_invert_empty_panics = false -> NoDup C -> NoDup D ->
      (forall pf, length (ipp_L (proof_ipp pf)) = k -> length (ipp_R (proof_ipp pf)) = k ->
         incl (proof_queries (length (v_V vs)) n (v_transcript vs) pf) D) ->
      (length C * length (filter (fun O => session_rejected W W' checks t g h l G H O tape r) (oracles D C)) <= (1 + k) * length (oracles D C))%nat.
Proof. exact (session_error W W' checks t g h l). Qed.
End Props.

(** ** The hypotheses are met *)
#[local] Existing Instance toyP.
#[local] Existing Instance toyP_ok.
#[local] Existing Instance toyP_enc.
Local Open Scope fe_scope.

(** 0, ..., 99 *)
Definition rc_C : list F := map (fun i => fe (Z.of_nat i)) (seq 0 100).
Lemma rc_C_nodup : NoDup rc_C.
Proof. apply nodup_b_ok. vm_compute. reflexivity. Qed.

(** the product of C58: at most 2 of 100 *)
Example C67_example tape r : exists vs D,
  p_reachable false rz_s /\ p_deferred rz_s = [] /\ same_circuit rz_s vs /\
  length (p_aL rz_s) = 2%nat /\ length (p_constraints rz_s) = 6%nat /\
  satisfies (prover_assignment rz_s) 2 (p_constraints rz_s) /\
  Forall (lc_in_range 2 (length (p_v rz_s))) (p_constraints rz_s) /\
  NoDup rc_C /\ In 0 rc_C /\ NoDup D /\
  (forall pf, length (ipp_L (proof_ipp pf)) = 1%nat -> length (ipp_R (proof_ipp pf)) = 1%nat ->
     incl (proof_queries (length (v_V vs)) 2 (v_transcript vs) pf) D) /\
  (100 * length (filter (fun O => rejected rz_s vs demo_G demo_H O tape r) (oracles D rc_C)) <= 2 * length (oracles D rc_C))%nat /\
  exists st : strategy, forall c, length c = 6%nat -> nth 0 c 0 <> 0 -> Forall (fun u => u <> 0) (skipn 5 c) ->
    accepted_for demo_g demo_h demo_G demo_H (v_V vs) 2 2 (v_constraints vs) (strategy_proof st c) c.
Proof.
  destruct (first_phase_same demoW demoW' demo_g demo_h [] eq _ _ _ _ (rz_sim _ _ _) rz_run) as (b & vs & _ & _ & Hs & _).
  assert (Hn : length (p_aL rz_s) = 2%nat) by (vm_compute; reflexivity).
  assert (Hr : p_reachable false rz_s) by (econstructor; exact rz_run).
  assert (Hd : p_deferred rz_s = []) by reflexivity.
  assert (Hsat : satisfies (prover_assignment rz_s) 2 (p_constraints rz_s)) by (apply satisfies_b; vm_compute; reflexivity).
  assert (Hran : Forall (lc_in_range 2 (length (p_v rz_s))) (p_constraints rz_s)) by (apply in_range_all; vm_compute; reflexivity).
  destruct (C58_questions demo_h (length (v_V vs)) 2 (v_transcript vs) 1 demo_generates) as (D & HD & Hcov).
  exists vs, D.
  split; [exact Hr|]. split; [exact Hd|]. split; [exact Hs|]. split; [exact Hn|].
  split; [vm_compute; reflexivity|]. split; [exact Hsat|]. split; [exact Hran|].
  split; [exact rc_C_nodup|]. split; [left; reflexivity|]. split; [exact HD|]. split; [exact Hcov|].
  pose proof (C67_completeness_error rz_s vs demo_G demo_H 1 tape r rc_C D Hr Hd Hs) as X.
  pose proof (C67_interactive rz_s vs demo_G demo_H 1 tape Hr Hd Hs) as Y.
  cbv zeta in X, Y. rewrite Hn in X, Y. split.
  - exact (X Hsat Hran eq_refl ltac:(vm_compute; lia) ltac:(vm_compute; lia) ltac:(lia) (or_introl (le_n 2)) rc_C_nodup HD Hcov).
  - destruct (Y Hsat Hran eq_refl ltac:(vm_compute; lia) ltac:(vm_compute; lia) ltac:(lia) (or_introl (le_n 2))) as (st & _ & Z). exists st. exact Z.
Qed.

(** the session of C59, a bound and a non-zero value: at most 5 of 100 *)
Example C67_example_session tape r : exists D,
  NoDup D /\
  (100 * length (filter (fun O => session_rejected demoW demoW' true [] demo_g demo_h sz_calls sz_G sz_H O tape r) (oracles D rc_C)) <= 5 * length (oracles D rc_C))%nat.
Proof.
  assert (Hl : Forall honest_call sz_calls).
  { constructor; [|constructor; [|constructor]]; cbn [honest_call].
    - split; [right; reflexivity|]. split; [lia|]. split; cbn; lia.
    - split; [right; reflexivity|]. intros E. apply (f_equal (@fval _)) in E. vm_compute in E. discriminate E. }
  destruct (C67_session demoW demoW' true [] demo_g demo_h sz_calls Hl) as (commss & s & vs & E & E' & X). cbv zeta in X.
  assert (En : v_num_vars vs = 10%nat).
  { assert (Y : match prun demoW false (prove_all true sz_calls) (prover_new demo_g demo_h []) with
                | Done (Ok commss, _) => match session_verifier demoW' true [] demo_g demo_h (map statement_of sz_calls) commss with
                    | Some vs => Nat.eqb (v_num_vars vs) 10 | None => false end | _ => false end = true) by (vm_compute; reflexivity).
    rewrite E, E' in Y. apply Nat.eqb_eq, Y. }
  destruct (C58_questions demo_h (length (v_V vs)) 10 (v_transcript vs) 4 demo_generates) as (D & HD & Hcov).
  exists D. split; [exact HD|]. rewrite En in X.
  exact (X sz_G sz_H 4%nat tape r rc_C D eq_refl ltac:(vm_compute; lia) ltac:(vm_compute; lia) ltac:(lia) (or_introl (proj1 (Nat.ltb_lt 1 10) eq_refl)) rc_C_nodup HD Hcov).
Qed.

(** the bound is not zero for a reason: with an oracle that always answers 0 the honest
    proof is rejected, with one that always answers 2 it is accepted *)
Example C67_example_rejected :
  let run c := session_rejected demoW demoW' true [] demo_g demo_h [PNonZero (fe 5) None true] sz_G sz_H (fun _ => c) (map fe [7; 8; 9]%Z) (fe 3) in
  run 0 = true /\ run (fe 2) = false.
Proof. vm_compute. split; reflexivity. Qed.

Print Assumptions C67_completeness_error.
Print Assumptions C67_interactive.
Print Assumptions C67_session.
