(** C58: zero knowledge with a random oracle. *)
From Coq Require Import ZArith String List Lia.
From Verif.Base Require Import Outcome Fp Params Algebra Instances.
From Verif.Model Require Import Transcript LinComb Prog IPP Prover Verifier.
From Verif.Spec Require Import R1CS Sim Session Protocol Indist Simulator Games RomSim.
From Verif.Proofs Require Import RunProofs CircuitMain TreeCheck RomZK.
From Verif.Props Require Import Demo IndistProps SoundProps GameProps R1CSProps.
Import ListNotations.
Local Notation length := List.length.

Section Props.
Context {P : Params} {OK : ParamsOk P}.
Local Open Scope fe_scope.

(** ** C58 Zero knowledge with a random oracle *)
(** A prover without second phase whose values satisfy its constraints, and a verifier of
    the same circuit.  [C] are the possible answers of the oracle, [D] contains (at least)
    every question that the verification of a proof of this size can lead to.  The
    distinguisher [A] asks at most [Q] questions before it gets the proof and any number
    afterwards.  Over all oracles and all random tapes of the prover, the fraction on
    which it answers "yes" to the real proof differs from the fraction on which it answers
    "yes" to the simulated one by at most Q / (group order).  The simulator gets the
    generators, the commitments, the constraints and the transcript only. *)
Theorem C58_zero_knowledge {ENC : EncodingOk P} (s : prover) (vs : verifier) G H k kt (C : list F) D (A : distinguisher) Q :
  let n := length (p_aL s) in
  let g := p_g s in
  let h := p_h s in
  let V := v_V vs in
  let cs := v_constraints vs in
  let t0 := v_transcript vs in
  p_reachable false s -> p_deferred s = [] -> same_circuit s vs -> generates h ->
  satisfies (prover_assignment s) n (p_constraints s) ->
  Forall (lc_in_range n (length (p_v s))) (p_constraints s) ->
  next_power_of_two n = (2 ^ k)%nat -> (2 ^ k <= length G)%nat -> (2 ^ k <= length H)%nat ->
  (11 + 2 * n <= kt)%nat ->
  NoDup C -> ~ In 0 C -> NoDup D ->
  (forall pf, length (ipp_L (proof_ipp pf)) = k -> length (ipp_R (proof_ipp pf)) = k ->
     incl (proof_queries (length V) n t0 pf) D) ->
  at_most Q A ->
  let tapes := vectors every_scalar kt in
  let real := length (filter (fun '(ro, tape) => real_guess s G H A ro tape) (list_prod (oracles D C) tapes)) in
  let games := list_prod (list_prod (oracles D C) (vectors C (5 + k))) tapes in
  let simulated := length (filter (fun '(ro, c, tape) => simulated_guess g h G H V n cs t0 A ro c tape) games) in
  let order := Z.to_nat modulus in
  (order * (length C ^ (5 + k) * real) <= order * simulated + Q * length games /\
   order * simulated <= order * (length C ^ (5 + k) * real) + Q * length games)%nat.
Proof.
  intros n g h V cs t0 Hr Hd Hs Hg Hsat Hran Hk HG HH Hkt HC HC0 HD Hcov HQ tapes real games simulated order.
  exact (rom_zk s vs G H k kt C D A Q Hr Hd Hs Hg Hsat Hran Hk HG HH Hkt HC HC0 HD Hcov HQ).
Qed.

(** the two fractions are taken over the same number of games *)
Theorem C58_same_total (C : list F) D k kt :
  length (list_prod (list_prod (oracles D C) (vectors C (5 + k))) (vectors every_scalar kt)) =
  (length C ^ (5 + k) * length (list_prod (oracles D C) (vectors every_scalar kt)))%nat.
Proof. exact (rom_total C D k kt). Qed.

(** a finite [D] as required exists *)
Theorem C58_questions h m n t0 k : generates h ->
  exists D, NoDup D /\ forall pf, length (ipp_L (proof_ipp pf)) = k -> length (ipp_R (proof_ipp pf)) = k ->
    incl (proof_queries m n t0 pf) D.
Proof. exact (rom_questions h m n t0 k). Qed.

(** The simulator succeeds for every circuit, commitments, challenges and tape, and if its
    challenges are not 0 the changed oracle makes the verifier accept what it produced,
    whether or not the circuit can be satisfied. *)
Theorem C58_simulated_accepted g h G H V n k cs t0 c tape :
  next_power_of_two n = (2 ^ k)%nat -> (2 ^ k <= length G)%nat -> (2 ^ k <= length H)%nat -> (k < 32)%nat ->
  (1 < n)%nat \/ batch_invert_empty_panics = false ->
  Forall (lc_in_range n (length V)) cs -> length c = (5 + k)%nat -> ~ In 0 c ->
  exists pf tp, simulated_proof g h G H V n cs t0 c tape = Some (pf, tp) /\
    forall O r, verify_accepts (programmed O (proof_queries (length V) n t0 pf) c) r g h G H V n cs t0 pf.
Proof. exact (rom_accepted g h G H V n k cs t0 c tape). Qed.
End Props.

(** ** The hypotheses are met *)
#[local] Existing Instance toyP.
#[local] Existing Instance toyP_ok.
#[local] Existing Instance toyP_enc.
Local Open Scope fe_scope.
Local Open Scope prog_scope.

(** x * y = z and (x + 1) * (y + 1) = z + x + y + 1, without second phase *)
Section Circuit.
Context {CA CR : Type}.
Definition rz_circuit (x y z : var) : prog CA CR (result unit) :=
  (vs <- cs_multiply [(x, fe 1)] [(y, fe 1)] ;;
   cs_constrain [(snd vs, fe 1); (z, fopp (fe 1))] ;;;
   ws <- cs_multiply [(x, fe 1); (VOne, fe 1)] [(y, fe 1); (VOne, fe 1)] ;;
   cs_constrain [(snd ws, fe 1); (z, fopp (fe 1)); (x, fopp (fe 1)); (y, fopp (fe 1)); (VOne, fopp (fe 1))] ;;;
   PRet (Ok tt))%prog.
End Circuit.
Definition rz_prove (x y z : F) : pprog (result unit) :=
  (vx <- cs_commit (x, fe 11) ;; vy <- cs_commit (y, fe 12) ;; vz <- cs_commit (z, fe 13) ;;
   rz_circuit (snd vx) (snd vy) (snd vz))%prog.
Definition rz_verify (X Y Z : G1) : vprog (result unit) :=
  (vx <- cs_commit X ;; vy <- cs_commit Y ;; vz <- cs_commit Z ;; rz_circuit vx vy vz)%prog.

Lemma rz_sim x y z : sim demo_g demo_h eq (rz_prove x y z)
  (rz_verify (commit demo_g demo_h x (fe 11)) (commit demo_g demo_h y (fe 12)) (commit demo_g demo_h z (fe 13))).
Proof.
  repeat (unfold rz_prove, rz_verify, rz_circuit, cs_commit, cs_multiply, cs_constrain;
          cbn [pbind fst snd];
          first [apply sim_commit|apply sim_multiply|apply sim_constrain|apply sim_ret|apply lc_same_refl|reflexivity|intros]).
Qed.

Definition rz_s : prover :=
  match prun demoW false (rz_prove (fe 6) (fe 7) (fe 42)) (prover_new demo_g demo_h []) with
  | Done (_, s) => s | Panic => prover_new demo_g demo_h [] end.
Lemma rz_run : prun demoW false (rz_prove (fe 6) (fe 7) (fe 42)) (prover_new demo_g demo_h []) = Done (Ok tt, rz_s).
Proof.
  unfold rz_s. destruct (prun demoW false (rz_prove (fe 6) (fe 7) (fe 42)) (prover_new demo_g demo_h [])) as [[[[]|] s]|] eqn:E; [reflexivity| |];
  assert (X : match prun demoW false (rz_prove (fe 6) (fe 7) (fe 42)) (prover_new demo_g demo_h []) with Done (Ok tt, _) => true | _ => false end = true)
    by (vm_compute; reflexivity);
  rewrite E in X; discriminate X.
Qed.

(** a distinguisher that asks one question before and one after the proof: is the
    challenge of the proof's first question the same as that of the empty transcript? *)
Definition rz_A : distinguisher :=
  Ask ([], "y"%string) (fun a => Answer (fun out =>
    match proof_queries 3 2 [] (fst out) with
    | q :: _ => Ask q (fun b => Answer (feqb a b))
    | [] => Answer false
    end)).

Example C58_example : exists vs D,
  p_reachable false rz_s /\ p_deferred rz_s = [] /\ same_circuit rz_s vs /\ generates (p_h rz_s) /\
  length (p_aL rz_s) = 2%nat /\ length (p_constraints rz_s) = 6%nat /\
  satisfies (prover_assignment rz_s) 2 (p_constraints rz_s) /\
  Forall (lc_in_range 2 (length (p_v rz_s))) (p_constraints rz_s) /\
  NoDup gm_C /\ ~ In 0 gm_C /\ NoDup D /\
  (forall pf, length (ipp_L (proof_ipp pf)) = 1%nat -> length (ipp_R (proof_ipp pf)) = 1%nat ->
     incl (proof_queries (length (v_V vs)) 2 (v_transcript vs) pf) D) /\
  at_most 1 rz_A /\
  let games := list_prod (list_prod (oracles D gm_C) (vectors gm_C (5 + 1))) (vectors every_scalar 15) in
  (Z.to_nat modulus * length (filter (fun '(ro, c, tape) =>
      simulated_guess (p_g rz_s) (p_h rz_s) demo_G demo_H (v_V vs) 2 (v_constraints vs) (v_transcript vs) rz_A ro c tape) games) <=
   Z.to_nat modulus * (length gm_C ^ (5 + 1) * length (filter (fun '(ro, tape) => real_guess rz_s demo_G demo_H rz_A ro tape)
     (list_prod (oracles D gm_C) (vectors every_scalar 15)))) + 1 * length games)%nat.
Proof.
  destruct (first_phase_same demoW demoW' demo_g demo_h [] eq _ _ _ _ (rz_sim _ _ _) rz_run) as (b & vs & _ & _ & Hs & _).
  assert (Hn : length (p_aL rz_s) = 2%nat) by (vm_compute; reflexivity).
  assert (Hh : p_h rz_s = demo_h) by reflexivity.
  assert (Hr : p_reachable false rz_s) by (econstructor; exact rz_run).
  assert (Hd : p_deferred rz_s = []) by reflexivity.
  assert (Hg : generates (p_h rz_s)) by (rewrite Hh; exact demo_generates).
  assert (Hsat : satisfies (prover_assignment rz_s) 2 (p_constraints rz_s)) by (apply satisfies_b; vm_compute; reflexivity).
  assert (Hran : Forall (lc_in_range 2 (length (p_v rz_s))) (p_constraints rz_s)) by (apply in_range_all; vm_compute; reflexivity).
  destruct (C58_questions demo_h (length (v_V vs)) 2 (v_transcript vs) 1 demo_generates) as (D & HD & Hcov).
  exists vs, D.
  split; [exact Hr|]. split; [exact Hd|]. split; [exact Hs|]. split; [exact Hg|]. split; [exact Hn|].
  split; [vm_compute; reflexivity|]. split; [exact Hsat|]. split; [exact Hran|].
  split; [exact gm_C_nodup|]. split; [exact gm_C_nz|]. split; [exact HD|]. split; [exact Hcov|].
  assert (HQ : at_most 1 rz_A) by (intros a; exact I).
  split; [exact HQ|].
  pose proof (C58_zero_knowledge rz_s vs demo_G demo_H 1 15 gm_C D rz_A 1 Hr Hd Hs Hg) as X.
  cbv zeta in X. rewrite Hn in X.
  pose proof (X Hsat Hran eq_refl ltac:(vm_compute; lia) ltac:(vm_compute; lia) ltac:(lia) gm_C_nodup gm_C_nz HD Hcov HQ) as [_ Y].
  exact Y.
Qed.

(** the constraint 1 = 0: no values satisfy it, and still there is a simulated proof that
    is accepted with the changed oracle *)
Example C58_example_unsatisfiable (tape : list F) :
  let cs := [[(VOne, fe 1)]] in
  let c := map fe [2; 3; 4; 5; 6; 7]%Z in
  (forall a, ~ satisfies a 2 cs) /\
  exists pf tp, simulated_proof demo_g demo_h demo_G demo_H [] 2 cs [] c tape = Some (pf, tp) /\
    forall O r, verify_accepts (programmed O (proof_queries 0 2 [] pf) c) r demo_g demo_h demo_G demo_H [] 2 cs [] pf.
Proof.
  intros cs c. split.
  - intros a [_ Hl]. specialize (Hl _ (or_introl eq_refl)). apply (f_equal (@fval _)) in Hl. vm_compute in Hl. discriminate Hl.
  - assert (Hz : Forall (fun x : F => x <> 0) c) by (apply (forallb_Forall nz_b); [exact nz_b_ok|vm_compute; reflexivity]).
    apply (C58_simulated_accepted demo_g demo_h demo_G demo_H [] 2 1 cs [] c tape);
      [reflexivity|vm_compute; lia|vm_compute; lia|lia|left; lia|apply in_range_all; vm_compute; reflexivity|reflexivity|].
    intros Hin. rewrite Forall_forall in Hz. exact (Hz 0 Hin eq_refl).
Qed.

Print Assumptions C58_zero_knowledge.
Print Assumptions C58_same_total.
Print Assumptions C58_questions.
Print Assumptions C58_simulated_accepted.
