(** C59: zero knowledge of whole sessions with gadgets. *)
From Coq Require Import ZArith String List Lia.
From Verif.Base Require Import Outcome Fp Params Algebra Instances.
From Verif.Model Require Import Transcript LinComb Prog IPP Prover Verifier.
From Verif.Spec Require Import HashSpec R1CS Protocol Indist Simulator Games RomSim Compose GadgetGames RomSession.
From Verif.Proofs Require Import CircuitMain TreeCheck RomSession.
From Verif.Props Require Import Demo SoundProps GameProps IndistProps R1CSProps RomZKProps.
Import ListNotations.
Local Notation length := List.length.

Section Props.
Context {P : Params} {OK : ParamsOk P}.
Local Open Scope fe_scope.

(** ** C59 Commitments and proof together reveal nothing but the statements *)
(** Honest calls of any of the proving functions on one prover, which draw all their
    blindings.  [n] is the number of gates of the circuit that the verifying functions
    build (for one, hence all lists of commitments with the right numbers of elements).
    [C] are the possible answers of the oracle; [D] contains every question that the
    verification of commitments and a proof of these sizes can lead to.  The distinguisher
    [A] asks at most [Q] questions before it gets the proof, some before and some after it
    got the commitments.  Over all oracles and all values of the random generator, the
    fraction on which it answers "yes" to the real session differs from the fraction on
    which it answers "yes" to the simulated one by at most Q / (group order).  The simulator
    gets the generators, the transcript, the statements and the numbers of commitments. *)
Theorem C59_session_zero_knowledge {ENC : EncodingOk P} W W' checks t g h (l : list call) G H k kt (C : list F) D
    (A : session_distinguisher) Q commss0 vs0 :
  let sts := map statement_of l in
  let ns := map size l in
  let n := v_num_vars vs0 in
  Forall honest_call l -> Forall draws_all l -> generates h ->
  map (@length G1) commss0 = ns -> session_verifier W' checks t g h sts commss0 = Some vs0 ->
  next_power_of_two n = (2 ^ k)%nat -> (2 ^ k <= length G)%nat -> (2 ^ k <= length H)%nat ->
  (11 + 2 * n <= kt)%nat ->
  NoDup C -> ~ In 0 C -> NoDup D ->
  (forall commss vs pf, map (@length G1) commss = ns -> session_verifier W' checks t g h sts commss = Some vs ->
     length (ipp_L (proof_ipp pf)) = k -> length (ipp_R (proof_ipp pf)) = k ->
     incl (proof_queries (length (v_V vs)) n (v_transcript vs) pf) D) ->
  (forall commss, at_most Q (handed A commss)) ->
  let tapes1 := vectors every_scalar (list_sum ns) in
  let tapes2 := vectors every_scalar kt in
  let real := length (filter (fun '(tape1, (ro, tape2)) => real_session_guess W checks t g h l G H A ro tape1 tape2)
    (list_prod tapes1 (list_prod (oracles D C) tapes2))) in
  let games := list_prod tapes1 (list_prod (list_prod (oracles D C) (vectors C (5 + k))) tapes2) in
  let simulated := length (filter (fun '(tape1, (ro, c, tape2)) => simulated_session_guess W' checks t g h sts ns G H A ro c tape1 tape2) games) in
  let order := Z.to_nat modulus in
  (order * (length C ^ (5 + k) * real) <= order * simulated + Q * length games /\
   order * simulated <= order * (length C ^ (5 + k) * real) + Q * length games)%nat.
Proof.
  intros sts ns n Hl Hf Hg Hs0 E0 Hk HG HH Hkt HC HC0 HD Hcov HQ.
  exact (session_zk W W' checks t g h l Hl Hf Hg G H k kt C D A Q commss0 vs0 Hs0 E0 Hk HG HH Hkt HD Hcov HQ HC HC0).
Qed.

(** the two fractions are taken over the same number of games *)
Theorem C59_same_total (C : list F) D k kt m :
  length (list_prod (vectors every_scalar m) (list_prod (list_prod (oracles D C) (vectors C (5 + k))) (vectors every_scalar kt))) =
  (length C ^ (5 + k) * length (list_prod (vectors every_scalar m) (list_prod (oracles D C) (vectors every_scalar kt))))%nat.
Proof. exact (session_total C D k kt m). Qed.

(** a finite [D] as required exists *)
Theorem C59_questions {ENC : EncodingOk P} W checks t g h sts ns n k : generates h ->
  exists D, NoDup D /\ forall commss vs pf, map (@length G1) commss = ns -> session_verifier W checks t g h sts commss = Some vs ->
    length (ipp_L (proof_ipp pf)) = k -> length (ipp_R (proof_ipp pf)) = k -> incl (proof_queries (length (v_V vs)) n (v_transcript vs) pf) D.
Proof. exact (session_questions W checks t g h sts ns n k). Qed.

(** Whatever the random values, the proving functions return commitments in these numbers,
    and the verifying functions build a circuit from them. *)
Theorem C59_session_runs {ENC : EncodingOk P} W W' checks t g h (l : list call) tape1 :
  Forall honest_call l -> Forall draws_all l -> length tape1 = list_sum (map size l) ->
  exists commss s vs, prun (with_tape W 0 tape1) false (prove_all checks l) (prover_new g h t) = Done (Ok commss, s) /\
    map (@length G1) commss = map size l /\ session_verifier W' checks t g h (map statement_of l) commss = Some vs.
Proof. exact (session_succeeds W W' checks t g h l tape1). Qed.

(** The simulator needs no true statements: for all tapes and all challenges that are not 0
    it succeeds, and the changed oracle makes the verifier accept. *)
Theorem C59_simulated_accepted {ENC : EncodingOk P} W checks t g h sts ns G H k c tape1 tape2 commss0 vs0 :
  let n := v_num_vars vs0 in
  map (@length G1) commss0 = ns -> session_verifier W checks t g h sts commss0 = Some vs0 ->
  Forall (lc_in_range n (length (v_V vs0))) (v_constraints vs0) ->
  next_power_of_two n = (2 ^ k)%nat -> (2 ^ k <= length G)%nat -> (2 ^ k <= length H)%nat -> (k < 32)%nat ->
  (1 < n)%nat \/ batch_invert_empty_panics = false ->
  length tape1 = list_sum ns -> length c = (5 + k)%nat -> ~ In 0 c ->
  exists commss pf tp qs, simulated_session W checks t g h sts ns G H c tape1 tape2 = Some (commss, Some ((pf, tp), qs)) /\
    forall O r, gadgets_accept W t checks g h G H sts (programmed O qs c) r commss pf.
Proof. exact (session_accepted W checks t g h sts ns G H k c tape1 tape2 commss0 vs0). Qed.
End Props.

(** ** The hypotheses are met *)
#[local] Existing Instance toyP.
#[local] Existing Instance toyP_ok.
#[local] Existing Instance toyP_enc.
Local Open Scope fe_scope.

(** 12 is between 10 and 20, and 5 is not 0 *)
Definition sz_calls : list call := [PBounded 12 None 10 20 4 true; PNonZero (fe 5) None true].
Definition sz_G : list G1 := map (fun i => fe (Z.of_nat (100 + i))) (seq 0 16).
Definition sz_H : list G1 := map (fun i => fe (Z.of_nat (200 + i))) (seq 0 16).
Definition sz_commss : list (list G1) := [[demo_g; demo_g; demo_h]; [demo_h; demo_g]].
Definition sz_vs (checks : bool) (sts : list statement) (commss : list (list G1)) : verifier :=
  match session_verifier demoW' checks [] demo_g demo_h sts commss with Some vs => vs | None => verifier_new [] end.

(** one question before the commitments, one between them and the proof, one after it *)
Definition sz_A : session_distinguisher :=
  Ask ([], "y"%string) (fun a => Answer (fun commss =>
    Ask (committed [] (concat commss), "y"%string) (fun b => Answer (fun out =>
      match proof_queries 5 10 (committed [] (concat commss)) (fst out) with
      | q :: _ => Ask q (fun c => Answer (feqb (a + b) c))
      | [] => Answer false
      end)))).

Example C59_example : exists D,
  let sts := map statement_of sz_calls in
  let ns := map size sz_calls in
  let vs0 := sz_vs true sts sz_commss in
  Forall honest_call sz_calls /\ Forall draws_all sz_calls /\ generates demo_h /\ ns = [3; 2]%nat /\
  session_verifier demoW' true [] demo_g demo_h sts sz_commss = Some vs0 /\ v_num_vars vs0 = 10%nat /\ length (v_constraints vs0) = 27%nat /\
  NoDup gm_C /\ ~ In 0 gm_C /\ NoDup D /\
  (forall commss vs pf, map (@length G1) commss = ns -> session_verifier demoW' true [] demo_g demo_h sts commss = Some vs ->
     length (ipp_L (proof_ipp pf)) = 4%nat -> length (ipp_R (proof_ipp pf)) = 4%nat ->
     incl (proof_queries (length (v_V vs)) 10 (v_transcript vs) pf) D) /\
  (forall commss, at_most 2 (handed sz_A commss)) /\
  let games := list_prod (vectors every_scalar 5) (list_prod (list_prod (oracles D gm_C) (vectors gm_C (5 + 4))) (vectors every_scalar 31)) in
  (Z.to_nat modulus * length (filter (fun '(tape1, (ro, c, tape2)) =>
      simulated_session_guess demoW' true [] demo_g demo_h sts ns sz_G sz_H sz_A ro c tape1 tape2) games) <=
   Z.to_nat modulus * (length gm_C ^ (5 + 4) * length (filter (fun '(tape1, (ro, tape2)) =>
      real_session_guess demoW true [] demo_g demo_h sz_calls sz_G sz_H sz_A ro tape1 tape2)
        (list_prod (vectors every_scalar 5) (list_prod (oracles D gm_C) (vectors every_scalar 31))))) + 2 * length games)%nat.
Proof.
  destruct (C59_questions demoW' true [] demo_g demo_h (map statement_of sz_calls) (map size sz_calls) 10 4 demo_generates) as (D & HD & Hcov).
  exists D. intros sts ns vs0.
  assert (Hl : Forall honest_call sz_calls).
  { constructor; [|constructor; [|constructor]]; cbn [honest_call].
    - split; [right; reflexivity|]. split; [lia|]. split; cbn; lia.
    - split; [right; reflexivity|]. intros E. apply (f_equal (@fval _)) in E. vm_compute in E. discriminate E. }
  assert (Hf : Forall draws_all sz_calls) by (repeat constructor).
  assert (E0 : session_verifier demoW' true [] demo_g demo_h sts sz_commss = Some vs0).
  { unfold vs0, sz_vs. destruct (session_verifier demoW' true [] demo_g demo_h sts sz_commss) eqn:E; [reflexivity|].
    assert (X : match session_verifier demoW' true [] demo_g demo_h sts sz_commss with Some _ => true | None => false end = true) by (vm_compute; reflexivity).
    rewrite E in X. discriminate X. }
  assert (En : v_num_vars vs0 = 10%nat) by (vm_compute; reflexivity).
  assert (HQ : forall commss, at_most 2 (handed sz_A commss)) by (intros commss a b; exact I).
  split; [exact Hl|]. split; [exact Hf|]. split; [exact demo_generates|]. split; [reflexivity|]. split; [exact E0|]. split; [exact En|].
  split; [vm_compute; reflexivity|].
  split; [exact gm_C_nodup|]. split; [exact gm_C_nz|]. split; [exact HD|]. split; [exact Hcov|]. split; [exact HQ|].
  pose proof (C59_session_zero_knowledge demoW demoW' true [] demo_g demo_h sz_calls sz_G sz_H 4 31 gm_C D sz_A 2 sz_commss vs0 Hl Hf demo_generates eq_refl E0) as X.
  cbv zeta in X. rewrite En in X.
  exact (proj2 (X eq_refl ltac:(vm_compute; lia) ltac:(vm_compute; lia) ltac:(lia) gm_C_nodup gm_C_nz HD Hcov HQ)).
Qed.

(** "between 20 and 10": no value is, and still there are simulated commitments and a
    simulated proof that are accepted with the changed oracle *)
Example C59_example_false (tape2 : list F) :
  let st := Bounded 20 10 4 in
  let c := map fe [2; 3; 4; 5; 6; 7; 8; 9]%Z in
  (forall v, ~ shows st v) /\
  exists commss pf tp qs, simulated_session demoW' false [] demo_g demo_h [st] [3%nat] sz_G sz_H c (map fe [7; 8; 9]%Z) tape2 = Some (commss, Some ((pf, tp), qs)) /\
    forall O r, gadgets_accept demoW' [] false demo_g demo_h sz_G sz_H [st] (programmed O qs c) r commss pf.
Proof.
  intros st c. split; [intros v Hv; cbn in Hv; lia|].
  set (vs0 := sz_vs false [st] [[demo_g; demo_g; demo_h]]).
  assert (E0 : session_verifier demoW' false [] demo_g demo_h [st] [[demo_g; demo_g; demo_h]] = Some vs0).
  { unfold vs0, sz_vs. destruct (session_verifier demoW' false [] demo_g demo_h [st] [[demo_g; demo_g; demo_h]]) eqn:E; [reflexivity|].
    assert (X : match session_verifier demoW' false [] demo_g demo_h [st] [[demo_g; demo_g; demo_h]] with Some _ => true | None => false end = true) by (vm_compute; reflexivity).
    rewrite E in X. discriminate X. }
  assert (En : v_num_vars vs0 = 8%nat) by (vm_compute; reflexivity).
  assert (Hz : Forall (fun x : F => x <> 0) c) by (apply (forallb_Forall nz_b); [exact nz_b_ok|vm_compute; reflexivity]).
  apply (C59_simulated_accepted demoW' false [] demo_g demo_h [st] [3%nat] sz_G sz_H 3 c (map fe [7; 8; 9]%Z) tape2 [[demo_g; demo_g; demo_h]] vs0 eq_refl E0);
    rewrite ?En; [apply in_range_all; vm_compute; reflexivity|reflexivity|vm_compute; lia|vm_compute; lia|lia|left; lia|reflexivity|reflexivity|].
  intros Hin. rewrite Forall_forall in Hz. exact (Hz 0 Hin eq_refl).
Qed.

Print Assumptions C59_session_zero_knowledge.
Print Assumptions C59_same_total.
Print Assumptions C59_questions.
Print Assumptions C59_session_runs.
Print Assumptions C59_simulated_accepted.
