(** C70: zero knowledge when challenges are repeated or zero, and with those of the code. *)
From Coq Require Import ZArith String List Lia.
From Verif.Base Require Import Outcome Fp Params Algebra Instances.
From Verif.Model Require Import Transcript LinComb Prog IPP Prover Verifier.
From Verif.Spec Require Import HashSpec R1CS Session Protocol Indist Simulator Games RomSim TwoPhase RomTwo Compose GadgetGames RomSession Challenges.
From Verif.Proofs Require Import RomZK RomTwo RomSession ChallengeBytes RomZKCode.
From Verif.Props Require Import Demo IndistProps GameProps SoundProps R1CSProps RomZKProps SessionZKProps TwoPhaseProps RomTwoProps RomCompleteProps.
Import ListNotations.
Local Notation length := List.length.
Local Notation zlen l := (Z.of_nat (length l)).

Section Props.
Context {P : Params} {OK : ParamsOk P} {ENC : EncodingOk P}.
Local Open Scope fe_scope.

(** ** C70 Zero knowledge with any list of challenges *)
(** C58, C64 and C59 for a list [C] of possible answers of the oracle in which answers may
    be repeated and zero may occur.  The fractions on which the distinguisher answers "yes"
    in the real and in the simulated game differ by at most
    Q / (group order) + 2 (fraction of zeros in [C]). *)
Theorem C70_proof (s : prover) (vs : verifier) G H k kt (C : list F) D (A : distinguisher) Q :
  let n := length (p_aL s) in
  let g := p_g s in
  let h := p_h s in
  let V := v_V vs in
  let cs := v_constraints vs in
  let t0 := v_transcript vs in
  p_reachable false s -> p_deferred s = [] -> same_circuit s vs -> generates h ->
  satisfies (prover_assignment s) n (p_constraints s) ->
  Forall (lc_in_range n (length (p_v s))) (p_constraints s) ->
  next_power_of_two n = (2 ^ k)%nat -> (2 ^ k <= length G)%nat -> (2 ^ k <= length H)%nat ->
  (11 + 2 * n <= kt)%nat -> NoDup D ->
  (forall pf, length (ipp_L (proof_ipp pf)) = k -> length (ipp_R (proof_ipp pf)) = k ->
     incl (proof_queries (length V) n t0 pf) D) ->
  at_most Q A ->
  let tapes := vectors every_scalar kt in
  let real := length (filter (fun '(ro, tape) => real_guess s G H A ro tape) (list_prod (oracles D C) tapes)) in
  let games := list_prod (list_prod (oracles D C) (vectors C (5 + k))) tapes in
  let simulated := length (filter (fun '(ro, c, tape) => simulated_guess g h G H V n cs t0 A ro c tape) games) in
  let order := Z.to_nat modulus in
  let error := (Q * length C + 2 * order * times C 0)%nat in
  (order * length C * (length C ^ (5 + k) * real) <= order * length C * simulated + error * length games /\
   order * length C * simulated <= order * length C * (length C ^ (5 + k) * real) + error * length games)%nat.
Proof.
  intros n g h V cs t0 Hr Hd Hs Hg Hsat Hran Hk HG HH Hkt HD Hcov HQ.
  exact (rom_zk_times s vs G H k kt C D A Q Hr Hd Hs Hg Hsat Hran Hk HG HH Hkt HD Hcov HQ).
Qed.

(** with randomized constraints *)
Theorem C70_two_phase (s : prover) cbs labels n circ G H k kt (C : list F) D (A : distinguisher) Q :
  let g := p_g s in
  let h := p_h s in
  let V := zipw (commit g h) (p_v s) (p_v_blinding s) in
  let n1 := length (p_aL s) in
  let t0 := p_transcript s in
  let r := length labels in
  p_reachable false s -> generates h -> prover_second_phase s cbs labels n circ ->
  next_power_of_two n = (2 ^ k)%nat -> (2 ^ k <= length G)%nat -> (2 ^ k <= length H)%nat ->
  (11 + 2 * n <= kt)%nat -> NoDup D ->
  (forall pf, length (ipp_L (proof_ipp pf)) = k -> length (ipp_R (proof_ipp pf)) = k ->
     incl (two_phase_queries labels (length V) n t0 pf) D) ->
  at_most Q A ->
  let tapes := vectors every_scalar kt in
  let real := length (filter (fun '(ro, tape) => two_phase_real_guess s cbs G H A ro tape) (list_prod (oracles D C) tapes)) in
  let games := list_prod (list_prod (oracles D C) (vectors C (r + (5 + k)))) tapes in
  let simulated := length (filter (fun '(ro, c, tape) =>
    two_phase_simulated_guess g h G H V n1 n labels circ t0 A ro c tape) games) in
  let order := Z.to_nat modulus in
  let error := (Q * length C + 2 * order * times C 0)%nat in
  (order * length C * (length C ^ (r + (5 + k)) * real) <= order * length C * simulated + error * length games /\
   order * length C * simulated <= order * length C * (length C ^ (r + (5 + k)) * real) + error * length games)%nat.
Proof. exact (rom_zk2_times s cbs labels n circ G H k kt C D A Q). Qed.

(** commitments and proof of a session with any of the proving functions *)
Theorem C70_session W W' checks t g h (l : list call) G H k kt (C : list F) D (A : session_distinguisher) Q commss0 vs0 :
  let sts := map statement_of l in
  let ns := map size l in
  let n := v_num_vars vs0 in
  Forall honest_call l -> Forall draws_all l -> generates h ->
  map (@length G1) commss0 = ns -> session_verifier W' checks t g h sts commss0 = Some vs0 ->
  next_power_of_two n = (2 ^ k)%nat -> (2 ^ k <= length G)%nat -> (2 ^ k <= length H)%nat ->
  (11 + 2 * n <= kt)%nat -> NoDup D ->
  (forall commss vs pf, map (@length G1) commss = ns -> session_verifier W' checks t g h sts commss = Some vs ->
     length (ipp_L (proof_ipp pf)) = k -> length (ipp_R (proof_ipp pf)) = k ->
     incl (proof_queries (length (v_V vs)) n (v_transcript vs) pf) D) ->
  (forall commss, at_most Q (handed A commss)) ->
  let tapes1 := vectors every_scalar (list_sum ns) in
  let tapes2 := vectors every_scalar kt in
  let real := length (filter (fun '(tape1, (ro, tape2)) => real_session_guess W checks t g h l G H A ro tape1 tape2)
    (list_prod tapes1 (list_prod (oracles D C) tapes2))) in
  let games := list_prod tapes1 (list_prod (list_prod (oracles D C) (vectors C (5 + k))) tapes2) in
  let simulated := length (filter (fun '(tape1, (ro, c, tape2)) => simulated_session_guess W' checks t g h sts ns G H A ro c tape1 tape2) games) in
  let order := Z.to_nat modulus in
  let error := (Q * length C + 2 * order * times C 0)%nat in
  (order * length C * (length C ^ (5 + k) * real) <= order * length C * simulated + error * length games /\
   order * length C * simulated <= order * length C * (length C ^ (5 + k) * real) + error * length games)%nat.
Proof.
  intros sts ns n Hl Hf Hg Hs0 E0 Hk HG HH Hkt HD Hcov HQ.
  exact (session_zk_times W W' checks t g h l Hl Hf Hg G H k kt C D A Q commss0 vs0 Hs0 E0 Hk HG HH Hkt HD Hcov HQ).
Qed.

(** *** With the challenges of the code *)
(** The oracle returns strings of MODBYTES bytes, of which the code makes the challenges of
    [code_challenges] (C68).  The two fractions differ by at most
    (Q + 2) / (group order) + 2 / 256^MODBYTES. *)
Theorem C70_code_proof (s : prover) (vs : verifier) G H k kt D (A : distinguisher) Q :
  let n := length (p_aL s) in
  let g := p_g s in
  let h := p_h s in
  let V := v_V vs in
  let cs := v_constraints vs in
  let t0 := v_transcript vs in
  let C := code_challenges in
  p_reachable false s -> p_deferred s = [] -> same_circuit s vs -> generates h ->
  satisfies (prover_assignment s) n (p_constraints s) ->
  Forall (lc_in_range n (length (p_v s))) (p_constraints s) ->
  next_power_of_two n = (2 ^ k)%nat -> (2 ^ k <= length G)%nat -> (2 ^ k <= length H)%nat ->
  (11 + 2 * n <= kt)%nat -> NoDup D ->
  (forall pf, length (ipp_L (proof_ipp pf)) = k -> length (ipp_R (proof_ipp pf)) = k ->
     incl (proof_queries (length V) n t0 pf) D) ->
  at_most Q A ->
  let tapes := vectors every_scalar kt in
  let real := length (filter (fun '(ro, tape) => real_guess s G H A ro tape) (list_prod (oracles D C) tapes)) in
  let games := list_prod (list_prod (oracles D C) (vectors C (5 + k))) tapes in
  let simulated := length (filter (fun '(ro, c, tape) => simulated_guess g h G H V n cs t0 A ro c tape) games) in
  (Z.abs (byte_strings ^ Z.of_nat (5 + k) * Z.of_nat real - Z.of_nat simulated) * (modulus * byte_strings) <=
   (Z.of_nat Q * byte_strings + 2 * (byte_strings + modulus)) * zlen games)%Z.
Proof. exact (zk_code s vs G H k kt D A Q). Qed.

Theorem C70_code_two_phase (s : prover) cbs labels n circ G H k kt D (A : distinguisher) Q :
  let g := p_g s in
  let h := p_h s in
  let V := zipw (commit g h) (p_v s) (p_v_blinding s) in
  let n1 := length (p_aL s) in
  let t0 := p_transcript s in
  let r := length labels in
  let C := code_challenges in
  p_reachable false s -> generates h -> prover_second_phase s cbs labels n circ ->
  next_power_of_two n = (2 ^ k)%nat -> (2 ^ k <= length G)%nat -> (2 ^ k <= length H)%nat ->
  (11 + 2 * n <= kt)%nat -> NoDup D ->
  (forall pf, length (ipp_L (proof_ipp pf)) = k -> length (ipp_R (proof_ipp pf)) = k ->
     incl (two_phase_queries labels (length V) n t0 pf) D) ->
  at_most Q A ->
  let tapes := vectors every_scalar kt in
  let real := length (filter (fun '(ro, tape) => two_phase_real_guess s cbs G H A ro tape) (list_prod (oracles D C) tapes)) in
  let games := list_prod (list_prod (oracles D C) (vectors C (r + (5 + k)))) tapes in
  let simulated := length (filter (fun '(ro, c, tape) =>
    two_phase_simulated_guess g h G H V n1 n labels circ t0 A ro c tape) games) in
  (Z.abs (byte_strings ^ Z.of_nat (r + (5 + k)) * Z.of_nat real - Z.of_nat simulated) * (modulus * byte_strings) <=
   (Z.of_nat Q * byte_strings + 2 * (byte_strings + modulus)) * zlen games)%Z.
Proof. exact (zk_two_phase_code s cbs labels n circ G H k kt D A Q). Qed.

Theorem C70_code_session W W' checks t g h (l : list call) G H k kt D (A : session_distinguisher) Q commss0 vs0 :
  let sts := map statement_of l in
  let ns := map size l in
  let n := v_num_vars vs0 in
  let C := code_challenges in
  Forall honest_call l -> Forall draws_all l -> generates h ->
  map (@length G1) commss0 = ns -> session_verifier W' checks t g h sts commss0 = Some vs0 ->
  next_power_of_two n = (2 ^ k)%nat -> (2 ^ k <= length G)%nat -> (2 ^ k <= length H)%nat ->
  (11 + 2 * n <= kt)%nat -> NoDup D ->
  (forall commss vs pf, map (@length G1) commss = ns -> session_verifier W' checks t g h sts commss = Some vs ->
     length (ipp_L (proof_ipp pf)) = k -> length (ipp_R (proof_ipp pf)) = k ->
     incl (proof_queries (length (v_V vs)) n (v_transcript vs) pf) D) ->
  (forall commss, at_most Q (handed A commss)) ->
  let tapes1 := vectors every_scalar (list_sum ns) in
  let tapes2 := vectors every_scalar kt in
  let real := length (filter (fun '(tape1, (ro, tape2)) => real_session_guess W checks t g h l G H A ro tape1 tape2)
    (list_prod tapes1 (list_prod (oracles D C) tapes2))) in
  let games := list_prod tapes1 (list_prod (list_prod (oracles D C) (vectors C (5 + k))) tapes2) in
  let simulated := length (filter (fun '(tape1, (ro, c, tape2)) => simulated_session_guess W' checks t g h sts ns G H A ro c tape1 tape2) games) in
  (Z.abs (byte_strings ^ Z.of_nat (5 + k) * Z.of_nat real - Z.of_nat simulated) * (modulus * byte_strings) <=
   (Z.of_nat Q * byte_strings + 2 * (byte_strings + modulus)) * zlen games)%Z.
Proof. exact (zk_session_code W W' checks t g h l G H k kt D A Q commss0 vs0). Qed.
End Props.

Print Assumptions C70_proof.
Print Assumptions C70_two_phase.
Print Assumptions C70_session.
Print Assumptions C70_code_proof.
Print Assumptions C70_code_two_phase.
Print Assumptions C70_code_session.

(** ** The hypotheses are met *)
Section Examples.
#[local] Existing Instance toyP.
#[local] Existing Instance toyP_ok.
#[local] Existing Instance toyP_enc.
Local Open Scope fe_scope.

(** the answers 0, 1, 2, 3, 3: the product of C58 and the distinguisher that asks one question *)
Definition zc_C : list F := map fe [0; 1; 2; 3; 3]%Z.
Lemma zc_zero : times zc_C 0 = 1%nat /\ times zc_C (fe 3) = 2%nat.
Proof.
  unfold times, zc_C. cbn [map count_occ].
  split; repeat match goal with |- context [Fp_eq_dec ?m ?a ?b] => let E := fresh in destruct (Fp_eq_dec m a b) as [E|E];
    [try (exfalso; apply (f_equal (@fval _)) in E; vm_compute in E; discriminate E)|try (exfalso; apply E; reflexivity)] end; reflexivity.
Qed.

Example C70_example : exists vs D,
  p_reachable false rz_s /\ p_deferred rz_s = [] /\ same_circuit rz_s vs /\ generates (p_h rz_s) /\
  length (p_aL rz_s) = 2%nat /\ length (p_constraints rz_s) = 6%nat /\
  satisfies (prover_assignment rz_s) 2 (p_constraints rz_s) /\
  Forall (lc_in_range 2 (length (p_v rz_s))) (p_constraints rz_s) /\ NoDup D /\
  (forall pf, length (ipp_L (proof_ipp pf)) = 1%nat -> length (ipp_R (proof_ipp pf)) = 1%nat ->
     incl (proof_queries (length (v_V vs)) 2 (v_transcript vs) pf) D) /\
  at_most 1 rz_A /\
  let games := list_prod (list_prod (oracles D zc_C) (vectors zc_C (5 + 1))) (vectors every_scalar 15) in
  let order := Z.to_nat modulus in
  (order * 5 * length (filter (fun '(ro, c, tape) =>
      simulated_guess (p_g rz_s) (p_h rz_s) demo_G demo_H (v_V vs) 2 (v_constraints vs) (v_transcript vs) rz_A ro c tape) games) <=
   order * 5 * (5 ^ (5 + 1) * length (filter (fun '(ro, tape) => real_guess rz_s demo_G demo_H rz_A ro tape)
     (list_prod (oracles D zc_C) (vectors every_scalar 15)))) + (1 * 5 + 2 * order * 1) * length games)%nat.
Proof.
  destruct C58_example as (vs & D & H1 & H2 & H3 & H4 & H5 & H6 & H7 & H8 & _ & _ & H9 & H10 & H11 & _).
  exists vs, D. do 11 (split; [assumption|]). cbv zeta.
  pose proof (C70_proof rz_s vs demo_G demo_H 1 15 zc_C D rz_A 1) as X. cbv zeta in X. rewrite H5 in X.
  destruct zc_zero as [Ez _]. rewrite Ez in X. change (length zc_C) with 5%nat in X.
  refine (proj2 (X H1 H2 H3 H4 H7 H8 eq_refl _ _ (le_n 15) H9 H10 H11)); change (2 <= 8)%nat; lia.
Qed.

(** the shuffle of C64, with the challenges of the code *)
Example C70_example_shuffle : let s := shp_s demo_g demo_h (fe 3) (fe 5) (fe 21) (fe 22) (fe 23) (fe 24) in
  exists D, p_reachable false s /\ generates (p_h s) /\ prover_second_phase s shp_cbs ["shuffle"%string] 3 sh_circ /\ NoDup D /\
  (forall pf, length (ipp_L (proof_ipp pf)) = 2%nat -> length (ipp_R (proof_ipp pf)) = 2%nat ->
     incl (two_phase_queries ["shuffle"%string] 4 3 (p_transcript s) pf) D) /\
  at_most 1 (shp_A (p_transcript s)).
Proof.
  intros s. destruct (C64_questions demo_h ["shuffle"%string] 4 3 (p_transcript s) 2 demo_generates) as (D & HD & Hcov).
  exists D. split; [apply shp_reachable|]. split; [exact demo_generates|]. split; [apply shp_phase|].
  split; [exact HD|]. split; [exact Hcov|]. intros a. exact I.
Qed.
End Examples.
