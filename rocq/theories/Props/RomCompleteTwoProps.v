(** C69: how often honest proofs of circuits with randomized constraints are rejected. *)
From Coq Require Import ZArith String List Lia.
From Verif.Base Require Import Outcome Fp Params Algebra Instances.
From Verif.Model Require Import Transcript LinComb Prog IPP Prover Verifier.
From Verif.Spec Require Import R1CS Session Protocol Indist Games RomSim TwoPhase RomTwo RomComplete Challenges RomCompleteTwo.
From Verif.Proofs Require Import RunProofs OracleCode TreeCount OracleVerify RomLink ChallengeBytes RomCompleteTwo.
From Verif.Props Require Import Demo IndistProps TwoPhaseProps RomTwoProps RomCompleteProps.
Import ListNotations.

Local Notation length := List.length.
Local Notation zlen l := (Z.of_nat (length l)).

Section Props.
Context {P : Params} {OK : ParamsOk P}.
Local Open Scope fe_scope.

(** ** C69 Honest proofs with a second phase are rejected with probability at most (1 + k) / |C| *)
(** A prover [s] after its first phase and a verifier of the same circuit: the callbacks
    [pcbs] of the prover and [vcbs] of the verifier draw challenges with the given labels
    and lead to the same circuit [circ e] with [n] gates for the answers [e]; the values of
    the prover satisfy it and, as its constraints, are functions of these answers.  As in
    C67, [C] are the possible answers of the oracle (zero may be one of them) and [D]
    contains every question that the verification of a proof of this size can lead to.
    Whatever random values are drawn, the fraction of the oracles with which [prove] fails
    or [verify] does not accept its proof is at most (1 + k) / |C|: the challenges of the
    callbacks do not count. *)
Theorem C69_completeness_error (s : prover) pcbs vcbs cs1 labels n circ cps aLs aRs aOs G H k tape x (C : list F) D :
  let V := zipw (commit (p_g s) (p_h s)) (p_v s) (p_v_blinding s) in
  p_reachable false s ->
  prover_second_phase s pcbs labels n circ -> prover_second_values s pcbs labels cps aLs aRs aOs ->
  second_phase (length (p_aL s)) cs1 V vcbs labels n circ ->
  next_power_of_two n = (2 ^ k)%nat -> (2 ^ k <= length G)%nat -> (2 ^ k <= length H)%nat ->
  (k < 32)%nat -> (1 < n)%nat \/ batch_invert_empty_panics = false ->
  NoDup C -> NoDup D ->
  (forall pf, length (ipp_L (proof_ipp pf)) = k -> length (ipp_R (proof_ipp pf)) = k ->
     incl (two_phase_queries labels (length V) n (p_transcript s) pf) D) ->
  (length C * length (filter (fun O => two_phase_rejected s pcbs vcbs cs1 G H O tape x) (oracles D C)) <=
   (1 + k) * length (oracles D C))%nat.
Proof. exact (completeness_two_phase_nodup s pcbs vcbs cs1 labels n circ cps aLs aRs aOs G H k tape x C D). Qed.

(** The same with the challenges as the code derives them from strings of MODBYTES bytes:
    at most (1 + k) (1/order + 1/256^MODBYTES). *)
Theorem C69_code_challenges (s : prover) pcbs vcbs cs1 labels n circ cps aLs aRs aOs G H k tape x D :
  let V := zipw (commit (p_g s) (p_h s)) (p_v s) (p_v_blinding s) in
  let C := code_challenges in
  p_reachable false s ->
  prover_second_phase s pcbs labels n circ -> prover_second_values s pcbs labels cps aLs aRs aOs ->
  second_phase (length (p_aL s)) cs1 V vcbs labels n circ ->
  next_power_of_two n = (2 ^ k)%nat -> (2 ^ k <= length G)%nat -> (2 ^ k <= length H)%nat ->
  (k < 32)%nat -> (1 < n)%nat \/ batch_invert_empty_panics = false -> NoDup D ->
  (forall pf, length (ipp_L (proof_ipp pf)) = k -> length (ipp_R (proof_ipp pf)) = k ->
     incl (two_phase_queries labels (length V) n (p_transcript s) pf) D) ->
  (modulus * byte_strings * zlen (filter (fun O => two_phase_rejected s pcbs vcbs cs1 G H O tape x) (oracles D C)) <=
   Z.of_nat (1 + k) * (byte_strings + modulus) * zlen (oracles D C))%Z.
Proof. exact (completeness_two_phase_code s pcbs vcbs cs1 labels n circ cps aLs aRs aOs G H k tape x D). Qed.
End Props.

Print Assumptions C69_completeness_error.
Print Assumptions C69_code_challenges.

(** ** The hypotheses are met *)
(** The shuffle of C60 and C64: commitments to x0, x1 and to x1, x0. *)
Section ShuffleFacts.
Context {P : Params} {OK : ParamsOk P}.
Lemma shp_values g h x0 x1 b0 b1 b2 b3 :
  prover_second_values (shp_s g h x0 x1 b0 b1 b2 b3) shp_cbs ["shuffle"%string] sh_circ
    (fun e => shp_left x0 x1 (nth 0 e (fzero _))) (fun e => shp_right x0 x1 (nth 0 e (fzero _))) (fun e => shp_out x0 x1 (nth 0 e (fzero _))).
Proof.
  rewrite shp_state. intros O t random i s2. cbv zeta.
  pose proof (@shp_second_run (backend O) (@World (backend O) random (fun _ => [])) g h (r1cs_2phase_domain_sep t) x0 x1 b0 b1 b2 b3 i) as Hrun.
  cbv zeta in Hrun. pose proof (backend_challenge O "shuffle"%string (r1cs_2phase_domain_sep t)) as Ez.
  set (z := @challenge_value (backend O) "shuffle"%string (r1cs_2phase_domain_sep t)) in *.
  intros E.
  assert (E' : s2 = @Prover (backend O) g h (r1cs_2phase_domain_sep t ++ [TChallenge "shuffle"%string modbytes]) (@sh_circ (backend O) [z])
    (@shp_left (backend O) x0 x1 z) (@shp_right (backend O) x0 x1 z) (@shp_out (backend O) x0 x1 z) [x0; x1; x1; x0] [b0; b1; b2; b3] [] None i 0).
  { assert (X : Done (Ok s2) = Done (Ok (@Prover (backend O) g h (r1cs_2phase_domain_sep t ++ [TChallenge "shuffle"%string modbytes]) (@sh_circ (backend O) [z])
    (@shp_left (backend O) x0 x1 z) (@shp_right (backend O) x0 x1 z) (@shp_out (backend O) x0 x1 z) [x0; x1; x1; x0] [b0; b1; b2; b3] [] None i 0)))
      by exact (eq_trans (eq_sym E) Hrun).
    injection X. auto. }
  rewrite E'. cbn [p_constraints p_aL p_aR p_aO callback_queries map length nth]. rewrite <- Ez.
  split; [reflexivity|]. split; [reflexivity|]. split; reflexivity.
Qed.

(** at most 3 / |C| of the honest proofs of a shuffle are rejected *)
Theorem C69_shuffle (g h : G1) (x0 x1 b0 b1 b2 b3 : F) G H tape x (C : list F) D :
  let s := shp_s g h x0 x1 b0 b1 b2 b3 in
  (4 <= length G)%nat -> (4 <= length H)%nat -> NoDup C -> NoDup D ->
  (forall pf, length (ipp_L (proof_ipp pf)) = 2 -> length (ipp_R (proof_ipp pf)) = 2 ->
     incl (two_phase_queries ["shuffle"%string] 4 3 (p_transcript s) pf) D) ->
  length C * length (filter (fun O => two_phase_rejected s shp_cbs sh_cbs sh_cs1 G H O tape x) (oracles D C)) <=
  3 * length (oracles D C).
Proof.
  intros s HG HH HC HD Hcov.
  exact (C69_completeness_error s shp_cbs sh_cbs sh_cs1 ["shuffle"%string] 3 sh_circ sh_circ _ _ _ G H 2 tape x C D
    (shp_reachable g h x0 x1 b0 b1 b2 b3) (shp_phase g h x0 x1 b0 b1 b2 b3) (shp_values g h x0 x1 b0 b1 b2 b3)
    (sh_phase _) eq_refl HG HH ltac:(lia) (or_introl (le_S _ _ (le_n 2))) HC HD Hcov).
Qed.
End ShuffleFacts.
Print Assumptions C69_shuffle.

Section Examples.
#[local] Existing Instance toyP.
#[local] Existing Instance toyP_ok.
#[local] Existing Instance toyP_enc.
Local Open Scope fe_scope.

(** 3, 5 and 5, 3; the answers are 0, ..., 99: at most 3 of 100 *)
Example C69_example tape x : let s := shp_s demo_g demo_h (fe 3) (fe 5) (fe 21) (fe 22) (fe 23) (fe 24) in
  exists D, p_reachable false s /\ prover_second_phase s shp_cbs ["shuffle"%string] 3 sh_circ /\
  prover_second_values s shp_cbs ["shuffle"%string] sh_circ (fun e => shp_left (fe 3) (fe 5) (nth 0 e 0))
    (fun e => shp_right (fe 3) (fe 5) (nth 0 e 0)) (fun e => shp_out (fe 3) (fe 5) (nth 0 e 0)) /\
  length (p_aL s) = 1%nat /\
  second_phase 1 sh_cs1 (zipw (commit (p_g s) (p_h s)) (p_v s) (p_v_blinding s)) sh_cbs ["shuffle"%string] 3 sh_circ /\
  NoDup rc_C /\ In 0 rc_C /\ NoDup D /\
  (forall pf, length (ipp_L (proof_ipp pf)) = 2%nat -> length (ipp_R (proof_ipp pf)) = 2%nat ->
     incl (two_phase_queries ["shuffle"%string] 4 3 (p_transcript s) pf) D) /\
  (100 * length (filter (fun O => two_phase_rejected s shp_cbs sh_cbs sh_cs1 demo_G demo_H O tape x) (oracles D rc_C)) <= 3 * length (oracles D rc_C))%nat.
Proof.
  intros s. destruct (C64_questions demo_h ["shuffle"%string] 4 3 (p_transcript s) 2 demo_generates) as (D & HD & Hcov).
  exists D. split; [apply shp_reachable|]. split; [apply shp_phase|]. split; [apply shp_values|]. split; [reflexivity|].
  split; [apply sh_phase|]. split; [exact rc_C_nodup|]. split; [left; reflexivity|]. split; [exact HD|]. split; [exact Hcov|].
  exact (C69_shuffle demo_g demo_h (fe 3) (fe 5) (fe 21) (fe 22) (fe 23) (fe 24) demo_G demo_H tape x rc_C D
    ltac:(change (4 <= 8)%nat; lia) ltac:(change (4 <= 8)%nat; lia) rc_C_nodup HD Hcov).
Qed.
End Examples.
