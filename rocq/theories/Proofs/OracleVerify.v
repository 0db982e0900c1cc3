(** [verify] asks the transcript exactly the questions of [proof_queries]. *)
From Coq Require Import ZArith String List Lia Bool.
From Verif.Base Require Import Outcome Fp Params Algebra.
From Verif.Model Require Import Transcript LinComb Prog IPP Prover Verifier.
From Verif.Spec Require Import R1CS Protocol IPPSpec Verdict R1CSTree Games.
From Verif.Proofs Require Import R1CSAccepted.
Import ListNotations.

Section OracleVerify.
Context {P : Params} {OK : ParamsOk P}.
Local Open Scope fe_scope.

Lemma round_queries_challenges Ls : forall Rs t,
  map transcript_oracle (round_queries Ls Rs t) = fst (ipp_challenges Ls Rs t).
Proof.
  induction Ls as [|L Ls IH]; intros [|R Rs] t; try reflexivity.
  cbn [round_queries ipp_challenges map]. cbv zeta. rewrite IH. unfold challenge_scalar.
  destruct (ipp_challenges Ls Rs _) as [us t'] eqn:E. cbn [fst]. unfold transcript_oracle at 1. cbn [fst snd]. reflexivity.
Qed.

Lemma challenge_queries_challenges n t pf :
  let c := protocol_challenges t pf in
  map transcript_oracle (challenge_queries n t pf) = c_y c :: c_z c :: c_u c :: c_x c :: c_w c :: round_challenges n c pf.
Proof.
  intros c. unfold challenge_queries. cbv zeta. cbn [app map]. rewrite round_queries_challenges. reflexivity.
Qed.
Lemma proof_queries_challenges m n t pf :
  let c := protocol_challenges (r1cs_1phase_domain_sep (first_phase_transcript pf m t)) pf in
  map transcript_oracle (proof_queries m n t pf) = c_y c :: c_z c :: c_u c :: c_x c :: c_w c :: round_challenges n c pf.
Proof. exact (challenge_queries_challenges n _ pf). Qed.

Theorem verify_asks W s proof g h G H :
  v_deferred s = [] -> proof_fits s proof G H ->
  let c := map transcript_oracle (proof_queries (List.length (v_V s)) (v_num_vars s) (v_transcript s) proof) in
  let accepts r := exists t, verify (with_random W (v_nrand s) r) s proof g h G H = Done (Ok t) in
  let acc := accepted_for g h G H (v_V s) (v_num_vars s) (v_num_vars s) (v_constraints s) proof c in
  all_nonzero (skipn 5 c) -> (acc <-> forall r, accepts r) /\ (forall r r', r <> r' -> accepts r -> accepts r' -> acc).
Proof.
  intros Hd Hfit. cbv zeta. rewrite proof_queries_challenges. cbn [skipn accepted_for].
  set (s2 := v_with_transcript (r1cs_1phase_domain_sep (v_transcript (v_with_pending None (v_absorb proof s)))) (v_with_pending None (v_absorb proof s))).
  assert (H2 : v_second W proof s s2).
  { unfold v_second, verifier_create_randomized_constraints. cbv zeta.
    change (v_deferred (v_with_pending None (v_absorb proof s))) with (v_deferred s). rewrite Hd. reflexivity. }
  assert (Hf2 : proof_fits s2 proof G H) by (destruct Hfit; constructor; assumption).
  exact (verify_accepted W s s2 proof g h G H H2 Hf2).
Qed.
End OracleVerify.
