(** A proof that [verify] accepts is an accepted conversation. *)
From Coq Require Import ZArith List Lia Bool.
From Verif.Base Require Import Outcome Fp Params Algebra.
From Verif.Model Require Import Transcript LinComb Prog IPP Prover Verifier.
From Verif.Spec Require Import R1CS Protocol IPPSpec Verdict R1CSTree.
From Verif.Proofs Require Import FlattenProofs IPPProofs IPPMore VerifyProofs VerdictProofs R1CSMain.
Import ListNotations.

Section Accepted.
Context {P : Params} {OK : ParamsOk P}.
Local Open Scope fe_scope.

Lemma zipw_mul_firstn (c : nat -> F) N (G : list G1) : (N <= length G)%nat ->
  zipw g1_mul (map c (seq 0 N)) (firstn N G) = map (fun i => g1_mul (c i) (nth i G g1_id)) (seq 0 N).
Proof.
  intros HN. rewrite (list_as_map_n (firstn N G) g1_id N) by (rewrite firstn_length; lia). rewrite zipw_map.
  apply map_ext_in. intros i Hi. apply in_seq in Hi. rewrite nth_firstn_lt by lia. reflexivity.
Qed.

Theorem equations_accepted s s2 proof g h G H :
  proof_fits s2 proof G H ->
  let c := protocol_challenges (v_transcript s2) proof in
  all_nonzero (round_challenges (v_num_vars s2) c proof) ->
  (equation_ipp s s2 proof g h G H /\ equation_t s2 proof g h <->
   accepted g h G H (v_V s2) (v_num_vars s) (v_num_vars s2) (v_constraints s2) proof
     (c_y c) (c_z c) (c_u c) (c_x c) (c_w c) (round_challenges (v_num_vars s2) c proof)).
Proof.
  intros [HG HH _ HLR H32 HN Hb] c Hnz. unfold equation_ipp, equation_t, accepted. cbv zeta. fold c.
  set (N := next_power_of_two (v_num_vars s2)) in *.
  set (Ls := ipp_L (proof_ipp proof)) in *. set (Rs := ipp_R (proof_ipp proof)) in *.
  destruct (ipp_challenges Ls Rs (innerproduct_domain_sep N (c_t c))) as [us t'] eqn:Eus.
  assert (Hus : round_challenges (v_num_vars s2) c proof = us) by (unfold round_challenges; fold N Ls Rs; rewrite Eus; reflexivity).
  rewrite Hus in Hnz |- *.
  assert (Hempty : Ls <> [] \/ batch_invert_empty_panics = false).
  { destruct Hb as [Hb|Hb]; [left|right; assumption]. intros E. rewrite E in HN. cbn in HN.
    pose proof (next_power_of_two_ge (v_num_vars s2)). fold N in H0. lia. }
  destruct (verify_ipp_conversation N (c_t c) (map (phase_factor (v_num_vars s) (c_u c)) (seq 0 N))
     (map (fun i => fpow (finv (c_y c)) i * phase_factor (v_num_vars s) (c_u c) i) (seq 0 N))
     (ipp_point proof g h G H (v_num_vars s) (v_num_vars s2) N (v_constraints s2) (c_y c) (c_z c) (c_u c) (c_x c) (c_w c))
     (g1_mul (c_w c) g) (firstn N G) (firstn N H) (ipp_a (proof_ipp proof)) (ipp_b (proof_ipp proof)) Ls Rs us t')
    as (r & Er & _ & Hr); try assumption; try (rewrite firstn_length; lia); try (rewrite map_length, seq_length; reflexivity).
  unfold scale_points in Hr. rewrite !zipw_mul_firstn in Hr by assumption.
  split.
  - intros [[t1 E1] Et]. split; [exact Et|]. apply Hr. rewrite Er in E1. injection E1 as -> _. reflexivity.
  - intros [Et Ec]. split; [|exact Et]. apply Hr in Ec. exists t'. rewrite Er, Ec. reflexivity.
Qed.

Theorem verify_accepted W s s2 proof g h G H :
  v_second W proof s s2 -> proof_fits s2 proof G H ->
  let c := protocol_challenges (v_transcript s2) proof in
  let us := round_challenges (v_num_vars s2) c proof in
  let accepts r := exists t, verify (with_random W (v_nrand s2) r) s proof g h G H = Done (Ok t) in
  let acc := accepted g h G H (v_V s2) (v_num_vars s) (v_num_vars s2) (v_constraints s2) proof
     (c_y c) (c_z c) (c_u c) (c_x c) (c_w c) us in
  all_nonzero us -> (acc <-> forall r, accepts r) /\ (forall r r', r <> r' -> accepts r -> accepts r' -> acc).
Proof.
  intros H2 Hfit c us accepts acc Hnz. pose proof (equations_accepted s s2 proof g h G H Hfit Hnz) as E. fold c us acc in E.
  destruct (batching W s s2 proof g h G H H2 Hfit) as [B1 B2]. fold accepts in B1, B2. split.
  - rewrite <- E. exact B1.
  - intros r r' Hne [t1 E1] [t2 E2]. apply E. destruct Hfit as [HG HH Hr HLR H32 HN Hb].
    apply (batch_two_r s s2 proof g h G H HG HH Hr HLR H32 HN Hb (with_random W (v_nrand s2) r) (with_random W (v_nrand s2) r') t1 t2);
      try assumption.
    + apply second_later; [lia|assumption].
    + apply second_later; [lia|assumption].
    + cbn. rewrite !Nat.eqb_refl. exact Hne.
Qed.
End Accepted.
