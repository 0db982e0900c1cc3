(** From two gadget programs in step to a proof that verifies. *)
From Coq Require Import ZArith String List Lia Bool Ring Field Arith.
From Verif.Base Require Import Outcome Fp Params Algebra.
From Verif.Model Require Import Transcript LinComb Prog VectorPoly IPP Prover Verifier Gadgets.
From Verif.Spec Require Import R1CS Sim Session Protocol Verdict Gadget.
From Verif.Proofs Require Import IPPProofs LinCombProofs RunProofs ExtProofs FlattenProofs VerifyProofs ProveProofs RoundTrip
  CircuitProofs SyncMore CircuitMain GadgetTools R1CSMain VerdictProofs.
Import ListNotations.

Section End.
Context {P : Params} {OK : ParamsOk P}.
Local Open Scope fe_scope.
Add Field FFge : (Fp_field_theory modulus modulus_prime).

Theorem both_end_to_end {A} W W' label g h G H (pp : pprog (result A)) vp k r comms :
  both W W' false k r pp vp (prover_new g h (transcript_new label)) (verifier_new (transcript_new label))
    (fun a b _ => a = Ok comms /\ b = Ok tt) ->
  enough_generators k G H ->
  exists proof, gen_proof W label g h G H pp = Done (Ok (proof, comms)) /\
    (good_challenges W' (transcript_new label) vp proof ->
     verify_proof W' label g h G H proof vp = Done (Ok tt)).
Proof.
  intros Hb (HG & HH & H32 & Hbi). set (t := transcript_new label) in *.
  destruct Hb as (a & s & b & vs & Ep & Ev & Hg & Hh & Hs & Hd & -> & ->);
    [intros l []|apply sync_base_new|].
  pose proof (sy_wf _ _ Hs) as Hwf.
  assert (Hn : length (p_aL s) = k) by (rewrite (gr_mult _ _ _ _ Hg); reflexivity).
  assert (Hdp : p_deferred s = []) by (apply (gr_deferred _ _ _ _ Hg)).
  set (s1 := hp_state1 W s G H).
  set (s2 := p_with_transcript (r1cs_1phase_domain_sep (p_transcript s1)) (p_with_pending None s1)).
  assert (E2 : prover_create_randomized_constraints W s1 = Done (Ok s2)).
  { exact (proj1 (prover_second_phase_spec W s1) Hdp). }
  assert (Hr : Forall (lc_in_range (length (p_aL s2)) (length (p_v s2))) (p_constraints s2)).
  { apply Forall_forall. intros l Hl. exact (lc_has_in_range s l 0 (Hh l Hl)). }
  assert (HG' : (next_power_of_two (length (p_aL s2)) <= length G)%nat)
    by (change (length (p_aL s2)) with (length (p_aL s)); rewrite Hn; exact HG).
  assert (HH' : (next_power_of_two (length (p_aL s2)) <= length H)%nat)
    by (change (length (p_aL s2)) with (length (p_aL s)); rewrite Hn; exact HH).
  destruct (prove_char W s G H s2 Hwf E2 HG' HH' Hr) as (proof & tp & us & Epr & _).
  assert (Hsync : sync W W' s vs).
  { split; [exact Hs|]. rewrite Hdp, Hd. constructor. }
  destruct (round_trip_sync W W' g h G H s vs proof tp Hsync) as (s2' & vs2 & E2' & Ev2 & Hs2 & Hrest).
  { apply (px_g _ _ (gr_ext _ _ _ _ Hg)). }
  { apply (px_h _ _ (gr_ext _ _ _ _ Hg)). }
  { exact Epr. }
  fold s1 in E2'. rewrite E2 in E2'. injection E2' as <-.
  exists proof. split.
  { unfold gen_proof. fold t. rewrite Ep, Epr. reflexivity. }
  intros Hgood. unfold verify_proof. fold t. rewrite Ev.
  destruct (Hgood (Ok tt) vs vs2 Ev Ev2) as [Hy Hu].
  destruct Hrest as (_ & _ & _ & _ & _ & _ & Hv).
  rewrite (sy_num_vars _ _ Hs2) in Hu. rewrite <- (sy_transcript _ _ Hs2) in Hy, Hu.
  assert (Hsat : forall l, In l (p_constraints s2) -> lc_value (prover_assignment s2) l = 0).
  { intros l Hl. apply (Hh l Hl). }
  rewrite Hv; [| | |exact Hy|exact Hu].
  - rewrite (zsum_satisfied (prover_assignment s2) (p_constraints s2)) by exact Hsat.
    match goal with |- context [g1_eqb ?x ?y] => replace (g1_eqb x y) with true; [reflexivity|symmetry; apply g1_eqb_spec] end.
    transitivity (g1_mul 0 g); [f_equal; ring|apply g1_mul_zero].
  - change (length (p_aL s2)) with (length (p_aL s)). rewrite Hn. exact H32.
  - change (length (p_aL s2)) with (length (p_aL s)). rewrite Hn. exact Hbi.
Qed.
End End.
