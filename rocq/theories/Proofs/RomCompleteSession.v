(** How often the proof of a whole honest session is rejected. *)
From Coq Require Import ZArith String List Lia Bool Arith.
From Verif.Base Require Import Outcome Fp Params Algebra.
From Verif.Model Require Import Transcript LinComb Prog IPP Prover Verifier.
From Verif.Spec Require Import R1CS Sim Protocol Session Indist Games RomSim Compose RomSession RomComplete Challenges.
From Verif.Proofs Require Import LinCombProofs RunProofs ExtProofs CircuitProofs SyncMore CircuitMain
  GadgetTools GadgetBasic GadgetComplete GadgetPrograms GadgetMain GadgetEnd
  HashTools HashSound HashComplete HashPrograms HashMain MerkleTools MerkleTree MerkleBind MerkleMain MerkleSound MerkleComplete MerkleOpen
  RandomizerMap RandomizerSound RandomizerComplete RandomizerMain AnswerMain ComposeMain SameCircuit TreeCount GameInteractive OracleCount Utils RomCount RomZK RomSession RomComplete.
Import ListNotations.
Local Notation length := List.length.

Section Sessions.
Context {P : Params} {OK : ParamsOk P} {ENC : EncodingOk P}.

Theorem session_error_times W W' checks t g h (l : list call) : Forall honest_call l ->
  exists commss s vs, prun W false (prove_all checks l) (prover_new g h t) = Done (Ok commss, s) /\
    session_verifier W' checks t g h (map statement_of l) commss = Some vs /\
    let n := v_num_vars vs in
    forall G H k tape r C D,
      next_power_of_two n = 2 ^ k -> 2 ^ k <= length G -> 2 ^ k <= length H -> k < 32 ->
      1 < n \/ batch_invert_empty_panics = false -> NoDup D ->
      (forall pf, length (ipp_L (proof_ipp pf)) = k -> length (ipp_R (proof_ipp pf)) = k ->
         incl (proof_queries (length (v_V vs)) n (v_transcript vs) pf) D) ->
      length C * length (filter (fun O => session_rejected W W' checks t g h l G H O tape r) (oracles D C)) <= (1 + k) * times C (fzero _) * length (oracles D C).
Proof.
  intros Hl.
  destruct (calls_both W W' checks l Hl (prover_new g h t) (verifier_new t) eq_refl) as (k0 & r0 & commss & Hg & Hb); [intros x []|apply sync_base_new|].
  cbn [p_g p_h prover_new] in *.
  destruct Hb as (a & s & b & vs & E & E' & Hgr & Hhon & Hs & Hd & -> & ->); [intros x []|apply sync_base_new|].
  assert (Ev : session_verifier W' checks t g h (map statement_of l) commss = Some vs) by (unfold session_verifier; rewrite E'; reflexivity).
  exists commss, s, vs. split; [exact E|]. split; [exact Ev|]. cbv zeta. intros G H k tape r C D Hk HG HH H32 Hbi HD Hcov.
  pose proof (sy_wf _ _ Hs) as Hwf. pose proof (sy_num_vars _ _ Hs) as En. rewrite En in *.
  rewrite (filter_ext _ (fun O => rejected s vs G H O tape r)).
  2:{ intros O. unfold session_rejected. rewrite E, Ev. reflexivity. }
  apply (completeness_error_times s vs G H k tape r C D); try assumption.
  - econstructor; exact E.
  - exact (gr_deferred _ _ _ _ Hgr).
  - constructor.
    + apply (sy_num_vars _ _ Hs).
    + split; apply Hwf.
    + apply (sy_V _ _ Hs).
    + rewrite (sy_V _ _ Hs), zipw_length, (pwf_vb _ Hwf). lia.
    + apply (sy_constraints _ _ Hs).
    + apply (sy_pending _ _ Hs).
    + apply (sy_transcript _ _ Hs).
  - split; [intros i Hi; apply (pwf_gate _ Hwf i Hi)|]. intros x Hx. apply (Hhon x Hx).
  - apply Forall_forall. intros x Hx. apply (lc_has_in_range s x 0). apply honest_has; assumption.
Qed.

Theorem session_error W W' checks t g h (l : list call) : Forall honest_call l ->
  exists commss s vs, prun W false (prove_all checks l) (prover_new g h t) = Done (Ok commss, s) /\
    session_verifier W' checks t g h (map statement_of l) commss = Some vs /\
    let n := v_num_vars vs in
    forall G H k tape r C D,
      next_power_of_two n = 2 ^ k -> 2 ^ k <= length G -> 2 ^ k <= length H -> k < 32 ->
      1 < n \/ batch_invert_empty_panics = false -> NoDup C -> NoDup D ->
      (forall pf, length (ipp_L (proof_ipp pf)) = k -> length (ipp_R (proof_ipp pf)) = k ->
         incl (proof_queries (length (v_V vs)) n (v_transcript vs) pf) D) ->
      length C * length (filter (fun O => session_rejected W W' checks t g h l G H O tape r) (oracles D C)) <= (1 + k) * length (oracles D C).
Proof.
  intros Hl. destruct (session_error_times W W' checks t g h l Hl) as (commss & s & vs & E & Ev & He).
  exists commss, s, vs. split; [exact E|]. split; [exact Ev|]. cbv zeta. intros G H k tape r C D Hk HG HH H32 Hbi HC HD Hcov.
  etransitivity; [apply (He G H k tape r C D); assumption|].
  apply Nat.mul_le_mono_r. rewrite <- (Nat.mul_1_r (1 + k)) at 2. apply Nat.mul_le_mono_l. apply (repeats_once C HC).
Qed.
End Sessions.
