(** Cheating provers against the verifying functions: the prover chooses the
    commitments and the proof after asking the random oracle. *)
From Coq Require Import ZArith String List.
From Verif.Base Require Import Outcome Fp Params Algebra.
From Verif.Model Require Import Transcript LinComb Prog IPP Prover Verifier.
From Verif.Spec Require Import Games Compose.
Import ListNotations.

Section GadgetGames.
Context {P : Params}.

(** the transcript [t] of a new verifier after it received the commitments [V] *)
Definition committed (t : transcript) (V : list G1) : transcript :=
  fold_left (fun t C => commit_point "V" C t) V (r1cs_domain_sep t).

(** The verifying functions for the statements [sts], called one after the other on the
    commitments [commss], succeed; and then [verify], with the oracle [O] and the random
    value [r], accepts [pf]. *)
Definition gadgets_accept (W : world) (t : transcript) (checks : bool) (g h : G1) (G H : list G1) (sts : list statement)
    (O : oracle) (r : F) (commss : list (list G1)) (pf : r1cs_proof) : Prop :=
  exists vs, vrun W false (verify_all checks g h (combine sts commss)) (verifier_new t) = Done (Ok tt, vs) /\
    verify_accepts O r g h G H (v_V vs) (v_num_vars vs) (v_constraints vs) (v_transcript vs) pf.

(** the questions behind the challenges, for a circuit with [n] gates *)
Definition gadget_queries (t : transcript) (g h : G1) (sts : list statement) (n : nat) (commss : list (list G1))
    (pf : r1cs_proof) : list query :=
  let V := all_commitments g h (combine sts commss) in
  proof_queries (length V) n (committed t V) pf.
End GadgetGames.
