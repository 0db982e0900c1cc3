(** How often the proof of an honest prover is rejected, on paper.

    With a random oracle for the transcript, [prove] is run and its proof is handed to
    [verify].  Out of all oracles, those are counted for which [verify] does not accept. *)
From Coq Require Import ZArith String List.
From Verif.Base Require Import Outcome Fp Params Algebra.
From Verif.Model Require Import Transcript LinComb Prog IPP Prover Verifier.
From Verif.Spec Require Import R1CS Protocol Indist Games RomSim Compose RomSession.
Import ListNotations.

Section RomComplete.
Context {P : Params}.

(** [verify] accepts the proof, with the oracle [O] and the random value [r]; the circuit
    of the verifier has no second phase *)
Definition accepts (vs : verifier) (g h : G1) (G H : list G1) (O : oracle) (r : F) (pf : r1cs_proof) : bool :=
  match @verify (backend O) (@World (backend O) (fun _ => r) (fun _ => []))
          (@Verifier (backend O) (v_transcript vs) (v_constraints vs) (v_num_vars vs) (v_V vs) [] (v_pending vs) 0 0)
          (same_proof O pf) g h G H with
  | Done (Ok _) => true
  | _ => false
  end.

(** [prove] fails, or [verify] does not accept what it returns *)
Definition rejected (s : prover) (vs : verifier) (G H : list G1) (O : oracle) (tape : list F) (r : F) : bool :=
  match real_proof s G H O tape with
  | Some (pf, _) => negb (accepts vs (p_g s) (p_h s) G H O r pf)
  | None => true
  end.

(** A whole session: the proving functions, [prove], the verifying functions, [verify]. *)
Definition session_rejected (W W' : world) (checks : bool) (t : transcript) (g h : G1) (l : list call) (G H : list G1)
    (O : oracle) (tape : list F) (r : F) : bool :=
  match prun W false (prove_all checks l) (prover_new g h t) with
  | Done (Ok commss, s) =>
      match session_verifier W' checks t g h (map statement_of l) commss with
      | Some vs => rejected s vs G H O tape r
      | None => true
      end
  | _ => true
  end.
End RomComplete.
