(** How often the proof of an honest prover is rejected, for circuits with a second phase. *)
From Coq Require Import ZArith String List.
From Verif.Base Require Import Outcome Fp Params Algebra.
From Verif.Model Require Import Transcript LinComb Prog IPP Prover Verifier.
From Verif.Spec Require Import R1CS Protocol Indist Games RomSim TwoPhase RomTwo.
Import ListNotations.

(** What the callbacks of the prover add depends on the answers to their challenges only:
    for the answers [e] the constraints are then [cps e] and the wires [aLs e], [aRs e],
    [aOs e]. *)
Definition prover_second_values {P : Params} (s : prover)
    (cbs : forall O : query -> Fp modulus, list (@pprog (backend O) (result unit)))
    (labels : list string) (cps : list (Fp modulus) -> list lc) (aLs aRs aOs : list (Fp modulus) -> list (Fp modulus)) : Prop :=
  forall O t random i s2,
    let t := r1cs_2phase_domain_sep t in
    let e := map O (callback_queries labels t) in
    @prover_run_callbacks (backend O) (@World (backend O) random (fun _ => [])) (cbs O)
      (@p_with_nrand (backend O) i (@p_with_transcript (backend O) t (@p_with_pending (backend O) None (prover_at O s)))) = Done (Ok s2) ->
    @p_constraints (backend O) s2 = cps e /\
    @p_aL (backend O) s2 = aLs e /\ @p_aR (backend O) s2 = aRs e /\ @p_aO (backend O) s2 = aOs e.

(** [prove] fails, or [verify] does not accept what it returns; the random values of the
    prover are taken from the tape, the one of the verifier is [x].  The verifier has the
    callbacks [vcbs] and, from its first phase, the constraints [cs1]. *)
Definition two_phase_rejected {P : Params} (s : prover)
    (pcbs : forall O : query -> Fp modulus, list (@pprog (backend O) (result unit)))
    (vcbs : forall O : query -> Fp modulus, list (@vprog (backend O) (result unit))) (cs1 : list lc)
    (G H : list G1) (O : oracle) (tape : list (Fp modulus)) (x : Fp modulus) : bool :=
  let V := zipw (commit (p_g s) (p_h s)) (p_v s) (p_v_blinding s) in
  match two_phase_real s pcbs G H O tape with
  | Some (pf, _) =>
      match @verify (backend O) (@World (backend O) (fun _ => x) (fun _ => []))
              (two_phase_verifier O V (length (p_aL s)) cs1 (vcbs O) (p_transcript s)) (same_proof O pf) (p_g s) (p_h s) G H with
      | Done (Ok _) => false
      | _ => true
      end
  | None => true
  end.
