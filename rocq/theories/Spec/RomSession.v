(** Zero knowledge of whole sessions with gadgets, on paper.

    A session: the proving functions are called one after the other on a new prover,
    all blindings are drawn from the random generator, then [prove].  A distinguisher
    asks the oracle; it is handed all commitments; it asks again; it is handed the
    proof; it asks as many questions as it likes and guesses.
    The simulator knows the statements and how many commitments belong to each. *)
From Coq Require Import ZArith String List.
From Verif.Base Require Import Outcome Fp Params Algebra.
From Verif.Model Require Import Transcript LinComb Prog IPP Prover Verifier.
From Verif.Spec Require Import R1CS Protocol Indist Simulator Games RomSim Compose.
Import ListNotations.

Section RomSession.
Context {P : Params}.

(** no blinding is passed: the proving function draws all of them *)
Definition draws_all (c : call) : Prop :=
  match c with
  | PNonZero _ r _ | PBounded _ r _ _ _ _ | PMember _ r _ _ | PMemberAlt _ r _ _ | PNotMember _ r _ _ => r = None
  | PMimc _ r _ _ _ _ | PHash2 _ r _ _ _ _ | PHash4 _ r _ _ _ _ | PHash8 _ r _ _ _ _
  | PLeaf4 _ _ r _ _ _ _ _ _ | PLeaf8 _ _ r _ _ _ _ _ _ => r = None
  | PHamming _ _ _ | PRandomized _ _ _ _ _ _ _ _ _ _ => True
  end.

(** the number of commitments; apart from the number of levels of an opening, the
    statement determines it *)
Definition size (c : call) : nat :=
  match c with
  | PNonZero _ _ _ => 2
  | PBounded _ _ _ _ _ _ => 3
  | PMember _ _ set _ => 1 + length set
  | PMemberAlt _ _ set _ => length set + 1
  | PNotMember _ _ set _ => 1 + 2 * length set
  | PHamming _ new _ => length new
  | PMimc _ _ _ _ _ _ | PHash2 _ _ _ _ _ _ => 2
  | PHash4 _ _ _ _ _ _ => 4
  | PHash8 _ _ _ _ _ _ => 8
  | PLeaf4 _ _ _ proof _ _ _ _ _ => 2 + 3 * length proof
  | PLeaf8 _ _ _ proof _ _ _ _ _ => 2 + 7 * length proof
  | PRandomized _ _ _ _ _ _ indices _ depth _ => 1 + length indices * S (depth * 3)
  end.

(** a list cut into pieces of the given lengths *)
Fixpoint cut {X} (ns : list nat) (l : list X) : list (list X) :=
  match ns with
  | [] => []
  | n :: ns => firstn n l :: cut ns (skipn n l)
  end.

(** The commitments, and the proof with the transcript that [prove] leaves behind.  The
    random generator yields first [tape1] and then, in [prove], [tape2]. *)
Definition real_session (W : world) (checks : bool) (t : transcript) (g h : G1) (l : list call) (G H : list G1) (O : oracle)
    (tape1 tape2 : list F) : option (list (list G1) * option (r1cs_proof * transcript)) :=
  match prun (with_tape W 0 tape1) false (prove_all checks l) (prover_new g h t) with
  | Done (Ok commss, s) => Some (commss, real_proof s G H O tape2)
  | _ => None
  end.

(** The simulated commitments are random multiples of [h]; the simulated proof is the one
    of Spec/RomSim.v, for the circuit that the verifying functions build.  Also the
    questions of that proof are returned. *)
Definition simulated_commitments (h : G1) (ns : list nat) (tape1 : list F) : list (list G1) :=
  cut ns (map (fun r => g1_mul r h) tape1).
Definition session_verifier (W : world) (checks : bool) (t : transcript) (g h : G1) (sts : list statement) (commss : list (list G1))
  : option verifier :=
  match vrun W false (verify_all checks g h (combine sts commss)) (verifier_new t) with
  | Done (Ok tt, vs) => Some vs
  | _ => None
  end.
Definition simulated_session (W : world) (checks : bool) (t : transcript) (g h : G1) (sts : list statement) (ns : list nat)
    (G H : list G1) (c tape1 tape2 : list F) : option (list (list G1) * option (r1cs_proof * transcript * list query)) :=
  let commss := simulated_commitments h ns tape1 in
  match session_verifier W checks t g h sts commss with
  | Some vs =>
      Some (commss,
        match simulated_proof g h G H (v_V vs) (v_num_vars vs) (v_constraints vs) (v_transcript vs) c tape2 with
        | Some out => Some (out, proof_queries (length (v_V vs)) (v_num_vars vs) (v_transcript vs) (fst out))
        | None => None
        end)
  | None => None
  end.

(** the distinguisher: before the commitments, before the proof, after it *)
Definition session_distinguisher : Type := adversary (list (list G1) -> distinguisher).
(** its questions before the proof, if it is handed [x] when it asks for the commitments *)
Fixpoint handed {X Y} (A : adversary (X -> adversary Y)) (x : X) : adversary Y :=
  match A with
  | Answer f => f x
  | Ask q k => Ask q (fun a => handed (k a) x)
  end.

Definition real_session_guess (W : world) (checks : bool) (t : transcript) (g h : G1) (l : list call) (G H : list G1)
    (A : session_distinguisher) (O : oracle) (tape1 tape2 : list F) : bool :=
  match real_session W checks t g h l G H O tape1 tape2 with
  | Some (commss, Some out) => output O (output O (handed A commss) out)
  | _ => false
  end.
Definition simulated_session_guess (W : world) (checks : bool) (t : transcript) (g h : G1) (sts : list statement) (ns : list nat)
    (G H : list G1) (A : session_distinguisher) (O : oracle) (c tape1 tape2 : list F) : bool :=
  match simulated_session W checks t g h sts ns G H c tape1 tape2 with
  | Some (commss, Some (out, qs)) => output (programmed O qs c) (output O (handed A commss) out)
  | _ => false
  end.
End RomSession.
