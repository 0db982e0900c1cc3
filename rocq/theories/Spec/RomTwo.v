(** Zero knowledge with a random oracle for circuits with a second phase, on paper.

    As in Spec/RomSim.v; here the constraints depend on challenges that the prover's
    callbacks draw, with the given labels, after the wires of the first phase have been
    committed to.  The simulator draws these challenges, too, before everything else. *)
From Coq Require Import ZArith String List.
From Verif.Base Require Import Outcome Fp Params Algebra.
From Verif.Model Require Import Transcript LinComb Prog IPP Prover Verifier.
From Verif.Spec Require Import R1CS Protocol Session Indist Simulator Games RomSim.
Import ListNotations.

(** The prover [s] after its first phase, with the callbacks [cbs]. *)
Definition two_phase_prover {P : Params} (O : query -> Fp modulus) (s : prover)
    (cbs : list (@pprog (backend O) (result unit))) : @prover (backend O) :=
  @p_with_deferred (backend O) cbs (prover_at O s).

(** The callbacks draw challenges with the given [labels] and no random values.
    Afterwards the circuit has [n] gates and, for the answers [e], the constraints [circ e];
    the values of the prover satisfy them. *)
Definition prover_second_phase {P : Params} (s : prover)
    (cbs : forall O : query -> Fp modulus, list (@pprog (backend O) (result unit)))
    (labels : list string) (n : nat) (circ : list (Fp modulus) -> list lc) : Prop :=
  forall O t, cbs O <> [] /\
    let t := r1cs_2phase_domain_sep t in
    let e := map O (callback_queries labels t) in
    exists s2, (forall random i, @prover_run_callbacks (backend O) (@World (backend O) random (fun _ => [])) (cbs O)
        (@p_with_nrand (backend O) i (@p_with_transcript (backend O) t (@p_with_pending (backend O) None (prover_at O s)))) =
        Done (Ok (@p_with_nrand (backend O) i s2))) /\
      @p_transcript (backend O) s2 = t ++ map (fun l => TChallenge l modbytes) labels /\
      length (@p_aL (backend O) s2) = n /\
      Forall2 (@lc_same (backend O)) (@p_constraints (backend O) s2) (circ e) /\
      Forall (@lc_in_range (backend O) n (length (p_v s))) (@p_constraints (backend O) s2) /\
      @satisfies (backend O) (@prover_assignment (backend O) s2) n (@p_constraints (backend O) s2).

Section RomTwo.
Context {P : Params}.
Local Open Scope fe_scope.

(** [prove], with its challenges answered by [O] and its random values taken from the tape *)
Definition two_phase_real (s : prover) (cbs : forall O : oracle, list (@pprog (backend O) (result unit))) (G H : list G1)
    (O : oracle) (tape : list F) : option (r1cs_proof * transcript) :=
  match @prove (backend O) (@with_tape (backend O) (@World (backend O) (fun _ => fzero _) (fun _ => [])) (p_nrand s) tape)
          (two_phase_prover O s (cbs O)) G H with
  | Done (Ok (pf, tp)) => Some (own_proof O pf, tp)
  | _ => None
  end.

(** the simulator, for a circuit with the commitments [V], [n1] gates from the first phase
    and [n] in the end; [c] are the challenges, first those of the second phase *)
Definition two_phase_simulated (g h : G1) (G H V : list G1) (n1 n : nat) (labels : list string) (circ : list F -> list lc)
    (t0 : transcript) (c tape : list F) : option (r1cs_proof * transcript) :=
  let O := scripted t0 c in
  let r := length labels in
  let cs := circ (firstn r c) in
  let d := skipn r c in
  let y := nth 0 d 0 in let z := nth 1 d 0 in let u := nth 2 d 0 in let x := nth 3 d 0 in
  let co := @read_coins (backend O) n1 n tape in
  let draft := @sim_proof (backend O) g h G H V n1 n cs y z u x co (@IPPProof (backend O) [] [] (fzero _) (fzero _)) in
  let t := @r1cs_2phase_domain_sep (@first_phase_transcript (backend O) draft (length V) t0) ++
           map (fun l => TChallenge l modbytes) labels in
  match @simulate (backend O) g h G H V n1 n cs y z u x co t with
  | Done (pf, tp) => Some (own_proof O pf, tp)
  | Panic => None
  end.

Definition two_phase_real_guess (s : prover) (cbs : forall O : oracle, list (@pprog (backend O) (result unit))) (G H : list G1)
    (A : distinguisher) (O : oracle) (tape : list F) : bool :=
  match two_phase_real s cbs G H O tape with
  | Some out => output O (output O A out)
  | None => false
  end.
Definition two_phase_simulated_guess (g h : G1) (G H V : list G1) (n1 n : nat) (labels : list string) (circ : list F -> list lc)
    (t0 : transcript) (A : distinguisher) (O : oracle) (c tape : list F) : bool :=
  match two_phase_simulated g h G H V n1 n labels circ t0 c tape with
  | Some out => output (programmed O (two_phase_queries labels (length V) n t0 (fst out)) c) (output O A out)
  | None => false
  end.
End RomTwo.
