(** Zero knowledge with a random oracle, on paper.

    A distinguisher asks the oracle up to [Q] questions; then it is handed a proof
    (and the transcript that proving leaves behind); then it asks as many questions
    as it likes and guesses.  In the real game the proof comes from [prove] with
    challenges answered by the same oracle.  In the simulated game it comes from the
    simulator of Spec/Simulator.v, which has no witness: it draws the challenges
    first and afterwards the oracle is changed such that it answers the questions
    of the proof with these challenges.
    Circuits without second phase. *)
From Coq Require Import ZArith String List.
From Verif.Base Require Import Outcome Fp Params Algebra.
From Verif.Model Require Import Transcript LinComb IPP Prover Verifier.
From Verif.Spec Require Import R1CS Protocol Indist Simulator Games.
Import ListNotations.

Section RomSim.
Context {P : Params}.
Local Open Scope fe_scope.

(** every field element, once *)
Definition every_scalar : list F := map (fun i => of_Z modulus (Z.of_nat i)) (seq 0 (Z.to_nat modulus)).

(** the oracle whose [j]-th challenge after [t0] is the [j]-th entry of [c] *)
Definition is_challenge (e : tevent) : bool := match e with TChallenge _ _ => true | _ => false end.
Definition challenges_in (t : transcript) : nat := length (filter is_challenge t).
Definition scripted (t0 : transcript) (c : list F) : oracle := fun q => nth (challenges_in (fst q) - challenges_in t0) c 0.

(** the oracle [O], changed to answer the questions [qs] by [c] *)
Fixpoint programmed (O : oracle) (qs : list query) (c : list F) : oracle :=
  match qs, c with
  | q :: qs, x :: c => set_answer (programmed O qs c) q x
  | _, _ => O
  end.

(** the same prover, the same proof on the backend with the oracle [O] *)
Definition prover_at (O : oracle) (s : prover) : @prover (backend O) :=
  @Prover (backend O) (p_g s) (p_h s) (p_transcript s) (p_constraints s) (p_aL s) (p_aR s) (p_aO s) (p_v s) (p_v_blinding s)
    [] (p_pending s) (p_nrand s) (p_norder s).
Definition own_proof (O : oracle) (pf : @r1cs_proof (backend O)) : r1cs_proof :=
  match pf with
  | @R1CSProof _ a b c d e f t1 t3 t4 t5 t6 tx txb eb (@IPPProof _ L R x y) =>
      @R1CSProof P a b c d e f t1 t3 t4 t5 t6 tx txb eb (@IPPProof P L R x y)
  end.

(** [prove], with its challenges answered by [O] and its random values taken from the tape *)
Definition real_proof (s : prover) (G H : list G1) (O : oracle) (tape : list F) : option (r1cs_proof * transcript) :=
  match @prove (backend O) (@with_tape (backend O) (@World (backend O) (fun _ => fzero _) (fun _ => [])) (p_nrand s) tape)
          (prover_at O s) G H with
  | Done (Ok (pf, tp)) => Some (own_proof O pf, tp)
  | _ => None
  end.

(** the simulator, for a circuit with [n] gates, the constraints [cs] and the
    commitments [V]; [t0] is the transcript after these commitments were made *)
Definition simulated_proof (g h : G1) (G H V : list G1) (n : nat) (cs : list lc) (t0 : transcript) (c tape : list F)
  : option (r1cs_proof * transcript) :=
  let O := scripted t0 c in
  let y := nth 0 c 0 in let z := nth 1 c 0 in let u := nth 2 c 0 in let x := nth 3 c 0 in
  let co := @read_coins (backend O) n n tape in
  let draft := @sim_proof (backend O) g h G H V n n cs y z u x co (@IPPProof (backend O) [] [] (fzero _) (fzero _)) in
  let t := @r1cs_1phase_domain_sep (@first_phase_transcript (backend O) draft (length V) t0) in
  match @simulate (backend O) g h G H V n n cs y z u x co t with
  | Done (pf, tp) => Some (own_proof O pf, tp)
  | Panic => None
  end.

(** A distinguisher: before the proof, and after it *)
Definition distinguisher : Type := adversary (r1cs_proof * transcript -> adversary bool).

Definition real_guess (s : prover) (G H : list G1) (A : distinguisher) (O : oracle) (tape : list F) : bool :=
  match real_proof s G H O tape with
  | Some out => output O (output O A out)
  | None => false
  end.
Definition simulated_guess (g h : G1) (G H V : list G1) (n : nat) (cs : list lc) (t0 : transcript) (A : distinguisher)
    (O : oracle) (c tape : list F) : bool :=
  match simulated_proof g h G H V n cs t0 c tape with
  | Some out => output (programmed O (proof_queries (length V) n t0 (fst out)) c) (output O A out)
  | None => false
  end.
End RomSim.
