(** C65: exactly when proving panics or refuses. *)
From Coq Require Import ZArith String List Lia Arith Bool.
From Verif.Base Require Import Outcome Fp Params Algebra Instances.
From Verif.Model Require Import Transcript LinComb Prog IPP Prover Verifier Gadgets Hash Merkle.
From Verif.Spec Require Import R1CS HashSpec MerkleSpec Compose CircuitSize Behaviour Attempt.
From Verif.Proofs Require Import MerkleMain AttemptMain.
From Verif.Props Require Import Demo HashProps GadgetProps TreeProps RandomizerProps SizeProps SessionZKProps TotalProps.
Import ListNotations.
Local Open Scope nat_scope.
Local Notation length := List.length.

Section Props.
Context {P : Params} {OK : ParamsOk P}.

(** ** C65 Exactly when proving panics or refuses *)
(** Any secret values, any transcript, any random values: whether a proving function panics,
    which error it returns, and how many commitments it makes otherwise. *)
Theorem C65_proving_function W checks c s : apt c -> ready_prover s ->
  match attempts checks c with
  | WillPanic => prun W false (calls checks c) s = Panic
  | WillFail e => exists s', prun W false (calls checks c) s = Done (Err e, s')
  | WillGo => exists comms s', prun W false (calls checks c) s = Done (Ok comms, s') /\ length comms = sent c /\ ready_prover s'
  end.
Proof. exact (calls_run W checks c s). Qed.

(** a new prover is ready *)
Theorem C65_new g h t : ready_prover (prover_new g h t).
Proof. exact (ready_new g h t). Qed.

(** [prove] on a circuit without randomized constraints, whether the constraints hold or not *)
Theorem C65_prove W s G H : ready_prover s -> p_deferred s = [] ->
  match prove_attempt (length (p_aL s)) (length G) (length H) with
  | WillPanic => prove W s G H = Panic
  | WillFail e => prove W s G H = Done (Err e)
  | WillGo => exists proof t, prove W s G H = Done (Ok (proof, t)) /\
      length (ipp_L (proof_ipp proof)) = Nat.log2_up (length (p_aL s)) /\ length (ipp_R (proof_ipp proof)) = Nat.log2_up (length (p_aL s))
  end.
Proof. exact (prove_runs W s G H). Qed.

(** A whole proof, of several statements at once. *)
Theorem C65_whole_proof W checks label g h G H l : Forall apt l ->
  match proof_attempt checks l (length G) (length H) with
  | WillPanic => gen_proof W label g h G H (prove_all checks l) = Panic
  | WillFail e => gen_proof W label g h G H (prove_all checks l) = Done (Err e)
  | WillGo => exists proof commss, gen_proof W label g h G H (prove_all checks l) = Done (Ok (proof, commss)) /\
      map (@List.length G1) commss = map sent l /\
      length (ipp_L (proof_ipp proof)) = Nat.log2_up (gates_of l) /\ length (ipp_R (proof_ipp proof)) = Nat.log2_up (gates_of l)
  end.
Proof. exact (proof_runs W checks label g h G H l). Qed.

(** The trees given to the randomizer: trees made and updated by the code fit. *)
Theorem C65_built {ENC : EncodingOk P} p depth db0 us t db db0' us' t' db' indices values : params_ok p -> width p = 5 -> depth * 2 <= 8 * modbytes ->
  history (tree_4_new p) (tree_4_update p) depth db0 us t db -> collision_free 4 (hash_value p Quint) depth us ->
  history (tree_4_new p) (tree_4_update p) depth db0' us' t' db' -> collision_free 4 (hash_value p Quint) depth us' ->
  apt (PRandomized us t db us' t' db' indices values depth p).
Proof. exact (built_apt p depth db0 us t db db0' us' t' db' indices values). Qed.
End Props.

Print Assumptions C65_proving_function.
Print Assumptions C65_new.
Print Assumptions C65_prove.
Print Assumptions C65_whole_proof.
Print Assumptions C65_built.

(** ** Concrete cases, over the toy backend *)
Section Examples.
#[local] Existing Instance toyP.
#[local] Existing Instance toyP_ok.
#[local] Existing Instance toyP_enc.
Local Open Scope fe_scope.

(** what happens is what [attempts] says, and the number of commitments *)
Definition pp_run (checks : bool) (c : call) : attempt * nat :=
  match prun demoW false (calls checks c) (prover_new demo_g demo_h []) with
  | Panic => (WillPanic, 0%nat)
  | Done (Err e, _) => (WillFail e, 0%nat)
  | Done (Ok comms, _) => (WillGo, length comms)
  end.
Definition pp_says (checks : bool) (c : call) : attempt * nat :=
  match attempts checks c with WillGo => (WillGo, sent c) | a => (a, 0%nat) end.
Definition pp_calls : list call := [
  PNonZero (fe 3) None true; PNonZero (fe 3) None false; PNonZero (fe 0) (Some (fe 5)) false;
  PBounded 7 None 3 10 4 true; PBounded 2 None 3 10 4 true; PBounded 11 None 3 10 4 true; PBounded 11 None 3 10 4 false;
  PMember (fe 4) None [fe 4; fe 5] true; PMember (fe 6) None [fe 4; fe 5] true; PMemberAlt 6 None [4; 5]%Z true;
  PNotMember (fe 4) None [fe 4; fe 5] true; PNotMember (fe 4) None [fe 4; fe 5] false;
  PHamming [fe 1; fe 2] [fe 1; fe 3] 1; PHamming [fe 1; fe 2] [fe 1; fe 3; fe 4] 1;
  PMimc [fe 1; fe 2] None (fe 9) [fe 1; fe 2] 2 true; PMimc [fe 1; fe 2] None (fe 9) [fe 1; fe 2] 3 true; PMimc [fe 1] None (fe 9) [fe 1; fe 2] 3 true;
  PHash2 [fe 1; fe 2] None (fe 9) toy3 Cube true; PHash2 [fe 1; fe 2] (Some [fe 1]) (fe 9) toy3 Cube true;
  PHash4 [fe 1; fe 2; fe 3; fe 4] None (fe 9) toy5 Cube true; PHash4 [fe 1; fe 2; fe 3] None (fe 9) toy5 Cube true;
  PLeaf4 (fe 3) (fe 1) None [[fe 1; fe 2; fe 3]] (fe 9) 1 toy5 Cube true; PLeaf4 (fe 3) (fe 1) None [[fe 1; fe 2]] (fe 9) 1 toy5 Cube true;
  PLeaf4 (fe 3) (fe 1) (Some [fe 1]) [[fe 1; fe 2]] (fe 9) 1 toy5 Cube true;
  PLeaf8 (fe 3) (fe 1) None [[fe 1; fe 2; fe 3]] (fe 9) 1 toy9 Cube true].
Example C65_runs : map (pp_run true) pp_calls = map (pp_says true) pp_calls /\ map (pp_run false) pp_calls = map (pp_says false) pp_calls.
Proof. vm_compute. split; reflexivity. Qed.
Example C65_apt : Forall apt pp_calls.
Proof. destruct C34_params_ok as (H3 & H5 & H9). repeat (constructor; [cbn [apt]; first [exact I|repeat (split; [first [exact H3|exact H5|exact H9|reflexivity]|]); first [reflexivity|vm_compute; lia]]|]). constructor. Qed.
Example C65_outcomes : map (fun c => (attempts true c, attempts false c)) (firstn 7 pp_calls) =
  [(WillGo, WillGo); (WillFail no_randomness, WillFail no_randomness); (WillGo, WillGo); (WillGo, WillGo); (WillPanic, WillGo); (WillPanic, WillGo);
   (WillFail no_randomness, WillFail no_randomness)].
Proof. reflexivity. Qed.

(** whole proofs: with enough generators a proof is made of the false statement that 0 is not
    zero; it is refused *)
Definition pp_prove (l : list call) (lenG lenH : nat) : attempt :=
  match gen_proof demoW [] demo_g demo_h (firstn lenG demo_G) (firstn lenH demo_H) (prove_all true l) with
  | Panic => WillPanic
  | Done (Err e) => WillFail e
  | Done (Ok _) => WillGo
  end.
Definition pp_zero : list call := [PNonZero (fe 0) None true; PNonZero (fe 2) None true].
Definition pp_sizes : list (nat * nat) := [(4, 4); (8, 8); (3, 8); (4, 3); (2, 2); (8, 2); (0, 0)]%nat.
Example C65_proofs : map (fun '(a, b) => pp_prove pp_zero a b) pp_sizes = map (fun '(a, b) => proof_attempt true pp_zero a b) pp_sizes /\
  gates_of pp_zero = 4%nat.
Proof. vm_compute. split; reflexivity. Qed.
Example C65_false_proof : match gen_proof demoW [] demo_g demo_h demo_G demo_H (prove_all true pp_zero) with
  | Done (Ok (pf, commss)) => verify_proof demoW' [] demo_g demo_h demo_G demo_H pf (verify_all true demo_g demo_h (combine [NonZero; NonZero] commss)) = Done (Err VerificationError)
  | _ => False
  end.
Proof. vm_compute. reflexivity. Qed.

(** the randomizer, on trees of depth 1 *)
Definition pp_old : list (F * F) := [(fe 1, fe 30); (fe 2, fe 7)].
Definition pp_randomize (values : list F) (k : nat) : outcome (attempt * (attempt * nat)) :=
  obind (toy_build 1 pp_old) (fun '(t, db) => obind (toy_build k tt_changes) (fun '(t', db') =>
    let c := PRandomized pp_old t db tt_changes t' db' [fe 2] values 1 toy5 in Done (attempts true c, pp_run true c))).
Example C65_randomized : pp_randomize [fe 7] 1 = Done (WillGo, (WillGo, 5%nat)) /\ pp_randomize [fe 8] 1 = Done (WillPanic, (WillPanic, 0%nat)) /\
  pp_randomize [] 1 = Done (WillPanic, (WillPanic, 0%nat)) /\ pp_randomize [fe 7] 0 = Done (WillPanic, (WillPanic, 0%nat)).
Proof. vm_compute. repeat split. Qed.
Example C65_randomized_apt t db t' db' values : toy_build 1 pp_old = Done (t, db) -> toy_build 1 tt_changes = Done (t', db') ->
  apt (PRandomized pp_old t db tt_changes t' db' [fe 2] values 1 toy5).
Proof.
  intros E E'. apply (C65_built toy5 1 db_new pp_old t db db_new tt_changes t' db'); [exact (proj1 (proj2 C34_params_ok))|reflexivity|vm_compute; lia| | | |].
  - exact (toy_build_history _ _ _ _ E).
  - apply history_ok_spec. vm_compute. reflexivity.
  - exact (toy_build_history _ _ _ _ E').
  - apply history_ok_spec. vm_compute. reflexivity.
Qed.
End Examples.
