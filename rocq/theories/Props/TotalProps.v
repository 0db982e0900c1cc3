(** C63: exactly when verification panics. *)
From Coq Require Import ZArith String List Lia Arith Bool.
From Verif.Base Require Import Outcome Fp Params Algebra Instances.
From Verif.Model Require Import Transcript LinComb Prog IPP Prover Verifier Gadgets Hash Merkle.
From Verif.Spec Require Import R1CS HashSpec MerkleSpec Compose CircuitSize Behaviour.
From Verif.Proofs Require Import MerkleMain TotalMain.
From Verif.Props Require Import Demo HashProps GadgetProps TreeProps RandomizerProps SizeProps SessionZKProps.
Import ListNotations.
Local Open Scope nat_scope.
Local Notation length := List.length.

Section Props.
Context {P : Params} {OK : ParamsOk P}.

(** ** C63 Exactly when verification panics *)
(** Any commitments, any transcript, any random values: whether a verifying function panics,
    returns an error or makes its circuit is decided by the public arguments and the number
    of commitments. *)
Theorem C63_verifying_function W checks g h st comms s : fitting st -> ready s ->
  match behaves checks st (length comms) with
  | Panics => vrun W false (verifies checks g h st comms) s = Panic
  | Refuses => exists s', vrun W false (verifies checks g h st comms) s = Done (Err (GadgetError "Original and new are of different lengths"), s')
  | Ends => exists s', vrun W false (verifies checks g h st comms) s = Done (Ok tt, s') /\ ready s'
  end.
Proof. exact (verifies_runs W checks g h st comms s). Qed.

(** Too few commitments make every one of them panic, whatever its other arguments. *)
Theorem C63_too_few W checks g h st comms s : length comms < needed st -> ready s ->
  vrun W false (verifies checks g h st comms) s = Panic.
Proof. exact (too_few_panics W checks g h st comms s). Qed.

(** The whole check, of several statements at once, on any commitments and any proof: it
    panics, returns that error, or decides between acceptance and VerificationError, as
    [check_class] says of the public arguments and of numbers of elements. *)
Theorem C63_check W checks label g h sts commss proof G H : Forall fitting sts ->
  in_class (verify_proof W label g h G H proof (verify_all checks g h (combine sts commss)))
    (check_class checks batch_invert_empty_panics sts (map (@List.length G1) commss) (length G) (length H)
       (length (ipp_L (proof_ipp proof))) (length (ipp_R (proof_ipp proof)))).
Proof. exact (check_in_class W checks label g h sts commss proof G H). Qed.

(** In particular: with the right public arguments and numbers of commitments, enough
    generators, and as many points L as points R, no proof makes it panic. *)
Theorem C63_never_panics W checks label g h sts commss proof G H : Forall fitting sts ->
  Forall (fun '(st, m) => behaves checks st m = Ends) (combine sts (map (@List.length G1) commss)) ->
  let n := total_of gates sts (map (@List.length G1) commss) in
  next_power_of_two n <= length H -> 1 < n \/ batch_invert_empty_panics = false ->
  length (ipp_L (proof_ipp proof)) = length (ipp_R (proof_ipp proof)) ->
  verify_proof W label g h G H proof (verify_all checks g h (combine sts commss)) <> Panic.
Proof. exact (check_never_panics W checks label g h sts commss proof G H). Qed.

(** The modified tree given to the randomizer: every tree made and updated by the code fits,
    and has the depth it was made with. *)
Theorem C63_built {ENC : EncodingOk P} p depth db0 us t db indices : params_ok p -> width p = 5 -> depth * 2 <= 8 * modbytes ->
  history (tree_4_new p) (tree_4_update p) depth db0 us t db -> collision_free 4 (hash_value p Quint) depth us ->
  fitting (Randomized p depth us t db indices) /\ Merkle.depth t = depth.
Proof. exact (built_fits p depth db0 us t db indices). Qed.
End Props.

Print Assumptions C63_built.
Print Assumptions C63_verifying_function.
Print Assumptions C63_too_few.
Print Assumptions C63_check.
Print Assumptions C63_never_panics.

(** ** Concrete cases, over the toy backend *)
Section Examples.
#[local] Existing Instance toyP.
#[local] Existing Instance toyP_ok.
#[local] Existing Instance toyP_enc.
Local Open Scope fe_scope.

Lemma new_ready t : ready (verifier_new t).
Proof. split; [reflexivity|constructor]. Qed.
Example C63_fitting : Forall (fun stm => fitting (fst stm)) sz_sts.
Proof. destruct C34_params_ok as (H3 & H5 & H9). repeat (constructor; [cbn; auto|]). constructor. Qed.

(** each statement with 0, 1, ... commitments: what happens is what [behaves] says, and all
    three behaviours occur *)
Definition tt_run (checks : bool) (st : statement) (m : nat) : behaviour :=
  match vrun demoW' false (verifies checks demo_g demo_h st (repeat demo_g m)) (verifier_new []) with
  | Panic => Panics
  | Done (Err _, _) => Refuses
  | Done (Ok _, _) => Ends
  end.
Definition tt_sts : list statement := [Bounded 20 10 4; Mimc (fe 3) [fe 1; fe 2] 3] ++ map fst sz_sts.
Example C63_runs : map (fun st => map (tt_run true st) (seq 0 13)) tt_sts = map (fun st => map (behaves true st) (seq 0 13)) tt_sts.
Proof. vm_compute. reflexivity. Qed.
Example C63_opening : map (behaves true (Leaf4 toy5 Cube (fe 3) 2)) (seq 0 13) =
  [Panics; Panics; Ends; Panics; Panics; Ends; Panics; Panics; Ends; Panics; Panics; Ends; Panics].
Proof. vm_compute. reflexivity. Qed.

Lemma toy_build_history d us : forall t db, toy_build d us = Done (t, db) -> history (tree_4_new toy5) (tree_4_update toy5) d db_new us t db.
Proof.
  induction us as [|[idx v] us IH]; intros t db E; [apply h_new, E|].
  change (toy_build d ((idx, v) :: us)) with (obind (toy_build d us) (fun '(t, db) =>
      obind (tree_4_update toy5 t idx v db) (fun '(_, t, db) => Done (t, db)))) in E.
  destruct (toy_build d us) as [[t0 db1]|]; [|discriminate E]. cbn [obind] in E.
  destruct (tree_4_update toy5 t0 idx v db1) as [[[r t1] db2]|] eqn:EU; [|discriminate E]. cbn [obind] in E. injection E as <- <-.
  eapply h_update; [apply IH; reflexivity|exact EU].
Qed.
(** the randomizer, on a tree with leaves overwritten: 5 commitments are needed *)
Definition tt_changes : list (F * F) := [(fe 2, fe 8); (fe 1, fe 30); (fe 2, fe 7)].
Example C63_randomized_fits t db : toy_build 1 tt_changes = Done (t, db) -> fitting (Randomized toy5 1 tt_changes t db [fe 2]).
Proof.
  intros E. refine (proj1 (C63_built toy5 1 db_new tt_changes t db _ (proj1 (proj2 C34_params_ok)) eq_refl _ (toy_build_history _ _ _ _ E) _)).
  - vm_compute. lia.
  - apply history_ok_spec. vm_compute. reflexivity.
Qed.
Example C63_randomized_runs : match toy_build 1 tt_changes with
  | Done (t, db) =>
      let st := Randomized toy5 1 tt_changes t db [fe 2] in let wrong := Randomized toy5 0 tt_changes t db [fe 2] in
      map (behaves true st) [0; 4; 5; 6]%nat = [Panics; Panics; Ends; Ends] /\ map (tt_run true st) [0; 4; 5; 6]%nat = [Panics; Panics; Ends; Ends] /\
      map (behaves true wrong) [1; 2; 5]%nat = [Panics; Panics; Panics] /\ map (tt_run true wrong) [1; 2; 5]%nat = [Panics; Panics; Panics]
  | Panic => False
  end.
Proof. vm_compute. repeat split. Qed.

(** an honest proof, and the same with points or generators left out *)
Definition tt_proof : option (r1cs_proof * list G1) :=
  match gen_proof demoW [] demo_g demo_h demo_G demo_H (prove_non_zero_val (fe 3) (Some (fe 5)) true) with Done (Ok x) => Some x | _ => None end.
Definition tt_with (L R : list G1) (pf : r1cs_proof) : r1cs_proof :=
  R1CSProof (A_I1 pf) (A_O1 pf) (S1 pf) (A_I2 pf) (A_O2 pf) (S2 pf) (T_1 pf) (T_3 pf) (T_4 pf) (T_5 pf) (T_6 pf) (t_x pf) (t_x_blinding pf)
    (e_blinding pf) (IPPProof L R (ipp_a (proof_ipp pf)) (ipp_b (proof_ipp pf))).
Definition tt_check (lenG lenH lenL lenR : nat) (comms : list G1) (pf : r1cs_proof) : outcome (result unit) :=
  verify_proof demoW' [] demo_g demo_h (firstn lenG demo_G) (firstn lenH demo_H)
    (tt_with (repeat demo_g lenL) (repeat demo_g lenR) pf) (verify_all true demo_g demo_h [(NonZero, comms)]).
Example C63_checks : match tt_proof with
  | Some (pf, comms) =>
      verify_proof demoW' [] demo_g demo_h demo_G demo_H pf (verify_all true demo_g demo_h [(NonZero, comms)]) = Done (Ok tt) /\
      length (ipp_L (proof_ipp pf)) = 1%nat /\ length comms = 2%nat /\
      tt_check 8 8 1 1 comms pf = Done (Err VerificationError) /\ tt_check 2 2 1 1 comms pf = Done (Err VerificationError) /\
      tt_check 1 8 1 1 comms pf = Done (Err InvalidGeneratorsLength) /\ tt_check 8 1 1 1 comms pf = Panic /\
      tt_check 8 8 2 2 comms pf = Done (Err VerificationError) /\ tt_check 8 1 2 2 comms pf = Done (Err VerificationError) /\
      tt_check 8 8 1 0 comms pf = Panic /\ tt_check 8 8 1 2 comms pf = Panic /\ tt_check 8 8 1 1 [demo_g] pf = Panic
  | None => False
  end.
Proof. vm_compute. repeat split. Qed.
Example C63_classes : (let k := check_class true false [NonZero] in
  k [2] 8 8 1 1 = Decides /\ k [2] 2 2 1 1 = Decides /\ k [2] 1 8 1 1 = MustReturn (Err InvalidGeneratorsLength) /\ k [2] 8 1 1 1 = MustPanic /\
  k [2] 8 8 2 2 = MustReturn (Err VerificationError) /\ k [2] 8 1 2 2 = MustReturn (Err VerificationError) /\
  k [2] 8 8 1 0 = MustPanic /\ k [2] 8 8 1 2 = MustPanic /\ k [1] 8 8 1 1 = MustPanic)%nat.
Proof. vm_compute. repeat split. Qed.
(** no proof with as many points L as R makes the check of an opening panic *)
Example C63_opening_safe W label (comms : list G1) (G H : list G1) pf :
  length comms = 8%nat -> length H = 64%nat -> length (ipp_L (proof_ipp pf)) = length (ipp_R (proof_ipp pf)) ->
  verify_proof W label demo_g demo_h G H pf (verify_all true demo_g demo_h (combine [Leaf4 toy5 Cube (fe 3) 2] [comms])) <> Panic.
Proof.
  intros Hc HH HLR. apply C63_never_panics; [| | |right; reflexivity|exact HLR]; cbn [map]; rewrite ?Hc, ?HH.
  - constructor; [|constructor]. split; [apply C34_params_ok|reflexivity].
  - constructor; [reflexivity|constructor].
  - vm_compute. lia.
Qed.
End Examples.
