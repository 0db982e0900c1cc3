(** C62: the sizes of the gadgets' circuits. *)
From Coq Require Import ZArith String List Lia Arith.
From Verif.Base Require Import Outcome Fp Params Algebra Instances.
From Verif.Model Require Import Transcript LinComb Prog IPP Prover Verifier Gadgets Hash Merkle.
From Verif.Spec Require Import HashSpec R1CS Gadget Protocol IPPSpec Extractor R1CSTree R1CSExtractor Knowledge Games Verdict Compose GadgetGames RomSim RomSession CircuitSize.
From Verif.Proofs Require Import TreeCheck SizeMain.
From Verif.Props Require Import Demo SoundProps GameProps IndistProps R1CSProps RomZKProps HashProps GadgetProps RandomizerProps ComposeProps SessionZKProps.
Import ListNotations.
Local Open Scope nat_scope.
Local Notation length := List.length.

Section Props.
Context {P : Params} {OK : ParamsOk P}.

(** ** C62 The size of a gadget's circuit is fixed by its public arguments *)
(** Whatever the commitments and whatever was on the verifier before: a verifying function
    that succeeds has added so many gates and so many constraints. *)
Theorem C62_verifying_function W checks g h st comms s s' :
  vrun W false (verifies checks g h st comms) s = Done (Ok tt, s') ->
  v_num_vars s' = v_num_vars s + gates st (length comms) /\
  length (v_constraints s') = length (v_constraints s) + rows st (length comms).
Proof. exact (verifies_size W checks g h st comms s s'). Qed.

(** Whatever the secrets, the blindings and the random values: so has the proving function. *)
Theorem C62_proving_function W checks c s comms s' :
  prun W false (calls checks c) s = Done (Ok comms, s') ->
  length (p_aL s') = length (p_aL s) + gates (statement_of c) (length comms) /\
  length (p_constraints s') = length (p_constraints s) + rows (statement_of c) (length comms).
Proof. exact (calls_size W checks c s comms s'). Qed.

(** Several gadgets in one proof: the sums. *)
Theorem C62_verifying_session W checks g h sts commss s s' :
  vrun W false (verify_all checks g h (combine sts commss)) s = Done (Ok tt, s') ->
  v_num_vars s' = v_num_vars s + total_of gates sts (map (@length G1) commss) /\
  length (v_constraints s') = length (v_constraints s) + total_of rows sts (map (@length G1) commss).
Proof. exact (verify_all_size W checks g h sts commss s s'). Qed.
Theorem C62_proving_session W checks l s commss s' :
  prun W false (prove_all checks l) s = Done (Ok commss, s') ->
  length commss = length l /\
  length (p_aL s') = length (p_aL s) + total_of gates (map statement_of l) (map (@length G1) commss) /\
  length (p_constraints s') = length (p_constraints s) + total_of rows (map statement_of l) (map (@length G1) commss).
Proof. exact (prove_all_size W checks l s commss s'). Qed.

(** So many generators are needed, on both sides: the number of gates, rounded up to a power
    of two.  With fewer, [verify] rejects every proof, and [prove] makes none. *)
Theorem C62_verify_generators W checks g h t sts commss vs proof G H :
  vrun W false (verify_all checks g h (combine sts commss)) (verifier_new t) = Done (Ok tt, vs) ->
  let N := next_power_of_two (total_of gates sts (map (@length G1) commss)) in
  (length G < N -> verify W vs proof g h G H = Done (Err InvalidGeneratorsLength)) /\
  (length H < N -> forall t', verify W vs proof g h G H <> Done (Ok t')).
Proof. exact (session_verify_generators W checks g h t sts commss vs proof G H). Qed.
Theorem C62_prove_generators W checks g h t l commss s G H :
  prun W false (prove_all checks l) (prover_new g h t) = Done (Ok commss, s) ->
  let n := total_of gates (map statement_of l) (map (@length G1) commss) in
  (length G < next_power_of_two n -> n <= length H -> prove W s G H = Done (Err InvalidGeneratorsLength)) /\
  (forall r, prove W s G H = Done (Ok r) -> next_power_of_two n <= length G /\ next_power_of_two n <= length H).
Proof. exact (session_prove_generators W checks g h t l commss s G H). Qed.

(** The knowledge error of C57 in numbers: for statements [sts] with [ms] commitments, a
    prover that asks [Q] questions and convinces the verifier with probability more than
    (Q + 5 + k) max(2^k, q, 7) / |C| + 1 / |R| can be made to show its secrets, where 2^k is
    the number of gates, rounded up, and q the number of constraints. *)
Theorem C62_knowledge_error {ENC : EncodingOk P} W t checks g h sts commss0 vs0 G H k D C R (A : adversary (list (list G1) * r1cs_proof)) Q
    (wins : oracle -> F -> bool) :
  let ms := map (@length G1) commss0 in
  let n := total_of gates sts ms in
  let q := total_of rows sts ms in
  vrun W false (verify_all checks g h (combine sts commss0)) (verifier_new t) = Done (Ok tt, vs0) ->
  Forall (fun '(st, comms) => sound_statement st comms) (combine sts commss0) ->
  next_power_of_two n = 2 ^ k -> 1 < n \/ batch_invert_empty_panics = false ->
  NoDup C -> ~ In 0%fe C -> NoDup D -> NoDup R -> at_most Q A ->
  (forall O r, In O (oracles D C) -> In r R -> wins O r = true ->
     let '(commss, pf) := output O A in
     map (@length G1) commss = ms /\ gadgets_accept W t checks g h G H sts O r commss pf /\
     incl (gadget_queries t g h sts n commss pf) D) ->
  (Q + 5 + k) * Nat.max (2 ^ k) (Nat.max q 7) * length C ^ length D * length R + length C * length C ^ length D <
    length C * length (filter (fun Or => wins (fst Or) (snd Or)) (list_prod (oracles D C) R)) ->
  exists O0 r0 f tree, In O0 (oracles D C) /\ In r0 R /\ wins O0 r0 = true /\
    let l := combine sts (fst (output O0 A)) in
    let V := all_commitments g h l in
    proof_tree_wf k q tree /\
    each_branch (fun pf c => exists O r commss, In O (oracles D C) /\ In r R /\ wins O r = true /\ output O A = (commss, pf) /\
      all_commitments g h (combine sts commss) = V /\ map O (gadget_queries t g h sts n commss pf) = c) f tree /\
    match circuit_extract n (length G) (length H) (length V) (v_constraints vs0) (own_positions 0 l) (tree_scalars tree) with
    | Got w =>
        (forall j, j < length V ->
           nth j V g1_id = g1_add (g1_mul (nth j (wit_v w) 0%fe) g) (g1_mul (nth j (wit_blinding w) 0%fe) h)) /\
        all_show l (wit_v w)
    | Broken c => generator_relation (g :: h :: G ++ H) c
    end.
Proof. exact (sized_knowledge_error W t checks g h sts commss0 vs0 G H k D C R A Q wins). Qed.

(** The constraints of sound statements mention only variables that exist, so the simulator
    of C59 needs no other condition on the circuit: a proof simulated for them is accepted. *)
Theorem C62_in_range {ENC : EncodingOk P} W checks g h t l vs : Forall (fun '(st, comms) => sound_statement st comms) l ->
  vrun W false (verify_all checks g h l) (verifier_new t) = Done (Ok tt, vs) ->
  Forall (lc_in_range (v_num_vars vs) (length (v_V vs))) (v_constraints vs).
Proof. exact (sound_in_range W checks g h t l vs). Qed.
Theorem C62_simulated_accepted {ENC : EncodingOk P} W checks t g h sts ns G H k c tape1 tape2 commss0 vs0 :
  Forall (fun '(st, comms) => sound_statement st comms) (combine sts commss0) ->
  map (@length G1) commss0 = ns -> session_verifier W checks t g h sts commss0 = Some vs0 ->
  let n := total_of gates sts ns in
  next_power_of_two n = 2 ^ k -> 2 ^ k <= length G -> 2 ^ k <= length H -> k < 32 ->
  1 < n \/ batch_invert_empty_panics = false ->
  length tape1 = list_sum ns -> length c = 5 + k -> ~ In 0%fe c ->
  exists commss pf tp qs, simulated_session W checks t g h sts ns G H c tape1 tape2 = Some (commss, Some ((pf, tp), qs)) /\
    forall O r, gadgets_accept W t checks g h G H sts (programmed O qs c) r commss pf.
Proof. exact (sound_session_accepted W checks t g h sts ns G H k c tape1 tape2 commss0 vs0). Qed.
End Props.

Print Assumptions C62_verifying_function.
Print Assumptions C62_proving_function.
Print Assumptions C62_verifying_session.
Print Assumptions C62_proving_session.
Print Assumptions C62_verify_generators.
Print Assumptions C62_prove_generators.
Print Assumptions C62_knowledge_error.
Print Assumptions C62_in_range.
Print Assumptions C62_simulated_accepted.

(** ** Concrete cases, over the toy backend *)
Section Examples.
#[local] Existing Instance toyP.
#[local] Existing Instance toyP_ok.
#[local] Existing Instance toyP_enc.
Local Open Scope fe_scope.

(** the verifying functions of one statement of every kind but the last succeed on these
    numbers of commitments, and so large are the circuits *)
Definition sz_sts : list (statement * nat) :=
  [(NonZero, 2); (Bounded 10 20 4, 3); (Member [fe 3; fe 4], 3); (MemberAlt [3; 4; 5]%Z, 4); (NotMember [fe 3; fe 4], 5);
   (Hamming [fe 1; fe 7; fe 3] 1, 3); (Mimc (fe 3) [fe 1; fe 2] 2, 2); (Hash2 toy3 Cube (fe 3), 2); (Hash4 toy5 Inverse (fe 3), 4);
   (Leaf4 toy5 Cube (fe 3) 2, 8); (Leaf8 toy9 Quint (fe 3) 1, 9)]%nat.
Definition sz_run (stm : statement * nat) : option (nat * nat) :=
  match vrun demoW' false (verifies true demo_g demo_h (fst stm) (repeat demo_g (snd stm))) (verifier_new []) with
  | Done (Ok tt, vs) => Some (v_num_vars vs, length (v_constraints vs))
  | _ => None
  end.
Example C62_runs : map sz_run sz_sts = map (fun '(st, m) => Some (gates st m, rows st m)) sz_sts.
Proof. vm_compute. reflexivity. Qed.
Example C62_numbers : map (fun '(st, m) => (gates st m, rows st m)) sz_sts =
  [(2, 6); (8, 21); (2, 7); (9, 23); (4, 14); (6, 10); (4, 9); (14, 29); (18, 43); (50, 102); (61, 124)]%nat.
Proof. vm_compute. reflexivity. Qed.
(** the last kind: a depth-1 tree, one changed leaf *)
Example C62_run_randomized : match toy_build 1 [(fe 2, fe 8); (fe 1, fe 30); (fe 2, fe 7)] with
  | Done (t, db) => let st := Randomized toy5 1 [] t db [fe 2] in
      sz_run (st, 5%nat) = Some (gates st 5, rows st 5) /\ gates st 5 = 36%nat /\ rows st 5 = 74%nat
  | Panic => False
  end.
Proof. vm_compute. repeat split. Qed.

(** the proving functions, one after the other *)
Example C62_run_proving :
  match prun demoW false (prove_all true ex_calls) (prover_new demo_g demo_h []) with
  | Done (Ok commss, s) => map (@length G1) commss = [3; 3; 5; 2]%nat /\ length (p_aL s) = 28%nat /\ length (p_constraints s) = 71%nat
  | _ => False
  end /\
  (total_of gates (map statement_of ex_calls) [3; 3; 5; 2] = 28)%nat /\ (total_of rows (map statement_of ex_calls) [3; 3; 5; 2] = 71)%nat.
Proof. vm_compute. repeat split. Qed.

(** [C62_simulated_accepted] without computing the circuit: "between 20 and 10" *)
Example C62_example_false (tape2 : list F) (vs0 : verifier) (comms : list G1) :
  let st := Bounded 20 10 4 in
  let c := map fe [2; 3; 4; 5; 6; 7; 8; 9]%Z in
  length comms = 3%nat -> session_verifier demoW' false [] demo_g demo_h [st] [comms] = Some vs0 ->
  exists commss pf tp qs, simulated_session demoW' false [] demo_g demo_h [st] [3%nat] sz_G sz_H c (map fe [7; 8; 9]%Z) tape2 = Some (commss, Some ((pf, tp), qs)) /\
    forall O r, gadgets_accept demoW' [] false demo_g demo_h sz_G sz_H [st] (programmed O qs c) r commss pf.
Proof.
  intros st c Hl E.
  apply (C62_simulated_accepted demoW' false [] demo_g demo_h [st] [3%nat] sz_G sz_H 3 c (map fe [7; 8; 9]%Z) tape2 [comms] vs0);
    [|cbn [map]; rewrite Hl; reflexivity|exact E|reflexivity|vm_compute; lia|vm_compute; lia|lia|left; vm_compute; lia|reflexivity|reflexivity|].
  - constructor; [|constructor]. repeat split; vm_compute; discriminate.
  - intros Hin. assert (X : forallb nz_b c = true) by (vm_compute; reflexivity). rewrite forallb_forall in X.
    specialize (X 0 Hin). vm_compute in X. discriminate X.
Qed.
End Examples.
