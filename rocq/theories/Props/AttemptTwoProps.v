(** C71: exactly when proving and verifying with randomized constraints panics or refuses. *)
From Coq Require Import ZArith String List Lia Arith Bool.
From Verif.Base Require Import Outcome Fp Params Algebra Instances.
From Verif.Model Require Import Transcript LinComb Prog IPP Prover Verifier.
From Verif.Spec Require Import R1CS Sim Session Protocol Callbacks Verdict CircuitSize Behaviour Attempt.
From Verif.Proofs Require Import AttemptTwo.
From Verif.Props Require Import Demo.
Import ListNotations.
Local Open Scope nat_scope.
Local Notation length := List.length.

Section Props.
Context {P : Params} {OK : ParamsOk P}.

(** ** C71 Exactly when a proof with randomized constraints is refused or panics *)
(** [prove], for any prover built through the API and any callbacks, whether the constraints
    hold or not.  The callbacks start in [s1] (after the first-phase points); they fail with
    an error, or end in a state [s2], or panic.  The cases exclude each other and there is no
    other. *)
Theorem C71_prove second W s G H : p_reachable second s -> p_deferred s <> [] ->
  let s1 := p_start2 (hp_state1 W s G H) in
  (length G < length (p_aL s) -> prove W s G H = Done (Err InvalidGeneratorsLength)) /\
  (length (p_aL s) <= length G -> length H < length (p_aL s) -> prove W s G H = Panic) /\
  (length (p_aL s) <= length G -> length (p_aL s) <= length H ->
   (forall e, p_failed W (p_deferred s) s1 e -> prove W s G H = Done (Err e)) /\
   ((forall e, ~ p_failed W (p_deferred s) s1 e) -> (forall s2, ~ p_ran W (p_deferred s) s1 s2) -> prove W s G H = Panic) /\
   (forall s2, p_ran W (p_deferred s) s1 s2 ->
      let n := length (p_aL s2) in
      let in_range := Forall (lc_in_range n (length (p_v s2))) (p_constraints s2) in
      (length G < next_power_of_two n -> prove W s G H = Done (Err InvalidGeneratorsLength)) /\
      (next_power_of_two n <= length G -> length H < next_power_of_two n \/ ~ in_range -> prove W s G H = Panic) /\
      (next_power_of_two n <= length G -> next_power_of_two n <= length H -> in_range ->
       exists proof t, prove W s G H = Done (Ok (proof, t)) /\
         length (ipp_L (proof_ipp proof)) = Nat.log2_up n /\ length (ipp_R (proof_ipp proof)) = Nat.log2_up n))).
Proof. exact (prove_randomized_runs second W s G H). Qed.

(** [verify], for any verifier with callbacks and any proof; [verify_class] says for which
    numbers of elements it panics, for which it returns an error, and for which it decides
    between acceptance and VerificationError. *)
Theorem C71_verify W s proof g h G H : v_deferred s <> [] ->
  let s1 := v_start2 (v_absorb proof s) in
  (forall e, v_failed W (v_deferred s) s1 e -> verify W s proof g h G H = Done (Err e)) /\
  ((forall e, ~ v_failed W (v_deferred s) s1 e) -> (forall s2, ~ v_ran W (v_deferred s) s1 s2) -> verify W s proof g h G H = Panic) /\
  (forall s2, v_ran W (v_deferred s) s1 s2 ->
     let n := v_num_vars s2 in
     let in_range := Forall (lc_in_range n (length (v_V s2))) (v_constraints s2) in
     (length G < next_power_of_two n -> verify W s proof g h G H = Done (Err InvalidGeneratorsLength)) /\
     (next_power_of_two n <= length G -> ~ in_range -> verify W s proof g h G H = Panic) /\
     (in_range ->
      in_class (match verify W s proof g h G H with Panic => Panic | Done (Err e) => Done (Err e) | Done (Ok _) => Done (Ok tt) end)
        (verify_class batch_invert_empty_panics n (length G) (length H) (length (ipp_L (proof_ipp proof))) (length (ipp_R (proof_ipp proof)))))).
Proof. exact (verify_randomized_runs W s proof g h G H). Qed.
End Props.

Print Assumptions C71_prove.
Print Assumptions C71_verify.

(** ** Concrete cases, over the toy backend *)
Section Examples.
#[local] Existing Instance toyP.
#[local] Existing Instance toyP_ok.
Local Open Scope fe_scope.

(** the demonstration (two gates, three after its callback) with one more callback *)
Definition at_callbacks {CA CR} : list (prog CA CR (result unit)) :=
  [PRet (Ok tt); PRet (Err FormatError); PPanic; PConstrain [(VLeft 9, 1)] (fun _ => PRet (Ok tt))].
Definition at_prove (cb : pprog (result unit)) (lenG lenH : nat) : attempt :=
  match prun demoW false (pbind demo_pp (fun _ => PSpecify cb (fun r => PRet r))) (prover_new demo_g demo_h []) with
  | Done (_, s) => match prove demoW s (firstn lenG demo_G) (firstn lenH demo_H) with
      Panic => WillPanic | Done (Err e) => WillFail e | Done (Ok _) => WillGo end
  | Panic => WillPanic
  end.
Definition at_sizes : list (nat * nat) := [(1, 8); (2, 1); (3, 8); (8, 3); (4, 4); (8, 8)]%nat.
Example C71_outcomes : map (fun cb => map (fun '(a, b) => at_prove cb a b) at_sizes) at_callbacks =
  let few := WillFail InvalidGeneratorsLength in
  let error := WillFail FormatError in
  [[few; WillPanic; few; WillPanic; WillGo; WillGo];
   [few; WillPanic; error; error; error; error];
   [few; WillPanic; WillPanic; WillPanic; WillPanic; WillPanic];
   [few; WillPanic; few; WillPanic; WillPanic; WillPanic]].
Proof. vm_compute. reflexivity. Qed.

Definition at_verify (cb : vprog (result unit)) (lenG lenH : nat) : attempt :=
  match vrun demoW' false (pbind demo_vp (fun _ => PSpecify cb (fun r => PRet r))) (verifier_new []) with
  | Done (_, s) => match verify demoW' s demo_proof demo_g demo_h (firstn lenG demo_G) (firstn lenH demo_H) with
      Panic => WillPanic | Done (Err e) => WillFail e | Done (Ok _) => WillGo end
  | Panic => WillPanic
  end.
Example C71_verify_outcomes : map (fun cb => map (fun '(a, b) => at_verify cb a b) at_sizes) at_callbacks =
  let few := WillFail InvalidGeneratorsLength in
  let error := WillFail FormatError in
  [[few; few; few; WillPanic; WillGo; WillGo];
   [error; error; error; error; error; error];
   [WillPanic; WillPanic; WillPanic; WillPanic; WillPanic; WillPanic];
   [few; few; few; WillPanic; WillPanic; WillPanic]].
Proof. vm_compute. reflexivity. Qed.

(** the hypotheses are met by the demonstration *)
Example C71_example : p_reachable false demo_s /\ p_deferred demo_s <> [] /\ v_deferred demo_vs <> [].
Proof.
  assert (Hl : length (p_deferred demo_s) = 1%nat) by (vm_compute; reflexivity).
  assert (Hl' : length (v_deferred demo_vs) = 1%nat) by (vm_compute; reflexivity).
  split; [econstructor; exact demo_run|]. split; [intros E; rewrite E in Hl; discriminate Hl|intros E; rewrite E in Hl'; discriminate Hl'].
Qed.
End Examples.
