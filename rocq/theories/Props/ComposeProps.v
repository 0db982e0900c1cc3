(** C53: several gadgets in one proof.

    Vocabulary: [statement], [verify_all], [all_commitments], [own_positions], [sound_statement],
    [all_show], [call], [prove_all], [honest_call], [good_commitments] (Spec/Compose.v),
    [knowledge], [answers] (Spec/Knowledge.v), [enough_generators], [good_challenges]
    (Spec/Gadget.v). *)
From Coq Require Import ZArith String List Bool Lia Arith.
From Verif.Base Require Import Outcome Fp Params Algebra Instances.
From Verif.Model Require Import Transcript LinComb Prog IPP Prover Verifier Gadgets Hash Merkle MerkleGadget Randomizer.
From Verif.Spec Require Import R1CS Protocol Gadget IPPSpec R1CSTree R1CSExtractor HashSpec MerkleSpec OpeningSpec RandomizerSpec Knowledge Compose.
From Verif.Proofs Require Import ComposeMain TreeCheck.
From Verif.Props Require Import Demo GadgetProps HashProps.
Import ListNotations.

Section Props.
Context {P : Params} {OK : ParamsOk P} {ENC : EncodingOk P}.
Local Open Scope fe_scope.

(** ** C53.  Verifying functions called one after the other on one verifier: whoever can make
    it accept knows, for every one of them, secrets that it allows *)
Theorem C53_knowledge W t0 checks g h (l : list (statement * list G1)) :
  Forall (fun '(st, comms) => sound_statement st comms) l ->
  knowledge W t0 (verify_all checks g h l) g h (all_commitments g h l) (own_positions 0 l) (all_show l).
Proof. exact (all_knowledge W t0 checks g h l). Qed.

(** Proving functions called one after the other on one prover, with secrets that they
    allow: one proof, and the verifier accepts it *)
Theorem C53_proves W W' checks label g h (l : list call) : Forall honest_call l ->
  exists commss vs, Forall2 (good_commitments g h) l commss /\
    let vp := verify_all checks g h (combine (map statement_of l) commss) in
    vrun W' false vp (verifier_new (transcript_new label)) = Done (Ok tt, vs) /\
    forall G H, enough_generators (v_num_vars vs) G H ->
      exists proof, gen_proof W label g h G H (prove_all checks l) = Done (Ok (proof, commss)) /\
        (good_challenges W' (transcript_new label) vp proof -> verify_proof W' label g h G H proof vp = Done (Ok tt)).
Proof. exact (all_prove W W' checks label g h l). Qed.

(** and accepted trees exist, so [C53_knowledge] is about something *)
Theorem C53_answers W W' checks label g h (l : list call) : Forall honest_call l ->
  answers W W' label g h (prove_all checks l) (fun commss => verify_all checks g h (combine (map statement_of l) commss))
    (fun commss => Forall2 (good_commitments g h) l commss).
Proof. exact (all_answer W W' checks label g h l). Qed.
End Props.

Print Assumptions C53_knowledge.
Print Assumptions C53_proves.
Print Assumptions C53_answers.

(** ** Concrete cases, over the toy backend *)
Section Examples.
#[local] Existing Instance toyP.
#[local] Existing Instance toyP_ok.
#[local] Existing Instance toyP_enc.
Local Open Scope fe_scope.

(** tests/multiple_constraint_systems.rs 98-173, with smaller bounds and sets; and a hash *)
Definition ex_calls : list call :=
  [PBounded 12 None 10 20 4 true; PMember (fe 3) None [fe 3; fe 4] true; PNotMember (fe 10) (Some (fe 77)) [fe 3; fe 4] true;
   PHash2 [fe 5; fe 6] None (hash_value toy3 Cube [fe 5; fe 6]) toy3 Cube true].
Example C53_honest : Forall honest_call ex_calls.
Proof.
  constructor; [|constructor; [|constructor; [|constructor; [|constructor]]]]; cbn [honest_call].
  - split; [right; reflexivity|]. split; [lia|]. split; cbn; lia.
  - split; [right; reflexivity|]. left. reflexivity.
  - split; [right; reflexivity|].
    intros [E|[E|[]]]; apply (f_equal (@fval _)) in E; vm_compute in E; discriminate E.
  - split; [reflexivity|]. split; [reflexivity|]. split; [reflexivity|]. split; [apply C34_params_ok|]. split; [discriminate|reflexivity].
Qed.

Definition ex_run : outcome (result (list (list G1) * outcome (result unit))) :=
  match gen_proof demoW [1%Z] demo_g demo_h ex_G ex_H (prove_all true (firstn 3 ex_calls)) with
  | Done (Ok (proof, commss)) =>
      Done (Ok (commss, verify_proof demoW' [1%Z] demo_g demo_h ex_G ex_H proof
                          (verify_all true demo_g demo_h (combine (map statement_of (firstn 3 ex_calls)) commss))))
  | Done (Err e) => Done (Err e)
  | Panic => Panic
  end.
(** three lists of commitments, and the proof is accepted *)
Example C53_run : match ex_run with
  | Done (Ok (commss, verdict)) => map (@length _) commss = [3; 3; 5]%nat /\ verdict = Done (Ok tt)
  | _ => False end.
Proof. vm_compute. split; reflexivity. Qed.

(** the statements meet the conditions of [C53_knowledge], whatever the commitments *)
Example C53_sound a b c d :
  Forall (fun '(st, comms) => sound_statement st comms) (combine (map statement_of ex_calls) [a; b; c; d]).
Proof.
  constructor; [|constructor; [|constructor; [|constructor; [|constructor]]]]; cbn [statement_of sound_statement].
  - repeat split; vm_compute; discriminate.
  - discriminate.
  - discriminate.
  - split; [apply C34_params_ok|]. split; [discriminate|]. vm_compute. lia.
Qed.
Lemma skipn_twice {A} a b (l : list A) : skipn a (skipn b l) = skipn (b + a) l.
Proof. revert l. induction b as [|b IH]; intros l; [reflexivity|]. destruct l; [destruct a; reflexivity|apply IH]. Qed.
(** what is then shown *)
Example C53_shown a b c d v : length a = 3%nat -> length b = 3%nat -> length c = 5%nat -> length d = 2%nat ->
  all_show (combine (map statement_of ex_calls) [a; b; c; d]) v ->
  (10 <= fval (nth 0 v 0%fe) <= 20)%Z /\ In (nth 3 v 0) [fe 3; fe 4] /\ ~ In (nth 6 v 0) [fe 3; fe 4] /\
  hash_value toy3 Cube (firstn 2 (skipn 11 v)) = hash_value toy3 Cube [fe 5; fe 6].
Proof.
  intros Ha Hb Hc Hd.
  destruct a as [|? [|? [|? [|? ?]]]]; try discriminate Ha. destruct b as [|? [|? [|? [|? ?]]]]; try discriminate Hb.
  destruct c as [|? [|? [|? [|? [|? [|? ?]]]]]]; try discriminate Hc. destruct d as [|? [|? [|? ?]]]; try discriminate Hd.
  cbn [ex_calls map statement_of combine all_show received firstn length own Nat.add Nat.mul shows]. rewrite !skipn_twice. cbn [Nat.add].
  intros (H1 & H2 & H3 & H4 & _). split; [|split; [|split]].
  - destruct v; exact H1.
  - do 4 (destruct v as [|? v]; [exact H2|]). exact H2.
  - do 7 (destruct v as [|? v]; [exact H3|]). exact H3.
  - exact H4.
Qed.
End Examples.
