(** C64: zero knowledge of circuits with randomized constraints, with a random oracle. *)
From Coq Require Import ZArith String List Lia Ring Field.
From Verif.Base Require Import Outcome Fp Params Algebra Instances.
From Verif.Model Require Import Transcript LinComb Prog IPP Prover Verifier.
From Verif.Spec Require Import R1CS Session Protocol Indist Simulator Games RomSim TwoPhase RomTwo.
From Verif.Proofs Require Import RunProofs OracleCode OracleCount TreeCheck OracleVerify RomLink RomZK RomTwo.
From Verif.Props Require Import Demo IndistProps TwoPhaseProps.
Import ListNotations.
Local Notation length := List.length.

Section Props.
Context {P : Params} {OK : ParamsOk P}.
Local Open Scope fe_scope.

(** ** C64 Zero knowledge of circuits with randomized constraints *)
(** A prover [s] after its first phase, whose callbacks [cbs] draw challenges with the given
    labels and lead to the constraints [circ e] for the answers [e]; its values satisfy
    them whatever the answers.  [C], [D], [A], [Q] as in C58: the possible answers of the
    oracle, (at least) every question that the verification of a proof of this size can
    lead to, and a distinguisher that asks at most [Q] questions before it gets the proof
    and any number afterwards.  Over all oracles and all random tapes, the fraction on
    which it answers "yes" to the proof of [prove] differs from the fraction on which it
    answers "yes" to the simulated one by at most Q / (group order).  The simulator gets
    the generators, the commitments, the transcript before [prove] and, as functions of the
    challenges, the constraints, but no values. *)
Theorem C64_zero_knowledge {ENC : EncodingOk P} (s : prover) cbs labels n circ G H k kt (C : list F) D (A : distinguisher) Q :
  let g := p_g s in
  let h := p_h s in
  let V := zipw (commit g h) (p_v s) (p_v_blinding s) in
  let n1 := length (p_aL s) in
  let t0 := p_transcript s in
  let r := length labels in
  p_reachable false s -> generates h -> prover_second_phase s cbs labels n circ ->
  next_power_of_two n = (2 ^ k)%nat -> (2 ^ k <= length G)%nat -> (2 ^ k <= length H)%nat ->
  (11 + 2 * n <= kt)%nat ->
  NoDup C -> ~ In 0 C -> NoDup D ->
  (forall pf, length (ipp_L (proof_ipp pf)) = k -> length (ipp_R (proof_ipp pf)) = k ->
     incl (two_phase_queries labels (length V) n t0 pf) D) ->
  at_most Q A ->
  let tapes := vectors every_scalar kt in
  let real := length (filter (fun '(ro, tape) => two_phase_real_guess s cbs G H A ro tape) (list_prod (oracles D C) tapes)) in
  let games := list_prod (list_prod (oracles D C) (vectors C (r + (5 + k)))) tapes in
  let simulated := length (filter (fun '(ro, c, tape) =>
    two_phase_simulated_guess g h G H V n1 n labels circ t0 A ro c tape) games) in
  let order := Z.to_nat modulus in
  (order * (length C ^ (r + (5 + k)) * real) <= order * simulated + Q * length games /\
   order * simulated <= order * (length C ^ (r + (5 + k)) * real) + Q * length games)%nat.
Proof. exact (rom_zk2 s cbs labels n circ G H k kt C D A Q). Qed.

(** a finite [D] as required exists *)
Theorem C64_questions h labels m n t0 k : generates h ->
  exists D, NoDup D /\ forall pf, length (ipp_L (proof_ipp pf)) = k -> length (ipp_R (proof_ipp pf)) = k ->
    incl (two_phase_queries labels m n t0 pf) D.
Proof. exact (rom_questions2 h labels m n t0 k). Qed.

(** The simulator succeeds for every circuit, and if the challenges after the second phase
    are not 0 the changed oracle makes [verify] accept what it produced, whether or not the
    circuit can be satisfied.  [cbs] are the callbacks of the verifier. *)
Theorem C64_simulated_accepted g h G H V n1 cs1 cbs labels n k circ t0 c tape :
  let r := length labels in
  second_phase n1 cs1 V cbs labels n circ ->
  next_power_of_two n = (2 ^ k)%nat -> (2 ^ k <= length G)%nat -> (2 ^ k <= length H)%nat -> (k < 32)%nat ->
  (1 < n)%nat \/ batch_invert_empty_panics = false ->
  Forall (lc_in_range n (length V)) (circ (firstn r c)) -> length c = (r + (5 + k))%nat -> ~ In 0 (skipn r c) ->
  exists pf tp, two_phase_simulated g h G H V n1 n labels circ t0 c tape = Some (pf, tp) /\
    forall O x, let O' := programmed O (two_phase_queries labels (length V) n t0 pf) c in
      two_phase_accepts O' x g h G H V n1 cs1 (cbs O') t0 pf.
Proof. exact (rom_accepted2 g h G H V n1 cs1 cbs labels n k circ t0 c tape). Qed.
End Props.

Print Assumptions C64_zero_knowledge.
Print Assumptions C64_questions.
Print Assumptions C64_simulated_accepted.

(** ** The hypotheses are met *)
(** The shuffle of Props/TwoPhaseProps.v: the prover commits to x0, x1 and to x1, x0. *)
Section Shuffle.
Context {P : Params}.
Local Open Scope fe_scope.
Local Open Scope prog_scope.
Definition shp_first (x0 x1 b0 b1 b2 b3 : F) : pprog (result unit) :=
  (_ <- cs_commit (x0, b0) ;; _ <- cs_commit (x1, b1) ;; _ <- cs_commit (x1, b2) ;; _ <- cs_commit (x0, b3) ;;
   _ <- cs_allocate_multiplier (Some (x0, x1)) ;;
   cs_constrain [(VLeft 0, 1); (VCommitted 0, - (1))] ;;;
   cs_constrain [(VRight 0, 1); (VCommitted 1, - (1))] ;;;
   PRet (Ok tt))%prog.
Definition shp_second : pprog (result unit) :=
  (z <- cs_challenge "shuffle" ;;
   a <- cs_multiply [(VLeft 0, 1); (VOne, - z)] [(VRight 0, 1); (VOne, - z)] ;;
   b <- cs_multiply [(VCommitted 2, 1); (VOne, - z)] [(VCommitted 3, 1); (VOne, - z)] ;;
   cs_constrain [(snd a, 1); (snd b, - (1))] ;;;
   PRet (Ok tt))%prog.
Definition shp_s (g h : G1) (x0 x1 b0 b1 b2 b3 : F) : prover :=
  match prun (World (fun _ => 0) (fun _ => [])) false (shp_first x0 x1 b0 b1 b2 b3) (prover_new g h []) with
  | Done (_, s) => s | Panic => prover_new g h [] end.
End Shuffle.
Definition shp_cbs {P : Params} (O : query -> Fp modulus) : list (@pprog (backend O) (result unit)) := [@shp_second (backend O)].

Section ShuffleFacts.
Context {P : Params} {OK : ParamsOk P}.
Local Open Scope fe_scope.
Add Field FFrt : (Fp_field_theory modulus modulus_prime).

Lemma shp_reachable g h x0 x1 b0 b1 b2 b3 : p_reachable false (shp_s g h x0 x1 b0 b1 b2 b3).
Proof.
  apply (p_reach_first (World (fun _ => 0) (fun _ => [])) g h [] (shp_first x0 x1 b0 b1 b2 b3) (Ok tt)). reflexivity.
Qed.

(** the prover after its first phase and, for the challenge [z], after the second one *)
Lemma shp_state g h x0 x1 b0 b1 b2 b3 :
  shp_s g h x0 x1 b0 b1 b2 b3 = Prover g h (p_transcript (shp_s g h x0 x1 b0 b1 b2 b3)) sh_cs1 [x0] [x1] [x0 * x1]
    [x0; x1; x1; x0] [b0; b1; b2; b3] [] None 0 0.
Proof. reflexivity. Qed.
Definition shp_left (x0 x1 z : F) : list F := [x0; 0 + 1 * x0 + - z * 1; 0 + 1 * x1 + - z * 1].
Definition shp_right (x0 x1 z : F) : list F := [x1; 0 + 1 * x1 + - z * 1; 0 + 1 * x0 + - z * 1].
Definition shp_out (x0 x1 z : F) : list F := map (fun p => fst p * snd p) (combine (shp_left x0 x1 z) (shp_right x0 x1 z)).
Lemma shp_second_run W (g h : G1) t x0 x1 b0 b1 b2 b3 i :
  let z := challenge_value "shuffle" t in
  prover_run_callbacks W [shp_second] (Prover g h t sh_cs1 [x0] [x1] [x0 * x1] [x0; x1; x1; x0] [b0; b1; b2; b3] [] None i 0) =
  Done (Ok (Prover g h (t ++ [TChallenge "shuffle" modbytes]) (sh_circ [z]) (shp_left x0 x1 z) (shp_right x0 x1 z) (shp_out x0 x1 z)
    [x0; x1; x1; x0] [b0; b1; b2; b3] [] None i 0)).
Proof. reflexivity. Qed.
Lemma shp_solution x0 x1 (z : F) :
  satisfies (assignment_of [x0; x1; x1; x0] (shp_left x0 x1 z) (shp_right x0 x1 z) (shp_out x0 x1 z)) 3 (sh_circ [z]).
Proof.
  split.
  - intros i Hi. destruct i as [|[|[|i]]]; try lia; unfold gate_ok; reflexivity.
  - intros l Hl. unfold sh_circ in Hl. cbn [app sh_cs1 In] in Hl.
    repeat (destruct Hl as [<-|Hl]; [cbn [lc_value var_value assignment_of as_committed as_left as_right as_out shp_left shp_right shp_out nth map combine fst snd]; ring|]).
    contradiction.
Qed.
Lemma lc_all_same (cs : list lc) : Forall2 lc_same cs cs.
Proof. induction cs as [|l cs IH]; [constructor|]. constructor; [apply RunProofs.lc_same_refl|exact IH]. Qed.
End ShuffleFacts.

Section ShufflePhase.
Context {P : Params} {OK : ParamsOk P}.
Lemma shp_phase g h x0 x1 b0 b1 b2 b3 :
  prover_second_phase (shp_s g h x0 x1 b0 b1 b2 b3) shp_cbs ["shuffle"%string] 3 sh_circ.
Proof.
  rewrite shp_state. intros O t. split; [discriminate|]. cbv zeta.
  pose proof (fun random i => @shp_second_run (backend O) (@World (backend O) random (fun _ => [])) g h (r1cs_2phase_domain_sep t) x0 x1 b0 b1 b2 b3 i) as Hrun.
  cbv zeta in Hrun. pose proof (backend_challenge O "shuffle" (r1cs_2phase_domain_sep t)) as Ez.
  set (z := @challenge_value (backend O) "shuffle" (r1cs_2phase_domain_sep t)) in *.
  exists (@Prover (backend O) g h (r1cs_2phase_domain_sep t ++ [TChallenge "shuffle" modbytes]) (@sh_circ (backend O) [z])
    (@shp_left (backend O) x0 x1 z) (@shp_right (backend O) x0 x1 z) (@shp_out (backend O) x0 x1 z) [x0; x1; x1; x0] [b0; b1; b2; b3] [] None 0 0).
  split; [exact Hrun|]. split; [reflexivity|]. split; [reflexivity|].
  cbn [p_constraints p_v callback_queries map length]. rewrite <- Ez.
  split; [apply (@lc_all_same (backend O))|]. split; [apply (@sh_range (backend O))|].
  apply (@shp_solution (backend O) (backend_ok O)).
Qed.
End ShufflePhase.

(** ... and its proofs reveal nothing else: the bound for this prover *)
Theorem C64_shuffle {P : Params} {OK : ParamsOk P} {ENC : EncodingOk P} (g h : G1) (x0 x1 b0 b1 b2 b3 : Fp modulus) G H
    (C : list (Fp modulus)) D (A : distinguisher) Q :
  let s := shp_s g h x0 x1 b0 b1 b2 b3 in
  let V := [commit g h x0 b0; commit g h x1 b1; commit g h x1 b2; commit g h x0 b3] in
  let t0 := p_transcript s in
  generates h -> 4 <= length G -> 4 <= length H -> NoDup C -> ~ In (fzero _) C -> NoDup D ->
  (forall pf, length (ipp_L (proof_ipp pf)) = 2 -> length (ipp_R (proof_ipp pf)) = 2 ->
     incl (two_phase_queries ["shuffle"%string] 4 3 t0 pf) D) ->
  at_most Q A ->
  let tapes := vectors every_scalar 17 in
  let real := length (filter (fun '(ro, tape) => two_phase_real_guess s shp_cbs G H A ro tape) (list_prod (oracles D C) tapes)) in
  let games := list_prod (list_prod (oracles D C) (vectors C 8)) tapes in
  let simulated := length (filter (fun '(ro, c, tape) =>
    two_phase_simulated_guess g h G H V 1 3 ["shuffle"%string] sh_circ t0 A ro c tape) games) in
  let order := Z.to_nat modulus in
  order * (length C ^ 8 * real) <= order * simulated + Q * length games /\
  order * simulated <= order * (length C ^ 8 * real) + Q * length games.
Proof.
  intros s V t0 Hg HG HH HC HC0 HD Hcov HQ.
  exact (C64_zero_knowledge s shp_cbs ["shuffle"%string] 3 sh_circ G H 2 17 C D A Q (shp_reachable g h x0 x1 b0 b1 b2 b3) Hg
    (shp_phase g h x0 x1 b0 b1 b2 b3) eq_refl HG HH (le_n _) HC HC0 HD Hcov HQ).
Qed.
Print Assumptions C64_shuffle.

Section Examples.
#[local] Existing Instance toyP.
#[local] Existing Instance toyP_ok.
#[local] Existing Instance toyP_enc.
Local Open Scope fe_scope.

(** a distinguisher that asks for the challenge of the second phase of the proof *)
Definition shp_A (t0 : transcript) : distinguisher :=
  Ask (t0, "shuffle"%string) (fun a => Answer (fun out =>
    match two_phase_queries ["shuffle"%string] 4 3 t0 (fst out) with
    | q :: _ => Ask q (fun b => Answer (feqb a b))
    | [] => Answer false
    end)).

Example C64_example : let s := shp_s demo_g demo_h (fe 3) (fe 5) (fe 21) (fe 22) (fe 23) (fe 24) in
  exists D,
  p_reachable false s /\ generates (p_h s) /\ prover_second_phase s shp_cbs ["shuffle"%string] 3 sh_circ /\
  length (p_aL s) = 1%nat /\ NoDup sh_C /\ ~ In 0 sh_C /\ NoDup D /\
  (forall pf, length (ipp_L (proof_ipp pf)) = 2%nat -> length (ipp_R (proof_ipp pf)) = 2%nat ->
     incl (two_phase_queries ["shuffle"%string] 4 3 (p_transcript s) pf) D) /\
  at_most 1 (shp_A (p_transcript s)).
Proof.
  intros s. destruct (C64_questions demo_h ["shuffle"%string] 4 3 (p_transcript s) 2 demo_generates) as (D & HD & Hcov).
  exists D. split; [apply shp_reachable|]. split; [exact demo_generates|]. split; [apply shp_phase|]. split; [reflexivity|].
  split; [exact sh_C_nodup|]. split; [exact sh_C_nz|]. split; [exact HD|]. split; [exact Hcov|]. intros a. exact I.
Qed.

(** commitments to 3, 5 and 4, 6 cannot be a shuffle with challenge 9; there is a simulated proof
    with this challenge, and with the changed oracle it is accepted *)
Definition shp_bad : list F := map fe [3; 5; 4; 6]%Z.
Definition shp_bad_V : list G1 := zipw (commit demo_g demo_h) shp_bad sh_gam.
Example C64_example_unsatisfiable (tape : list F) : let c := map fe [9; 2; 3; 4; 5; 6; 7; 8]%Z in
  (forall aL aR aO, ~ satisfies (assignment_of shp_bad aL aR aO) 3 (sh_circ (firstn 1 c))) /\
  exists pf tp, two_phase_simulated demo_g demo_h demo_G demo_H shp_bad_V 1 3 ["shuffle"%string] sh_circ [] c tape = Some (pf, tp) /\
    forall O x, let O' := programmed O (two_phase_queries ["shuffle"%string] 4 3 [] pf) c in
      two_phase_accepts O' x demo_g demo_h demo_G demo_H shp_bad_V 1 sh_cs1 (sh_cbs O') [] pf.
Proof.
  intros c. split.
  - intros aL aR aO Hs. apply sh_sat in Hs as [Hs _]. apply (f_equal (@fval _)) in Hs. vm_compute in Hs. discriminate Hs.
  - assert (Hz : Forall (fun x : F => x <> 0) (skipn 1 c)) by (apply (forallb_Forall nz_b); [exact nz_b_ok|vm_compute; reflexivity]).
    apply (C64_simulated_accepted demo_g demo_h demo_G demo_H shp_bad_V 1 sh_cs1 sh_cbs ["shuffle"%string] 3 2 sh_circ [] c tape);
      [apply sh_phase|reflexivity|vm_compute; lia|vm_compute; lia|lia|left; lia|apply sh_range|reflexivity|].
    intros Hin. rewrite Forall_forall in Hz. exact (Hz 0 Hin eq_refl).
Qed.
End Examples.
