(** Knowledge error and completeness error with the challenges of the code. *)
From Coq Require Import ZArith String List Lia Bool.
From Verif.Base Require Import Outcome Fp Params Algebra.
From Verif.Model Require Import Transcript LinComb Prog IPP Prover Verifier.
From Verif.Spec Require Import R1CS Gadget Protocol IPPSpec Extractor R1CSTree R1CSExtractor Knowledge Games TwoPhase Compose GadgetGames RomSim RomSession RomComplete Challenges.
From Verif.Proofs Require Import OracleCount GadgetError TwoPhaseCode RomCompleteSession ChallengeBytes.
Import ListNotations.
Local Notation length := List.length.

Section Main.
Context {P : Params} {OK : ParamsOk P} {ENC : EncodingOk P}.
Local Notation zlen l := (Z.of_nat (length l)).

Lemma total_length D : length code_challenges ^ length D = length (oracles D code_challenges).
Proof. symmetry. apply (oracles_length code_challenges D (fun _ => fzero modulus)). Qed.

Lemma code_total D : (0 < zlen (oracles D code_challenges))%Z.
Proof.
  rewrite <- total_length. pose proof code_challenges_length as Hl. pose proof byte_strings_positive.
  pose proof (Nat.pow_nonzero (length code_challenges) (length D)). lia.
Qed.

Theorem gadgets_code W t checks g h sts commss0 vs0 G H k D R (A : adversary (list (list G1) * r1cs_proof)) Q
    (wins : oracle -> F -> bool) :
  let C := code_challenges in
  let n := v_num_vars vs0 in
  let cs := v_constraints vs0 in
  let N := next_power_of_two n in
  vrun W false (verify_all checks g h (combine sts commss0)) (verifier_new t) = Done (Ok tt, vs0) ->
  Forall (fun '(st, comms) => sound_statement st comms) (combine sts commss0) ->
  N = (2 ^ k)%nat -> (1 < n)%nat \/ batch_invert_empty_panics = false ->
  NoDup D -> NoDup R -> at_most Q A ->
  (forall O r, In O (oracles D C) -> In r R -> wins O r = true ->
     let '(commss, pf) := output O A in
     map (@length G1) commss = map (@length G1) commss0 /\ gadgets_accept W t checks g h G H sts O r commss pf /\
     incl (gadget_queries t g h sts n commss pf) D) ->
  (Z.of_nat (Q + 5 + k) * (Z.of_nat (Nat.max N (Nat.max (length cs) 7)) + 1) * (byte_strings + modulus) * zlen (oracles D C) * zlen R +
   modulus * byte_strings * zlen (oracles D C) <
   modulus * byte_strings * zlen (filter (fun Or => wins (fst Or) (snd Or)) (list_prod (oracles D C) R)))%Z ->
  exists O0 r0 f tree, In O0 (oracles D C) /\ In r0 R /\ wins O0 r0 = true /\
    let l := combine sts (fst (output O0 A)) in
    let V := all_commitments g h l in
    proof_tree_wf k (length cs) tree /\
    each_branch (fun pf c => exists O r commss, In O (oracles D C) /\ In r R /\ wins O r = true /\ output O A = (commss, pf) /\
      all_commitments g h (combine sts commss) = V /\ map O (gadget_queries t g h sts n commss pf) = c) f tree /\
    match circuit_extract n (length G) (length H) (length V) cs (own_positions 0 l) (tree_scalars tree) with
    | Got w =>
        (forall j, (j < length V)%nat ->
           nth j V g1_id = g1_add (g1_mul (nth j (wit_v w) 0%fe) g) (g1_mul (nth j (wit_blinding w) 0%fe) h)) /\
        all_show l (wit_v w)
    | Broken c => generator_relation (g :: h :: G ++ H) c
    end.
Proof.
  intros C n cs N E0 Hs HN Hb HD HR HA Hw Hcount.
  apply (gadgets_knowledge_error_repeats W t checks g h sts commss0 vs0 G H k D C code_mu R A Q wins E0 Hs HN Hb code_repeats HD HR HA Hw).
  unfold C. rewrite total_length. apply code_bound. exact Hcount.
Qed.

Theorem two_phase_code_challenges g h G H V n1 cs1 cbs labels ds n k q circ M t0 D R (A : adversary r1cs_proof) Q (wins : oracle -> F -> bool) :
  let C := code_challenges in
  let m := length V in
  let N := next_power_of_two n in
  let queries := two_phase_queries labels m n t0 in
  let r := length labels in
  second_phase n1 cs1 V cbs labels n circ ->
  N = (2 ^ k)%nat -> (1 < n)%nat \/ batch_invert_empty_panics = false -> (n1 <= n)%nat -> length ds = r ->
  (forall e, length e = r -> length (circ e) = q /\ recovers (M e) m (circ e)) ->
  NoDup D -> NoDup R -> at_most Q A ->
  (forall O x, In O (oracles D C) -> In x R -> wins O x = true ->
     two_phase_accepts O x g h G H V n1 cs1 (cbs O) t0 (output O A) /\ incl (queries (output O A)) D) ->
  (Z.of_nat (Q + r + 5 + k) * (Z.of_nat (Nat.max (maximum ds) (Nat.max N (Nat.max q 7))) + 1) * (byte_strings + modulus) * zlen (oracles D C) * zlen R +
   modulus * byte_strings * zlen (oracles D C) <
   modulus * byte_strings * zlen (filter (fun Ox => wins (fst Ox) (snd Ox)) (list_prod (oracles D C) R)))%Z ->
  exists AI AO,
    let tree := circuit_tree g h G H V n1 n k circ AI AO (fun e pf c =>
      exists O x, In O (oracles D C) /\ In x R /\ wins O x = true /\ output O A = pf /\ map O (queries pf) = e ++ c) in
    branching ds (fun e => exists f t, tree e f t) /\
    ((exists c, generator_relation (g :: h :: G ++ H) c /\ finds n1 n (length G) (length H) m circ M tree c) \/
     knows_two_phase g h G H V n1 n circ M tree ds).
Proof.
  intros C m N queries r HP2 HN Hb Hn1 Hds Hcirc HD HR HA Hw Hcount.
  apply (two_phase_code_repeats g h G H V n1 cs1 cbs labels ds n k q circ M t0 D C code_mu R A Q wins HP2 HN Hb Hn1 Hds Hcirc code_repeats HD HR HA Hw).
  unfold C. rewrite total_length. apply code_bound. exact Hcount.
Qed.

Theorem session_code W W' checks t g h (l : list call) : Forall honest_call l ->
  exists commss s vs, prun W false (prove_all checks l) (prover_new g h t) = Done (Ok commss, s) /\
    session_verifier W' checks t g h (map statement_of l) commss = Some vs /\
    let n := v_num_vars vs in
    forall G H k tape r D,
      let C := code_challenges in
      next_power_of_two n = (2 ^ k)%nat -> (2 ^ k <= length G)%nat -> (2 ^ k <= length H)%nat -> (k < 32)%nat ->
      (1 < n)%nat \/ batch_invert_empty_panics = false -> NoDup D ->
      (forall pf, length (ipp_L (proof_ipp pf)) = k -> length (ipp_R (proof_ipp pf)) = k ->
         incl (proof_queries (length (v_V vs)) n (v_transcript vs) pf) D) ->
      (modulus * byte_strings * zlen (filter (fun O => session_rejected W W' checks t g h l G H O tape r) (oracles D C)) <=
       Z.of_nat (1 + k) * (byte_strings + modulus) * zlen (oracles D C))%Z.
Proof.
  intros Hl. destruct (session_error_times W W' checks t g h l Hl) as (commss & s & vs & E & Ev & He).
  exists commss, s, vs. split; [exact E|]. split; [exact Ev|]. cbv zeta. intros G H k tape r D Hk HG HH H32 Hbi HD Hcov.
  apply code_zero_bound. apply (He G H k tape r code_challenges D); assumption.
Qed.
End Main.
