(** C68: the challenges as the code derives them from bytes. *)
From Coq Require Import ZArith String List Lia Bool.
From Verif.Base Require Import Outcome Fp Params Algebra Instances.
From Verif.Model Require Import Transcript LinComb Prog IPP Prover Verifier.
From Verif.Spec Require Import HashSpec R1CS Gadget Protocol IPPSpec Extractor R1CSTree R1CSExtractor Knowledge Games TwoPhase Compose GadgetGames RomSim RomSession RomComplete Challenges.
From Verif.Proofs Require Import R1CSExtract TreeCount OracleCount OracleZero OracleCode GameInteractive OracleHonest TreeCheck SameCircuit GadgetError TwoPhaseHonest ChallengeBytes ChallengeMain.
From Verif.Props Require Import Demo SoundProps GameProps IndistProps AdaptiveProps TwoPhaseProps RomZKProps SessionZKProps.
Import ListNotations.
Local Notation length := List.length.
Local Notation zlen l := (Z.of_nat (length l)).

Section Props.
Context {P : Params} {OK : ParamsOk P}.
Local Open Scope fe_scope.

(** ** C68 The challenges of the code *)
(** [code_challenges] lists, for each string of MODBYTES bytes, the challenge that the
    code makes of it, in the order of the integers that the strings denote.  Whatever the
    state of the transcript, when merlin returns a string of that length the challenge is
    the one that the list has at the place of that string; the challenge [x] results from ceil((256^MODBYTES - x) / order) of the strings, which is
    256^MODBYTES / order, rounded up or down. *)
Theorem C68_distribution :
  zlen code_challenges = byte_strings /\
  (forall label t, (0 <= xof t label modbytes < byte_strings)%Z ->
     nth_error code_challenges (Z.to_nat (xof t label modbytes)) = Some (challenge_value label t)) /\
  (forall x : F, Z.of_nat (times code_challenges x) = ((byte_strings + modulus - 1 - fval x) / modulus)%Z) /\
  (forall x : F, byte_strings / modulus <= Z.of_nat (times code_challenges x) <= byte_strings / modulus + 1)%Z.
Proof. exact (conj code_challenges_length (conj code_challenge_at (conj code_times code_times_bounds))). Qed.

(** *** Knowledge error when challenges are repeated and may be zero *)
(** C55 for a list [C] of possible challenges in which none occurs more than [mu] times *)
Theorem C68_interactive g h G H V n1 n k cs M st C mu wins :
  let N := next_power_of_two n in
  N = (2 ^ k)%nat -> (N <= length G)%nat -> (N <= length H)%nat ->
  Forall (lc_in_range n (length V)) cs -> recovers M (length V) cs -> repeats mu C ->
  (forall c, In c (vectors C (5 + k)) -> wins c = true -> accepted_for g h G H V n1 n cs (strategy_proof st c) c) ->
  (mu * (N + length cs + 13 + 7 * k) * length C ^ (5 + k) < length C * length (filter wins (vectors C (5 + k))))%nat ->
  exists f t, proof_tree_wf k (length cs) t /\
    each_branch (fun pf c => In c (vectors C (5 + k)) /\ wins c = true /\ strategy_proof st c = pf) f t /\
    proof_tree_accepted g h G H V n1 n cs f t /\
    match r1cs_extract n1 n (length G) (length H) (length V) cs M (tree_scalars t) with
    | Got w => witness_ok g h G H V n1 n cs f w
    | Broken c => generator_relation (g :: h :: G ++ H) c
    end.
Proof. exact (interactive_extraction_repeats g h G H V n1 n k cs M st C mu wins). Qed.

(** C56 in the same way; the oracle may answer zero too *)
Theorem C68_fiat_shamir {ENC : EncodingOk P} g h G H V n k cs M t0 D C mu R A Q (wins : oracle -> F -> bool) :
  let N := next_power_of_two n in
  let m := length V in
  N = (2 ^ k)%nat -> (1 < n)%nat \/ batch_invert_empty_panics = false ->
  recovers M m cs -> repeats mu C -> NoDup D -> NoDup R -> at_most Q A ->
  (forall O r, In O (oracles D C) -> In r R -> wins O r = true ->
     verify_accepts O r g h G H V n cs t0 (output O A) /\ incl (proof_queries m n t0 (output O A)) D) ->
  ((Q + 5 + k) * (mu * Nat.max N (Nat.max (length cs) 7) + times C 0) * length C ^ length D * length R + length C * length C ^ length D <
    length C * length (filter (fun Or => wins (fst Or) (snd Or)) (list_prod (oracles D C) R)))%nat ->
  exists f t, proof_tree_wf k (length cs) t /\
    each_branch (fun pf c => exists O r, In O (oracles D C) /\ In r R /\ wins O r = true /\ output O A = pf /\
      map O (proof_queries m n t0 pf) = c) f t /\
    proof_tree_accepted g h G H V n n cs f t /\
    match r1cs_extract n n (length G) (length H) (length V) cs M (tree_scalars t) with
    | Got w => witness_ok g h G H V n n cs f w
    | Broken c => generator_relation (g :: h :: G ++ H) c
    end.
Proof. exact (fiat_shamir_verify_repeats g h G H V n k cs M t0 D C mu R A Q wins). Qed.

(** *** With the challenges of the code *)
(** C57: the oracle answers each question with a uniformly random string of MODBYTES bytes,
    of which the code makes a challenge.  With p the group order and B = 256^MODBYTES, a
    prover that chooses the commitments, asks at most [Q] questions and wins for more than
    the fraction (Q+5+k) (max(N,|cs|,7) + 1) (1/p + 1/B) + 1/|R| of the oracles and of the
    random values of the verifier knows openings of the commitments as the statements say. *)
Theorem C68_gadgets {ENC : EncodingOk P} W t checks g h sts commss0 vs0 G H k D R (A : adversary (list (list G1) * r1cs_proof)) Q
    (wins : oracle -> F -> bool) :
  let C := code_challenges in
  let n := v_num_vars vs0 in
  let cs := v_constraints vs0 in
  let N := next_power_of_two n in
  vrun W false (verify_all checks g h (combine sts commss0)) (verifier_new t) = Done (Ok tt, vs0) ->
  Forall (fun '(st, comms) => sound_statement st comms) (combine sts commss0) ->
  N = (2 ^ k)%nat -> (1 < n)%nat \/ batch_invert_empty_panics = false ->
  NoDup D -> NoDup R -> at_most Q A ->
  (forall O r, In O (oracles D C) -> In r R -> wins O r = true ->
     let '(commss, pf) := output O A in
     map (@length G1) commss = map (@length G1) commss0 /\ gadgets_accept W t checks g h G H sts O r commss pf /\
     incl (gadget_queries t g h sts n commss pf) D) ->
  (Z.of_nat (Q + 5 + k) * (Z.of_nat (Nat.max N (Nat.max (length cs) 7)) + 1) * (byte_strings + modulus) * zlen (oracles D C) * zlen R +
   modulus * byte_strings * zlen (oracles D C) <
   modulus * byte_strings * zlen (filter (fun Or => wins (fst Or) (snd Or)) (list_prod (oracles D C) R)))%Z ->
  exists O0 r0 f tree, In O0 (oracles D C) /\ In r0 R /\ wins O0 r0 = true /\
    let l := combine sts (fst (output O0 A)) in
    let V := all_commitments g h l in
    proof_tree_wf k (length cs) tree /\
    each_branch (fun pf c => exists O r commss, In O (oracles D C) /\ In r R /\ wins O r = true /\ output O A = (commss, pf) /\
      all_commitments g h (combine sts commss) = V /\ map O (gadget_queries t g h sts n commss pf) = c) f tree /\
    match circuit_extract n (length G) (length H) (length V) cs (own_positions 0 l) (tree_scalars tree) with
    | Got w =>
        (forall j, (j < length V)%nat ->
           nth j V g1_id = g1_add (g1_mul (nth j (wit_v w) 0) g) (g1_mul (nth j (wit_blinding w) 0) h)) /\
        all_show l (wit_v w)
    | Broken c => generator_relation (g :: h :: G ++ H) c
    end.
Proof. exact (gadgets_code W t checks g h sts commss0 vs0 G H k D R A Q wins). Qed.

(** C60: the same with randomized constraints *)
Theorem C68_two_phase {ENC : EncodingOk P} g h G H V n1 cs1 cbs labels ds n k q circ M t0 D R (A : adversary r1cs_proof) Q (wins : oracle -> F -> bool) :
  let C := code_challenges in
  let m := length V in
  let N := next_power_of_two n in
  let queries := two_phase_queries labels m n t0 in
  let r := length labels in
  second_phase n1 cs1 V cbs labels n circ ->
  N = (2 ^ k)%nat -> (1 < n)%nat \/ batch_invert_empty_panics = false -> (n1 <= n)%nat -> length ds = r ->
  (forall e, length e = r -> length (circ e) = q /\ recovers (M e) m (circ e)) ->
  NoDup D -> NoDup R -> at_most Q A ->
  (forall O x, In O (oracles D C) -> In x R -> wins O x = true ->
     two_phase_accepts O x g h G H V n1 cs1 (cbs O) t0 (output O A) /\ incl (queries (output O A)) D) ->
  (Z.of_nat (Q + r + 5 + k) * (Z.of_nat (Nat.max (maximum ds) (Nat.max N (Nat.max q 7))) + 1) * (byte_strings + modulus) * zlen (oracles D C) * zlen R +
   modulus * byte_strings * zlen (oracles D C) <
   modulus * byte_strings * zlen (filter (fun Ox => wins (fst Ox) (snd Ox)) (list_prod (oracles D C) R)))%Z ->
  exists AI AO,
    let tree := circuit_tree g h G H V n1 n k circ AI AO (fun e pf c =>
      exists O x, In O (oracles D C) /\ In x R /\ wins O x = true /\ output O A = pf /\ map O (queries pf) = e ++ c) in
    branching ds (fun e => exists f t, tree e f t) /\
    ((exists c, generator_relation (g :: h :: G ++ H) c /\ finds n1 n (length G) (length H) m circ M tree c) \/
     knows_two_phase g h G H V n1 n circ M tree ds).
Proof. exact (two_phase_code_challenges g h G H V n1 cs1 cbs labels ds n k q circ M t0 D R A Q wins). Qed.

(** C67: a whole honest session is rejected for at most the fraction
    (1 + k) (1/p + 1/B) of the oracles. *)
Theorem C68_completeness {ENC : EncodingOk P} W W' checks t g h (l : list call) : Forall honest_call l ->
  exists commss s vs, prun W false (prove_all checks l) (prover_new g h t) = Done (Ok commss, s) /\
    session_verifier W' checks t g h (map statement_of l) commss = Some vs /\
    let n := v_num_vars vs in
    forall G H k tape r D,
      let C := code_challenges in
      next_power_of_two n = (2 ^ k)%nat -> (2 ^ k <= length G)%nat -> (2 ^ k <= length H)%nat -> (k < 32)%nat ->
      (1 < n)%nat \/ batch_invert_empty_panics = false -> NoDup D ->
      (forall pf, length (ipp_L (proof_ipp pf)) = k -> length (ipp_R (proof_ipp pf)) = k ->
         incl (proof_queries (length (v_V vs)) n (v_transcript vs) pf) D) ->
      (modulus * byte_strings * zlen (filter (fun O => session_rejected W W' checks t g h l G H O tape r) (oracles D C)) <=
       Z.of_nat (1 + k) * (byte_strings + modulus) * zlen (oracles D C))%Z.
Proof. exact (session_code W W' checks t g h l). Qed.
End Props.

Print Assumptions C68_distribution.
Print Assumptions C68_interactive.
Print Assumptions C68_fiat_shamir.
Print Assumptions C68_gadgets.
Print Assumptions C68_two_phase.
Print Assumptions C68_completeness.

(** ** The hypotheses are met *)
Section Examples.
#[local] Existing Instance toyP.
#[local] Existing Instance toyP_ok.
#[local] Existing Instance toyP_enc.
Local Open Scope fe_scope.
Local Opaque code_challenges oracles.

(** 1 results from one string more than 10006 *)
Example C68_example_times :
  Z.of_nat (times code_challenges (fe 1)) = (256 ^ 48 / 10007 + 1)%Z /\
  Z.of_nat (times code_challenges (fe 10006)) = (256 ^ 48 / 10007)%Z.
Proof. destruct C68_distribution as (_ & _ & E & _). rewrite !E. split; vm_compute; reflexivity. Qed.

(** each challenge twice, and zero three times *)
Definition cb_C : list F := gm_C ++ repeat 0 3 ++ gm_C.
Lemma gm_length : length gm_C = 100%nat.
Proof. reflexivity. Qed.
Local Opaque gm_C.
Lemma cb_repeats : repeats 3 cb_C.
Proof.
  intros x. unfold cb_C. rewrite !times_app, times_repeat. pose proof (repeats_once gm_C gm_C_nodup x) as H1.
  destruct (Fp_eq_dec modulus 0 x) as [E|_]; [|lia]. rewrite <- E. rewrite times_zero by exact gm_C_nz. apply le_n.
Qed.
Lemma cb_zero : times cb_C 0 = 3%nat.
Proof.
  unfold cb_C. rewrite !times_app, times_repeat, times_zero by exact gm_C_nz.
  destruct (Fp_eq_dec modulus 0 0) as [_|Hne]; [reflexivity|contradiction].
Qed.
Lemma cb_length : length cb_C = 203%nat.
Proof.
  unfold cb_C. rewrite !app_length, repeat_length, gm_length. reflexivity.
Qed.

Lemma pairs_count {A B} (l : list A) (m : list B) w : length (filter (fun ab => w (fst ab)) (list_prod l m)) = (length (filter w l) * length m)%nat.
Proof.
  rewrite (pairs_as_sum l m (fun a _ => w a)), filter_as_sum, <- sum_over_mul. apply sum_over_ext. intros a _.
  destruct (w a); [rewrite filter_true; lia|]. induction m as [|b m IH]; [reflexivity|exact IH].
Qed.

(** The strategy of C55 still wins often enough. *)
Example C68_example_interactive : recovers sd_M (length sd_V) sd_cs /\ repeats 2 (gm_C ++ gm_C) /\ exists st,
  (forall c, In c (vectors (gm_C ++ gm_C) (5 + 1)) -> true = true -> accepted_for demo_g demo_h sd_G sd_H sd_V 1 2 sd_cs (strategy_proof st c) c) /\
  (2 * (2 + length sd_cs + 13 + 7 * 1) * length (gm_C ++ gm_C) ^ (5 + 1) <
     length (gm_C ++ gm_C) * length (filter (fun _ => true) (vectors (gm_C ++ gm_C) (5 + 1))))%nat.
Proof.
  split; [exact sd_rec|]. split; [intros x; rewrite times_app; pose proof (repeats_once gm_C gm_C_nodup x); lia|].
  destruct (C55_honest_strategy demo_g demo_h sd_G sd_H 1 2 1 sd_cs sd_v sd_gam sd_aL sd_aR sd_aO eq_refl
    (le_n 2) (le_n 2) eq_refl eq_refl eq_refl eq_refl sd_range sd_sat) as [st Hst].
  exists st. split.
  - intros c Hc _. apply C55_vectors in Hc as [Hl Hin]. apply Hst; [exact Hl|]. intros H0.
    apply Hin, in_app_or in H0 as [H0|H0]; exact (gm_C_nz H0).
  - rewrite filter_true, (proj1 (C55_vectors (gm_C ++ gm_C) (5 + 1))). change (length sd_cs) with 5%nat.
    assert (E : length (gm_C ++ gm_C) = 200%nat) by (rewrite app_length, gm_length; reflexivity). rewrite E.
    generalize (Nat.pow_nonzero 200 (5 + 1) ltac:(discriminate)). generalize (200 ^ (5 + 1))%nat. intros x Hx. lia.
Qed.

(** The honest prover wins unless a challenge is zero, which is often enough: more than the
    fraction 12 (3 * 7 + 3) / 453 + 1 / 10. *)
Definition cz_rest : list F := map (fun i => fe (Z.of_nat i)) (seq 1000 250).
Definition cz_C : list F := cb_C ++ cz_rest.
Lemma cz_rest_nodup : NoDup cz_rest.
Proof. apply nodup_b_ok. vm_compute. reflexivity. Qed.
Lemma cz_rest_nz : ~ In 0 cz_rest.
Proof.
  intros Hin. assert (Hz : Forall (fun c : F => c <> 0) cz_rest) by (apply (forallb_Forall nz_b); [exact nz_b_ok|vm_compute; reflexivity]).
  rewrite Forall_forall in Hz. exact (Hz 0 Hin eq_refl).
Qed.
Lemma cz_length : length cz_C = 453%nat.
Proof. unfold cz_C, cz_rest. rewrite app_length, cb_length, map_length, seq_length. reflexivity. Qed.
Local Opaque cz_rest.
Lemma cz_repeats : repeats 3 cz_C.
Proof.
  intros x. unfold cz_C, cb_C. rewrite !times_app, times_repeat. pose proof (repeats_once gm_C gm_C_nodup x) as H1.
  pose proof (repeats_once cz_rest cz_rest_nodup x) as H2.
  destruct (Fp_eq_dec modulus 0 x) as [E|_]; [|lia]. rewrite <- E. rewrite (times_zero gm_C) by exact gm_C_nz. rewrite times_zero by exact cz_rest_nz. apply le_n.
Qed.
Lemma cz_zero : times cz_C 0 = 3%nat.
Proof. unfold cz_C. rewrite times_app, cb_zero, times_zero by exact cz_rest_nz. reflexivity. Qed.

Example C68_example_fiat_shamir : recovers sd_M (length sd_V) sd_cs /\ repeats 3 cz_C /\ times cz_C 0 = 3%nat /\ NoDup gm_R /\
  exists A D, NoDup D /\ at_most 6 A /\
  let wins O (r : F) := no_zero (proof_queries 2 2 []) A O in
  (forall O r, In O (oracles D cz_C) -> In r gm_R -> wins O r = true ->
     verify_accepts O r demo_g demo_h sd_G sd_H sd_V 2 sd_cs [] (output O A) /\ incl (proof_queries 2 2 [] (output O A)) D) /\
  ((6 + 5 + 1) * (3 * Nat.max 2 (Nat.max (length sd_cs) 7) + times cz_C 0) * length cz_C ^ length D * length gm_R + length cz_C * length cz_C ^ length D <
    length cz_C * length (filter (fun Or => wins (fst Or) (snd Or)) (list_prod (oracles D cz_C) gm_R)))%nat.
Proof.
  split; [exact sd_rec|]. split; [exact cz_repeats|]. split; [exact cz_zero|]. split; [exact gm_R_nodup|].
  destruct (honest_convinces_shaped demo_g demo_h sd_G sd_H 2 1 sd_cs sd_v sd_gam sd_aL sd_aR sd_aO [] eq_refl ltac:(lia)
    (or_introl (le_n 2)) (le_n 2) (le_n 2) eq_refl eq_refl eq_refl eq_refl sd_range sd_sat) as (A & HA & Hacc).
  destruct (domain_exists (proof_queries 2 2 []) cz_C A) as (D & HD & Hin). exists A, D. split; [exact HD|]. split; [exact HA|].
  cbv zeta. split.
  - intros O r HO _ Hw. split; [|exact (Hin O HO)]. apply Hacc. intros H0. exact (no_zero_ok _ A O 0 Hw H0 eq_refl).
  - rewrite pairs_count, cz_zero.
    pose proof (no_zero_count (proof_queries 2 2 []) 6 D cz_C A 6 HD HA) as Hz.
    match type of Hz with ?H -> _ => assert (Hq : H) end; [intros O HO; split; [apply Hacc|exact (Hin O HO)]|].
    specialize (Hz Hq). clear Hq. rewrite cz_zero in Hz.
    pose proof (oracles_length cz_C D (fun _ => fzero modulus)) as HT. change (oracles_from (fun _ => fzero modulus) D cz_C) with (oracles D cz_C) in HT.
    pose proof (Nat.pow_nonzero (length cz_C) (length D)) as Hp. rewrite <- HT in *. rewrite cz_length in *.
    change (length sd_cs) with 5%nat. change (length gm_R) with 10%nat. change (Nat.max 2 (Nat.max 5 7)) with 7%nat.
    generalize dependent (length (filter (no_zero (proof_queries 2 2 []) A) (oracles D cz_C))).
    generalize dependent (length (oracles D cz_C)). intros T HT Hp W Hz. specialize (Hp ltac:(discriminate)). lia.
Qed.

(** The session of C57 with the challenges of the code: the honest prover wins unless a
    challenge is zero, which is more than the bound. *)
Definition cg_queries n x := gadget_queries (transcript_new []) demo_g demo_h (map statement_of ad_calls) n (fst x) (snd x).
Example C68_example : exists commss0 vs0, let sts := map statement_of ad_calls in let t := transcript_new [] in
  vrun demoW false (verify_all true demo_g demo_h (combine sts commss0)) (verifier_new t) = Done (Ok tt, vs0) /\
  Forall (fun '(st, comms) => sound_statement st comms) (combine sts commss0) /\ next_power_of_two (v_num_vars vs0) = (2 ^ 2)%nat /\
  NoDup gm_R /\
  exists A D, NoDup D /\ at_most 7 A /\
  let wins O (r : F) := no_zero (cg_queries (v_num_vars vs0)) A O in
  (forall O r, In O (oracles D code_challenges) -> In r gm_R -> wins O r = true ->
     let '(commss, pf) := output O A in
     map (@length G1) commss = map (@length G1) commss0 /\ gadgets_accept demoW t true demo_g demo_h demo_G demo_H sts O r commss pf /\
     incl (gadget_queries t demo_g demo_h sts (v_num_vars vs0) commss pf) D) /\
  (Z.of_nat (7 + 5 + 2) * (Z.of_nat (Nat.max 4 (Nat.max (length (v_constraints vs0)) 7)) + 1) * (byte_strings + modulus) * zlen (oracles D code_challenges) * zlen gm_R +
   modulus * byte_strings * zlen (oracles D code_challenges) <
   modulus * byte_strings * zlen (filter (fun Or => wins (fst Or) (snd Or)) (list_prod (oracles D code_challenges) gm_R)))%Z.
Proof.
  destruct (gadgets_honest_shaped demoW true [] demo_g demo_h ad_calls ad_honest) as (commss & vs & Hgood & Hrun & Hc).
  cbv zeta in Hrun, Hc.
  assert (Hl : map (@length G1) commss = [2; 2]%nat /\ length commss = 2%nat).
  { inversion Hgood as [|c1 k1 l1 r1 H1 H1']; subst. inversion H1' as [|c2 k2 l2 r2 H2 H2']; subst. inversion H2'; subst.
    destruct H1 as (v1 & rs1 & Lr1 & -> & S1 & _). destruct H2 as (v2 & rs2 & Lr2 & -> & S2 & _). cbn [secret] in S1, S2. subst v1 v2.
    split; [|reflexivity]. cbn [map]. unfold commit_all. rewrite !map_length, !combine_length, Lr1, Lr2. reflexivity. }
  destruct Hl as [Hl Hl2]. destruct (ad_size_is commss vs Hl Hrun) as [En Ec].
  assert (Hs : Forall (fun '(st, comms) => sound_statement st comms) (combine (map statement_of ad_calls) commss)).
  { destruct commss as [|a [|b [|? ?]]]; try discriminate Hl2. repeat constructor. }
  destruct (Hc Hs demo_G demo_H 2%nat) as (A & HA & Hacc).
  - rewrite En. reflexivity.
  - lia.
  - left. rewrite En. lia.
  - rewrite En. vm_compute. lia.
  - rewrite En. vm_compute. lia.
  - exists commss, vs. cbv zeta. split; [exact Hrun|]. split; [exact Hs|]. split; [rewrite En; reflexivity|].
    split; [exact gm_R_nodup|].
    destruct (domain_exists (cg_queries (v_num_vars vs)) code_challenges A) as (D & HD & Hin).
    exists A, D. split; [exact HD|]. split; [exact HA|]. split.
    + intros O r HO _ Hz. destruct (Hacc O) as (E & _ & Hok). pose proof (no_zero_ok (cg_queries (v_num_vars vs)) A O 0 Hz) as Hz'.
      specialize (Hin O HO). unfold cg_queries in Hz', Hin. destruct (output O A) as [commss' pf]. cbn [fst snd] in *.
      subst commss'. split; [reflexivity|]. split; [|exact Hin].
      apply Hok. intros H0. exact (Hz' H0 eq_refl).
    + rewrite pairs_count, Ec.
      pose proof (no_zero_count (cg_queries (v_num_vars vs)) 7 D code_challenges A 7 HD HA) as Hz.
      match type of Hz with ?H -> _ => assert (Hq : H) end.
      { intros O HO. split; [|exact (Hin O HO)]. destruct (Hacc O) as (E & Hlen & _). unfold cg_queries. rewrite E. exact Hlen. }
      specialize (Hz Hq). clear Hq. apply code_zero_bound in Hz.
      pose proof (code_total D) as HT.
      assert (HW : (length (filter (no_zero (cg_queries (v_num_vars vs)) A) (oracles D code_challenges)) <= length (oracles D code_challenges))%nat)
        by apply filter_short.
      rewrite Nat2Z.inj_sub in Hz by exact HW. rewrite Nat2Z.inj_mul. change (zlen gm_R) with 10%Z.
      generalize dependent (zlen (filter (no_zero (cg_queries (v_num_vars vs)) A) (oracles D code_challenges))).
      generalize dependent (zlen (oracles D code_challenges)). intros T HT W Hz.
      change (@byte_strings toyP) with (256 ^ 48)%Z in *. change (@modulus toyP) with 10007%Z in *.
      change (Z.of_nat (7 + 5 + 2)) with 14%Z. change (Z.of_nat (Nat.max 4 (Nat.max 10 7))) with 10%Z. change (Z.of_nat (7 + 7)) with 14%Z in Hz.
      let b := eval vm_compute in (256 ^ 48)%Z in change (256 ^ 48)%Z with b in *. lia.
Qed.

(** The shuffle of C60 with the challenges of the code. *)
Example C68_example_two_phase : NoDup sh_R /\ length sh_V = 4%nat /\ exists A D, NoDup D /\ at_most 8 A /\
  let queries := two_phase_queries ["shuffle"%string] 4 3 [] in
  let wins O (x : F) := no_zero queries A O in
  (forall O x, In O (oracles D code_challenges) -> In x sh_R -> wins O x = true ->
     two_phase_accepts O x demo_g demo_h demo_G demo_H sh_V 1 sh_cs1 (sh_cbs O) [] (output O A) /\ incl (queries (output O A)) D) /\
  (Z.of_nat (8 + 1 + 5 + 2) * (7 + 1) * (byte_strings + modulus) * zlen (oracles D code_challenges) * zlen sh_R +
   modulus * byte_strings * zlen (oracles D code_challenges) <
   modulus * byte_strings * zlen (filter (fun Ox => wins (fst Ox) (snd Ox)) (list_prod (oracles D code_challenges) sh_R)))%Z.
Proof.
  split; [exact sh_R_nodup|]. split; [reflexivity|].
  destruct (honest_two_phase_shaped demo_g demo_h demo_G demo_H _ 1 sh_cs1 sh_cbs ["shuffle"%string] 3 2 sh_circ sh_v sh_gam
    (sh_aL []) (sh_aR []) (sh_aO []) sh_aL sh_aR sh_aO [] eq_refl (sh_phase sh_V) eq_refl ltac:(lia) (or_introl (le_S _ _ (le_n 2)))
    ltac:(change (4 <= 8)%nat; lia) ltac:(change (4 <= 8)%nat; lia) eq_refl) as (A & HA & Hacc).
  { intros e _. split; [reflexivity|]. split; [reflexivity|]. split; [reflexivity|]. split; [|split; [apply sh_range|apply sh_solution]].
    intros i Hi. destruct i as [|i]; [|lia]. split; [reflexivity|]. split; reflexivity. }
  destruct (domain_exists (two_phase_queries ["shuffle"%string] 4 3 []) code_challenges A) as (D & HD & Hin). exists A, D.
  split; [exact HD|]. split; [exact HA|]. cbv zeta. split.
  - intros O x HO _ Hw. split; [|exact (Hin O HO)]. apply Hacc. intros H0. exact (no_zero_ok _ A O 0 Hw H0 eq_refl).
  - rewrite pairs_count. set (pts := two_phase_queries ["shuffle"%string] 4 3 []) in *.
    pose proof (no_zero_count pts 8 D code_challenges A 8 HD HA) as Hz.
    match type of Hz with ?H -> _ => assert (Hq : H) end; [intros O HO; split; [apply Hacc|exact (Hin O HO)]|].
    specialize (Hz Hq). clear Hq. apply code_zero_bound in Hz. change (zlen sh_R) with 10%Z.
    rewrite Nat2Z.inj_sub in Hz by apply filter_short. rewrite Nat2Z.inj_mul. change (zlen sh_R) with 10%Z.
    pose proof (code_total D) as HT.
    generalize dependent (zlen (filter (no_zero pts A) (oracles D code_challenges))).
    generalize dependent (zlen (oracles D code_challenges)). intros T HT W Hz.
    change (@byte_strings toyP) with (256 ^ 48)%Z in *. change (@modulus toyP) with 10007%Z in *.
    change (Z.of_nat (8 + 1 + 5 + 2)) with 16%Z. change (Z.of_nat (8 + 8)) with 16%Z in Hz.
    let b := eval vm_compute in (256 ^ 48)%Z in change (256 ^ 48)%Z with b in *. lia.
Qed.

(** the session of C59 and C67: five times (1/p + 1/B) *)
Example C68_example_session tape r : exists D,
  NoDup D /\
  (10007 * 256 ^ 48 * zlen (filter (fun O => session_rejected demoW demoW' true [] demo_g demo_h sz_calls sz_G sz_H O tape r) (oracles D code_challenges)) <=
   5 * (256 ^ 48 + 10007) * zlen (oracles D code_challenges))%Z.
Proof.
  assert (Hl : Forall honest_call sz_calls).
  { constructor; [|constructor; [|constructor]]; cbn [honest_call].
    - split; [right; reflexivity|]. split; [lia|]. split; cbn; lia.
    - split; [right; reflexivity|]. intros E. apply (f_equal (@fval _)) in E. vm_compute in E. discriminate E. }
  destruct (C68_completeness demoW demoW' true [] demo_g demo_h sz_calls Hl) as (commss & s & vs & E & E' & X). cbv zeta in X.
  assert (En : v_num_vars vs = 10%nat).
  { assert (Y : match prun demoW false (prove_all true sz_calls) (prover_new demo_g demo_h []) with
                | Done (Ok commss, _) => match session_verifier demoW' true [] demo_g demo_h (map statement_of sz_calls) commss with
                    | Some vs => Nat.eqb (v_num_vars vs) 10 | None => false end | _ => false end = true) by (vm_compute; reflexivity).
    rewrite E, E' in Y. apply Nat.eqb_eq, Y. }
  destruct (C58_questions demo_h (length (v_V vs)) 10 (v_transcript vs) 4 demo_generates) as (D & HD & Hcov).
  exists D. split; [exact HD|]. rewrite En in X.
  exact (X sz_G sz_H 4%nat tape r D eq_refl ltac:(vm_compute; lia) ltac:(vm_compute; lia) ltac:(lia) (or_introl (proj1 (Nat.ltb_lt 1 10) eq_refl)) HD Hcov).
Qed.
End Examples.
