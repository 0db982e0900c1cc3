(** C57: cheating provers that choose the commitments. *)
From Coq Require Import ZArith String List Lia.
From Verif.Base Require Import Outcome Fp Params Algebra Instances.
From Verif.Model Require Import Transcript LinComb Prog IPP Prover Verifier.
From Verif.Spec Require Import HashSpec R1CS Gadget Protocol IPPSpec Extractor R1CSTree R1CSExtractor Knowledge Games Compose GadgetGames.
From Verif.Proofs Require Import R1CSExtract OracleCount GameInteractive OracleHonest TreeCheck SameCircuit GadgetError.
From Verif.Props Require Import Demo SoundProps GameProps.
Import ListNotations.
Local Notation length := List.length.

Section Props.
Context {P : Params} {OK : ParamsOk P}.
Local Open Scope fe_scope.

(** ** C57 Knowledge error against provers that choose the commitments *)
(** A prover that asks the oracle at most [Q] questions and then outputs commitments for
    the statements [sts] together with a proof.  The verifying functions build the same
    circuit whatever the commitments; if for more than the fraction
    (Q+5+k) max(N,|cs|,7) / |C| + 1/|R| of the oracles and of the verifier's random values
    everything is accepted, then some of its outputs, for one and the same choice of
    commitments, yield openings of all of these commitments whose values are as the
    statements say, or a relation between the generators. *)
Theorem C57_gadgets {ENC : EncodingOk P} W t checks g h sts commss0 vs0 G H k D C R (A : adversary (list (list G1) * r1cs_proof)) Q
    (wins : oracle -> F -> bool) :
  let n := v_num_vars vs0 in
  let cs := v_constraints vs0 in
  let N := next_power_of_two n in
  vrun W false (verify_all checks g h (combine sts commss0)) (verifier_new t) = Done (Ok tt, vs0) ->
  Forall (fun '(st, comms) => sound_statement st comms) (combine sts commss0) ->
  N = (2 ^ k)%nat -> (1 < n)%nat \/ batch_invert_empty_panics = false ->
  NoDup C -> ~ In 0 C -> NoDup D -> NoDup R -> at_most Q A ->
  (forall O r, In O (oracles D C) -> In r R -> wins O r = true ->
     let '(commss, pf) := output O A in
     map (@length G1) commss = map (@length G1) commss0 /\ gadgets_accept W t checks g h G H sts O r commss pf /\
     incl (gadget_queries t g h sts n commss pf) D) ->
  ((Q + 5 + k) * Nat.max N (Nat.max (length cs) 7) * length C ^ length D * length R + length C * length C ^ length D <
    length C * length (filter (fun Or => wins (fst Or) (snd Or)) (list_prod (oracles D C) R)))%nat ->
  exists O0 r0 f tree, In O0 (oracles D C) /\ In r0 R /\ wins O0 r0 = true /\
    let l := combine sts (fst (output O0 A)) in
    let V := all_commitments g h l in
    proof_tree_wf k (length cs) tree /\
    each_branch (fun pf c => exists O r commss, In O (oracles D C) /\ In r R /\ wins O r = true /\ output O A = (commss, pf) /\
      all_commitments g h (combine sts commss) = V /\ map O (gadget_queries t g h sts n commss pf) = c) f tree /\
    match circuit_extract n (length G) (length H) (length V) cs (own_positions 0 l) (tree_scalars tree) with
    | Got w =>
        (forall j, (j < length V)%nat ->
           nth j V g1_id = g1_add (g1_mul (nth j (wit_v w) 0) g) (g1_mul (nth j (wit_blinding w) 0) h)) /\
        all_show l (wit_v w)
    | Broken c => generator_relation (g :: h :: G ++ H) c
    end.
Proof. exact (gadgets_knowledge_error W t checks g h sts commss0 vs0 G H k D C R A Q wins). Qed.

(** The circuit does not depend on the commitments, only on how many there are. *)
Theorem C57_same_circuit W t checks g h sts commss commss' vs : map (@length G1) commss = map (@length G1) commss' ->
  vrun W false (verify_all checks g h (combine sts commss)) (verifier_new t) = Done (Ok tt, vs) ->
  exists vs', vrun W false (verify_all checks g h (combine sts commss')) (verifier_new t) = Done (Ok tt, vs') /\
    v_num_vars vs' = v_num_vars vs /\ v_constraints vs' = v_constraints vs /\ length (v_V vs') = length (v_V vs).
Proof. exact (same_circuit W t checks g h sts commss commss' vs). Qed.

(** The same for any circuit with [m] commitments from which the values can be recovered. *)
Theorem C57_circuit {ENC : EncodingOk P} g h G H m n k cs M t D C R (A : adversary (list G1 * r1cs_proof)) Q (wins : oracle -> F -> bool) :
  let N := next_power_of_two n in
  N = (2 ^ k)%nat -> (1 < n)%nat \/ batch_invert_empty_panics = false ->
  recovers M m cs -> NoDup C -> ~ In 0 C -> NoDup D -> NoDup R -> at_most Q A ->
  (forall O r, In O (oracles D C) -> In r R -> wins O r = true ->
     let '(V, pf) := output O A in
     length V = m /\ verify_accepts O r g h G H V n cs (committed t V) pf /\ incl (proof_queries m n (committed t V) pf) D) ->
  ((Q + 5 + k) * Nat.max N (Nat.max (length cs) 7) * length C ^ length D * length R + length C * length C ^ length D <
    length C * length (filter (fun Or => wins (fst Or) (snd Or)) (list_prod (oracles D C) R)))%nat ->
  exists V f tree, length V = m /\ proof_tree_wf k (length cs) tree /\
    each_branch (fun pf c => exists O r, In O (oracles D C) /\ In r R /\ wins O r = true /\ output O A = (V, pf) /\
      map O (proof_queries m n (committed t V) pf) = c) f tree /\
    proof_tree_accepted g h G H V n n cs f tree /\
    match r1cs_extract n n (length G) (length H) m cs M (tree_scalars tree) with
    | Got w => witness_ok g h G H V n n cs f w
    | Broken c => generator_relation (g :: h :: G ++ H) c
    end.
Proof. exact (adaptive_verify g h G H m n k cs M t D C R A Q wins). Qed.

(** Whoever has secrets as the statements say wins, unless the oracle answers 0. *)
Theorem C57_honest_prover {ENC : EncodingOk P} W checks label g h (l : list call) : Forall honest_call l ->
  exists commss vs, Forall2 (good_commitments g h) l commss /\
    let sts := map statement_of l in
    let t := transcript_new label in
    vrun W false (verify_all checks g h (combine sts commss)) (verifier_new t) = Done (Ok tt, vs) /\
    let n := v_num_vars vs in
    let N := next_power_of_two n in
    (Forall (fun '(st, comms) => sound_statement st comms) (combine sts commss) ->
     forall G H k, N = (2 ^ k)%nat -> (k < 32)%nat -> (1 < n)%nat \/ batch_invert_empty_panics = false ->
     (N <= length G)%nat -> (N <= length H)%nat ->
     exists A, at_most (5 + k) A /\ forall O, fst (output O A) = commss /\
       let pf := snd (output O A) in
       (~ In 0 (map O (gadget_queries t g h sts n commss pf)) ->
        forall r, gadgets_accept W t checks g h G H sts O r commss pf)).
Proof. exact (gadgets_honest W checks label g h l). Qed.
End Props.

Print Assumptions C57_gadgets.
Print Assumptions C57_same_circuit.
Print Assumptions C57_circuit.
Print Assumptions C57_honest_prover.

(** ** The hypotheses are met *)
Section Examples.
#[local] Existing Instance toyP.
#[local] Existing Instance toyP_ok.
#[local] Existing Instance toyP_enc.
Local Open Scope fe_scope.

(** preimages of two hashes *)
Definition ad_constants : list F := [fe 11].
Definition ad_calls : list call :=
  [PMimc [fe 3; fe 4] None (mimc_value ad_constants (fe 3) (fe 4)) ad_constants 1 true;
   PMimc [fe 5; fe 6] None (mimc_value ad_constants (fe 5) (fe 6)) ad_constants 1 true].
Lemma ad_honest : Forall honest_call ad_calls.
Proof.
  constructor; [|constructor; [|constructor]]; cbn [honest_call]; (split; [reflexivity|]); (split; [reflexivity|]);
    (split; [apply le_n|reflexivity]).
Qed.
Definition ad_C : list F := map (fun i => fe (Z.of_nat i)) (seq 1 160).
Lemma ad_C_nodup : NoDup ad_C.
Proof. apply nodup_b_ok. vm_compute. reflexivity. Qed.
Lemma ad_C_nz : ~ In 0 ad_C.
Proof.
  intros Hin. assert (Hz : Forall (fun c : F => c <> 0) ad_C) by (apply (forallb_Forall nz_b); [exact nz_b_ok|vm_compute; reflexivity]).
  rewrite Forall_forall in Hz. exact (Hz 0 Hin eq_refl).
Qed.

(** the circuit has 4 gates and 10 constraints *)
Definition ad_size commss : outcome (nat * nat) :=
  match vrun demoW false (verify_all true demo_g demo_h (combine (map statement_of ad_calls) commss)) (verifier_new (transcript_new [])) with
  | Done (Ok tt, vs) => Done (v_num_vars vs, length (v_constraints vs))
  | _ => Panic
  end.
Lemma ad_size_is commss vs : map (@length G1) commss = [2; 2]%nat ->
  vrun demoW false (verify_all true demo_g demo_h (combine (map statement_of ad_calls) commss)) (verifier_new (transcript_new [])) =
    Done (Ok tt, vs) ->
  v_num_vars vs = 4%nat /\ length (v_constraints vs) = 10%nat.
Proof.
  intros Hl Hrun. assert (E : ad_size [[demo_g; demo_g]; [demo_g; demo_g]] = Done (4, 10)%nat) by (vm_compute; reflexivity).
  destruct (C57_same_circuit demoW _ true demo_g demo_h _ _ [[demo_g; demo_g]; [demo_g; demo_g]] _ Hl Hrun) as (vs' & Hrun' & En & Ec & _).
  unfold ad_size in E. rewrite Hrun', En, Ec in E. injection E as -> ->. auto.
Qed.

(** The honest prover wins always, which is more than the bound. *)
Example C57_example : exists commss0 vs0, let sts := map statement_of ad_calls in let t := transcript_new [] in
  vrun demoW false (verify_all true demo_g demo_h (combine sts commss0)) (verifier_new t) = Done (Ok tt, vs0) /\
  Forall (fun '(st, comms) => sound_statement st comms) (combine sts commss0) /\ next_power_of_two (v_num_vars vs0) = (2 ^ 2)%nat /\
  NoDup ad_C /\ ~ In 0 ad_C /\ NoDup gm_R /\
  exists A D, NoDup D /\ at_most 7 A /\
  (forall O r, In O (oracles D ad_C) -> In r gm_R -> true = true ->
     let '(commss, pf) := output O A in
     map (@length G1) commss = map (@length G1) commss0 /\ gadgets_accept demoW t true demo_g demo_h demo_G demo_H sts O r commss pf /\
     incl (gadget_queries t demo_g demo_h sts (v_num_vars vs0) commss pf) D) /\
  ((7 + 5 + 2) * Nat.max 4 (Nat.max (length (v_constraints vs0)) 7) * length ad_C ^ length D * length gm_R + length ad_C * length ad_C ^ length D <
    length ad_C * length (filter (fun Or => true) (list_prod (oracles D ad_C) gm_R)))%nat.
Proof.
  destruct (C57_honest_prover demoW true [] demo_g demo_h ad_calls ad_honest) as (commss & vs & Hgood & Hrun & Hc).
  cbv zeta in Hrun, Hc.
  assert (Hl : map (@length G1) commss = [2; 2]%nat /\ length commss = 2%nat).
  { inversion Hgood as [|c1 k1 l1 r1 H1 H1']; subst. inversion H1' as [|c2 k2 l2 r2 H2 H2']; subst. inversion H2'; subst.
    destruct H1 as (v1 & rs1 & Lr1 & -> & S1 & _). destruct H2 as (v2 & rs2 & Lr2 & -> & S2 & _). cbn [secret] in S1, S2. subst v1 v2.
    split; [|reflexivity]. cbn [map]. unfold commit_all. rewrite !map_length, !combine_length, Lr1, Lr2. reflexivity. }
  destruct Hl as [Hl Hl2]. destruct (ad_size_is commss vs Hl Hrun) as [En Ec].
  assert (Hs : Forall (fun '(st, comms) => sound_statement st comms) (combine (map statement_of ad_calls) commss)).
  { destruct commss as [|a [|b [|? ?]]]; try discriminate Hl2. repeat constructor. }
  destruct (Hc Hs demo_G demo_H 2%nat) as (A & HA & Hacc).
  - rewrite En. reflexivity.
  - lia.
  - left. rewrite En. lia.
  - rewrite En. vm_compute. lia.
  - rewrite En. vm_compute. lia.
  - exists commss, vs. cbv zeta. split; [exact Hrun|]. split; [exact Hs|]. split; [rewrite En; reflexivity|].
    split; [exact ad_C_nodup|]. split; [exact ad_C_nz|]. split; [exact gm_R_nodup|].
    destruct (domain_exists (fun x => gadget_queries (transcript_new []) demo_g demo_h (map statement_of ad_calls) (v_num_vars vs) (fst x) (snd x)) ad_C A)
      as (D & HD & Hin).
    exists A, D. split; [exact HD|]. split; [exact HA|]. split.
    + intros O r HO _ _. specialize (Hacc O). specialize (Hin O HO). destruct (output O A) as [commss' pf]. cbn [fst snd] in Hacc, Hin.
      destruct Hacc as [-> Hacc]. split; [reflexivity|]. split; [|exact Hin].
      apply Hacc. intros H0. apply in_map_iff in H0 as (q & E & Hq).
      apply ad_C_nz. rewrite <- E. apply (oracles_inside ad_C D (fun _ => 0)); [exact HD|exact HO|]. exact (Hin q Hq).
    + rewrite filter_true, prod_length. unfold oracles. rewrite oracles_length, Ec.
      change (length gm_R) with 10%nat. change (length ad_C) with 160%nat.
      change (Nat.max 4 (Nat.max 10 7)) with 10%nat.
      generalize (Nat.pow_nonzero 160 (length D) ltac:(discriminate)). generalize (160 ^ length D)%nat. intros x Hx. lia.
Qed.
End Examples.
