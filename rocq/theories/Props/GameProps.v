(** C55 and C56: cheating provers. *)
From Coq Require Import ZArith String List Lia.
From Verif.Base Require Import Outcome Fp Params Algebra Instances.
From Verif.Model Require Import Transcript LinComb Prog IPP Prover Verifier.
From Verif.Spec Require Import R1CS Protocol IPPSpec Verdict Extractor R1CSTree R1CSExtractor Games.
From Verif.Proofs Require Import VerifyProofs R1CSExtract R1CSAccepted OracleVerify OracleCount GameInteractive GameOracle HonestStrategy OracleCode OracleHonest TreeCheck HonestTree.
From Verif.Props Require Import Demo R1CSProps SoundProps.
Import ListNotations.
Local Notation length := List.length.

Section Props.
Context {P : Params} {OK : ParamsOk P}.
Local Open Scope fe_scope.

(** ** C55 Knowledge error of the interactive protocol *)
(** A strategy that is accepted for more than the fraction
    (N + |cs| + 13 + 7k) / |C| of all challenge vectors over [C] yields a witness:
    the conversations in the tree are its own, and [r1cs_extract] does the rest. *)
Theorem C55_knowledge_error g h G H V n1 n k cs M st C wins :
  let N := next_power_of_two n in
  N = (2 ^ k)%nat -> (N <= length G)%nat -> (N <= length H)%nat ->
  Forall (lc_in_range n (length V)) cs -> recovers M (length V) cs -> NoDup C ->
  (forall c, In c (vectors C (5 + k)) -> wins c = true -> accepted_for g h G H V n1 n cs (strategy_proof st c) c) ->
  ((N + length cs + 13 + 7 * k) * length C ^ (5 + k) < length C * length (filter wins (vectors C (5 + k))))%nat ->
  exists f t, proof_tree_wf k (length cs) t /\
    each_branch (fun pf c => In c (vectors C (5 + k)) /\ wins c = true /\ strategy_proof st c = pf) f t /\
    proof_tree_accepted g h G H V n1 n cs f t /\
    match r1cs_extract n1 n (length G) (length H) (length V) cs M (tree_scalars t) with
    | Got w => witness_ok g h G H V n1 n cs f w
    | Broken c => generator_relation (g :: h :: G ++ H) c
    end.
Proof. exact (interactive_extraction g h G H V n1 n k cs M st C wins). Qed.

(** the count in the bound: all challenge vectors *)
Theorem C55_vectors C m : length (vectors C m) = (length C ^ m)%nat /\
  (forall c, In c (vectors C m) <-> length c = m /\ incl c C) /\ (NoDup C -> NoDup (vectors C m)).
Proof. exact (conj (vectors_length C m) (conj (fun c => in_vectors C m c) (vectors_NoDup C m))). Qed.

(** With a satisfying assignment all challenges without a zero can be answered. *)
Theorem C55_honest_strategy g h G H n1 n k cs v gam aL aR aO :
  let N := next_power_of_two n in
  N = (2 ^ k)%nat -> (N <= length G)%nat -> (N <= length H)%nat -> length gam = length v ->
  length aL = n -> length aR = n -> length aO = n ->
  Forall (lc_in_range n (length v)) cs -> satisfies (assignment_of v aL aR aO) n cs ->
  exists st, forall c, length c = (5 + k)%nat -> ~ In 0 c ->
    accepted_for g h G H (zipw (fun x b => g1_add (g1_mul x g) (g1_mul b h)) v gam) n1 n cs (strategy_proof st c) c.
Proof. exact (honest_strategy_exists g h G H n1 n k cs v gam aL aR aO). Qed.

(** ** C56 Knowledge error with a random oracle *)
(** A prover that asks the oracle at most [Q] questions, and for more than the
    fraction (Q+5+k) max(N,|cs|,7) / |C| + 1/|R| of the oracles over [C] and of the
    verifier's random values in [R] outputs a proof that [verify] accepts, yields a
    witness. *)
Theorem C56_fiat_shamir {ENC : EncodingOk P} g h G H V n k cs M t0 D C R A Q (wins : oracle -> F -> bool) :
  let N := next_power_of_two n in
  let m := length V in
  N = (2 ^ k)%nat -> (1 < n)%nat \/ batch_invert_empty_panics = false ->
  recovers M m cs -> NoDup C -> ~ In 0 C -> NoDup D -> NoDup R -> at_most Q A ->
  (forall O r, In O (oracles D C) -> In r R -> wins O r = true ->
     verify_accepts O r g h G H V n cs t0 (output O A) /\ incl (proof_queries m n t0 (output O A)) D) ->
  ((Q + 5 + k) * Nat.max N (Nat.max (length cs) 7) * length C ^ length D * length R + length C * length C ^ length D <
    length C * length (filter (fun Or => wins (fst Or) (snd Or)) (list_prod (oracles D C) R)))%nat ->
  exists f t, proof_tree_wf k (length cs) t /\
    each_branch (fun pf c => exists O r, In O (oracles D C) /\ In r R /\ wins O r = true /\ output O A = pf /\
      map O (proof_queries m n t0 pf) = c) f t /\
    proof_tree_accepted g h G H V n n cs f t /\
    match r1cs_extract n n (length G) (length H) (length V) cs M (tree_scalars t) with
    | Got w => witness_ok g h G H V n n cs f w
    | Broken c => generator_relation (g :: h :: G ++ H) c
    end.
Proof. exact (fiat_shamir_verify g h G H V n k cs M t0 D C R A Q wins). Qed.

(** The same against the protocol on paper, for which no random value is needed
    and a zero challenge does no harm. *)
Theorem C56_fiat_shamir_protocol {ENC : EncodingOk P} g h G H V n k cs M t0 D C A Q wins :
  let N := next_power_of_two n in
  let m := length V in
  N = (2 ^ k)%nat -> (N <= length G)%nat -> (N <= length H)%nat ->
  Forall (lc_in_range n m) cs -> recovers M m cs -> NoDup C -> NoDup D -> at_most Q A ->
  (forall O, In O (oracles D C) -> wins O = true ->
     let pf := output O A in
     accepted_for g h G H V n n cs pf (map O (proof_queries m n t0 pf)) /\ incl (proof_queries m n t0 pf) D) ->
  ((Q + 5 + k) * Nat.max N (Nat.max (length cs) 7) * length C ^ length D < length C * length (filter wins (oracles D C)))%nat ->
  exists f t, proof_tree_wf k (length cs) t /\
    each_branch (fun pf c => exists O, In O (oracles D C) /\ wins O = true /\ output O A = pf /\
      map O (proof_queries m n t0 pf) = c) f t /\
    proof_tree_accepted g h G H V n n cs f t /\
    match r1cs_extract n n (length G) (length H) (length V) cs M (tree_scalars t) with
    | Got w => witness_ok g h G H V n n cs f w
    | Broken c => generator_relation (g :: h :: G ++ H) c
    end.
Proof. exact (fiat_shamir_extraction g h G H V n k cs M t0 D C A Q wins). Qed.

(** The oracles counted: one for every way to answer the questions in [D] from
    [C].  A finite [D] that suffices exists for every prover. *)
Theorem C56_oracles D C : NoDup D ->
  map (fun O => map O D) (oracles D C) = vectors C (length D) /\ length (oracles D C) = (length C ^ length D)%nat /\
  forall m n t0 (A : adversary r1cs_proof), exists D', NoDup D' /\ forall O, In O (oracles D' C) -> incl (proof_queries m n t0 (output O A)) D'.
Proof.
  exact (fun HD => conj (oracles_vectors C D _ HD) (conj (oracles_length C D _) (fun m n t0 A => domain_exists (proof_queries m n t0) C A))).
Qed.

(** [verify] asks its transcript the questions of [proof_queries], no matter
    which function answers: it accepts for every random value, or for two different
    ones, exactly when the protocol accepts the proof for the answers. *)
Theorem C56_verify_asks W s proof g h G H :
  v_deferred s = [] -> proof_fits s proof G H ->
  let c := map transcript_oracle (proof_queries (length (v_V s)) (v_num_vars s) (v_transcript s) proof) in
  let accepts r := exists t, verify (with_random W (v_nrand s) r) s proof g h G H = Done (Ok t) in
  let acc := accepted_for g h G H (v_V s) (v_num_vars s) (v_num_vars s) (v_constraints s) proof c in
  all_nonzero (skipn 5 c) -> (acc <-> forall r, accepts r) /\ (forall r r', r <> r' -> accepts r -> accepts r' -> acc).
Proof. exact (verify_asks W s proof g h G H). Qed.

(** With a satisfying assignment a prover convinces [verify] under every oracle
    that does not answer its questions with zero. *)
Theorem C56_honest_prover {ENC : EncodingOk P} g h G H n k cs v gam aL aR aO t0 :
  let N := next_power_of_two n in
  let V := zipw (fun x b => g1_add (g1_mul x g) (g1_mul b h)) v gam in
  N = (2 ^ k)%nat -> (k < 32)%nat -> (1 < n)%nat \/ batch_invert_empty_panics = false ->
  (N <= length G)%nat -> (N <= length H)%nat -> length gam = length v ->
  length aL = n -> length aR = n -> length aO = n ->
  Forall (lc_in_range n (length v)) cs -> satisfies (assignment_of v aL aR aO) n cs ->
  exists A, at_most (5 + k) A /\
    forall O, ~ In 0 (map O (proof_queries (length V) n t0 (output O A))) ->
      forall r, verify_accepts O r g h G H V n cs t0 (output O A).
Proof. exact (honest_convinces g h G H n k cs v gam aL aR aO t0). Qed.
End Props.

Print Assumptions C55_knowledge_error.
Print Assumptions C55_vectors.
Print Assumptions C55_honest_strategy.
Print Assumptions C56_fiat_shamir.
Print Assumptions C56_fiat_shamir_protocol.
Print Assumptions C56_oracles.
Print Assumptions C56_verify_asks.
Print Assumptions C56_honest_prover.

(** ** The hypotheses are met *)
Section Examples.
#[local] Existing Instance toyP.
#[local] Existing Instance toyP_ok.
#[local] Existing Instance toyP_enc.
Local Open Scope fe_scope.

Definition gm_C : list F := map (fun i => fe (Z.of_nat i)) (seq 1 100).
Definition gm_R : list F := map (fun i => fe (Z.of_nat i)) (seq 0 10).

Lemma sd_range : Forall (lc_in_range 2 2) sd_cs.
Proof.
  repeat constructor; intros v c Hin; cbn [In sd_cs] in Hin;
    repeat (destruct Hin as [E|Hin]; [injection E as <- <-; vm_compute; lia|]); contradiction.
Qed.
Lemma sd_sat : satisfies (assignment_of sd_v sd_aL sd_aR sd_aO) 2 sd_cs.
Proof. apply satisfies_b; vm_compute; reflexivity. Qed.
Lemma sd_rec : recovers sd_M 2 sd_cs.
Proof.
  intros j j' Hj Hj'. destruct j as [|[|j]]; [| |lia]; (destruct j' as [|[|j']]; [| |lia]); apply Fp_ext; vm_compute; reflexivity.
Qed.
Lemma gm_C_nodup : NoDup gm_C.
Proof. apply nodup_b_ok. vm_compute. reflexivity. Qed.
Lemma gm_R_nodup : NoDup gm_R.
Proof. apply nodup_b_ok. vm_compute. reflexivity. Qed.
Lemma gm_C_nz : ~ In 0 gm_C.
Proof.
  intros Hin. assert (Hz : Forall (fun c : F => c <> 0) gm_C) by (apply (forallb_Forall nz_b); [exact nz_b_ok|vm_compute; reflexivity]).
  rewrite Forall_forall in Hz. exact (Hz 0 Hin eq_refl).
Qed.

(** The prover of the circuit of SoundProps.v wins always. *)
Example C55_example : next_power_of_two 2 = (2 ^ 1)%nat /\ (2 <= length sd_G)%nat /\ (2 <= length sd_H)%nat /\
  Forall (lc_in_range 2 (length sd_V)) sd_cs /\ recovers sd_M (length sd_V) sd_cs /\ NoDup gm_C /\ exists st,
  (forall c, In c (vectors gm_C (5 + 1)) -> true = true -> accepted_for demo_g demo_h sd_G sd_H sd_V 1 2 sd_cs (strategy_proof st c) c) /\
  ((2 + length sd_cs + 13 + 7 * 1) * length gm_C ^ (5 + 1) <
     length gm_C * length (filter (fun _ => true) (vectors gm_C (5 + 1))))%nat.
Proof.
  split; [reflexivity|]. split; [apply le_n|]. split; [apply le_n|].
  split; [exact sd_range|]. split; [exact sd_rec|]. split; [exact gm_C_nodup|].
  destruct (C55_honest_strategy demo_g demo_h sd_G sd_H 1 2 1 sd_cs sd_v sd_gam sd_aL sd_aR sd_aO eq_refl
    (le_n 2) (le_n 2) eq_refl eq_refl eq_refl eq_refl sd_range sd_sat) as [st Hst].
  exists st. split.
  - intros c Hc _. apply C55_vectors in Hc as [Hl Hin]. apply Hst; [exact Hl|]. intros H0. exact (gm_C_nz (Hin 0 H0)).
  - rewrite filter_true, (proj1 (C55_vectors gm_C (5 + 1))). change (length sd_cs) with 5%nat.
    change (length gm_C) with 100%nat.
    generalize (Nat.pow_nonzero 100 (5 + 1) ltac:(discriminate)). generalize (100 ^ (5 + 1))%nat. intros x Hx. lia.
Qed.

Example C56_example : recovers sd_M (length sd_V) sd_cs /\ NoDup gm_C /\ ~ In 0 gm_C /\ NoDup gm_R /\ exists A D, NoDup D /\ at_most 6 A /\
  (forall O r, In O (oracles D gm_C) -> In r gm_R -> true = true ->
     verify_accepts O r demo_g demo_h sd_G sd_H sd_V 2 sd_cs [] (output O A) /\ incl (proof_queries 2 2 [] (output O A)) D) /\
  ((6 + 5 + 1) * Nat.max 2 (Nat.max (length sd_cs) 7) * length gm_C ^ length D * length gm_R + length gm_C * length gm_C ^ length D <
    length gm_C * length (filter (fun Or => true) (list_prod (oracles D gm_C) gm_R)))%nat.
Proof.
  split; [exact sd_rec|]. split; [exact gm_C_nodup|]. split; [exact gm_C_nz|]. split; [exact gm_R_nodup|].
  destruct (C56_honest_prover demo_g demo_h sd_G sd_H 2 1 sd_cs sd_v sd_gam sd_aL sd_aR sd_aO [] eq_refl ltac:(lia)
    (or_introl (le_n 2)) (le_n 2) (le_n 2) eq_refl eq_refl eq_refl eq_refl sd_range sd_sat) as (A & HA & Hacc).
  destruct (domain_exists (proof_queries 2 2 []) gm_C A) as (D & HD & Hin). exists A, D. split; [exact HD|]. split; [exact HA|]. split.
  - intros O r HO _ _. split; [|exact (Hin O HO)]. apply Hacc. intros H0. apply in_map_iff in H0 as (q & E & Hq).
    apply gm_C_nz. rewrite <- E. apply (oracles_inside gm_C D (fun _ => 0)); [exact HD|exact HO|]. exact (Hin O HO q Hq).
  - rewrite filter_true, prod_length. unfold oracles. rewrite oracles_length.
    change (length sd_cs) with 5%nat. change (length gm_R) with 10%nat. change (length gm_C) with 100%nat.
    change (Nat.max 2 (Nat.max 5 7)) with 7%nat.
    generalize (Nat.pow_nonzero 100 (length D) ltac:(discriminate)). generalize (100 ^ length D)%nat. intros x Hx. lia.
Qed.
End Examples.
