(** C72: the inner-product argument with a random oracle.

    Print Assumptions for every theorem follows it. *)
From Coq Require Import ZArith String List Lia Bool.
From Verif.Base Require Import Outcome Fp Params Algebra Instances.
From Verif.Model Require Import Transcript IPP.
From Verif.Spec Require Import IPPSpec Extractor Verdict Games Challenges IPPGame.
From Verif.Proofs Require Import IppGame TreeCount OracleCount OracleZero OracleCode HonestStrategy ChallengeBytes ChallengeMain.
From Verif.Props Require Import Demo IPPProps.
Import ListNotations.
Local Notation length := List.length.

Section Props.
Context {P : Params} {OK : ParamsOk P} {ENC : EncodingOk P}.

(** ** C72 the knowledge error of the inner-product argument *)
(** [C]: the possible challenges, with repetitions; [D]: the questions that matter; the
    prover asks at most [Qn] questions and then outputs a proof of [k] rounds.  If
    [verify_ipp] accepts for more than a fraction
    (Qn + k) * (7 mu + times C 0) / |C| of all oracles, then a tree of its accepted proofs
    exists, from which the extractor computes an opening of [Pt] or a relation between the
    generators. *)
Theorem C72_ipp_knowledge k t Gf Hf Pt Q G H D C mu (A : adversary ipp_proof) Qn wins :
  length G = (2 ^ k)%nat -> length H = (2 ^ k)%nat -> length Gf = (2 ^ k)%nat -> length Hf = (2 ^ k)%nat ->
  repeats mu C -> NoDup D -> at_most Qn A ->
  (forall O, In O (oracles D C) -> wins O = true ->
     ipp_accepts O (2 ^ k) t Gf Hf Pt Q G H (output O A) /\ incl (ipp_queries (2 ^ k) t (output O A)) D) ->
  ((Qn + k) * (mu * 7 + times C (fzero modulus)) * length C ^ length D < length C * length (filter wins (oracles D C)))%nat ->
  exists tree, tree_wf k tree /\
    each_round_branch (fun pf us => exists O, In O (oracles D C) /\ wins O = true /\ output O A = pf /\
      map O (ipp_queries (2 ^ k) t pf) = us) tree /\
    match ipp_extract (scalars_of tree) with
    | Opening a b => opens_scaled (2 ^ k) Q Pt Gf Hf G H a b
    | Relation x y z => relation Q (zipw g1_mul Gf G) (zipw g1_mul Hf H) x y z
    end.
Proof. exact (ipp_knowledge k t Gf Hf Pt Q G H D C mu A Qn wins). Qed.

(** With the challenges of the code: each answer is a uniformly random string of MODBYTES
    bytes, of which the code makes a challenge.  With p the group order and B = 256^MODBYTES
    the fraction is 8 (Qn + k) (1/p + 1/B). *)
Theorem C72_ipp_code k t Gf Hf Pt Q G H D (A : adversary ipp_proof) Qn wins :
  let C := code_challenges in
  length G = (2 ^ k)%nat -> length H = (2 ^ k)%nat -> length Gf = (2 ^ k)%nat -> length Hf = (2 ^ k)%nat ->
  NoDup D -> at_most Qn A ->
  (forall O, In O (oracles D C) -> wins O = true ->
     ipp_accepts O (2 ^ k) t Gf Hf Pt Q G H (output O A) /\ incl (ipp_queries (2 ^ k) t (output O A)) D) ->
  (Z.of_nat (Qn + k) * 8 * (byte_strings + modulus) * Z.of_nat (length (oracles D C)) <
   modulus * byte_strings * Z.of_nat (length (filter wins (oracles D C))))%Z ->
  exists tree, tree_wf k tree /\
    each_round_branch (fun pf us => exists O, In O (oracles D C) /\ wins O = true /\ output O A = pf /\
      map O (ipp_queries (2 ^ k) t pf) = us) tree /\
    match ipp_extract (scalars_of tree) with
    | Opening a b => opens_scaled (2 ^ k) Q Pt Gf Hf G H a b
    | Relation x y z => relation Q (zipw g1_mul Gf G) (zipw g1_mul Hf H) x y z
    end.
Proof. exact (ipp_knowledge_code k t Gf Hf Pt Q G H D A Qn wins). Qed.

(** With factors other than zero such a relation is one between the generators themselves. *)
Theorem C72_relation Gf Hf Q G H x y z :
  length Gf = length G -> length Hf = length H -> all_nonzero Gf -> all_nonzero Hf ->
  relation Q (zipw g1_mul Gf G) (zipw g1_mul Hf H) x y z -> relation Q G H (vmul x Gf) (vmul y Hf) z.
Proof. exact (relation_unscaled Gf Hf Q G H x y z). Qed.

(** The questions determine the answers that [verify_ipp] uses: it accepts or not
    according to the answers to [ipp_queries]. *)
Theorem C72_questions (O : query -> F) k t Gf Hf Pt Q G H pf :
  length G = (2 ^ k)%nat -> length H = (2 ^ k)%nat -> length Gf = (2 ^ k)%nat -> length Hf = (2 ^ k)%nat ->
  (k < 32)%nat -> k <> 0%nat \/ batch_invert_empty_panics = false ->
  all_nonzero (map O (ipp_queries (2 ^ k) t pf)) ->
  (ipp_accepts O (2 ^ k) t Gf Hf Pt Q G H pf <->
   conversation Q Pt (zipw g1_mul Gf G) (zipw g1_mul Hf H) (map O (ipp_queries (2 ^ k) t pf)) (ipp_L pf) (ipp_R pf) (ipp_a pf) (ipp_b pf)).
Proof. exact (ipp_accepts_iff O k t Gf Hf Pt Q G H pf). Qed.
End Props.

Print Assumptions C72_ipp_knowledge.
Print Assumptions C72_ipp_code.
Print Assumptions C72_relation.
Print Assumptions C72_questions.

(** ** The hypotheses are met *)
Section Examples.
#[local] Existing Instance toyP.
#[local] Existing Instance toyP_ok.
#[local] Existing Instance toyP_enc.
Local Open Scope fe_scope.

(** A prover that knows a = (3, 1) and b = (2, 7), asks for the challenge of the only round
    and answers; the possible challenges are 0 to 59, and the list has every one of
    them twice. *)
Definition ig_Gf : list F := map fe [1; 5]%Z.
Definition ig_Hf : list F := map fe [1; 9]%Z.
Definition ig_sG := zipw g1_mul ig_Gf ex1_G.
Definition ig_sH := zipw g1_mul ig_Hf ex1_H.
Definition ig_a : list F := map fe [3; 1]%Z.
Definition ig_b : list F := map fe [2; 7]%Z.
Definition ig_P : G1 := g1_add (g1_add (msm ig_a ig_sG) (msm ig_b ig_sH)) (g1_mul (ip ig_a ig_b) demo_g).
Definition ig_s : ipp_state := (ig_sG, ig_sH, ig_a, ig_b).
Definition ig_proof (u : F) : ipp_proof :=
  IPPProof [fst (ipp_message demo_g ig_s)] [snd (ipp_message demo_g ig_s)] (fst (ipp_final (ipp_step ig_s u))) (snd (ipp_final (ipp_step ig_s u))).
Definition ig_D : list query := ipp_queries 2 [] (ig_proof (fe 1)).
Definition ig_A : adversary ipp_proof := Ask (nth 0 ig_D ([], EmptyString)) (fun u => Answer (ig_proof u)).
Definition ig_once : list F := map (fun i => fe (Z.of_nat i)) (seq 0 60).
Definition ig_C : list F := ig_once ++ ig_once.
Definition ig_wins (O : oracle) : bool := negb (feqb (O (nth 0 ig_D ([], EmptyString))) 0).
(** it is accepted unless the challenge is zero *)
Lemma ig_accepts_all (O : query -> F) (u : F) : O (nth 0 ig_D ([], EmptyString)) = u -> u <> 0 ->
  ipp_accepts O (2 ^ 1) [] ig_Gf ig_Hf ig_P demo_g ex1_G ex1_H (ig_proof u).
Proof.
  intros Ho Hu.
  assert (Hz : forall O' : query -> F, O' (nth 0 ig_D ([], EmptyString)) = u -> all_nonzero (map O' (ipp_queries (2 ^ 1) [] (ig_proof u)))).
  { intros O' E. change (map O' (ipp_queries (2 ^ 1) [] (ig_proof u))) with [O' (nth 0 ig_D ([], EmptyString))]. rewrite E. repeat constructor. exact Hu. }
  apply (C72_questions O 1 [] ig_Gf ig_Hf ig_P demo_g ex1_G ex1_H (ig_proof u)); auto; try (apply Nat.ltb_lt; reflexivity).
  change (map O (ipp_queries (2 ^ 1) [] (ig_proof u))) with [O (nth 0 ig_D ([], EmptyString))]. rewrite Ho.
  apply (honest_conversation demo_g [u] ig_sG ig_sH ig_a ig_b); try reflexivity. repeat constructor. exact Hu.
Qed.

Fixpoint nodup_vals (l : list Z) : bool := match l with [] => true | x :: l => negb (existsb (Z.eqb x) l) && nodup_vals l end.
Lemma nodup_vals_ok (l : list F) : nodup_vals (map (@fval _) l) = true -> NoDup l.
Proof.
  induction l as [|x l IH]; intros Hn; [constructor|]. cbn in Hn. apply andb_true_iff in Hn as [H1 H2].
  constructor; [|apply IH, H2]. intros Hin. apply negb_true_iff in H1.
  assert (Ht : existsb (Z.eqb (fval x)) (map (@fval _) l) = true).
  { apply existsb_exists. exists (fval x). split; [apply in_map, Hin|apply Z.eqb_refl]. }
  exact (eq_true_false_abs _ Ht H1).
Qed.

Example C72_example :
  length ex1_G = (2 ^ 1)%nat /\ length ex1_H = (2 ^ 1)%nat /\ length ig_Gf = (2 ^ 1)%nat /\ length ig_Hf = (2 ^ 1)%nat /\
  all_nonzero ig_Gf /\ all_nonzero ig_Hf /\
  repeats 2 ig_C /\ NoDup ig_D /\ at_most 1 ig_A /\
  (forall O, In O (oracles ig_D ig_C) -> ig_wins O = true ->
     ipp_accepts O (2 ^ 1) [] ig_Gf ig_Hf ig_P demo_g ex1_G ex1_H (output O ig_A) /\
     incl (ipp_queries (2 ^ 1) [] (output O ig_A)) ig_D) /\
  ((1 + 1) * (2 * 7 + times ig_C (fzero modulus)) * length ig_C ^ length ig_D <
     length ig_C * length (filter ig_wins (oracles ig_D ig_C)))%nat.
Proof.
  do 4 (split; [vm_compute; reflexivity|]).
  do 2 (split; [apply nonzero_all; vm_compute; reflexivity|]).
  assert (Hr : repeats 2 ig_C).
  { intros x. unfold ig_C. rewrite times_app.
    assert (Hn : NoDup ig_once) by (apply nodup_vals_ok; vm_compute; reflexivity).
    pose proof (repeats_once ig_once Hn x). lia. }
  split; [exact Hr|]. split; [repeat constructor; cbn; tauto|]. split; [cbn; auto|]. split.
  - intros O HO Hw. split.
    + apply ig_accepts_all; [reflexivity|]. intros E. unfold ig_wins in Hw. cbn [nth] in *. rewrite E in Hw. vm_compute in Hw. discriminate Hw.
    + intros q Hq. exact Hq.
  - pose proof (Hr (fzero modulus)) as Hz.
    replace (length ig_C) with 120%nat by (vm_compute; reflexivity). replace (length ig_D) with 1%nat by (vm_compute; reflexivity).
    replace (length (filter ig_wins (oracles ig_D ig_C))) with 118%nat by (vm_compute; reflexivity). cbn [Nat.pow]. lia.
Qed.

(** The same prover, with the challenges of the code. *)
Example C72_example_code :
  let wins := no_zero (ipp_queries (2 ^ 1) []) ig_A in
  (forall O, In O (oracles ig_D code_challenges) -> wins O = true ->
     ipp_accepts O (2 ^ 1) [] ig_Gf ig_Hf ig_P demo_g ex1_G ex1_H (output O ig_A) /\
     incl (ipp_queries (2 ^ 1) [] (output O ig_A)) ig_D) /\
  (Z.of_nat (1 + 1) * 8 * (byte_strings + modulus) * Z.of_nat (length (oracles ig_D code_challenges)) <
   modulus * byte_strings * Z.of_nat (length (filter wins (oracles ig_D code_challenges))))%Z.
Proof.
  cbv zeta. split.
  - intros O HO Hw. split; [|intros q Hq; exact Hq]. apply ig_accepts_all; [reflexivity|].
    apply (no_zero_ok _ _ _ _ Hw). left. reflexivity.
  - pose proof (no_zero_count (ipp_queries (2 ^ 1) []) 1 ig_D code_challenges ig_A 1) as Hz.
    match type of Hz with ?H1 -> ?H2 -> ?H3 -> _ => assert (Hz1 : H1); [repeat constructor; cbn; tauto|];
      assert (Hz2 : H2); [cbn; auto|]; assert (Hz3 : H3); [intros O HO; split; [reflexivity|intros q Hq; exact Hq]|] end.
    specialize (Hz Hz1 Hz2 Hz3). apply code_zero_bound in Hz.
    rewrite Nat2Z.inj_sub in Hz by apply filter_short. pose proof (code_total ig_D) as HT.
    generalize dependent (Z.of_nat (length (filter (no_zero (ipp_queries (2 ^ 1) []) ig_A) (oracles ig_D code_challenges)))).
    generalize dependent (Z.of_nat (length (oracles ig_D code_challenges))). intros T HT W Hz.
    change (@byte_strings toyP) with (256 ^ 48)%Z in *. change (@modulus toyP) with 10007%Z in *.
    change (Z.of_nat (1 + 1)) with 2%Z in *.
    let b := eval vm_compute in (256 ^ 48)%Z in change (256 ^ 48)%Z with b in *. lia.
Qed.

(** the first scaled generator is a multiple of the point for the inner product *)
Definition ig_x : list F := map fe [1; 0]%Z.
Definition ig_y : list F := map fe [0; 0]%Z.
Definition ig_z : F := - (g_at ig_sG 0 * finv demo_g).
Example C72_example_relation :
  length ig_Gf = length ex1_G /\ length ig_Hf = length ex1_H /\ all_nonzero ig_Gf /\ all_nonzero ig_Hf /\
  relation demo_g (zipw g1_mul ig_Gf ex1_G) (zipw g1_mul ig_Hf ex1_H) ig_x ig_y ig_z.
Proof.
  do 2 (split; [vm_compute; reflexivity|]). do 2 (split; [apply nonzero_all; vm_compute; reflexivity|]).
  split; [vm_compute; reflexivity|]. split; [vm_compute; reflexivity|].
  split; [apply Fp_ext; vm_compute; reflexivity|].
  left. exists (fe 1). split; [left; reflexivity|]. intros E. apply (f_equal (@fval _)) in E. vm_compute in E. discriminate E.
Qed.

(** the oracle that answers 3 *)
Example C72_example_questions :
  (1 < 32)%nat /\ all_nonzero (map (fun _ : query => fe 3) (ipp_queries (2 ^ 1) [] (ig_proof (fe 3)))) /\
  ipp_accepts (fun _ => fe 3) (2 ^ 1) [] ig_Gf ig_Hf ig_P demo_g ex1_G ex1_H (ig_proof (fe 3)) /\
  ~ ipp_accepts (fun _ => fe 4) (2 ^ 1) [] ig_Gf ig_Hf ig_P demo_g ex1_G ex1_H (ig_proof (fe 3)).
Proof.
  split; [lia|]. split; [apply nonzero_all; vm_compute; reflexivity|]. split; [eexists; vm_compute; reflexivity|].
  intros [t E]. vm_compute in E. discriminate E.
Qed.
End Examples.
