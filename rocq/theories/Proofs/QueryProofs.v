(** The questions behind the challenges of a proof are prefixes of one log. *)
From Coq Require Import ZArith String List Lia Bool.
From Verif.Base Require Import Outcome Fp Params Algebra.
From Verif.Model Require Import Transcript LinComb IPP Prover.
From Verif.Spec Require Import R1CS Protocol IPPSpec R1CSTree Games.
From Verif.Proofs Require Import IPPProofs TreeBuild.
Import ListNotations.
Local Notation length := List.length.

Section Queries.
Context {P : Params} {OK : ParamsOk P} {ENC : EncodingOk P}.
Context (m n : nat) (t0 : transcript).

Definition no_query : query := ([], ""%string).
Definition point (i : nat) (pf : r1cs_proof) : query := nth i (proof_queries m n t0 pf) no_query.

(** what is logged for a proof, up to the last challenge of the argument *)
Fixpoint round_events (Ls Rs : list G1) : transcript :=
  match Ls, Rs with
  | L :: Ls, R :: Rs => TMessage "L" (g1_bytes L) :: TMessage "R" (g1_bytes R) :: TChallenge "u" modbytes :: round_events Ls Rs
  | _, _ => []
  end.
Definition head_events (pf : r1cs_proof) : transcript :=
  [ TMessage "m" (le_bytes 8 (Z.of_nat m));
    TMessage "A_I1" (g1_bytes (A_I1 pf)); TMessage "A_O1" (g1_bytes (A_O1 pf)); TMessage "S1" (g1_bytes (S1 pf));
    TMessage "dom-sep" (bytes_of_string "r1cs-1phase");
    TMessage "A_I2" (g1_bytes (A_I2 pf)); TMessage "A_O2" (g1_bytes (A_O2 pf)); TMessage "S2" (g1_bytes (S2 pf));
    TChallenge "y" modbytes; TChallenge "z" modbytes;
    TMessage "T_1" (g1_bytes (T_1 pf)); TMessage "T_3" (g1_bytes (T_3 pf)); TMessage "T_4" (g1_bytes (T_4 pf));
    TMessage "T_5" (g1_bytes (T_5 pf)); TMessage "T_6" (g1_bytes (T_6 pf));
    TChallenge "u" modbytes; TChallenge "x" modbytes;
    TMessage "t_x" (fe_bytes (t_x pf)); TMessage "t_x_blinding" (fe_bytes (t_x_blinding pf));
    TMessage "e_blinding" (fe_bytes (e_blinding pf));
    TChallenge "w" modbytes;
    TMessage "dom-sep" (bytes_of_string "ipp v1"); TMessage "n" (le_bytes 8 (Z.of_nat (next_power_of_two n))) ].
Definition events (pf : r1cs_proof) : transcript :=
  head_events pf ++ round_events (ipp_L (proof_ipp pf)) (ipp_R (proof_ipp pf)).

Definition offset (i : nat) : nat := match i with 0 => 8 | 1 => 9 | 2 => 15 | 3 => 16 | 4 => 20 | _ => 25 + 3 * (i - 5) end.
Definition label (i : nat) : string := (nth i ["y"; "z"; "u"; "x"; "w"] "u")%string.

Lemma offset_lt i j : i < j -> offset i < offset j.
Proof.
  intros Hij. destruct i as [|[|[|[|[|i]]]]], j as [|[|[|[|[|j]]]]]; cbn [offset Nat.sub]; lia.
Qed.

Definition shaped (k : nat) (pf : r1cs_proof) : Prop :=
  length (ipp_L (proof_ipp pf)) = k /\ length (ipp_R (proof_ipp pf)) = k.

Lemma round_events_length Ls : forall Rs, length Rs = length Ls -> length (round_events Ls Rs) = 3 * length Ls.
Proof.
  induction Ls as [|L Ls IH]; intros [|R Rs] Hl; try discriminate; [reflexivity|]. cbn [round_events length].
  rewrite IH by (cbn in Hl; lia). lia.
Qed.
Lemma round_queries_nth Ls : forall Rs t j, length Rs = length Ls -> j < length Ls ->
  nth j (round_queries Ls Rs t) no_query = (t ++ firstn (2 + 3 * j) (round_events Ls Rs), "u"%string).
Proof.
  induction Ls as [|L Ls IH]; intros [|R Rs] t j Hl Hj; try discriminate; [cbn in Hj; lia|].
  cbn [round_queries round_events]. destruct j as [|j].
  - cbn [nth firstn Nat.add Nat.mul]. unfold commit_point, append_message. rewrite <- app_assoc. reflexivity.
  - cbn [nth]. rewrite IH by (cbn in Hl, Hj; lia). unfold commit_point, append_message.
    replace (2 + 3 * S j) with (S (S (S (2 + 3 * j)))) by lia. cbn [firstn]. rewrite <- !app_assoc. reflexivity.
Qed.
Lemma round_queries_length Ls : forall Rs t, length Rs = length Ls -> length (round_queries Ls Rs t) = length Ls.
Proof.
  induction Ls as [|L Ls IH]; intros [|R Rs] t Hl; try discriminate; [reflexivity|]. cbn [round_queries length].
  rewrite IH by (cbn in Hl; lia). reflexivity.
Qed.

Lemma events_length k pf : shaped k pf -> length (events pf) = 23 + 3 * k.
Proof.
  intros [HL HR]. unfold events. rewrite app_length, round_events_length by congruence. rewrite HL. reflexivity.
Qed.
Lemma proof_queries_length k pf : shaped k pf -> length (proof_queries m n t0 pf) = 5 + k.
Proof.
  intros [HL HR]. unfold proof_queries, challenge_queries. cbv zeta. rewrite app_length, round_queries_length by congruence. rewrite HL. reflexivity.
Qed.

Lemma point_prefix k pf i : shaped k pf -> i < 5 + k -> point i pf = (t0 ++ firstn (offset i) (events pf), label i).
Proof.
  intros [HL HR] Hi. unfold point, proof_queries, challenge_queries. cbv zeta. unfold first_phase_transcript, r1cs_1phase_domain_sep,
    innerproduct_domain_sep, commit_point, commit_scalar, append_u64, append_message, events.
  rewrite <- !app_assoc. cbn [app].
  destruct i as [|[|[|[|[|i]]]]]; try (cbn [nth offset label firstn head_events app]; reflexivity).
  assert (Ei : label (5 + i) = "u"%string) by (unfold label; destruct i; reflexivity).
  change (label (S (S (S (S (S i)))))) with (label (5 + i)). rewrite Ei. cbn [nth].
  rewrite round_queries_nth by lia. change (offset (S (S (S (S (S i)))))) with (offset (5 + i)).
  rewrite <- app_assoc. f_equal. f_equal.
  replace (offset (5 + i)) with (23 + (2 + 3 * i)) by (change (offset (5 + i)) with (25 + 3 * (5 + i - 5)); lia).
  rewrite firstn_app. change (length (head_events pf)) with 23.
  rewrite (firstn_all2 (head_events pf)) by (change (length (head_events pf)) with 23; lia).
  replace (23 + (2 + 3 * i) - 23) with (2 + 3 * i) by lia. reflexivity.
Qed.

Lemma point_prefix_length k pf i : shaped k pf -> i < 5 + k -> length (fst (point i pf)) = length t0 + offset i.
Proof.
  intros Hp Hi. rewrite (point_prefix k) by assumption. cbn [fst]. rewrite app_length, firstn_length, (events_length k) by assumption.
  f_equal. apply Nat.min_l. destruct i as [|[|[|[|[|i]]]]]; cbn [offset]; lia.
Qed.

Lemma offset_bound k i : i < 5 + k -> offset i <= 23 + 3 * k.
Proof. intros Hi. destruct i as [|[|[|[|[|i]]]]]; cbn [offset]; lia. Qed.

Lemma point_events k pf pf' i : shaped k pf -> shaped k pf' -> i < 5 + k -> point i pf = point i pf' ->
  firstn (offset i) (events pf) = firstn (offset i) (events pf').
Proof.
  intros Hp Hp' Hi E. rewrite !(point_prefix k) in E by assumption. injection E as E. apply app_inv_head in E. exact E.
Qed.

Lemma point_mono k pf pf' i j : shaped k pf -> shaped k pf' -> i <= j -> j < 5 + k ->
  point j pf = point j pf' -> point i pf = point i pf'.
Proof.
  intros Hp Hp' Hij Hj E. destruct (Nat.eq_dec i j) as [->|Hne]; [exact E|].
  pose proof (offset_lt i j ltac:(lia)). apply (point_events k) in E; auto.
  rewrite !(point_prefix k) by (assumption || lia). do 2 f_equal.
  transitivity (firstn (offset i) (firstn (offset j) (events pf))).
  - rewrite firstn_firstn, Nat.min_l by lia. reflexivity.
  - rewrite E, firstn_firstn, Nat.min_l by lia. reflexivity.
Qed.

Lemma point_level k pf pf' i j : shaped k pf -> shaped k pf' -> i < 5 + k -> j < 5 + k ->
  point i pf = point j pf' -> i = j.
Proof.
  intros Hp Hp' Hi Hj E. rewrite !(point_prefix k) in E by assumption. injection E as E _. apply app_inv_head in E.
  apply (f_equal (@length _)) in E. rewrite !firstn_length, !(events_length k) in E by assumption.
  pose proof (offset_bound k i Hi). pose proof (offset_bound k j Hj).
  destruct (Nat.lt_trichotomy i j) as [Hl|[Hl|Hl]]; [|exact Hl|]; apply offset_lt in Hl; lia.
Qed.

Lemma points_mono k pf pf' i : shaped k pf -> shaped k pf' -> i < 5 + k -> point i pf = point i pf' ->
  firstn i (proof_queries m n t0 pf) = firstn i (proof_queries m n t0 pf').
Proof.
  intros Hp Hp' Hi E. apply (nth_ext _ _ no_query no_query).
  - rewrite !firstn_length, !(proof_queries_length k) by assumption. reflexivity.
  - intros j Hj. rewrite firstn_length, (proof_queries_length k) in Hj by assumption.
    rewrite !nth_firstn_lt by lia. apply (point_mono k pf pf' j i); auto; lia.
Qed.

Lemma point_first k pf pf' : shaped k pf -> shaped k pf' -> point 0 pf = point 0 pf' -> first_of pf = first_of pf'.
Proof.
  intros Hp Hp' E. apply (point_events k) in E; [|assumption|assumption|lia].
  unfold events in E. cbn [offset firstn head_events app] in E. unfold first_of.
  injection E as E1 E2 E3 E4 E5 E6. apply g1_bytes_inj in E1, E2, E3, E4, E5, E6. congruence.
Qed.
Lemma point_Ts k pf pf' : shaped k pf -> shaped k pf' -> point 2 pf = point 2 pf' -> Ts_of pf = Ts_of pf'.
Proof.
  intros Hp Hp' E. apply (point_events k) in E; [|assumption|assumption|lia].
  unfold events in E. cbn [offset firstn head_events app] in E. unfold Ts_of.
  injection E as _ _ _ _ _ _ E1 E2 E3 E4 E5. apply g1_bytes_inj in E1, E2, E3, E4, E5. congruence.
Qed.
Lemma point_opening k pf pf' : shaped k pf -> shaped k pf' -> point 4 pf = point 4 pf' -> opening_of pf = opening_of pf'.
Proof.
  intros Hp Hp' E. apply (point_events k) in E; [|assumption|assumption|lia].
  unfold events in E. cbn [offset firstn head_events app] in E. unfold opening_of.
  injection E as _ _ _ _ _ _ _ _ _ _ _ E1 E2 E3. apply fe_bytes_inj in E1, E2, E3. congruence.
Qed.

Lemma round_events_nth Ls : forall Rs j d, length Rs = length Ls -> j < length Ls ->
  nth (3 * j) (round_events Ls Rs) d = TMessage "L" (g1_bytes (nth j Ls g1_id)) /\
  nth (3 * j + 1) (round_events Ls Rs) d = TMessage "R" (g1_bytes (nth j Rs g1_id)).
Proof.
  induction Ls as [|L Ls IH]; intros [|R Rs] j d Hl Hj; try discriminate; [cbn in Hj; lia|].
  destruct j as [|j]; [split; reflexivity|].
  replace (3 * S j + 1) with (S (S (S (3 * j + 1)))) by lia. replace (3 * S j) with (S (S (S (3 * j)))) by lia.
  cbn [round_events nth]. apply IH; cbn in Hl, Hj; lia.
Qed.
Lemma point_round k j pf pf' : shaped k pf -> shaped k pf' -> j < k -> point (5 + j) pf = point (5 + j) pf' ->
  round_of j pf = round_of j pf'.
Proof.
  intros Hp Hp' Hj E. apply (point_events k) in E; [|assumption|assumption|lia].
  replace (offset (5 + j)) with (23 + (3 * j + 2)) in E by (change (offset (5 + j)) with (25 + 3 * (5 + j - 5)); lia).
  unfold events in E. rewrite !firstn_app in E. change (length (head_events pf)) with 23 in E.
  change (length (head_events pf')) with 23 in E. replace (23 + (3 * j + 2) - 23) with (3 * j + 2) in E by lia.
  rewrite (firstn_all2 (head_events pf)), (firstn_all2 (head_events pf')) in E by (cbn [head_events length]; lia).
  assert (Er : firstn (3 * j + 2) (round_events (ipp_L (proof_ipp pf)) (ipp_R (proof_ipp pf))) =
    firstn (3 * j + 2) (round_events (ipp_L (proof_ipp pf')) (ipp_R (proof_ipp pf')))).
  { apply (f_equal (skipn 23)) in E. rewrite !skipn_app in E. exact E. }
  destruct Hp as [HL HR], Hp' as [HL' HR'].
  destruct (round_events_nth (ipp_L (proof_ipp pf)) (ipp_R (proof_ipp pf)) j (TChallenge "" 0)) as [N1 N2]; [lia..|].
  destruct (round_events_nth (ipp_L (proof_ipp pf')) (ipp_R (proof_ipp pf')) j (TChallenge "" 0)) as [N1' N2']; [lia..|].
  assert (En : forall i, i < 3 * j + 2 -> nth i (round_events (ipp_L (proof_ipp pf)) (ipp_R (proof_ipp pf))) (TChallenge "" 0) =
    nth i (round_events (ipp_L (proof_ipp pf')) (ipp_R (proof_ipp pf'))) (TChallenge "" 0)).
  { intros i Hi. rewrite <- (nth_firstn_lt _ (3 * j + 2) i) by exact Hi. rewrite Er. apply nth_firstn_lt, Hi. }
  rewrite (En (3 * j)) in N1 by lia. rewrite (En (3 * j + 1)) in N2 by lia. rewrite N1 in N1'. rewrite N2 in N2'.
  injection N1' as E1. injection N2' as E2. apply g1_bytes_inj in E1, E2. unfold round_of. congruence.
Qed.
End Queries.

(** Provers that choose the commitments: the questions determine the transcript
    they start from. *)
Section Start.
Context {P : Params} {OK : ParamsOk P} {ENC : EncodingOk P}.
Lemma point_start m n t t' k pf pf' i j : length t = length t' -> shaped k pf -> shaped k pf' -> i < 5 + k -> j < 5 + k ->
  point m n t i pf = point m n t' j pf' -> t = t'.
Proof.
  intros Hl Hp Hp' Hi Hj E. rewrite !(point_prefix m n _ k) in E by assumption. injection E as E _.
  apply (f_equal (firstn (length t))) in E. rewrite Hl in E at 2.
  rewrite !firstn_app, !Nat.sub_diag, !firstn_all, !app_nil_r in E. exact E.
Qed.
End Start.
