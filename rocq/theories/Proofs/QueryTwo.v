(** The questions behind the challenges of a proof with a second phase. *)
From Coq Require Import ZArith String List Lia Bool.
From Verif.Base Require Import Outcome Fp Params Algebra.
From Verif.Model Require Import Transcript LinComb IPP Prover.
From Verif.Spec Require Import R1CS Protocol IPPSpec R1CSTree Games.
From Verif.Proofs Require Import IPPProofs TreeBuild QueryProofs.
Import ListNotations.
Local Notation length := List.length.

Section Queries.
Context {P : Params} {OK : ParamsOk P} {ENC : EncodingOk P}.
Context (labels : list string) (m n : nat) (t0 : transcript).
Local Notation r := (length labels).
Local Notation chals := (map (fun l => TChallenge l modbytes) labels).

Definition point2 (i : nat) (pf : r1cs_proof) : query := nth i (two_phase_queries labels m n t0 pf) no_query.

Definition events2 (pf : r1cs_proof) : transcript :=
  firstn 4 (events m n pf) ++ (TMessage "dom-sep" (bytes_of_string "r1cs-2phase") :: chals) ++ skipn 5 (events m n pf).
Definition offset2 (i : nat) : nat := if Nat.ltb i r then 5 + i else r + offset (i - r).
Definition label2 (i : nat) : string := if Nat.ltb i r then nth i labels ""%string else label (i - r).

Lemma challenge_length k t pf : shaped k pf -> length (challenge_queries n t pf) = 5 + k.
Proof.
  intros [HL HR]. unfold challenge_queries. cbv zeta. rewrite app_length, round_queries_length by congruence. rewrite HL. reflexivity.
Qed.
Lemma callback_length l : forall t, length (callback_queries l t) = length l.
Proof. induction l as [|a l IH]; intros t; cbn [callback_queries length]; [reflexivity|]. rewrite IH. reflexivity. Qed.
Lemma two_phase_length k pf : shaped k pf -> length (two_phase_queries labels m n t0 pf) = r + (5 + k).
Proof.
  intros Hs. unfold two_phase_queries. cbv zeta. rewrite app_length, callback_length, (challenge_length k) by exact Hs. reflexivity.
Qed.

Lemma offset_5 i : 5 <= offset i.
Proof. destruct i as [|[|[|[|[|i]]]]]; cbn [offset]; lia. Qed.

Lemma challenge_nth k t pf i : shaped k pf -> i < 5 + k ->
  nth i (challenge_queries n t pf) no_query = (t ++ firstn (offset i - 5) (skipn 5 (events m n pf)), label i).
Proof.
  intros [HL HR] Hi. unfold challenge_queries. cbv zeta. unfold
    innerproduct_domain_sep, commit_point, commit_scalar, append_u64, append_message, events.
  rewrite <- !app_assoc. cbn [app].
  destruct i as [|[|[|[|[|i]]]]]; try (cbn [nth offset label firstn skipn Nat.sub head_events app]; reflexivity).
  assert (Ei : label (5 + i) = "u"%string) by (unfold label; destruct i; reflexivity).
  change (label (S (S (S (S (S i)))))) with (label (5 + i)). rewrite Ei. cbn [nth].
  rewrite round_queries_nth by lia. change (offset (S (S (S (S (S i)))))) with (offset (5 + i)).
  rewrite <- app_assoc. f_equal. f_equal.
  replace (offset (5 + i) - 5) with (18 + (2 + 3 * i)) by (change (offset (5 + i)) with (25 + 3 * (5 + i - 5)); lia).
  rewrite skipn_app. change (length (head_events m n pf)) with 23. cbn [Nat.sub]. rewrite skipn_O.
  rewrite firstn_app. change (length (skipn 5 (head_events m n pf))) with 18.
  rewrite (firstn_all2 (skipn 5 (head_events m n pf))) by (change (length (skipn 5 (head_events m n pf))) with 18; lia).
  replace (18 + (2 + 3 * i) - 18) with (2 + 3 * i) by lia. reflexivity.
Qed.

Lemma callback_nth l : forall t i, i < length l ->
  nth i (callback_queries l t) no_query = (t ++ firstn i (map (fun l => TChallenge l modbytes) l), nth i l ""%string).
Proof.
  induction l as [|a l IH]; intros t i Hi; [cbn in Hi; lia|]. destruct i as [|i]; cbn [callback_queries nth map firstn].
  - rewrite app_nil_r. reflexivity.
  - rewrite IH by (cbn in Hi; lia). rewrite <- app_assoc. reflexivity.
Qed.

Lemma absorbed pf : r1cs_2phase_domain_sep (first_phase_transcript pf m t0) =
  t0 ++ firstn 4 (events m n pf) ++ [TMessage "dom-sep" (bytes_of_string "r1cs-2phase")].
Proof.
  unfold r1cs_2phase_domain_sep, first_phase_transcript, commit_point, append_u64, append_message, events. rewrite <- !app_assoc.
  cbn [app firstn head_events]. reflexivity.
Qed.

Lemma four k pf : shaped k pf -> length (firstn 4 (events m n pf)) = 4.
Proof. intros Hs. rewrite firstn_length, (events_length m n k) by exact Hs. lia. Qed.

Lemma point2_prefix k pf i : shaped k pf -> i < r + (5 + k) -> point2 i pf = (t0 ++ firstn (offset2 i) (events2 pf), label2 i).
Proof.
  intros Hs Hi. unfold point2, two_phase_queries, offset2, label2, events2. cbv zeta. rewrite absorbed.
  destruct (Nat.ltb_spec i r) as [Hlt|Hge].
  - rewrite app_nth1 by (rewrite callback_length; exact Hlt). rewrite callback_nth by exact Hlt. f_equal.
    rewrite <- !app_assoc. f_equal. rewrite firstn_app, (four k) by exact Hs.
    rewrite (firstn_all2 (firstn 4 (events m n pf))) by (rewrite (four k) by exact Hs; lia). f_equal.
    replace (5 + i - 4) with (S i) by lia. cbn [app firstn]. f_equal. rewrite firstn_app, map_length.
    replace (i - r) with 0 by lia. rewrite app_nil_r. reflexivity.
  - rewrite app_nth2 by (rewrite callback_length; exact Hge). rewrite callback_length, (challenge_nth k) by (exact Hs || lia). f_equal.
    rewrite <- !app_assoc. f_equal. pose proof (offset_5 (i - r)). rewrite firstn_app, (four k) by exact Hs.
    rewrite (firstn_all2 (firstn 4 (events m n pf))) by (rewrite (four k) by exact Hs; lia). f_equal.
    replace (r + offset (i - r) - 4) with (S (r + (offset (i - r) - 5))) by lia. cbn [app firstn]. f_equal.
    rewrite firstn_app, map_length. rewrite (firstn_all2 chals) by (rewrite map_length; lia). do 2 f_equal. lia.
Qed.

Lemma events2_length k pf : shaped k pf -> length (events2 pf) = r + (23 + 3 * k).
Proof.
  intros Hs. unfold events2. rewrite !app_length, (four k) by exact Hs. cbn [length]. rewrite map_length, skipn_length, (events_length m n k) by exact Hs. lia.
Qed.
Lemma offset2_lt i j : i < j -> offset2 i < offset2 j.
Proof.
  intros Hij. unfold offset2. pose proof (offset_5 (j - r)). destruct (Nat.ltb_spec i r), (Nat.ltb_spec j r); try lia.
  pose proof (offset_lt (i - r) (j - r)). lia.
Qed.
Lemma offset2_bound k i : i < r + (5 + k) -> offset2 i <= r + (23 + 3 * k).
Proof.
  intros Hi. unfold offset2. destruct (Nat.ltb_spec i r); [lia|]. pose proof (offset_bound k (i - r)). lia.
Qed.

Lemma point2_events k pf pf' i : shaped k pf -> shaped k pf' -> i < r + (5 + k) -> point2 i pf = point2 i pf' ->
  firstn (offset2 i) (events2 pf) = firstn (offset2 i) (events2 pf').
Proof.
  intros Hp Hp' Hi E. rewrite !(point2_prefix k) in E by assumption. injection E as E. apply app_inv_head in E. exact E.
Qed.
Lemma point2_mono k pf pf' i j : shaped k pf -> shaped k pf' -> i <= j -> j < r + (5 + k) ->
  point2 j pf = point2 j pf' -> point2 i pf = point2 i pf'.
Proof.
  intros Hp Hp' Hij Hj E. destruct (Nat.eq_dec i j) as [->|Hne]; [exact E|].
  pose proof (offset2_lt i j ltac:(lia)). apply (point2_events k) in E; auto.
  rewrite !(point2_prefix k) by (assumption || lia). do 2 f_equal.
  transitivity (firstn (offset2 i) (firstn (offset2 j) (events2 pf))).
  - rewrite firstn_firstn, Nat.min_l by lia. reflexivity.
  - rewrite E, firstn_firstn, Nat.min_l by lia. reflexivity.
Qed.
Lemma point2_level k pf pf' i j : shaped k pf -> shaped k pf' -> i < r + (5 + k) -> j < r + (5 + k) ->
  point2 i pf = point2 j pf' -> i = j.
Proof.
  intros Hp Hp' Hi Hj E. rewrite !(point2_prefix k) in E by assumption. injection E as E _. apply app_inv_head in E.
  apply (f_equal (@length _)) in E. rewrite !firstn_length, !(events2_length k) in E by assumption.
  pose proof (offset2_bound k i Hi). pose proof (offset2_bound k j Hj).
  destruct (Nat.lt_trichotomy i j) as [Hl|[Hl|Hl]]; [|exact Hl|]; apply offset2_lt in Hl; lia.
Qed.
Lemma points2_mono k pf pf' i : shaped k pf -> shaped k pf' -> i < r + (5 + k) -> point2 i pf = point2 i pf' ->
  firstn i (two_phase_queries labels m n t0 pf) = firstn i (two_phase_queries labels m n t0 pf').
Proof.
  intros Hp Hp' Hi E. apply (nth_ext _ _ no_query no_query).
  - rewrite !firstn_length, !(two_phase_length k) by assumption. reflexivity.
  - intros j Hj. rewrite firstn_length, (two_phase_length k) in Hj by assumption.
    rewrite !nth_firstn_lt by lia. apply (point2_mono k pf pf' j i); auto; lia.
Qed.

(** after the second phase the questions say as much as without one *)
Lemma point2_point k pf pf' i : shaped k pf -> shaped k pf' -> i < 5 + k -> point2 (r + i) pf = point2 (r + i) pf' ->
  point m n t0 i pf = point m n t0 i pf'.
Proof.
  intros Hp Hp' Hi E. apply (point2_events k) in E; [|assumption..|lia].
  rewrite !(point_prefix m n t0 k) by assumption. do 2 f_equal. pose proof (offset_5 i) as Ho.
  unfold offset2 in E. destruct (Nat.ltb_spec (r + i) r) as [?|_]; [lia|]. replace (r + i - r) with i in E by lia. unfold events2 in E.
  assert (E4 : firstn 4 (events m n pf) = firstn 4 (events m n pf')).
  { apply (f_equal (firstn 4)) in E. rewrite !firstn_firstn, !(Nat.min_l 4 (r + offset i)) in E by lia. rewrite !firstn_app, !(four k) in E by assumption.
    rewrite !Nat.sub_diag, !firstn_O, !app_nil_r, !firstn_firstn in E. exact E. }
  assert (Er : firstn (offset i - 5) (skipn 5 (events m n pf)) = firstn (offset i - 5) (skipn 5 (events m n pf'))).
  { apply (f_equal (skipn (5 + r))) in E. rewrite !skipn_firstn_comm in E. replace (r + offset i - (5 + r)) with (offset i - 5) in E by lia.
    assert (Hsk : forall x, shaped k x -> skipn (5 + r) (firstn 4 (events m n x) ++ (TMessage "dom-sep" (bytes_of_string "r1cs-2phase") :: chals) ++ skipn 5 (events m n x)) = skipn 5 (events m n x)).
    { intros x Hx. rewrite skipn_app, (four k) by exact Hx. rewrite skipn_all2 by (rewrite (four k) by exact Hx; lia).
      replace (5 + r - 4) with (S r) by lia. cbn [app skipn]. rewrite skipn_app, map_length, Nat.sub_diag.
      rewrite skipn_all2 by (rewrite map_length; lia). reflexivity. }
    rewrite !Hsk in E by assumption. exact E. }
  assert (Hev : forall x, firstn (offset i) (events m n x) = firstn 4 (events m n x) ++ TMessage "dom-sep" (bytes_of_string "r1cs-1phase") :: firstn (offset i - 5) (skipn 5 (events m n x))).
  { intros x. replace (offset i) with (5 + (offset i - 5)) at 1 by lia. unfold events. cbn [app head_events firstn skipn Nat.add]. reflexivity. }
  rewrite (Hev pf), (Hev pf'), E4, Er. reflexivity.
Qed.

(** the first question already determines the points of the first phase *)
Lemma point2_first k pf pf' i : shaped k pf -> shaped k pf' -> i < r + (5 + k) -> point2 i pf = point2 i pf' ->
  A_I1 pf = A_I1 pf' /\ A_O1 pf = A_O1 pf' /\ S1 pf = S1 pf'.
Proof.
  intros Hp Hp' Hi E. apply (point2_events k) in E; [|assumption..]. 
  assert (Ho : 4 <= offset2 i) by (unfold offset2; pose proof (offset_5 (i - r)); destruct (Nat.ltb i r); lia).
  apply (f_equal (firstn 4)) in E. rewrite !firstn_firstn, !Nat.min_l in E by exact Ho. unfold events2, events in E.
  cbn [app firstn head_events] in E. injection E as E1 E2 E3. apply g1_bytes_inj in E1, E2, E3. auto.
Qed.

(** and no more *)
Lemma point_point2 k pf pf' i : shaped k pf -> shaped k pf' -> i < 5 + k -> point m n t0 i pf = point m n t0 i pf' ->
  point2 (r + i) pf = point2 (r + i) pf'.
Proof.
  intros Hp Hp' Hi E. apply (point_events m n t0 k) in E; [|assumption..].
  rewrite !(point2_prefix k) by (assumption || lia). do 2 f_equal. pose proof (offset_5 i) as Ho.
  unfold offset2. destruct (Nat.ltb_spec (r + i) r) as [?|_]; [lia|]. replace (r + i - r) with i by lia. unfold events2.
  assert (E4 : firstn 4 (events m n pf) = firstn 4 (events m n pf')).
  { apply (f_equal (firstn 4)) in E. rewrite !firstn_firstn, !(Nat.min_l 4 (offset i)) in E by lia. exact E. }
  assert (Er : firstn (offset i - 5) (skipn 5 (events m n pf)) = firstn (offset i - 5) (skipn 5 (events m n pf'))).
  { apply (f_equal (skipn 5)) in E. rewrite !skipn_firstn_comm in E. exact E. }
  rewrite E4, !app_assoc, !(firstn_app (r + offset i)). f_equal.
  rewrite !app_length, (four k) by exact Hp'. cbn [length]. rewrite map_length.
  replace (r + offset i - (4 + S r)) with (offset i - 5) by lia. exact Er.
Qed.
(** the questions of the second phase depend on the points of the first one only *)
Lemma point2_early k pf pf' i : shaped k pf -> shaped k pf' -> i < r ->
  A_I1 pf = A_I1 pf' -> A_O1 pf = A_O1 pf' -> S1 pf = S1 pf' -> point2 i pf = point2 i pf'.
Proof.
  intros Hp Hp' Hi E1 E2 E3. rewrite !(point2_prefix k) by (assumption || lia). do 2 f_equal.
  unfold offset2. destruct (Nat.ltb_spec i r) as [_|?]; [|lia]. unfold events2.
  assert (E4 : firstn 4 (events m n pf) = firstn 4 (events m n pf')).
  { unfold events. cbn [app firstn head_events]. rewrite E1, E2, E3. reflexivity. }
  rewrite E4, !app_assoc, !(firstn_app (5 + i)). f_equal.
  rewrite !app_length, (four k) by exact Hp'. cbn [length]. rewrite map_length.
  replace (5 + i - (4 + S r)) with 0 by lia. reflexivity.
Qed.
End Queries.
