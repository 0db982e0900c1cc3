(** Whoever can complete the wires of the first phase for all challenges convinces
    [verify] whatever the oracle. *)
From Coq Require Import ZArith String List Lia Bool Arith.
From Verif.Base Require Import Outcome Fp Params Algebra.
From Verif.Model Require Import Transcript LinComb Prog IPP Prover Verifier.
From Verif.Spec Require Import R1CS Protocol IPPSpec Verdict R1CSTree Games TwoPhase.
From Verif.Proofs Require Import VerdictProofs TreeCheck GameInteractive TreeBuild HonestStrategy QueryProofs QueryTwo OracleCode TwoPhaseCode.
Import ListNotations.
Local Notation length := List.length.

Section Honest.
Context {P : Params} {OK : ParamsOk P} {ENC : EncodingOk P}.
Local Open Scope fe_scope.

Section Family.
Context (labels : list string) (m n k : nat) (t0 : transcript).
(** a strategy for every choice of the challenges of the second phase *)
Context (st : list F -> strategy).
Local Notation r := (length labels).
Let AI := f_AI1 (st_first (st [])).
Let AO := f_AO1 (st_first (st [])).
Let S := f_S1 (st_first (st [])).
Hypothesis Hst : forall e, length e = r ->
  f_AI1 (st_first (st e)) = AI /\ f_AO1 (st_first (st e)) = AO /\ f_S1 (st_first (st e)) = S.

Definition sp2 (c : list F) : r1cs_proof := strategy_proof (st (firstn r c)) (skipn r c).
Local Notation L := (r + (5 + k))%nat.
Local Notation pnt := (point2 labels m n t0).

Lemma sp2_shaped c : length c = L -> shaped k (sp2 c).
Proof. intros Hc. apply strategy_shaped. rewrite skipn_length. lia. Qed.
Lemma sp2_first c : length c = L -> A_I1 (sp2 c) = AI /\ A_O1 (sp2 c) = AO /\ S1 (sp2 c) = S.
Proof.
  intros Hc. destruct (strategy_proof_parts (st (firstn r c)) (skipn r c)) as [F1 _].
  destruct (Hst (firstn r c)) as (E1 & E2 & E3); [rewrite firstn_length; lia|].
  rewrite <- E1, <- E2, <- E3, <- F1. unfold sp2, first_of. cbn. auto.
Qed.

Lemma point2_strategy c c' i : length c = L -> length c' = L -> (i < L)%nat -> firstn i c = firstn i c' -> pnt i (sp2 c) = pnt i (sp2 c').
Proof.
  intros Hc Hc' Hi E. destruct (Nat.lt_ge_cases i r) as [Hlt|Hge].
  - destruct (sp2_first c Hc) as (A1 & A2 & A3). destruct (sp2_first c' Hc') as (B1 & B2 & B3).
    apply (point2_early labels m n t0 k); auto using sp2_shaped; congruence.
  - replace i with (r + (i - r))%nat by lia. apply (point_point2 labels m n t0 k); auto using sp2_shaped; [lia|].
    unfold sp2. assert (Ee : firstn r c = firstn r c').
    { apply (f_equal (firstn r)) in E. rewrite !firstn_firstn, !Nat.min_l in E by lia. exact E. }
    rewrite Ee. apply (point_strategy m n k t0); try (rewrite skipn_length; lia); [lia|].
    apply (f_equal (skipn r)) in E. rewrite !skipn_firstn_comm in E. exact E.
Qed.

Fixpoint fs2_prover (j : nat) (c : list F) : adversary r1cs_proof :=
  match j with
  | O => Answer (sp2 c)
  | Datatypes.S j' => Ask (pnt (length c) (sp2 (c ++ repeat 0 j))) (fun x => fs2_prover j' (c ++ [x]))
  end.
Lemma fs2_prover_most j : forall c, at_most j (fs2_prover j c).
Proof. induction j as [|j IH]; intros c; cbn [fs2_prover at_most]; [exact I|]. intros x. apply IH. Qed.

Lemma fs2_prover_output O j : forall c, (length c + j = L)%nat ->
  exists d, length d = j /\ output O (fs2_prover j c) = sp2 (c ++ d) /\
    forall i, (length c <= i < L)%nat -> O (pnt i (sp2 (c ++ d))) = nth i (c ++ d) 0.
Proof.
  induction j as [|j IH]; intros c Hc.
  - exists []. rewrite app_nil_r. split; [reflexivity|]. split; [reflexivity|]. intros i Hi. lia.
  - cbn [fs2_prover output]. set (q := pnt (length c) (sp2 (c ++ repeat 0 (Datatypes.S j)))).
    destruct (IH (c ++ [O q])) as (d & Hd & Eo & Hi); [rewrite app_length; cbn; lia|].
    rewrite <- app_assoc in Eo, Hi. cbn [app] in Eo, Hi. exists (O q :: d). split; [cbn; lia|]. split; [exact Eo|].
    intros i Hle. destruct (Nat.eq_dec i (length c)) as [->|Hne].
    + rewrite app_nth2, Nat.sub_diag by lia. cbn [nth]. f_equal. unfold q. apply point2_strategy.
      * rewrite app_length. cbn [length]. lia.
      * rewrite app_length, repeat_length. lia.
      * lia.
      * rewrite !firstn_app, Nat.sub_diag. cbn [firstn]. rewrite !app_nil_r. reflexivity.
    + apply Hi. rewrite app_length. cbn [length]. lia.
Qed.
Theorem fs2_prover_ok O : exists c, length c = L /\ output O (fs2_prover L []) = sp2 c /\
  map O (two_phase_queries labels m n t0 (sp2 c)) = c.
Proof.
  destruct (fs2_prover_output O L []) as (c & Hc & Eo & Hi); [reflexivity|]. cbn [app length] in Eo, Hi.
  exists c. split; [exact Hc|]. split; [exact Eo|].
  assert (Hl : length (two_phase_queries labels m n t0 (sp2 c)) = L) by (apply two_phase_length, sp2_shaped, Hc).
  apply (nth_ext _ _ (O no_query) 0).
  - rewrite map_length, Hl. auto.
  - intros i Hlt. rewrite map_length, Hl in Hlt. rewrite map_nth. apply Hi. lia.
Qed.
End Family.

Lemma honest_first_same h (G H : list G1) n1 k aL aR aO aL' aR' aO' :
  same_first_phase n1 aL aR aO aL' aR' aO' ->
  let f := honest_first h G H n1 k aL aR aO [] [] [] in
  let f' := honest_first h G H n1 k aL' aR' aO' [] [] [] in
  f_AI1 f = f_AI1 f' /\ f_AO1 f = f_AO1 f' /\ f_S1 f = f_S1 f'.
Proof.
  intros Hs. cbn [honest_first f_AI1 f_AO1 f_S1].
  assert (Hm : forall l l' : list F, (forall i, (i < n1)%nat -> nth i l 0 = nth i l' 0) ->
    map (fun i => if Nat.ltb i n1 then nth i l 0 else 0) (seq 0 (2 ^ k)) = map (fun i => if Nat.ltb i n1 then nth i l' 0 else 0) (seq 0 (2 ^ k))).
  { intros l l' Hl. apply map_ext. intros i. destruct (Nat.ltb_spec i n1); [apply Hl; assumption|reflexivity]. }
  rewrite (Hm aL aL'), (Hm aR aR'), (Hm aO aO') by (intros i Hi; apply (Hs i Hi)). auto.
Qed.

Theorem honest_two_phase_shaped g h G H V0 n1 cs1 cbs labels n k circ v gam aL aR aO (aLs aRs aOs : list F -> list F) t0 :
  let N := next_power_of_two n in
  let V := zipw (fun x b => g1_add (g1_mul x g) (g1_mul b h)) v gam in
  let r := length labels in
  V0 = V -> second_phase n1 cs1 V0 cbs labels n circ ->
  N = (2 ^ k)%nat -> (k < 32)%nat -> (1 < n)%nat \/ batch_invert_empty_panics = false ->
  (N <= length G)%nat -> (N <= length H)%nat -> length gam = length v ->
  (forall e, length e = r -> length (aLs e) = n /\ length (aRs e) = n /\ length (aOs e) = n /\
     same_first_phase n1 aL aR aO (aLs e) (aRs e) (aOs e) /\
     Forall (lc_in_range n (length v)) (circ e) /\ satisfies (assignment_of v (aLs e) (aRs e) (aOs e)) n (circ e)) ->
  exists A, at_most (r + 5 + k) A /\
    forall O, length (two_phase_queries labels (length V) n t0 (output O A)) = (r + (5 + k))%nat /\
      (~ In 0 (map O (two_phase_queries labels (length V) n t0 (output O A))) ->
      forall x, two_phase_accepts O x g h G H V n1 cs1 (cbs O) t0 (output O A)).
Proof.
  intros N V r -> HP2 HN Hk Hb HG HH Hgam Hw.
  (* for challenges of another length, take those of the first ones *)
  set (fixed := fun e : list F => firstn r (e ++ repeat 0 r)).
  assert (Hfl : forall e, length (fixed e) = r) by (intros e; unfold fixed; rewrite firstn_length, app_length, repeat_length; lia).
  assert (Hfe : forall e, length e = r -> fixed e = e).
  { intros e He. unfold fixed. rewrite firstn_app, <- He, Nat.sub_diag, firstn_O, app_nil_r. apply firstn_all. }
  set (st := fun e => honest_strategy g h G H n1 n k (circ (fixed e)) v gam (aLs (fixed e)) (aRs (fixed e)) (aOs (fixed e))).
  assert (Hst : forall e, length e = r -> f_AI1 (st_first (st e)) = f_AI1 (st_first (st [])) /\
     f_AO1 (st_first (st e)) = f_AO1 (st_first (st [])) /\ f_S1 (st_first (st e)) = f_S1 (st_first (st []))).
  { intros e _. unfold st, honest_strategy. cbv zeta. cbn [st_first]. apply honest_first_same.
    destruct (Hw _ (Hfl e)) as (_ & _ & _ & H1 & _). destruct (Hw _ (Hfl [])) as (_ & _ & _ & H2 & _).
    intros i Hi. destruct (H1 i Hi) as (E1 & E2 & E3). destruct (H2 i Hi) as (E4 & E5 & E6). split; [congruence|]. split; congruence. }
  exists (fs2_prover labels (length V) n t0 st (r + (5 + k)) []). split.
  { replace (r + 5 + k)%nat with (r + (5 + k))%nat by lia. apply fs2_prover_most. }
  intros O. destruct (fs2_prover_ok labels (length V) n k t0 st Hst O) as (c & Hc & Eo & Em). fold r in Hc, Eo. rewrite Eo.
  split; [apply two_phase_length, sp2_shaped, Hc|]. intros HO. rewrite Em in HO.
  assert (HV : length V = length v) by (unfold V; rewrite zipw_length; lia).
  assert (He : length (firstn r c) = r) by (rewrite firstn_length; lia).
  destruct (Hw _ He) as (L1 & L2 & L3 & _ & Hr & Hs).
  assert (H0 : forall a, In (fzero modulus) (skipn a c) -> False).
  { intros a Ha. apply HO. rewrite <- (firstn_skipn a c). apply in_or_app. right. exact Ha. }
  assert (Ef : firstn r (map O (two_phase_queries labels (length V) n t0 (sp2 labels st c))) = firstn r c) by (rewrite Em; reflexivity).
  assert (Es : skipn r (map O (two_phase_queries labels (length V) n t0 (sp2 labels st c))) = skipn r c) by (rewrite Em; reflexivity).
  assert (Es5 : skipn (r + 5) (map O (two_phase_queries labels (length V) n t0 (sp2 labels st c))) = skipn (r + 5) c) by (rewrite Em; reflexivity).
  intros x. apply (two_phase_all V n1 cs1 cbs labels n circ HP2 O g h G H t0 (sp2 labels st c) k); try assumption.
  - apply sp2_shaped. exact Hc.
  - fold r. rewrite Ef, HV. exact Hr.
  - fold r. rewrite Es5. apply Forall_forall. intros u Hu ->. exact (H0 _ Hu).
  - fold r. rewrite Ef, Es. unfold sp2, st. fold r. rewrite Hfe by exact He.
    apply honest_strategy_wins; auto. rewrite skipn_length. lia. intros Hin. exact (H0 _ Hin).
Qed.

Theorem honest_two_phase g h G H V0 n1 cs1 cbs labels n k circ v gam aL aR aO (aLs aRs aOs : list F -> list F) t0 :
  let N := next_power_of_two n in
  let V := zipw (fun x b => g1_add (g1_mul x g) (g1_mul b h)) v gam in
  let r := length labels in
  V0 = V -> second_phase n1 cs1 V0 cbs labels n circ ->
  N = (2 ^ k)%nat -> (k < 32)%nat -> (1 < n)%nat \/ batch_invert_empty_panics = false ->
  (N <= length G)%nat -> (N <= length H)%nat -> length gam = length v ->
  (forall e, length e = r -> length (aLs e) = n /\ length (aRs e) = n /\ length (aOs e) = n /\
     same_first_phase n1 aL aR aO (aLs e) (aRs e) (aOs e) /\
     Forall (lc_in_range n (length v)) (circ e) /\ satisfies (assignment_of v (aLs e) (aRs e) (aOs e)) n (circ e)) ->
  exists A, at_most (r + 5 + k) A /\
    forall O, ~ In 0 (map O (two_phase_queries labels (length V) n t0 (output O A))) ->
      forall x, two_phase_accepts O x g h G H V n1 cs1 (cbs O) t0 (output O A).
Proof.
  intros N V r EV HP2 HN Hk Hb HG HH Hgam Hw.
  destruct (honest_two_phase_shaped g h G H V0 n1 cs1 cbs labels n k circ v gam aL aR aO aLs aRs aOs t0 EV HP2 HN Hk Hb HG HH Hgam Hw) as (A & HA & Hacc).
  exists A. split; [exact HA|]. intros O. apply Hacc.
Qed.
End Honest.
