(** Non-interactive provers: winning for enough oracles is having a tree. *)
From Coq Require Import ZArith String List Lia Bool.
From Verif.Base Require Import Outcome Fp Params Algebra.
From Verif.Model Require Import Transcript LinComb IPP Prover.
From Verif.Spec Require Import R1CS Protocol IPPSpec Extractor R1CSTree R1CSExtractor Games Challenges.
From Verif.Proofs Require Import IPPProofs IPPMore VerifyProofs R1CSExtract TreeCount TreeBuild OracleCount QueryProofs OracleGood.
Import ListNotations.
Local Notation length := List.length.

Section Oracle.
Context {P : Params} {OK : ParamsOk P} {ENC : EncodingOk P}.

(** *** The shape of accepted proofs *)
Lemma conversation_nil us : forall (Q Pt : G1) H Ls Rs a b, ~ conversation Q Pt [] H us Ls Rs a b.
Proof.
  induction us as [|u us IH]; intros Q Pt H [|L Ls] [|R Rs] a b; cbn [conversation]; auto.
Qed.
Lemma conversation_shape us : forall k (Q Pt : G1) G H Ls Rs a b, length G = 2 ^ k -> conversation Q Pt G H us Ls Rs a b ->
  length us = k /\ length Ls = k /\ length Rs = k.
Proof.
  induction us as [|u us IH]; intros k Q Pt G H [|L Ls] [|R Rs] a b HG Hc; cbn [conversation] in Hc; try contradiction.
  - destruct G as [|G0 [|? ?]]; try contradiction. cbn in HG.
    destruct k as [|k]; [auto|]. exfalso. cbn [Nat.pow] in HG. pose proof (Nat.pow_nonzero 2 k). lia.
  - destruct k as [|k].
    + exfalso. destruct G as [|G0 [|? ?]]; try discriminate HG. exact (conversation_nil _ _ _ _ _ _ _ _ Hc).
    + destruct (IH k _ _ _ _ _ _ _ _ (fold_halves_length _ _ _ k HG) Hc) as (E1 & E2 & E3). cbn [length]. auto.
Qed.
Lemma accepted_for_shape g h G H V n1 n cs pf c k : next_power_of_two n = 2 ^ k ->
  accepted_for g h G H V n1 n cs pf c -> length c = 5 + k /\ shaped k pf.
Proof.
  intros HN Ha. unfold accepted_for in Ha. do 5 (destruct c as [|? c]; [contradiction|]). destruct Ha as [_ Hc].
  cbv zeta in Hc. apply (conversation_shape _ k) in Hc as (E1 & E2 & E3); [|rewrite map_length, seq_length; exact HN].
  unfold shaped. cbn [length]. split; [lia|auto].
Qed.

Section Game.
(** The output [x] contains a proof, [prf x], and determines the transcript it starts
    from, [tr x]. *)
Context {X : Type} (tr : X -> transcript) (prf : X -> r1cs_proof).
Context (m n k q len : nat) (D : list query) (C : list F) (A : adversary X) (Qn : nat).
Context (wins : oracle -> bool).
Local Notation pts x := (proof_queries m n (tr x) (prf x)).
Let T := filter wins (oracles D C).
Let pr (e : oracle) := prf (output e A).
Let st (e : oracle) := tr (output e A).
Let ps (e : oracle) := proof_queries m n (st e) (pr e).
Let ch (e : oracle) := map e (ps e).
Let pt (i : nat) (e : oracle) := point m n (st e) i (pr e).
Context (mu : nat).
Let Ks := map (Nat.mul mu) (thresholds k q).
Let Kmax := mu * Nat.max (2 ^ k) (Nat.max q 7).

Hypothesis HC : repeats mu C.
Hypothesis HD : NoDup D.
Hypothesis HA : at_most Qn A.
Hypothesis Hshape : forall O, In O (oracles D C) -> wins O = true -> shaped k (prf (output O A)).
Hypothesis Hlen : forall O, In O (oracles D C) -> wins O = true -> length (tr (output O A)) = len.
Hypothesis HinD : forall O, In O (oracles D C) -> wins O = true -> incl (pts (output O A)) D.

Lemma T_shaped e : In e T -> shaped k (pr e).
Proof. intros He. apply filter_In in He as [H1 H2]. apply Hshape; assumption. Qed.

Lemma ps_length e : In e T -> length (ps e) = 5 + k.
Proof. intros He. apply proof_queries_length, T_shaped, He. Qed.
Lemma pt_start i j e e' : In e T -> In e' T -> i < 5 + k -> j < 5 + k -> pt i e = pt j e' -> st e = st e'.
Proof.
  intros He He' Hi Hj. apply point_start with (k := k); auto using T_shaped.
  apply filter_In in He as [H1 H2]. apply filter_In in He' as [H3 H4]. unfold st. rewrite !Hlen by assumption. reflexivity.
Qed.

Lemma Ks_length : length Ks = 5 + k.
Proof. unfold Ks, thresholds. rewrite map_length. cbn [length]. rewrite repeat_length. reflexivity. Qed.
Lemma Ks_max K : In K Ks -> K <= Kmax.
Proof.
  intros E. unfold Ks, thresholds in E. unfold Kmax. apply in_map_iff in E as (K' & <- & E). apply Nat.mul_le_mono_l.
  destruct E as [<-|[<-|[<-|[<-|[<-|E]]]]]; try lia. apply repeat_spec in E. lia.
Qed.
Lemma ps_before e e' i j : In e T -> In e' T -> i < length Ks -> j < length Ks -> pt i e = pt j e' ->
  i = j /\ firstn i (ps e) = firstn i (ps e').
Proof.
  rewrite Ks_length. intros He He' Hi Hj E. pose proof (T_shaped e He) as Hs. pose proof (T_shaped e' He') as Hs'.
  pose proof (pt_start i j e e' He He' Hi Hj E) as Es.
  assert (Ei : i = j).
  { apply (point_level m n (st e) k (pr e) (pr e')); auto. rewrite Es at 2. exact E. }
  split; [exact Ei|]. subst j. unfold ps. unfold pt in E. rewrite Es in E |- *.
  exact (points_mono m n (st e') k (pr e) (pr e') i Hs Hs' Hi E).
Qed.

Theorem adversary_has_tree :
  (Qn + (5 + k)) * Kmax * length C ^ length D < length C * length (filter wins (oracles D C)) ->
  exists O0 f t, In O0 (oracles D C) /\ wins O0 = true /\ proof_tree_wf k q t /\
    each_branch (fun pf c => exists O, In O (oracles D C) /\ wins O = true /\ tr (output O A) = tr (output O0 A) /\
      prf (output O A) = pf /\ map O (pts (output O A)) = c) f t.
Proof.
  intros Hcount.
  assert (Hg : good pt query_eq_dec ch T C Ks 0 (fun _ => fzero modulus) [] = true).
  { apply (adversary_good (fun x => pts x) Ks Kmax D C A Qn wins HD HA Ks_max).
    - intros e He. rewrite Ks_length. exact (ps_length e He).
    - exact ps_before.
    - intros e He. apply filter_In in He as [H1 H2]. exact (HinD e H1 H2).
    - rewrite Ks_length. exact Hcount. }
  assert (Hsame : forall i e e', In e T -> In e' T -> i < 5 + k -> pt i e = pt i e' -> point m n (st e') i (pr e) = point m n (st e') i (pr e')).
  { intros i e e' He He' Hi E. rewrite <- (pt_start i i e e' He He' Hi Hi E) at 1. exact E. }
  apply (good_distinct pt query_eq_dec ch T C mu HC) in Hg.
  destruct (tree_build pt query_eq_dec ch T (nodup (Fp_eq_dec modulus) C) pr k q) with (e0 := fun _ : query => fzero modulus) as (e1 & f & t & He1 & Hwf & Hb); try exact Hg.
  - apply NoDup_nodup.
  - intros i e e' He He' Hi E. unfold pt. rewrite (pt_start (S i) (S i) e e' He He' Hi Hi E).
    exact (point_mono m n (st e') k (pr e) (pr e') i (S i) (T_shaped e He) (T_shaped e' He') (Nat.le_succ_diag_r i) Hi (Hsame (S i) e e' He He' Hi E)).
  - intros e e' He He' E. exact (point_first m n (st e') k (pr e) (pr e') (T_shaped e He) (T_shaped e' He') (Hsame 0 e e' He He' ltac:(lia) E)).
  - intros e e' He He' E. exact (point_Ts m n (st e') k (pr e) (pr e') (T_shaped e He) (T_shaped e' He') (Hsame 2 e e' He He' ltac:(lia) E)).
  - intros e e' He He' E. exact (point_opening m n (st e') k (pr e) (pr e') (T_shaped e He) (T_shaped e' He') (Hsame 4 e e' He He' ltac:(lia) E)).
  - intros j e e' He He' Hj E. exact (point_round m n (st e') k j (pr e) (pr e') (T_shaped e He) (T_shaped e' He') Hj (Hsame (5 + j) e e' He He' ltac:(lia) E)).
  - intros e He. exact (T_shaped e He).
  - exists e1, f, t. pose proof He1 as He1'. apply filter_In in He1' as [G1 G2]. split; [exact G1|]. split; [exact G2|]. split; [exact Hwf|].
    intros yn zn un xn w it us Ls Rs a b Hy Hz Hu Hx Hw Hbr.
    destruct (Hb _ _ _ _ _ _ _ _ _ _ _ Hy Hz Hu Hx Hw Hbr) as (e & He & E0 & Ep & Ec). exists e.
    pose proof (pt_start 0 0 e1 e He1 He ltac:(lia) ltac:(lia) E0) as Est.
    apply filter_In in He as [H1 H2]. split; [exact H1|]. split; [exact H2|]. split; [symmetry; exact Est|]. split; [exact Ep|exact Ec].
Qed.
End Game.

(** what follows from a win: with commitments [V x] of a fixed number and a transcript
    that determines them *)
Theorem adaptive_tree {X : Type} (tr : X -> transcript) (prf : X -> r1cs_proof) (V : X -> list G1) g h G H m len n k cs D C mu (A : adversary X) Qn wins :
  let N := next_power_of_two n in
  N = 2 ^ k -> repeats mu C -> NoDup D -> at_most Qn A ->
  (forall O O', In O (oracles D C) -> wins O = true -> In O' (oracles D C) -> wins O' = true ->
     tr (output O A) = tr (output O' A) -> V (output O A) = V (output O' A)) ->
  (forall O, In O (oracles D C) -> wins O = true ->
     let x := output O A in
     length (tr x) = len /\
     accepted_for g h G H (V x) n n cs (prf x) (map O (proof_queries m n (tr x) (prf x))) /\ incl (proof_queries m n (tr x) (prf x)) D) ->
  (Qn + 5 + k) * (mu * Nat.max N (Nat.max (length cs) 7)) * length C ^ length D < length C * length (filter wins (oracles D C)) ->
  exists O0 f t, In O0 (oracles D C) /\ wins O0 = true /\ proof_tree_wf k (length cs) t /\
    each_branch (fun pf c => exists O, In O (oracles D C) /\ wins O = true /\ tr (output O A) = tr (output O0 A) /\
      prf (output O A) = pf /\ map O (proof_queries m n (tr (output O A)) pf) = c) f t /\
    proof_tree_accepted g h G H (V (output O0 A)) n n cs f t.
Proof.
  intros N HN HC HD HA HV Hacc Hcount. unfold N in *. rewrite HN in Hcount. rewrite <- Nat.add_assoc in Hcount.
  destruct (adversary_has_tree tr prf m n k (length cs) len D C A Qn wins mu HC HD HA) as (O0 & f & t & HO0 & HO0' & Hwf & Ht); auto.
  { intros O Hin Hw. apply (accepted_for_shape g h G H (V (output O A)) n n cs _ _ k HN (proj1 (proj2 (Hacc O Hin Hw)))). }
  { intros O Hin Hw. apply (Hacc O Hin Hw). }
  { intros O Hin Hw. apply (Hacc O Hin Hw). }
  exists O0, f, t. split; [exact HO0|]. split; [exact HO0'|]. split; [exact Hwf|]. split.
  - intros yn zn un xn w it us Ls Rs a b Hy Hz Hu Hx Hw Hb.
    destruct (Ht _ _ _ _ _ _ _ _ _ _ _ Hy Hz Hu Hx Hw Hb) as (O & Hin & Hwin & Et & Ep & Ec). exists O. rewrite <- Ep. auto 6.
  - intros yn zn un xn w it us Ls Rs a b Hy Hz Hu Hx Hw Hb.
    destruct (Ht _ _ _ _ _ _ _ _ _ _ _ Hy Hz Hu Hx Hw Hb) as (O & Hin & Hwin & Et & Ep & Ec).
    destruct (Hacc _ Hin Hwin) as (_ & Ha & _). rewrite Ec, Ep in Ha. rewrite (HV O O0 Hin Hwin HO0 HO0' Et) in Ha. exact Ha.
Qed.

Theorem fiat_shamir_tree g h G H V n k cs t0 D C mu (A : adversary r1cs_proof) Qn wins :
  let N := next_power_of_two n in
  let m := length V in
  N = 2 ^ k -> repeats mu C -> NoDup D -> at_most Qn A ->
  (forall O, In O (oracles D C) -> wins O = true ->
     let pf := output O A in
     accepted_for g h G H V n n cs pf (map O (proof_queries m n t0 pf)) /\ incl (proof_queries m n t0 pf) D) ->
  (Qn + 5 + k) * (mu * Nat.max N (Nat.max (length cs) 7)) * length C ^ length D < length C * length (filter wins (oracles D C)) ->
  exists f t, proof_tree_wf k (length cs) t /\
    each_branch (fun pf c => exists O, In O (oracles D C) /\ wins O = true /\ output O A = pf /\
      map O (proof_queries m n t0 pf) = c) f t /\
    proof_tree_accepted g h G H V n n cs f t.
Proof.
  intros N m HN HC HD HA Hacc Hcount.
  destruct (adaptive_tree (fun _ => t0) (fun pf => pf) (fun _ => V) g h G H m (length t0) n k cs D C mu A Qn wins HN HC HD HA)
    as (O0 & f & t & _ & _ & Hwf & Ht & Ha); auto.
  { intros O Hin Hw. split; [reflexivity|]. exact (Hacc O Hin Hw). }
  exists f, t. split; [exact Hwf|]. split; [|exact Ha].
  intros yn zn un xn w it us Ls Rs a b Hy Hz Hu Hx Hw Hb.
  destruct (Ht _ _ _ _ _ _ _ _ _ _ _ Hy Hz Hu Hx Hw Hb) as (O & Hin & Hwin & _ & Ep & Ec). exists O. auto.
Qed.

Theorem fiat_shamir_extraction_repeats g h G H V n k cs M t0 D C mu A Qn wins :
  let N := next_power_of_two n in
  let m := length V in
  N = 2 ^ k -> N <= length G -> N <= length H ->
  Forall (lc_in_range n m) cs -> recovers M m cs -> repeats mu C -> NoDup D -> at_most Qn A ->
  (forall O, In O (oracles D C) -> wins O = true ->
     let pf := output O A in
     accepted_for g h G H V n n cs pf (map O (proof_queries m n t0 pf)) /\ incl (proof_queries m n t0 pf) D) ->
  (Qn + 5 + k) * (mu * Nat.max N (Nat.max (length cs) 7)) * length C ^ length D < length C * length (filter wins (oracles D C)) ->
  exists f t, proof_tree_wf k (length cs) t /\
    each_branch (fun pf c => exists O, In O (oracles D C) /\ wins O = true /\ output O A = pf /\
      map O (proof_queries m n t0 pf) = c) f t /\
    proof_tree_accepted g h G H V n n cs f t /\
    match r1cs_extract n n (length G) (length H) (length V) cs M (tree_scalars t) with
    | Got w => witness_ok g h G H V n n cs f w
    | Broken c => generator_relation (g :: h :: G ++ H) c
    end.
Proof.
  intros N m HN HG HH Hr HM HC HD HA Hacc Hcount.
  destruct (fiat_shamir_tree g h G H V n k cs t0 D C mu A Qn wins HN HC HD HA Hacc Hcount) as (f & t & Hwf & Ht & Ha).
  exists f, t. split; [exact Hwf|]. split; [exact Ht|]. split; [exact Ha|].
  exact (r1cs_extract_ok g h G H V n n k cs HN HG HH (next_power_of_two_ge n) M f t Hr HM Hwf Ha).
Qed.

Theorem fiat_shamir_extraction g h G H V n k cs M t0 D C A Qn wins :
  let N := next_power_of_two n in
  let m := length V in
  N = 2 ^ k -> N <= length G -> N <= length H ->
  Forall (lc_in_range n m) cs -> recovers M m cs -> NoDup C -> NoDup D -> at_most Qn A ->
  (forall O, In O (oracles D C) -> wins O = true ->
     let pf := output O A in
     accepted_for g h G H V n n cs pf (map O (proof_queries m n t0 pf)) /\ incl (proof_queries m n t0 pf) D) ->
  (Qn + 5 + k) * Nat.max N (Nat.max (length cs) 7) * length C ^ length D < length C * length (filter wins (oracles D C)) ->
  exists f t, proof_tree_wf k (length cs) t /\
    each_branch (fun pf c => exists O, In O (oracles D C) /\ wins O = true /\ output O A = pf /\
      map O (proof_queries m n t0 pf) = c) f t /\
    proof_tree_accepted g h G H V n n cs f t /\
    match r1cs_extract n n (length G) (length H) (length V) cs M (tree_scalars t) with
    | Got w => witness_ok g h G H V n n cs f w
    | Broken c => generator_relation (g :: h :: G ++ H) c
    end.
Proof.
  intros N m HN HG HH Hr HM HC HD HA Hacc Hcount.
  apply (fiat_shamir_extraction_repeats g h G H V n k cs M t0 D C 1 A Qn wins HN HG HH Hr HM (repeats_once C HC) HD HA Hacc).
  rewrite Nat.mul_1_l. exact Hcount.
Qed.
End Oracle.
