(** Counting oracles: whoever asks [m] questions meets one of few bad answers
    for few oracles only. *)
From Coq Require Import ZArith String List Lia Bool.
From Verif.Base Require Import Outcome Fp Params Algebra.
From Verif.Model Require Import Transcript IPP Prover.
From Verif.Spec Require Import Games.
From Verif.Proofs Require Import TreeCount.
Import ListNotations.

Section OracleCount.
Context {P : Params} {OK : ParamsOk P}.
Local Open Scope fe_scope.
Context (C : list F).

Lemma set_same O q x : set_answer O q x q = x.
Proof. unfold set_answer. destruct (query_eq_dec q q); congruence. Qed.
Lemma set_other O q x q' : q' <> q -> set_answer O q x q' = O q'.
Proof. intros Hne. unfold set_answer. destruct (query_eq_dec q' q); congruence. Qed.

Lemma oracles_outside D : forall O O' q, In O' (oracles_from O D C) -> ~ In q D -> O' q = O q.
Proof.
  induction D as [|d D IH]; intros O O' q Hin Hq; cbn in Hin.
  - destruct Hin as [<-|[]]. reflexivity.
  - apply in_flat_map in Hin as (x & _ & Hin). rewrite (IH _ _ q Hin) by (intros Hx; apply Hq; right; exact Hx).
    apply set_other. intros ->. apply Hq. left. reflexivity.
Qed.
Lemma oracles_inside D : forall O O' q, NoDup D -> In O' (oracles_from O D C) -> In q D -> In (O' q) C.
Proof.
  induction D as [|d D IH]; intros O O' q Hn Hin Hq; cbn in Hin; [destruct Hq|].
  apply in_flat_map in Hin as (x & Hx & Hin). inversion Hn as [|? ? Hd Hn']; subst.
  destruct Hq as [<-|Hq]; [|eapply IH; eauto]. rewrite (oracles_outside D _ _ d Hin Hd), set_same. exact Hx.
Qed.
Lemma oracles_vectors D : forall O, NoDup D -> map (fun O' => map O' D) (oracles_from O D C) = vectors C (length D).
Proof.
  induction D as [|d D IH]; intros O Hn; [reflexivity|]. inversion Hn as [|? ? Hd Hn']; subst. cbn [oracles_from vectors length].
  rewrite !flat_map_concat_map, concat_map, map_map. f_equal. apply map_ext_in. intros x _.
  rewrite <- (IH (set_answer O d x) Hn'), map_map. apply map_ext_in. intros O' HO. cbn [map]. f_equal.
  rewrite (oracles_outside D _ _ d HO Hd). apply set_same.
Qed.
Lemma oracles_length D : forall O, length (oracles_from O D C) = (length C ^ length D)%nat.
Proof.
  induction D as [|d D IH]; intros O; [reflexivity|]. cbn [oracles_from length Nat.pow].
  transitivity (sum_over (flat_map (fun x => oracles_from (set_answer O d x) D C) C) (fun _ => 1%nat)).
  { rewrite sum_over_const. lia. }
  rewrite sum_over_flat_map. rewrite (sum_over_ext C _ (fun _ => length C ^ length D)%nat).
  - apply sum_over_const.
  - intros x _. rewrite sum_over_const, IH. lia.
Qed.

Definition cnt (O : oracle) (D : list query) (p : oracle -> bool) : nat := length (filter p (oracles_from O D C)).

Lemma cnt_cons O q D p : cnt O (q :: D) p = sum_over C (fun x => cnt (set_answer O q x) D p).
Proof.
  unfold cnt. cbn [oracles_from]. rewrite filter_as_sum, sum_over_flat_map. apply sum_over_ext. intros x _.
  rewrite filter_as_sum. reflexivity.
Qed.

Lemma cnt_le O D p p' : (forall O', In O' (oracles_from O D C) -> p O' = true -> p' O' = true) -> (cnt O D p <= cnt O D p')%nat.
Proof.
  unfold cnt. intros Hp. rewrite !filter_as_sum. apply sum_over_le. intros O' Hin. specialize (Hp O' Hin).
  destruct (p O'); [rewrite Hp; [apply le_n|reflexivity]|]. destruct (p' O'); lia.
Qed.
Lemma cnt_or O D p p' : (cnt O D (fun O' => p O' || p' O') <= cnt O D p + cnt O D p')%nat.
Proof.
  unfold cnt. rewrite !filter_as_sum, <- sum_over_add. apply sum_over_le. intros O' _. destruct (p O'), (p' O'); cbn; lia.
Qed.

(** [p] does not look at the answers to questions outside [S] *)
Definition looks_at (S : query -> Prop) (p : oracle -> bool) : Prop :=
  forall O O', (forall q, S q -> O q = O' q) -> p O = p O'.

Lemma cnt_base S D p : looks_at S p -> forall O O', (forall q, S q -> O q = O' q) -> cnt O D p = cnt O' D p.
Proof.
  intros Hp. induction D as [|d D IH]; intros O O' HO.
  - unfold cnt. cbn. rewrite (Hp O O' HO). destruct (p O'); reflexivity.
  - rewrite !cnt_cons. apply sum_over_ext. intros x _. apply IH. intros q Hq. unfold set_answer.
    destruct (query_eq_dec q d); [reflexivity|]. apply HO, Hq.
Qed.

Lemma cnt_first D p : looks_at (fun _ => True) p -> forall O q, NoDup D -> In q D ->
  cnt O D p = sum_over C (fun x => cnt (set_answer O q x) (remove query_eq_dec q D) p).
Proof.
  intros Hp. induction D as [|d D IH]; intros O q Hn Hq; [destruct Hq|].
  inversion Hn as [|? ? Hd Hn']; subst. cbn [remove]. destruct (query_eq_dec q d) as [->|Hne].
  - rewrite notin_remove by exact Hd. apply cnt_cons.
  - destruct Hq as [E|Hq]; [congruence|]. rewrite cnt_cons.
    rewrite (sum_over_ext C _ (fun x => sum_over C (fun y => cnt (set_answer (set_answer O d x) q y) (remove query_eq_dec q D) p)))
      by (intros x _; apply IH; assumption).
    rewrite sum_over_swap. apply sum_over_ext. intros y _. rewrite cnt_cons. apply sum_over_ext. intros x _.
    apply (cnt_base (fun _ => True)); [exact Hp|]. intros q' _. unfold set_answer.
    destruct (query_eq_dec q' q), (query_eq_dec q' d); congruence.
Qed.

Lemma remove_query_length D q : NoDup D -> In q D -> length D = S (length (remove query_eq_dec q D)).
Proof.
  induction D as [|d D IH]; intros Hn Hq; [destruct Hq|]. inversion Hn as [|? ? Hd Hn']; subst. cbn [remove].
  destruct (query_eq_dec q d) as [->|Hne].
  - rewrite notin_remove by exact Hd. reflexivity.
  - cbn [length]. f_equal. apply IH; [exact Hn'|]. destruct Hq as [E|Hq]; [congruence|exact Hq].
Qed.
Lemma remove_query_NoDup D q : NoDup D -> NoDup (remove query_eq_dec q D).
Proof.
  induction D as [|d D IH]; intros Hn; [constructor|]. inversion Hn as [|? ? Hd Hn']; subst. cbn [remove].
  destruct (query_eq_dec q d); [auto|]. constructor; [|auto]. intros Hin. apply in_remove in Hin. tauto.
Qed.

Lemma asked_ext {X} (A : adversary X) : forall O O', (forall q, O q = O' q) -> asked O A = asked O' A.
Proof. induction A as [pf|q k IH]; intros O O' HO; [reflexivity|]. cbn [asked]. rewrite (HO q). f_equal. apply IH, HO. Qed.
Lemma output_ext {X} (A : adversary X) : forall O O', (forall q, O q = O' q) -> output O A = output O' A.
Proof. induction A as [pf|q k IH]; intros O O' HO; [reflexivity|]. cbn [output]. rewrite (HO q). apply IH, HO. Qed.

Section Bad.
Context (bad : query -> oracle -> F -> bool) (K : nat).
(** whether an answer is bad does not depend on the answer the oracle gives *)
Hypothesis bad_fresh : forall q x, looks_at (fun q' => q' <> q) (fun O => bad q O x).
Hypothesis bad_few : forall q O, (length (filter (bad q O) C) <= K)%nat.

Definition mem (q : query) (D : list query) : bool := if in_dec query_eq_dec q D then true else false.
Lemma mem_ok q D : mem q D = true <-> In q D.
Proof. unfold mem. destruct (in_dec _ q D); split; congruence || tauto. Qed.

(** one of the questions asked, among those in [D], gets a bad answer *)
Definition hits {X} (D : list query) (A : adversary X) (O : oracle) : bool :=
  existsb (fun q => mem q D && bad q O (O q)) (asked O A).

Lemma bad_ext q x O O' : (forall q', O q' = O' q') -> bad q O x = bad q O' x.
Proof. intros HO. apply (bad_fresh q x). intros q' _. apply HO. Qed.
Lemma hits_looks {X} D (A : adversary X) : looks_at (fun _ => True) (hits D A).
Proof.
  intros O O' HO. unfold hits. rewrite (asked_ext A O O') by auto. apply existsb_ext_all. intros q.
  rewrite (HO q I). rewrite (bad_ext q (O' q) O O') by auto. reflexivity.
Qed.

Lemma one_bad O D q : NoDup D -> In q D ->
  (cnt O D (fun O' => bad q O' (O' q)) <= K * length C ^ length (remove query_eq_dec q D))%nat.
Proof.
  intros Hn Hq. set (D' := remove query_eq_dec q D). assert (HD' : ~ In q D') by apply remove_In.
  rewrite (cnt_first D _) with (q := q); [|intros O1 O2 HO; rewrite (HO q I); apply bad_ext; auto|exact Hn|exact Hq].
  fold D'.
  transitivity (sum_over C (fun x => cnt O D' (fun O' => bad q O' x))).
  { apply sum_over_le. intros x Hx.
    rewrite <- (cnt_base (fun q' => q' <> q) D' (fun O' => bad q O' x) (bad_fresh q x) (set_answer O q x) O)
      by (intros q' Hne; apply set_other, Hne).
    apply cnt_le. intros O' Hin. rewrite (oracles_outside D' _ _ q Hin HD'), set_same. auto. }
  unfold cnt. rewrite (sum_over_ext C _ (fun x => sum_over (oracles_from O D' C) (fun O' => if bad q O' x then 1 else 0)%nat))
    by (intros x _; apply filter_as_sum).
  rewrite sum_over_swap. rewrite <- oracles_length with (O := O). rewrite Nat.mul_comm, <- sum_over_const.
  apply sum_over_le. intros O' _. rewrite <- filter_as_sum. apply bad_few.
Qed.

Theorem hits_count {X} (A : adversary X) : forall m D O, at_most m A -> NoDup D ->
  (length C * cnt O D (hits D A) <= m * K * length C ^ length D)%nat.
Proof.
  induction A as [pf|q k IH]; intros m D O Hm Hn.
  - replace (cnt O D (hits D (Answer pf))) with 0%nat; [lia|]. unfold cnt.
    change (hits D (Answer pf)) with (fun _ : oracle => false).
    induction (oracles_from O D C) as [|a l IHl]; [reflexivity|exact IHl].
  - destruct m as [|m]; [destruct Hm|]. cbn [at_most] in Hm.
    destruct (in_dec query_eq_dec q D) as [Hq|Hq].
    + set (D' := remove query_eq_dec q D). assert (HD' : ~ In q D') by apply remove_In.
      pose proof (remove_query_length D q Hn Hq) as HL. fold D' in HL.
      assert (H1 : (cnt O D (hits D (Ask q k)) <=
        cnt O D (fun O' => bad q O' (O' q)) + cnt O D (fun O' => hits D' (k (O' q)) O'))%nat).
      { etransitivity; [|apply cnt_or]. apply cnt_le. intros O' _ Hh. apply orb_true_iff.
        destruct (bad q O' (O' q)) eqn:Eb; [left; reflexivity|right].
        unfold hits in *. cbn [asked existsb] in Hh. rewrite Eb, andb_false_r in Hh. cbn [orb] in Hh.
        apply existsb_exists in Hh as (q' & Hin & Hb). apply existsb_exists. exists q'. split; [exact Hin|].
        apply andb_true_iff in Hb as [Hm' Hb]. apply andb_true_iff. split; [|exact Hb]. apply mem_ok in Hm'. apply mem_ok.
        apply in_in_remove; [|exact Hm']. intros ->. congruence. }
      pose proof (one_bad O D q Hn Hq) as H2. fold D' in H2.
      assert (H3 : (length C * cnt O D (fun O' => hits D' (k (O' q)) O') <= length C * (m * K * length C ^ length D'))%nat).
      { rewrite (cnt_first D _) with (q := q); [|intros O1 O2 HO; rewrite (HO q I); apply hits_looks; auto|exact Hn|exact Hq].
        fold D'. rewrite Nat.mul_comm, <- sum_over_mul, <- sum_over_const. apply sum_over_le. intros x Hx.
        rewrite Nat.mul_comm. etransitivity; [|apply (IH x m D' (set_answer O q x)); [apply Hm|apply remove_query_NoDup, Hn]].
        apply Nat.mul_le_mono_l, cnt_le. intros O' Hin.
        rewrite (oracles_outside D' _ _ q Hin HD'), set_same. auto. }
      rewrite HL. cbn [Nat.pow]. nia.
    + assert (H1 : (cnt O D (hits D (Ask q k)) <= cnt O D (hits D (k (O q))))%nat).
      { apply cnt_le. intros O' Hin Hh. unfold hits in *. cbn [asked existsb] in Hh.
        rewrite (oracles_outside D _ _ q Hin Hq) in Hh.
        assert (Em : mem q D = false). { destruct (mem q D) eqn:Em; [|reflexivity]. apply mem_ok in Em. contradiction. }
        rewrite Em in Hh. exact Hh. }
      pose proof (IH (O q) m D O (Hm _) Hn). nia.
Qed.
End Bad.
End OracleCount.
