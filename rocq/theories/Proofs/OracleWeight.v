(** Counting oracles, when not every answer can be bad. *)
From Coq Require Import ZArith String List Lia Bool.
From Verif.Base Require Import Outcome Fp Params Algebra.
From Verif.Model Require Import Transcript IPP Prover.
From Verif.Spec Require Import Games.
From Verif.Proofs Require Import TreeCount OracleCount.
Import ListNotations.

Section OracleWeight.
Context {P : Params} {OK : ParamsOk P}.
Context (C : list F) (bad : query -> oracle -> F -> bool) (w : query -> nat).
Hypothesis bad_fresh : forall q x, looks_at (fun q' => q' <> q) (fun O => bad q O x).
(** the number of bad answers to a question *)
Hypothesis bad_few : forall q O, (length (filter (bad q O) C) <= w q)%nat.

(** whatever the answers, the questions have at most [m] bad answers altogether *)
Fixpoint budget {X} (m : nat) (A : adversary X) {struct A} : Prop :=
  match A with
  | Answer _ => True
  | Ask q k => (w q <= m)%nat /\ forall a, budget (m - w q) (k a)
  end.

Lemma one_bad_weight O D q : NoDup D -> In q D ->
  (cnt C O D (fun O' => bad q O' (O' q)) <= w q * length C ^ length (remove query_eq_dec q D))%nat.
Proof.
  intros Hn Hq. set (bad' := fun q' O' x => if query_eq_dec q' q then bad q' O' x else false).
  assert (F1 : forall q' x, looks_at (fun q'' => q'' <> q') (fun O' => bad' q' O' x)).
  { intros q' x O1 O2 HO. unfold bad'. destruct (query_eq_dec q' q); [|reflexivity]. apply (bad_fresh q' x); exact HO. }
  assert (F2 : forall q' O', (length (filter (bad' q' O') C) <= w q)%nat).
  { intros q' O'. unfold bad'. destruct (query_eq_dec q' q) as [->|]; [apply bad_few|].
    clear. induction C as [|a l IH]; [cbn; lia|exact IH]. }
  pose proof (one_bad C bad' (w q) F1 F2 O D q Hn Hq) as X. unfold bad' in X.
  destruct (query_eq_dec q q); [exact X|congruence].
Qed.

Theorem hits_weighted {X} (A : adversary X) : forall m D O, budget m A -> NoDup D ->
  (length C * cnt C O D (hits bad D A) <= m * length C ^ length D)%nat.
Proof.
  induction A as [pf|q k IH]; intros m D O Hm Hn.
  - replace (cnt C O D (hits bad D (Answer pf))) with 0%nat; [lia|]. unfold cnt.
    change (hits bad D (Answer pf)) with (fun _ : oracle => false).
    induction (oracles_from O D C) as [|a l IHl]; [reflexivity|exact IHl].
  - cbn [budget] in Hm. destruct Hm as [Hw Hm].
    destruct (in_dec query_eq_dec q D) as [Hq|Hq].
    + set (D' := remove query_eq_dec q D). assert (HD' : ~ In q D') by apply remove_In.
      pose proof (remove_query_length D q Hn Hq) as HL. fold D' in HL.
      assert (H1 : (cnt C O D (hits bad D (Ask q k)) <=
        cnt C O D (fun O' => bad q O' (O' q)) + cnt C O D (fun O' => hits bad D' (k (O' q)) O'))%nat).
      { etransitivity; [|apply cnt_or]. apply cnt_le. intros O' _ Hh. apply orb_true_iff.
        destruct (bad q O' (O' q)) eqn:Eb; [left; reflexivity|right].
        unfold hits in *. cbn [asked existsb] in Hh. rewrite Eb, andb_false_r in Hh. cbn [orb] in Hh.
        apply existsb_exists in Hh as (q' & Hin & Hb). apply existsb_exists. exists q'. split; [exact Hin|].
        apply andb_true_iff in Hb as [Hm' Hb]. apply andb_true_iff. split; [|exact Hb]. apply mem_ok in Hm'. apply mem_ok.
        apply in_in_remove; [|exact Hm']. intros ->. congruence. }
      pose proof (one_bad_weight O D q Hn Hq) as H2. fold D' in H2.
      assert (H3 : (length C * cnt C O D (fun O' => hits bad D' (k (O' q)) O') <= length C * ((m - w q) * length C ^ length D'))%nat).
      { rewrite (cnt_first C D _) with (q := q); [|intros O1 O2 HO; rewrite (HO q I); apply hits_looks; auto|exact Hn|exact Hq].
        fold D'. rewrite Nat.mul_comm, <- sum_over_mul, <- sum_over_const. apply sum_over_le. intros x Hx.
        rewrite Nat.mul_comm. etransitivity; [|apply (IH x (m - w q)%nat D' (set_answer O q x)); [apply Hm|apply remove_query_NoDup, Hn]].
        apply Nat.mul_le_mono_l, cnt_le. intros O' Hin.
        rewrite (oracles_outside C D' _ _ q Hin HD'), set_same. auto. }
      rewrite HL. cbn [Nat.pow]. set (p := (length C ^ length D')%nat) in *. set (c := length C) in *.
      set (a := cnt C O D (hits bad D (Ask q k))) in *. set (b := cnt C O D (fun O' => bad q O' (O' q))) in *.
      set (d := cnt C O D (fun O' => hits bad D' (k (O' q)) O')) in *.
      transitivity (c * b + c * d)%nat; [nia|]. transitivity (c * (w q * p) + c * ((m - w q) * p))%nat; [nia|].
      replace (m * (c * p))%nat with ((w q + (m - w q)) * (c * p))%nat by (f_equal; lia). nia.
    + assert (H1 : (cnt C O D (hits bad D (Ask q k)) <= cnt C O D (hits bad D (k (O q))))%nat).
      { apply cnt_le. intros O' Hin Hh. unfold hits in *. cbn [asked existsb] in Hh.
        rewrite (oracles_outside C D _ _ q Hin Hq) in Hh.
        assert (Em : mem q D = false). { destruct (mem q D) eqn:Em; [|reflexivity]. apply mem_ok in Em. contradiction. }
        rewrite Em in Hh. exact Hh. }
      pose proof (IH (O q) (m - w q)%nat D O (Hm _) Hn). nia.
Qed.
End OracleWeight.
