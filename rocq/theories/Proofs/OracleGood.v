(** A non-interactive prover that wins for enough oracles wins along a tree of
    challenges, whatever the questions that the verifier asks, as long as each of them
    determines the earlier ones. *)
From Coq Require Import ZArith String List Lia Bool.
From Verif.Base Require Import Outcome Fp Params Algebra.
From Verif.Model Require Import Transcript LinComb IPP Prover.
From Verif.Spec Require Import Games.
From Verif.Proofs Require Import IPPProofs TreeCount OracleCount QueryProofs.
Import ListNotations.
Local Notation length := List.length.

Section Game.
Context {P : Params} {OK : ParamsOk P}.
(** [pts x]: the questions of the verifier for the output [x] *)
Context {X : Type} (pts : X -> list query) (Ks : list nat) (Kmax : nat).
Context (D : list query) (C : list F) (A : adversary X) (Qn : nat) (wins : oracle -> bool).
Let L := length Ks.
Let T := filter wins (oracles D C).
Let ps (e : oracle) := pts (output e A).
Let ch (e : oracle) := map e (ps e).
Let pt (i : nat) (e : oracle) := nth i (ps e) no_query.

Hypothesis HD : NoDup D.
Hypothesis HA : at_most Qn A.
Hypothesis Ks_max : forall K, In K Ks -> K <= Kmax.
Hypothesis Hlen : forall e, In e T -> length (ps e) = L.
Hypothesis Hpts : forall e e' i j, In e T -> In e' T -> i < L -> j < L -> pt i e = pt j e' ->
  i = j /\ firstn i (ps e) = firstn i (ps e').
Hypothesis HinD : forall e, In e T -> incl (ps e) D.

Local Notation luck := (lucky pt query_eq_dec ch T C).
Definition bad (p : query) (O : oracle) (x : F) : bool :=
  existsb (fun e => existsb (fun i => (if query_eq_dec (pt i e) p then true else false) &&
    luck (nth i Ks 0) (skipn (S i) Ks) i e (map O (firstn i (ps e))) x) (seq 0 L)) T.

Lemma bad_true p O x : bad p O x = true <-> exists e i, In e T /\ i < L /\ pt i e = p /\
  luck (nth i Ks 0) (skipn (S i) Ks) i e (map O (firstn i (ps e))) x = true.
Proof.
  unfold bad. rewrite existsb_exists. split.
  - intros (e & He & Hb). apply existsb_exists in Hb as (i & Hi & Hb). apply in_seq in Hi.
    apply andb_true_iff in Hb as [E1 E2]. destruct (query_eq_dec (pt i e) p); [|discriminate]. exists e, i. repeat split; auto; lia.
  - intros (e & i & He & Hi & Hp & Hl). exists e. split; [exact He|]. apply existsb_exists. exists i.
    split; [apply in_seq; lia|]. destruct (query_eq_dec (pt i e) p); [|contradiction]. exact Hl.
Qed.

Lemma earlier_points e i p' : In e T -> i < L -> In p' (firstn i (ps e)) -> p' <> pt i e.
Proof.
  intros He Hi Hin E.
  apply (In_nth _ _ no_query) in Hin as (j & Hj & Ej). rewrite firstn_length, Hlen in Hj by exact He.
  rewrite nth_firstn_lt in Ej by lia. change (pt j e = p') in Ej. subst p'.
  destruct (Hpts e e j i) as [E' _]; auto; lia.
Qed.

Lemma bad_fresh p x : looks_at (fun p' => p' <> p) (fun O => bad p O x).
Proof.
  assert (Himp : forall O O', (forall p', p' <> p -> O p' = O' p') -> bad p O x = true -> bad p O' x = true).
  { intros O O' HO Hb. apply bad_true in Hb as (e & i & He & Hi & Hp & Hl). apply bad_true. exists e, i.
    repeat split; auto. rewrite (map_ext_in _ O); [exact Hl|]. intros p' Hin. symmetry. apply HO. rewrite <- Hp.
    apply (earlier_points e i p' He Hi Hin). }
  intros O O' HO. destruct (bad p O x) eqn:E1, (bad p O' x) eqn:E2; try reflexivity; exfalso.
  - apply (Himp O O' HO) in E1. congruence.
  - apply (Himp O' O) in E2; [congruence|]. intros p' Hp. symmetry. apply HO, Hp.
Qed.

Lemma bad_few p O : length (filter (bad p O) C) <= Kmax.
Proof.
  destruct (filter (bad p O) C) as [|x0 l0] eqn:Ef; [cbn; lia|].
  assert (Hx0 : In x0 (filter (bad p O) C)) by (rewrite Ef; left; reflexivity). rewrite <- Ef. clear Ef l0.
  apply filter_In in Hx0 as [_ Hx0]. apply bad_true in Hx0 as (e0 & i0 & He0 & Hi0 & Hp0 & _).
  etransitivity; [|apply (Ks_max (nth i0 Ks 0)), nth_In, Hi0].
  etransitivity; [|apply (lucky_few pt query_eq_dec ch T C (nth i0 Ks 0) (skipn (S i0) Ks) i0 e0 (map O (firstn i0 (ps e0))))].
  rewrite !filter_as_sum. apply sum_over_le. intros x _. destruct (bad p O x) eqn:Eb; [|lia].
  apply bad_true in Eb as (e & i & He & Hi & Hp & Hl).
  destruct (Hpts e e0 i i0 He He0 Hi Hi0) as [Ei Eq]; [congruence|]. subst i.
  rewrite Eq in Hl. rewrite (lucky_same pt query_eq_dec ch T C _ _ i0 e e0) in Hl by congruence.
  rewrite Hl. apply le_n.
Qed.

(** the adversary, followed by the questions the verifier asks *)
Fixpoint ask_all (l : list query) (pf : X) : adversary X :=
  match l with [] => Answer pf | p :: l => Ask p (fun _ => ask_all l pf) end.
Fixpoint then_verify (B : adversary X) : adversary X :=
  match B with
  | Answer pf => ask_all (firstn L (pts pf)) pf
  | Ask p f => Ask p (fun x => then_verify (f x))
  end.
Lemma ask_all_asked l pf O : asked O (ask_all l pf) = l.
Proof. induction l as [|p l IH]; [reflexivity|]. cbn. f_equal. exact IH. Qed.
Lemma ask_all_most l pf : at_most (length l) (ask_all l pf).
Proof. induction l as [|p l IH]; cbn [length ask_all at_most]; auto. Qed.
Lemma at_most_le (B : adversary X) : forall a b, a <= b -> at_most a B -> at_most b B.
Proof.
  induction B as [pf|p f IH]; intros a b Hab Ha; [exact I|]. destruct a as [|a]; [destruct Ha|]. destruct b as [|b]; [lia|].
  cbn [at_most] in *. intros x. apply (IH x a b); [lia|apply Ha].
Qed.
Lemma then_verify_asked B : forall O, asked O (then_verify B) = asked O B ++ firstn L (pts (output O B)).
Proof.
  induction B as [pf|p f IH]; intros O; cbn [then_verify asked output app]; [apply ask_all_asked|]. f_equal. apply IH.
Qed.
Lemma then_verify_most B : forall a, at_most a B -> at_most (a + L) (then_verify B).
Proof.
  induction B as [pf|p f IH]; intros a Ha; cbn [then_verify].
  - apply (at_most_le _ (length (firstn L (pts pf)))); [rewrite firstn_length; lia|apply ask_all_most].
  - destruct a as [|a]; [destruct Ha|]. cbn [at_most Nat.add] in *. intros x. apply IH, Ha.
Qed.

Theorem adversary_good O0 :
  (Qn + L) * Kmax * length C ^ length D < length C * length (filter wins (oracles D C)) ->
  good pt query_eq_dec ch T C Ks 0 O0 [] = true.
Proof.
  intros Hcount. destruct (good pt query_eq_dec ch T C Ks 0 O0 []) eqn:Hg; [reflexivity|exfalso].
  pose proof (hits_count C bad Kmax bad_fresh bad_few (then_verify A) (Qn + L) D (fun _ => fzero modulus) (then_verify_most A Qn HA) HD) as Hc.
  assert (Hle : length (filter wins (oracles D C)) <= cnt C (fun _ => fzero modulus) D (hits bad D (then_verify A))).
  { change (length (filter wins (oracles D C))) with (cnt C (fun _ => fzero modulus) D wins). apply cnt_le. intros O Hin Hw.
    assert (HT : In O T) by (apply filter_In; auto).
    assert (Hl : length (ch O) = L) by (unfold ch; rewrite map_length; apply Hlen, HT).
    assert (Hg' : good pt query_eq_dec ch T C Ks 0 O [] = false).
    { rewrite (good_same pt query_eq_dec ch T C Ks 0 O O0 [] eq_refl). exact Hg. }
    destruct (win_lucky pt query_eq_dec ch T C Ks 0 O [] HT eq_refl eq_refl Hl Hg') as (j & K & Ks' & E1 & E2 & E3).
    assert (Hj : j < L) by (apply nth_error_Some; rewrite E1; discriminate).
    cbn [Nat.add] in E3. unfold hits. apply existsb_exists. exists (pt j O). split.
    - rewrite then_verify_asked. apply in_or_app. right. unfold pt.
      rewrite firstn_all2 by (change (length (ps O) <= L); rewrite Hlen by exact HT; lia).
      apply nth_In. change (j < length (ps O)). rewrite Hlen by exact HT. exact Hj.
    - apply andb_true_iff. split.
      + apply mem_ok. apply (HinD O HT). apply nth_In. rewrite Hlen by exact HT. exact Hj.
      + apply bad_true. exists O, j. split; [exact HT|]. split; [exact Hj|]. split; [reflexivity|].
        rewrite (nth_error_nth Ks j 0 E1). rewrite <- E2.
        replace (map O (firstn j (ps O))) with (firstn j (ch O)) by (unfold ch; apply firstn_map).
        replace (O (pt j O)) with (nth j (ch O) 0%fe); [exact E3|].
        unfold ch. rewrite (nth_indep _ 0%fe (O no_query)) by (rewrite map_length, Hlen by exact HT; exact Hj).
        rewrite map_nth. reflexivity. }
  nia.
Qed.
End Game.
