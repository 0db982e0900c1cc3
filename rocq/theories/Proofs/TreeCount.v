(** Counting: a prover that wins often enough has won on all branches of a tree. *)
From Coq Require Import ZArith List Lia Bool.
From Verif.Base Require Import Outcome Fp Params Algebra.
From Verif.Spec Require Import Challenges.
Import ListNotations.

(** *** Sums over lists *)
Definition sum_over {A} (l : list A) (f : A -> nat) : nat := list_sum (map f l).

Lemma sum_over_cons {A} a (l : list A) f : sum_over (a :: l) f = (f a + sum_over l f)%nat.
Proof. reflexivity. Qed.
Lemma sum_over_le {A} (l : list A) f g : (forall a, In a l -> (f a <= g a)%nat) -> (sum_over l f <= sum_over l g)%nat.
Proof.
  induction l as [|a l IH]; intros Hl; [apply le_n|]. rewrite !sum_over_cons.
  pose proof (Hl a (or_introl eq_refl)). pose proof (IH (fun b Hb => Hl b (or_intror Hb))). lia.
Qed.
Lemma sum_over_ext {A} (l : list A) f g : (forall a, In a l -> f a = g a) -> sum_over l f = sum_over l g.
Proof. intros Hl. unfold sum_over. f_equal. apply map_ext_in. exact Hl. Qed.
Lemma sum_over_const {A} (l : list A) c : sum_over l (fun _ => c) = (length l * c)%nat.
Proof. induction l as [|a l IH]; [reflexivity|]. rewrite sum_over_cons, IH. cbn [length]. lia. Qed.
Lemma sum_over_add {A} (l : list A) f g : sum_over l (fun a => (f a + g a)%nat) = (sum_over l f + sum_over l g)%nat.
Proof. induction l as [|a l IH]; [reflexivity|]. rewrite !sum_over_cons, IH. lia. Qed.
Lemma sum_over_mul {A} (l : list A) f c : sum_over l (fun a => (f a * c)%nat) = (sum_over l f * c)%nat.
Proof. induction l as [|a l IH]; [reflexivity|]. rewrite !sum_over_cons, IH. lia. Qed.
Lemma sum_over_swap {A B} (l : list A) (m : list B) f :
  sum_over l (fun a => sum_over m (f a)) = sum_over m (fun b => sum_over l (fun a => f a b)).
Proof.
  induction l as [|a l IH].
  - cbn. symmetry. etransitivity; [apply sum_over_const|]. lia.
  - rewrite sum_over_cons, IH, <- sum_over_add. apply sum_over_ext. intros b _. rewrite sum_over_cons. reflexivity.
Qed.
Lemma filter_as_sum {A} (l : list A) (p : A -> bool) : length (filter p l) = sum_over l (fun a => if p a then 1 else 0)%nat.
Proof. induction l as [|a l IH]; [reflexivity|]. rewrite sum_over_cons, <- IH. cbn [filter]. destruct (p a); reflexivity. Qed.
Lemma sum_over_app {A} (l l' : list A) f : sum_over (l ++ l') f = (sum_over l f + sum_over l' f)%nat.
Proof. unfold sum_over. rewrite map_app, list_sum_app. reflexivity. Qed.
Lemma sum_over_flat_map {A B} (l : list A) (m : A -> list B) f :
  sum_over (flat_map m l) f = sum_over l (fun a => sum_over (m a) f).
Proof. induction l as [|a l IH]; [reflexivity|]. cbn [flat_map]. rewrite sum_over_app, IH. reflexivity. Qed.
Lemma sum_over_map {A B} (l : list A) (m : A -> B) f : sum_over (map m l) f = sum_over l (fun a => f (m a)).
Proof. unfold sum_over. rewrite map_map. reflexivity. Qed.

(** at most [K] elements weigh [a], the others [b] *)
Lemma sum_over_split {A} (l : list A) (p : A -> bool) f K a b :
  (length (filter p l) <= K)%nat ->
  (forall x, In x l -> p x = true -> (f x <= a)%nat) -> (forall x, In x l -> p x = false -> (f x <= b)%nat) ->
  (sum_over l f <= K * a + length l * b)%nat.
Proof.
  intros HK Ha Hb.
  assert (E : (sum_over l f <= length (filter p l) * a + length l * b)%nat).
  { clear HK. induction l as [|x l IH]; [cbn; lia|]. rewrite sum_over_cons. cbn [filter length].
    pose proof (IH (fun y Hy => Ha y (or_intror Hy)) (fun y Hy => Hb y (or_intror Hy))).
    pose proof (Ha x (or_introl eq_refl)). pose proof (Hb x (or_introl eq_refl)).
    destruct (p x); cbn [length]; [specialize (H0 eq_refl)|specialize (H1 eq_refl)]; lia. }
  etransitivity; [exact E|]. apply Nat.add_le_mono_r, Nat.mul_le_mono_r, HK.
Qed.

(** *** Trees of wins *)
Section Good.
Context {P : Params} {OK : ParamsOk P}.
(** the wins: for each, the challenges [ch], and what the prover had sent
    before challenge number [i], summarised by [pt i] *)
Context {E X : Type} (pt : nat -> E -> X) (X_dec : forall a b : X, {a = b} + {a <> b}).
Context (ch : E -> list F) (T : list E) (C : list F).

Definition same_before (i : nat) (e e' : E) : bool :=
  match i with O => true | S j => if X_dec (pt j e) (pt j e') then true else false end.

Lemma same_before_refl i e : same_before i e e = true.
Proof. destruct i as [|j]; [reflexivity|]. cbn. destruct (X_dec _ _); congruence. Qed.
Lemma same_before_sym i e e' : same_before i e e' = same_before i e' e.
Proof. destruct i as [|j]; [reflexivity|]. cbn. do 2 destruct (X_dec _ _); congruence. Qed.
Lemma same_before_trans i e e' e'' : same_before i e e' = true -> same_before i e e'' = same_before i e' e''.
Proof. destruct i as [|j]; [reflexivity|]. cbn. do 3 destruct (X_dec _ _); congruence. Qed.
Lemma same_before_S i e e' : same_before (S i) e e' = true <-> pt i e = pt i e'.
Proof. cbn. destruct (X_dec _ _); split; congruence. Qed.

Definition chals_eqb (a b : list F) : bool := if list_eq_dec (Fp_eq_dec modulus) a b then true else false.
Lemma chals_eqb_ok a b : chals_eqb a b = true <-> a = b.
Proof. unfold chals_eqb. destruct (list_eq_dec _ a b); split; congruence. Qed.

(** Below the node reached by the challenges [c], with the prover's messages of
    [e], there is a tree of wins: more than [K] children at every level. *)
Fixpoint good (Ks : list nat) (i : nat) (e : E) (c : list F) : bool :=
  match Ks with
  | [] => existsb (fun e' => same_before i e e' && chals_eqb (ch e') c) T
  | K :: Ks => existsb (fun e' => same_before i e e' &&
      Nat.ltb K (length (filter (fun x => good Ks (S i) e' (c ++ [x])) C))) T
  end.
(** the same after the prover has sent its next message, that of [e] *)
Definition good_children (K : nat) (Ks : list nat) (i : nat) (e : E) (c : list F) : bool :=
  Nat.ltb K (length (filter (fun x => good Ks (S i) e (c ++ [x])) C)).

Lemma existsb_ext_all {A} (f g : A -> bool) l : (forall a, f a = g a) -> existsb f l = existsb g l.
Proof. intros Hfg. induction l as [|a l IH]; [reflexivity|]. cbn. rewrite Hfg, IH. reflexivity. Qed.

Lemma good_same Ks i e e' c : same_before i e e' = true -> good Ks i e c = good Ks i e' c.
Proof.
  intros Hs. destruct Ks; cbn [good]; apply existsb_ext_all; intros a;
    rewrite (same_before_trans i e e' a Hs); reflexivity.
Qed.
Lemma good_children_same K Ks i e e' c : pt i e = pt i e' -> good_children K Ks i e c = good_children K Ks i e' c.
Proof.
  intros Hs. unfold good_children. do 2 f_equal. apply filter_ext. intros x. apply good_same, same_before_S, Hs.
Qed.

Lemma good_nil i e c : good [] i e c = true <-> exists e', In e' T /\ same_before i e e' = true /\ ch e' = c.
Proof.
  cbn [good]. rewrite existsb_exists. split; intros (e' & Hin & E1); exists e'.
  - apply andb_true_iff in E1 as [E1 E2]. apply chals_eqb_ok in E2. auto.
  - destruct E1 as [E1 E2]. split; [exact Hin|]. rewrite E1. apply chals_eqb_ok, E2.
Qed.
Lemma good_cons K Ks i e c : good (K :: Ks) i e c = true <->
  exists e', In e' T /\ same_before i e e' = true /\ good_children K Ks i e' c = true.
Proof.
  cbn [good]. rewrite existsb_exists. split; intros (e' & Hin & E1); exists e'.
  - apply andb_true_iff in E1. tauto.
  - split; [exact Hin|]. apply andb_true_iff. exact E1.
Qed.
Lemma good_children_ok K Ks i e c : NoDup C -> good_children K Ks i e c = true ->
  exists l, NoDup l /\ (K < length l)%nat /\ incl l C /\ forall x, In x l -> good Ks (S i) e (c ++ [x]) = true.
Proof.
  intros HC HK. exists (filter (fun x => good Ks (S i) e (c ++ [x])) C). split; [apply NoDup_filter, HC|].
  split; [apply Nat.ltb_lt, HK|]. split; [intros x Hx; apply filter_In in Hx; tauto|].
  intros x Hx. apply filter_In in Hx. tauto.
Qed.

(** the challenges after which a tree appears where there was none *)
Definition lucky (K : nat) (Ks : list nat) (i : nat) (e : E) (c : list F) (x : F) : bool :=
  negb (good_children K Ks i e c) && good Ks (S i) e (c ++ [x]).

Lemma lucky_few K Ks i e c : (length (filter (lucky K Ks i e c) C) <= K)%nat.
Proof.
  unfold lucky. destruct (good_children K Ks i e c) eqn:Eg.
  - cbn [negb andb]. assert (Hn : forall l : list F, length (filter (fun _ => false) l) = 0%nat) by (induction l; auto).
    rewrite Hn. lia.
  - cbn [negb andb]. apply Nat.ltb_ge in Eg. exact Eg.
Qed.
Lemma lucky_same K Ks i e e' c x : pt i e = pt i e' -> lucky K Ks i e c x = lucky K Ks i e' c x.
Proof.
  intros Hs. unfold lucky. rewrite (good_children_same K Ks i e e' c Hs). do 1 f_equal. apply good_same, same_before_S, Hs.
Qed.

(** Every win of a prover without tree was lucky in one of the challenges. *)
Lemma win_lucky Ks : forall i e c, In e T -> ch e = c ++ skipn i (ch e) -> length c = i -> length (ch e) = (i + length Ks)%nat ->
  good Ks i e c = false ->
  exists j K Ks', nth_error Ks j = Some K /\ Ks' = skipn (S j) Ks /\
    lucky K Ks' (i + j) e (firstn (i + j) (ch e)) (nth (i + j) (ch e) 0%fe) = true.
Proof.
  induction Ks as [|K Ks IH]; intros i e c He Hc Hlc Hl Hg.
  - exfalso. assert (good [] i e c = true); [|congruence]. apply good_nil. exists e.
    split; [exact He|]. split; [apply same_before_refl|]. rewrite Hc. rewrite skipn_all2 by (cbn in Hl; lia). apply app_nil_r.
  - assert (Hf : firstn i (ch e) = c) by (rewrite Hc, firstn_app, Hlc, Nat.sub_diag, firstn_all2 by lia; apply app_nil_r).
    assert (Hgc : good_children K Ks i e c = false).
    { destruct (good_children K Ks i e c) eqn:Eg; [|reflexivity]. exfalso.
      assert (good (K :: Ks) i e c = true); [|congruence]. apply good_cons. exists e. auto using same_before_refl. }
    assert (Hsk : skipn i (ch e) = nth i (ch e) 0%fe :: skipn (S i) (ch e)).
    { clear - Hl. cbn [length] in Hl. assert (Hi : (i < length (ch e))%nat) by lia. clear Hl. revert i Hi.
      induction (ch e) as [|a l IH]; intros i Hi; [cbn in Hi; lia|].
      destruct i as [|i]; [reflexivity|]. cbn [skipn nth]. rewrite IH by (cbn in Hi; lia). reflexivity. }
    destruct (good Ks (S i) e (c ++ [nth i (ch e) 0%fe])) eqn:Eg.
    + exists 0%nat, K, Ks. split; [reflexivity|]. split; [reflexivity|]. rewrite Nat.add_0_r, Hf.
      unfold lucky. rewrite Hgc, Eg. reflexivity.
    + destruct (IH (S i) e (c ++ [nth i (ch e) 0%fe]) He) as (j & K' & Ks' & E1 & E2 & E3).
      * rewrite <- app_assoc. cbn [app]. rewrite <- Hsk. exact Hc.
      * rewrite app_length, Hlc. cbn. lia.
      * cbn [length] in Hl. lia.
      * exact Eg.
      * exists (S j), K', Ks'. split; [exact E1|]. split; [exact E2|]. rewrite Nat.add_succ_r. exact E3.
Qed.
End Good.

(** *** Challenges that occur several times *)
Section Distinct.
Context {P : Params} {OK : ParamsOk P}.
Local Notation dec := (Fp_eq_dec modulus).

Lemma sum_over_eq (a : F) D : sum_over D (fun x => if dec a x then 1 else 0)%nat = count_occ dec D a.
Proof.
  induction D as [|b D IH]; [reflexivity|]. rewrite sum_over_cons, IH. cbn [count_occ].
  destruct (dec a b), (dec b a); try reflexivity; congruence.
Qed.
Lemma length_counts (D l : list F) : NoDup D -> incl l D -> length l = sum_over D (count_occ dec l).
Proof.
  intros HD. induction l as [|a l IH]; intros Hl.
  - rewrite (sum_over_ext _ _ (fun _ => 0%nat)) by reflexivity. rewrite sum_over_const. cbn. lia.
  - rewrite (sum_over_ext D _ (fun x => (if dec a x then 1 else 0) + count_occ dec l x)%nat).
    + rewrite sum_over_add, sum_over_eq, <- IH by (intros x Hx; apply Hl; right; exact Hx).
      rewrite (proj1 (NoDup_count_occ' dec D) HD a (Hl a (or_introl eq_refl))). reflexivity.
    + intros x _. cbn [count_occ]. destruct (dec a x); reflexivity.
Qed.
Lemma count_filter (p : F -> bool) l x : (count_occ dec (filter p l) x <= count_occ dec l x)%nat.
Proof.
  induction l as [|a l IH]; [apply le_n|]. cbn [filter count_occ]. destruct (p a); cbn [count_occ]; destruct (dec a x); lia.
Qed.
Lemma distinct_filter mu C (p : F -> bool) : repeats mu C -> (length (filter p C) <= mu * length (filter p (nodup dec C)))%nat.
Proof.
  intros HC. rewrite (length_counts (filter p (nodup dec C)) (filter p C)).
  - rewrite Nat.mul_comm, <- sum_over_const. apply sum_over_le. intros x _. etransitivity; [apply count_filter|apply HC].
  - apply NoDup_filter, NoDup_nodup.
  - intros x Hx. apply filter_In in Hx as [H1 H2]. apply filter_In. split; [apply nodup_In, H1|exact H2].
Qed.
Lemma repeats_once C : NoDup C -> repeats 1 C.
Proof. intros HC x. apply (proj1 (NoDup_count_occ dec C) HC). Qed.
Lemma times_zero C x : ~ In x C -> times C x = 0%nat.
Proof. apply count_occ_not_In. Qed.

Context {E X : Type} (pt : nat -> E -> X) (X_dec : forall a b : X, {a = b} + {a <> b}).
Context (ch : E -> list F) (T : list E) (C : list F) (mu : nat).
Hypothesis HC : repeats mu C.

(** a tree of wins with many children, counted with repetitions, is one with many different children *)
Lemma good_distinct Ks : forall i e c, good pt X_dec ch T C (map (Nat.mul mu) Ks) i e c = true ->
  good pt X_dec ch T (nodup dec C) Ks i e c = true.
Proof.
  induction Ks as [|K Ks IH]; intros i e c Hg; [exact Hg|]. cbn [map] in Hg.
  apply good_cons in Hg as (e' & He' & Hs & Hg). apply good_cons. exists e'. split; [exact He'|]. split; [exact Hs|].
  unfold good_children in *. apply Nat.ltb_lt in Hg. apply Nat.ltb_lt.
  apply (Nat.mul_lt_mono_pos_l mu); [destruct mu; [|lia]|].
  - exfalso. pose proof (distinct_filter 0 C (fun x => good pt X_dec ch T C (map (Nat.mul 0) Ks) (S i) e' (c ++ [x])) HC). lia.
  - eapply Nat.lt_le_trans; [exact Hg|]. etransitivity; [apply (distinct_filter mu C _ HC)|]. apply Nat.mul_le_mono_l.
    rewrite !filter_as_sum. apply sum_over_le. intros x _.
    destruct (good pt X_dec ch T C (map (Nat.mul mu) Ks) (S i) e' (c ++ [x])) eqn:Eg; [rewrite (IH _ _ _ Eg)|]; lia.
Qed.
End Distinct.
