(** Trees with levels for the challenges of a second phase. *)
From Coq Require Import ZArith String List Lia Bool.
From Verif.Base Require Import Outcome Fp Params Algebra.
From Verif.Model Require Import Transcript LinComb IPP Prover.
From Verif.Spec Require Import R1CS Protocol IPPSpec R1CSTree R1CSExtractor Games TwoPhase.
From Verif.Proofs Require Import IPPProofs TreeCount TreeBuild.
Import ListNotations.
Local Notation length := List.length.

Section Branching.
Context {P : Params}.
Lemma branching_imp ds : forall (R R' : list F -> Prop), (forall e, length e = length ds -> R e -> R' e) -> branching ds R -> branching ds R'.
Proof.
  induction ds as [|d ds IH]; intros R R' HR Hb; cbn [branching] in *.
  - apply HR; [reflexivity|exact Hb].
  - destruct Hb as (l & Hn & Hl & Hx). exists l. split; [exact Hn|]. split; [exact Hl|]. intros x Hin.
    apply (IH (fun e => R (x :: e))); [|apply Hx, Hin]. intros e He. apply HR. cbn. lia.
Qed.
(** some vector satisfies [R] *)
Lemma branching_some ds : forall (R : list F -> Prop), branching ds R -> exists e, length e = length ds /\ R e.
Proof.
  induction ds as [|d ds IH]; intros R Hb; cbn [branching] in Hb.
  - exists []. auto.
  - destruct Hb as (l & _ & Hl & Hx). destruct l as [|x l]; [cbn in Hl; lia|].
    destruct (IH _ (Hx x (or_introl eq_refl))) as (e & He & HR). exists (x :: e). cbn. auto.
Qed.
End Branching.

Section Levels.
Context {P : Params} {OK : ParamsOk P}.
Context {E X : Type} (pt : nat -> E -> X) (X_dec : forall a b : X, {a = b} + {a <> b}).
Context (ch : E -> list F) (T : list E) (C : list F) (L : nat).
Hypothesis HC : NoDup C.
Hypothesis Hmono : forall i e e', In e T -> In e' T -> S i < L -> pt (S i) e = pt (S i) e' -> pt i e = pt i e'.

Local Notation sb := (same_before pt X_dec).
Local Notation gd := (good pt X_dec ch T C).

Lemma level_down i e e' : In e T -> In e' T -> i < L -> sb (S i) e e' = true -> sb i e e' = true.
Proof.
  intros He He' Hi Hs. destruct i as [|i]; [reflexivity|]. apply same_before_S. apply same_before_S in Hs. apply Hmono; auto.
Qed.
Lemma level_down_to i j e e' : In e T -> In e' T -> i <= j -> j <= L -> sb j e e' = true -> sb i e e' = true.
Proof.
  intros He He' Hij Hj. induction Hij as [|j Hij IH]; [auto|]. intros Hs. apply IH; [lia|]. apply level_down; auto.
Qed.

(** the first levels *)
Lemma good_branching Ks ds : forall i e c, In e T -> i + length ds + length Ks <= L -> gd (ds ++ Ks) i e c = true ->
  branching ds (fun x => exists e', In e' T /\ sb i e e' = true /\ gd Ks (i + length ds) e' (c ++ x) = true).
Proof.
  induction ds as [|d ds IH]; intros i e c He HL Hg; cbn [app branching length] in *.
  - exists e. rewrite Nat.add_0_r, app_nil_r. split; [exact He|]. split; [apply same_before_refl|exact Hg].
  - apply good_cons in Hg as (e1 & He1 & Hs & Hg).
    destruct (good_children_ok _ _ _ _ _ _ _ _ _ _ HC Hg) as (l & Nl & Ll & _ & Hl).
    exists l. split; [exact Nl|]. split; [exact Ll|]. intros x Hx.
    eapply branching_imp; [|apply (IH (S i) e1 (c ++ [x]) He1); [lia|apply Hl, Hx]]. cbv beta.
    intros y _ (e' & He' & Hs' & Hg'). exists e'. split; [exact He'|]. split.
    + rewrite (same_before_trans pt X_dec i e e1 e' Hs). apply level_down; auto. lia.
    + rewrite <- app_assoc in Hg'. cbn [app] in Hg'. replace (i + S (length ds)) with (S i + length ds) by lia. exact Hg'.
Qed.

(** below [r] levels, reached by [e0] with the challenges [c] *)
Context (r : nat) (e0 : E) (c : list F).
Hypothesis Hc : length c = r.
Definition sub_pt (i : nat) (e : E) : X := pt (r + i) e.
Definition sub_ch (e : E) : list F := if chals_eqb (firstn r (ch e)) c then skipn r (ch e) else [].
Definition sub_T : list E := filter (sb r e0) T.

Lemma sub_sb i e e' : sb (r + i) e e' = true -> same_before sub_pt X_dec i e e' = true.
Proof.
  destruct i as [|i]; [reflexivity|]. rewrite Nat.add_succ_r. intros Hs. apply same_before_S in Hs. apply same_before_S. exact Hs.
Qed.

Lemma filter_length_le {A} (p p' : A -> bool) l : (forall a, In a l -> p a = true -> p' a = true) -> length (filter p l) <= length (filter p' l).
Proof.
  intros Hp. induction l as [|a l IH]; [apply le_n|]. cbn [filter].
  assert (IH' : length (filter p l) <= length (filter p' l)) by (apply IH; intros b Hb; apply Hp; right; exact Hb).
  pose proof (Hp a (or_introl eq_refl)) as Ha. destruct (p a).
  - rewrite (Ha eq_refl). cbn [length]. lia.
  - destruct (p' a); cbn [length]; lia.
Qed.

Lemma good_below Ks : forall i e c',
  (forall e', In e' T -> sb (r + i) e e' = true -> sb r e0 e' = true) -> r + i + length Ks <= L ->
  gd Ks (r + i) e (c ++ c') = true -> good sub_pt X_dec sub_ch sub_T C Ks i e c' = true.
Proof.
  induction Ks as [|K Ks IH]; intros i e c' Hbelow HL Hg.
  - apply good_nil in Hg as (e' & He' & Hs & Ec). apply good_nil. exists e'. split; [apply filter_In; auto|].
    split; [apply sub_sb, Hs|]. unfold sub_ch. rewrite Ec, firstn_app, Hc, Nat.sub_diag, firstn_all2, app_nil_r by lia.
    rewrite (proj2 (chals_eqb_ok c c) eq_refl). rewrite skipn_app, Hc, Nat.sub_diag, skipn_all2 by lia. reflexivity.
  - apply good_cons in Hg as (e' & He' & Hs & Hg). apply good_cons. exists e'. split; [apply filter_In; auto|].
    split; [apply sub_sb, Hs|]. unfold good_children in *. apply Nat.ltb_lt in Hg. apply Nat.ltb_lt.
    eapply Nat.lt_le_trans; [exact Hg|]. apply filter_length_le. intros x _ Hx. apply IH.
    + intros e'' He'' Hs''. apply Hbelow; [exact He''|]. rewrite (same_before_trans pt X_dec (r + i) e e' e'' Hs).
      apply level_down; auto. cbn in HL. lia. rewrite <- Nat.add_succ_r. exact Hs''.
    + cbn in HL. lia.
    + rewrite Nat.add_succ_r, app_assoc. exact Hx.
Qed.

Lemma sub_ch_ok e a : sub_ch e = a -> a <> [] -> ch e = c ++ a.
Proof.
  unfold sub_ch. destruct (chals_eqb (firstn r (ch e)) c) eqn:Ec; [|congruence]. apply chals_eqb_ok in Ec.
  intros <- _. rewrite <- (firstn_skipn r (ch e)) at 1. rewrite Ec. reflexivity.
Qed.
End Levels.

Section Build.
Context {P : Params} {OK : ParamsOk P}.
Context {E X : Type} (pt : nat -> E -> X) (X_dec : forall a b : X, {a = b} + {a <> b}).
Context (ch : E -> list F) (T : list E) (C : list F) (pr : E -> r1cs_proof) (r k q : nat).
Hypothesis HC : NoDup C.
Hypothesis Hmono : forall i e e', In e T -> In e' T -> S i < r + (5 + k) -> pt (S i) e = pt (S i) e' -> pt i e = pt i e'.
Hypothesis H0 : forall e e', In e T -> In e' T -> pt r e = pt r e' -> first_of (pr e) = first_of (pr e').
Hypothesis H2 : forall e e', In e T -> In e' T -> pt (r + 2) e = pt (r + 2) e' -> Ts_of (pr e) = Ts_of (pr e').
Hypothesis H4 : forall e e', In e T -> In e' T -> pt (r + 4) e = pt (r + 4) e' -> opening_of (pr e) = opening_of (pr e').
Hypothesis H5 : forall j e e', In e T -> In e' T -> j < k -> pt (r + (5 + j)) e = pt (r + (5 + j)) e' ->
  round_of j (pr e) = round_of j (pr e').
Hypothesis Hlen : forall e, In e T -> length (ipp_L (proof_ipp (pr e))) = k /\ length (ipp_R (proof_ipp (pr e))) = k.

Theorem two_phase_build ds e0 : length ds = r -> good pt X_dec ch T C (ds ++ thresholds k q) 0 e0 [] = true ->
  exists e1, In e1 T /\ branching ds (fun c => exists f t, proof_tree_wf k q t /\
    each_branch (fun pf c' => exists e, In e T /\ pt 0 e1 = pt 0 e /\ pr e = pf /\ ch e = c ++ c') f t).
Proof.
  intros Hds Hg. assert (HK : length (thresholds k q) = 5 + k) by (unfold thresholds; cbn [length]; rewrite repeat_length; reflexivity).
  assert (Hleaf : forall e c, In e T -> length c = r -> good pt X_dec ch T C (thresholds k q) r e c = true ->
    exists e1 f t, In e1 T /\ same_before pt X_dec r e e1 = true /\ proof_tree_wf k q t /\
      each_branch (fun pf c' => exists e', In e' T /\ same_before pt X_dec r e e' = true /\ pt r e1 = pt r e' /\ pr e' = pf /\ ch e' = c ++ c') f t).
  { intros e c He Hlc Hgc.
    assert (Hgs : good (sub_pt pt r) X_dec (sub_ch ch r c) (sub_T pt X_dec T r e) C (thresholds k q) 0 e [] = true).
    { apply (good_below pt X_dec ch T C (r + (5 + k)) Hmono r e c Hlc).
      - intros e'. rewrite Nat.add_0_r. auto.
      - rewrite HK. lia.
      - rewrite Nat.add_0_r, app_nil_r. exact Hgc. }
    assert (Hsub : forall a, In a (sub_T pt X_dec T r e) -> In a T) by (intros a Ha; apply filter_In in Ha; tauto).
    destruct (tree_build (sub_pt pt r) X_dec (sub_ch ch r c) (sub_T pt X_dec T r e) C pr k q) with (e0 := e)
      as (e1 & f & t & He1 & Hwf & Hb); try exact Hgs.
    - exact HC.
    - intros i a a' Ha Ha' Hi Ea. apply (Hmono (r + i)); auto; [lia|]. unfold sub_pt in Ea. rewrite !Nat.add_succ_r in Ea. exact Ea.
    - intros a a' Ha Ha' Ea. apply H0; auto. unfold sub_pt in Ea. rewrite !Nat.add_0_r in Ea. exact Ea.
    - intros a a' Ha Ha' Ea. apply H2; auto.
    - intros a a' Ha Ha' Ea. apply H4; auto.
    - intros j a a' Ha Ha' Hj Ea. apply H5; auto.
    - intros a Ha. apply Hlen, Hsub, Ha.
    - apply filter_In in He1 as [He1 Hs1]. exists e1, f, t. split; [exact He1|]. split; [exact Hs1|]. split; [exact Hwf|].
      intros yn zn un xn w it us Ls Rs a b Hy Hz Hu Hx Hw Hbr.
      destruct (Hb _ _ _ _ _ _ _ _ _ _ _ Hy Hz Hu Hx Hw Hbr) as (e' & He' & E0 & Ep & Ec). apply filter_In in He' as [He' Hs'].
      exists e'. split; [exact He'|]. split; [exact Hs'|]. unfold sub_pt in E0. rewrite Nat.add_0_r in E0. split; [exact E0|].
      split; [exact Ep|]. apply (sub_ch_ok ch r c e'); [exact Ec|discriminate]. }
  destruct ds as [|d ds]; cbn [app branching length] in *.
  - subst r.
    assert (HT : exists e, In e T) by (apply good_cons in Hg as (e1 & He1 & _); exists e1; exact He1). destruct HT as [e He].
    rewrite (good_same pt X_dec ch T C _ 0 e0 e [] eq_refl) in Hg.
    destruct (Hleaf e [] He eq_refl Hg) as (e1 & f & t & He1 & _ & Hwf & Hb). exists e1. split; [exact He1|].
    exists f, t. split; [exact Hwf|]. intros yn zn un xn w it us Ls Rs a b Hy Hz Hu Hx Hw Hbr.
    destruct (Hb _ _ _ _ _ _ _ _ _ _ _ Hy Hz Hu Hx Hw Hbr) as (e' & He' & _ & E0 & Ep & Ec). exists e'. auto.
  - apply good_cons in Hg as (e1 & He1 & _ & Hg). exists e1. split; [exact He1|].
    destruct (good_children_ok _ _ _ _ _ _ _ _ _ _ HC Hg) as (l & Nl & Ll & _ & Hl).
    exists l. split; [exact Nl|]. split; [exact Ll|]. intros x Hx.
    eapply branching_imp; [|apply (good_branching pt X_dec ch T C (r + (5 + k)) HC Hmono (thresholds k q) ds 1 e1 ([] ++ [x]) He1);
      [rewrite HK; lia|apply Hl, Hx]].
    cbv beta. intros y Hy (e' & He' & Hs & Hge). cbn [app] in Hge. replace (1 + length ds) with r in Hge by lia.
    destruct (Hleaf e' (x :: y) He' ltac:(cbn; lia) Hge) as (e2 & f & t & _ & _ & Hwf & Hb).
    exists f, t. split; [exact Hwf|]. intros yn zn un xn w it us Ls Rs a b Hyn Hz Hu Hx' Hw Hbr.
    destruct (Hb _ _ _ _ _ _ _ _ _ _ _ Hyn Hz Hu Hx' Hw Hbr) as (e3 & He3 & Hs3 & _ & Ep & Ec). exists e3.
    split; [exact He3|]. split; [|auto]. apply (same_before_S pt X_dec). rewrite (same_before_trans pt X_dec 1 e1 e' e3 Hs).
    apply (level_down_to pt X_dec T (r + (5 + k)) Hmono 1 r); auto; lia.
Qed.
End Build.
