(** From wins to a tree of accepted conversations. *)
From Coq Require Import ZArith List Lia Bool Ring Field.
From Verif.Base Require Import Outcome Fp Params Algebra.
From Verif.Model Require Import LinComb IPP Prover.
From Verif.Spec Require Import R1CS Protocol IPPSpec R1CSTree Games.
From Verif.Proofs Require Import TreeCount.
Import ListNotations.

Section Build.
Context {P : Params} {OK : ParamsOk P}.
Local Open Scope fe_scope.
Add Field FFbuild : (Fp_field_theory modulus modulus_prime).

(** *** Picking challenges *)
Lemma NoDup_firstn_any {A} m (l : list A) : NoDup l -> NoDup (firstn m l).
Proof.
  revert l. induction m as [|m IH]; intros [|a l] Hn; cbn [firstn]; try constructor.
  - inversion Hn as [|? ? Ha Hl]; subst. intros Hin. apply Ha. rewrite <- (firstn_skipn m l). apply in_or_app. left. exact Hin.
  - inversion Hn; subst. apply IH. assumption.
Qed.

Lemma pick_any (l : list F) m : NoDup l -> (m < length l)%nat ->
  exists l', length l' = S m /\ NoDup l' /\ incl l' l.
Proof.
  intros Hn Hm. exists (firstn (S m) l). split; [rewrite firstn_length; lia|].
  split.
  - apply NoDup_firstn_any, Hn.
  - intros x Hx. rewrite <- (firstn_skipn (S m) l). apply in_or_app. left. exact Hx.
Qed.

Lemma remove_all_length (l : list F) x : NoDup l -> (length l <= S (length (remove (Fp_eq_dec modulus) x l)))%nat.
Proof.
  induction l as [|a l IH]; intros Hn; [cbn; lia|]. inversion Hn as [|? ? Ha Hl]; subst. cbn [remove].
  destruct (Fp_eq_dec modulus x a) as [E|E].
  - subst a. rewrite notin_remove by assumption. cbn [length]. lia.
  - cbn [length]. pose proof (IH Hl). lia.
Qed.
Lemma remove_NoDup (l : list F) x : NoDup l -> NoDup (remove (Fp_eq_dec modulus) x l).
Proof.
  induction l as [|a l IH]; intros Hn; [constructor|]. inversion Hn as [|? ? Ha Hl]; subst. cbn [remove].
  destruct (Fp_eq_dec modulus x a); [auto|]. constructor; [|auto]. intros Hin. apply in_remove in Hin. tauto.
Qed.

Lemma pick_nonzero (l : list F) m : NoDup l -> (m < length l)%nat ->
  exists l', length l' = m /\ NoDup l' /\ incl l' l /\ Forall (fun x => x <> 0) l'.
Proof.
  intros Hn Hm. pose proof (remove_all_length l 0 Hn) as Hl. pose proof (remove_NoDup l 0 Hn) as Hn'.
  set (r := remove (Fp_eq_dec modulus) 0 l) in *.
  exists (firstn m r). split; [rewrite firstn_length; lia|].
  assert (Hi : forall x, In x (firstn m r) -> In x r).
  { intros x Hx. rewrite <- (firstn_skipn m r). apply in_or_app. left. exact Hx. }
  split; [|split].
  - apply NoDup_firstn_any, Hn'.
  - intros x Hx. apply Hi, in_remove in Hx. tauto.
  - apply Forall_forall. intros x Hx. apply Hi, in_remove in Hx. tauto.
Qed.

Lemma square_eq (a b : F) : a * a = b * b -> a = b \/ a = - b.
Proof.
  intros E. assert (E' : (a - b) * (a + b) = 0) by (transitivity (a * a - b * b); [ring|rewrite E; ring]).
  apply (fmul_integral _ modulus_prime) in E' as [E'|E'].
  - left. transitivity (a - b + b); [ring|rewrite E'; ring].
  - right. transitivity (a + b - b); [ring|rewrite E'; ring].
Qed.

(** the rest of a list without [- x] *)
Definition without (x : F) (l : list F) : list F := remove (Fp_eq_dec modulus) (- x) l.
Lemma without_ok x l : NoDup (x :: l) -> NoDup (without x l) /\ (length l <= 1 + length (without x l))%nat /\
  forall a, In a (without x l) -> In a l /\ a * a <> x * x.
Proof.
  intros Hn. inversion Hn as [|? ? Hx Hl]; subst. unfold without.
  split; [apply remove_NoDup, Hl|]. split; [pose proof (remove_all_length l (- x) Hl); lia|].
  intros a Ha. apply in_remove in Ha as [Ha Hne].
  split; [exact Ha|]. intros E. apply square_eq in E as [E|E]; [|tauto]. subst a. tauto.
Qed.

Lemma pick_four (l : list F) : NoDup l -> (7 < length l)%nat ->
  exists u1 u2 u3 u4, incl [u1; u2; u3; u4] l /\ (u1 <> 0 /\ u2 <> 0 /\ u3 <> 0 /\ u4 <> 0) /\
    NoDup [u1 * u1; u2 * u2; u3 * u3; u4 * u4].
Proof.
  intros Hn Hl. destruct (pick_nonzero l 7 Hn Hl) as (l0 & L0 & N0 & I0 & Z0). rewrite Forall_forall in Z0.
  destruct l0 as [|u1 l1]; [discriminate L0|]. cbn in L0.
  destruct (without_ok u1 l1 N0) as (N2 & L2 & I2).
  destruct (without u1 l1) as [|u2 l2]; [cbn in L2; lia|]. cbn in L2.
  destruct (without_ok u2 l2 N2) as (N3 & L3 & I3).
  destruct (without u2 l2) as [|u3 l3]; [cbn in L3; lia|]. cbn in L3.
  destruct (without_ok u3 l3 N3) as (N4 & L4 & I4).
  destruct (without u3 l3) as [|u4 l4]; [cbn in L4; lia|].
  destruct (I4 u4 (or_introl eq_refl)) as [J4 D43].
  destruct (I3 u3 (or_introl eq_refl)) as [J3 D32]. destruct (I3 u4 (or_intror J4)) as [J4' D42].
  destruct (I2 u2 (or_introl eq_refl)) as [J2 D21]. destruct (I2 u3 (or_intror J3)) as [J3' D31].
  destruct (I2 u4 (or_intror J4')) as [J4'' D41].
  exists u1, u2, u3, u4. split; [|split].
  - intros x [<-|[<-|[<-|[<-|[]]]]]; apply I0; [left; reflexivity|right; assumption..].
  - repeat split; apply Z0; [left; reflexivity|right; assumption..].
  - repeat constructor; cbn [In]; intros Hx; repeat (destruct Hx as [Hx|Hx]; [congruence|]); exact Hx.
Qed.

Lemma choose_list {A B} (R : A -> B -> Prop) (l : list A) :
  (forall a, In a l -> exists b, R a b) -> exists bs, Forall2 R l bs.
Proof.
  induction l as [|a l IH]; intros Hl; [exists []; constructor|].
  destruct (Hl a (or_introl eq_refl)) as [b Hb]. destruct (IH (fun c Hc => Hl c (or_intror Hc))) as [bs Hbs].
  exists (b :: bs). constructor; assumption.
Qed.
Lemma Forall2_in_r {A B} (R : A -> B -> Prop) l bs b : Forall2 R l bs -> In b bs -> exists a, In a l /\ R a b.
Proof.
  induction 1 as [|a b' l bs Hab Hl IH]; intros Hb; [destruct Hb|].
  destruct Hb as [Eb|Hb]; [subst b'; exists a; split; [left; reflexivity|exact Hab]|].
  destruct (IH Hb) as (a' & Ha & Hr). exists a'. split; [right; exact Ha|exact Hr].
Qed.
Lemma Forall2_map_l {A B} (R : A -> B -> Prop) (f : B -> A) l bs :
  Forall2 R l bs -> (forall a b, R a b -> f b = a) -> map f bs = l.
Proof. induction 1; intros Hf; [reflexivity|]. cbn. f_equal; auto. Qed.

(** *** The tree *)
Context {E X : Type} (pt : nat -> E -> X) (X_dec : forall a b : X, {a = b} + {a <> b}).
Context (ch : E -> list F) (T : list E) (C : list F) (pr : E -> r1cs_proof) (k q : nat).

Definition first_of (pf : r1cs_proof) : first_message :=
  FirstMessage (A_I1 pf) (A_O1 pf) (S1 pf) (A_I2 pf) (A_O2 pf) (S2 pf).
Definition Ts_of (pf : r1cs_proof) : list G1 := [T_1 pf; T_3 pf; T_4 pf; T_5 pf; T_6 pf].
Definition opening_of (pf : r1cs_proof) : list F := [t_x pf; t_x_blinding pf; e_blinding pf].
Definition round_of (j : nat) (pf : r1cs_proof) : G1 * G1 :=
  (nth j (ipp_L (proof_ipp pf)) g1_id, nth j (ipp_R (proof_ipp pf)) g1_id).

Hypothesis HC : NoDup C.
Hypothesis Hmono : forall i e e', In e T -> In e' T -> (S i < 5 + k)%nat -> pt (S i) e = pt (S i) e' -> pt i e = pt i e'.
Hypothesis H0 : forall e e', In e T -> In e' T -> pt 0 e = pt 0 e' -> first_of (pr e) = first_of (pr e').
Hypothesis H2 : forall e e', In e T -> In e' T -> pt 2 e = pt 2 e' -> Ts_of (pr e) = Ts_of (pr e').
Hypothesis H4 : forall e e', In e T -> In e' T -> pt 4 e = pt 4 e' -> opening_of (pr e) = opening_of (pr e').
Hypothesis H5 : forall j e e', In e T -> In e' T -> (j < k)%nat -> pt (5 + j) e = pt (5 + j) e' ->
  round_of j (pr e) = round_of j (pr e').
Hypothesis Hlen : forall e, In e T ->
  length (ipp_L (proof_ipp (pr e))) = k /\ length (ipp_R (proof_ipp (pr e))) = k.

Local Notation sb := (same_before pt X_dec).
Local Notation gd := (good pt X_dec ch T C).

Lemma sb_down i e e' : In e T -> In e' T -> (i <= 4 + k)%nat -> sb (S i) e e' = true -> sb i e e' = true.
Proof.
  intros He He' Hi Hs. destruct i as [|i]; [reflexivity|]. apply same_before_S. apply same_before_S in Hs.
  apply Hmono; auto. lia.
Qed.
Lemma sb_below i e e1 e' : In e1 T -> In e' T -> (i <= 4 + k)%nat ->
  sb i e e1 = true -> sb (S i) e1 e' = true -> sb i e e' = true.
Proof.
  intros He He' Hi Hs1 Hs2. apply sb_down in Hs2; auto.
  rewrite (same_before_trans pt X_dec i e e1 e' Hs1). exact Hs2.
Qed.

Lemma nth_skipn_cons {A} (l : list A) d i : (i < length l)%nat -> skipn i l = nth i l d :: skipn (S i) l.
Proof.
  revert i. induction l as [|a l IH]; intros i Hi; [cbn in Hi; lia|].
  destruct i as [|i]; [reflexivity|]. cbn [skipn nth]. rewrite IH by (cbn in Hi; lia). reflexivity.
Qed.

(** the leaf [e'] below [e], reached by [c ++ us], ends with these messages *)
Definition ipp_leaf (i : nat) (e : E) (c us : list F) (Ls Rs : list G1) (a b : F) : Prop :=
  exists e', In e' T /\ sb (5 + i) e e' = true /\ ch e' = c ++ us /\
    skipn i (ipp_L (proof_ipp (pr e'))) = Ls /\ skipn i (ipp_R (proof_ipp (pr e'))) = Rs /\
    ipp_a (proof_ipp (pr e')) = a /\ ipp_b (proof_ipp (pr e')) = b.

Lemma ipp_build j : forall i e c, In e T -> (j + i = k)%nat -> gd (repeat 7%nat j) (5 + i) e c = true ->
  exists t, tree_wf j t /\ forall us Ls Rs a b, branch t us Ls Rs a b -> ipp_leaf i e c us Ls Rs a b.
Proof.
  induction j as [|j IH]; intros i e c He Hk Hg.
  - cbn [repeat] in Hg. apply good_nil in Hg as (e' & He' & Hs & Hc).
    exists (ILeaf (ipp_a (proof_ipp (pr e'))) (ipp_b (proof_ipp (pr e')))). split; [exact I|].
    intros us Ls Rs a b Hb. inversion Hb; subst. exists e'. destruct (Hlen e' He') as [L1 L2].
    rewrite app_nil_r. rewrite !skipn_all2 by lia. repeat split; auto.
  - cbn [repeat] in Hg. apply good_cons in Hg as (e1 & He1 & Hs & Hg).
    destruct (good_children_ok _ _ _ _ _ _ _ _ _ _ HC Hg) as (l & Nl & Ll & _ & Hl).
    destruct (pick_four l Nl Ll) as (u1 & u2 & u3 & u4 & Hin & Hnz & Hnd).
    assert (Hb : forall u, In u [u1; u2; u3; u4] -> exists t, tree_wf j t /\
      forall us Ls Rs a b, branch t us Ls Rs a b -> ipp_leaf (S i) e1 (c ++ [u]) us Ls Rs a b).
    { intros u Hu. apply IH; [exact He1|lia|]. replace (5 + S i)%nat with (S (5 + i)) by lia. apply Hl, Hin, Hu. }
    destruct (Hb u1) as (t1 & W1 & B1); [cbn; tauto|]. destruct (Hb u2) as (t2 & W2 & B2); [cbn; tauto|].
    destruct (Hb u3) as (t3 & W3 & B3); [cbn; tauto|]. destruct (Hb u4) as (t4 & W4 & B4); [cbn; tauto|]. clear Hb.
    exists (INode (fst (round_of i (pr e1))) (snd (round_of i (pr e1))) u1 t1 u2 t2 u3 t3 u4 t4).
    split; [cbn [tree_wf]; auto 8|].
    assert (Hstep : forall u us Ls Rs a b, ipp_leaf (S i) e1 (c ++ [u]) us Ls Rs a b ->
      ipp_leaf i e c (u :: us) (fst (round_of i (pr e1)) :: Ls) (snd (round_of i (pr e1)) :: Rs) a b).
    { intros u us Ls Rs a b (e' & He' & Hs' & Hc' & HL & HR & Ha & Hb). exists e'.
      replace (5 + S i)%nat with (S (5 + i)) in Hs' by lia.
      destruct (Hlen e' He') as [L1 L2].
      assert (Er : round_of i (pr e1) = round_of i (pr e')) by (apply H5; auto; [lia|apply same_before_S in Hs'; exact Hs']).
      rewrite (nth_skipn_cons _ g1_id i) by lia. rewrite (nth_skipn_cons (ipp_R _) g1_id i) by lia.
      rewrite Er, HL, HR. unfold round_of. cbn [fst snd].
      split; [exact He'|]. split; [apply (sb_below (5 + i) e e1 e'); auto; lia|].
      split; [rewrite Hc', <- app_assoc; reflexivity|]. repeat split; auto. }
    intros us Ls Rs a b Hb. inversion Hb; subst; apply Hstep; auto.
Qed.

Local Notation rounds := (repeat 7%nat k).

(** a leaf with everything from the opening on *)
Definition x_leaf (e : E) (c : list F) (xn : x_node ipp_tree) (w : F) (us : list F) (Ls Rs : list G1) (a b : F) : Prop :=
  exists e', In e' T /\ sb 4 e e' = true /\ ch e' = c ++ w :: us /\
    opening_of (pr e') = [x_tx xn; x_txb xn; x_eb xn] /\ proof_ipp (pr e') = IPPProof Ls Rs a b.

Definition x_branch (xn : x_node ipp_tree) w us Ls Rs a b : Prop :=
  exists it, In (w, it) [(x_w1 xn, x_ipp1 xn); (x_w2 xn, x_ipp2 xn)] /\ branch it us Ls Rs a b.

Lemma x_build e c x : In e T -> gd (2%nat :: rounds) 4 e c = true ->
  exists xn, x_chal xn = x /\ x_node_wf k xn /\
    forall w us Ls Rs a b, x_branch xn w us Ls Rs a b -> x_leaf e c xn w us Ls Rs a b.
Proof.
  intros He Hg. apply good_cons in Hg as (e1 & He1 & Hs & Hg).
  destruct (good_children_ok _ _ _ _ _ _ _ _ _ _ HC Hg) as (l & Nl & Ll & _ & Hl).
  destruct (pick_nonzero l 2 Nl Ll) as (l' & L' & N' & I' & Z').
  destruct l' as [|w1 [|w2 [|? ?]]]; try discriminate L'.
  inversion Z' as [|? ? Z1 Z2']; subst. inversion Z2' as [|? ? Z2 _]; subst.
  inversion N' as [|? ? D1 _]; subst.
  destruct (ipp_build k 0 e1 (c ++ [w1]) He1) as (t1 & W1 & B1); [lia|apply Hl, I'; cbn; tauto|].
  destruct (ipp_build k 0 e1 (c ++ [w2]) He1) as (t2 & W2 & B2); [lia|apply Hl, I'; cbn; tauto|].
  exists (XNode _ x (t_x (pr e1)) (t_x_blinding (pr e1)) (e_blinding (pr e1)) w1 t1 w2 t2).
  split; [reflexivity|]. split.
  { unfold x_node_wf. cbn. repeat split; auto. intros E12. apply D1. left. auto. }
  intros w us Ls Rs a b (it & Hw & Hb). cbn [x_w1 x_w2 x_ipp1 x_ipp2 x_tx x_txb x_eb] in *.
  assert (Hlf : ipp_leaf 0 e1 (c ++ [w]) us Ls Rs a b).
  { destruct Hw as [Ew|[Ew|[]]]; injection Ew as <- <-; auto. }
  destruct Hlf as (e' & He' & Hs' & Hc' & HL & HR & Ha & Hb'). exists e'. split; [exact He'|].
  split; [apply (sb_below 4 e e1 e'); auto; lia|]. split; [rewrite Hc', <- app_assoc; reflexivity|].
  split. { apply same_before_S in Hs'. rewrite <- (H4 e1 e' He1 He' Hs'). reflexivity. }
  cbn [skipn] in HL, HR. destruct (proof_ipp (pr e')). cbn in *. subst. reflexivity.
Qed.

Definition u_leaf (e : E) (c : list F) (xn : x_node ipp_tree) (w : F) (us : list F) (Ls Rs : list G1) (a b : F) : Prop :=
  exists e', In e' T /\ sb 3 e e' = true /\ ch e' = c ++ x_chal xn :: w :: us /\
    opening_of (pr e') = [x_tx xn; x_txb xn; x_eb xn] /\ proof_ipp (pr e') = IPPProof Ls Rs a b.

Lemma u_build e c u : In e T -> u <> 0 -> gd (6%nat :: 2%nat :: rounds) 3 e c = true ->
  exists un, u_chal un = u /\ u_node_wf k un /\
    forall xn w us Ls Rs a b, In xn (u_xs un) -> x_branch xn w us Ls Rs a b -> u_leaf e c xn w us Ls Rs a b.
Proof.
  intros He Hu Hg. apply good_cons in Hg as (e1 & He1 & Hs & Hg).
  destruct (good_children_ok _ _ _ _ _ _ _ _ _ _ HC Hg) as (l & Nl & Ll & _ & Hl).
  destruct (pick_any l 6 Nl Ll) as (l' & L' & N' & I').
  destruct (choose_list _ l' (fun x Hx => x_build e1 (c ++ [x]) x He1 (Hl x (I' x Hx)))) as [bs Hbs].
  exists (UNode _ u bs). split; [reflexivity|].
  assert (Em : map x_chal bs = l') by (apply (Forall2_map_l _ _ _ _ Hbs); intros; tauto).
  split.
  { unfold u_node_wf. cbn [u_chal u_xs]. split; [exact Hu|]. rewrite Em.
    split; [rewrite <- L', <- Em, map_length; reflexivity|]. split; [exact N'|].
    apply Forall_forall. intros xn Hx. destruct (Forall2_in_r _ _ _ _ Hbs Hx) as (? & _ & _ & Hw & _). exact Hw. }
  intros xn w us Ls Rs a b Hx Hb. cbn [u_xs] in Hx. destruct (Forall2_in_r _ _ _ _ Hbs Hx) as (x & _ & Ex & _ & Hlf).
  destruct (Hlf _ _ _ _ _ _ Hb) as (e' & He' & Hs' & Hc' & Ho & Hi). exists e'. split; [exact He'|].
  split; [apply (sb_below 3 e e1 e'); auto; lia|]. split; [rewrite Hc', Ex, <- app_assoc; reflexivity|]. auto.
Qed.

Definition z_leaf (e : E) (c : list F) (zn : z_node G1 ipp_tree) (un : u_node ipp_tree) (xn : x_node ipp_tree)
    (w : F) (us : list F) (Ls Rs : list G1) (a b : F) : Prop :=
  exists e', In e' T /\ sb 2 e e' = true /\ ch e' = c ++ u_chal un :: x_chal xn :: w :: us /\
    Ts_of (pr e') = [z_T1 zn; z_T3 zn; z_T4 zn; z_T5 zn; z_T6 zn] /\
    opening_of (pr e') = [x_tx xn; x_txb xn; x_eb xn] /\ proof_ipp (pr e') = IPPProof Ls Rs a b.

Lemma z_build e c z : In e T -> gd (5%nat :: 6%nat :: 2%nat :: rounds) 2 e c = true ->
  exists zn, z_chal zn = z /\ z_node_wf k zn /\
    forall un xn w us Ls Rs a b, In un (z_us zn) -> In xn (u_xs un) -> x_branch xn w us Ls Rs a b ->
      z_leaf e c zn un xn w us Ls Rs a b.
Proof.
  intros He Hg. apply good_cons in Hg as (e1 & He1 & Hs & Hg).
  destruct (good_children_ok _ _ _ _ _ _ _ _ _ _ HC Hg) as (l & Nl & Ll & _ & Hl).
  destruct (pick_nonzero l 5 Nl Ll) as (l' & L' & N' & I' & Z'). rewrite Forall_forall in Z'.
  destruct (choose_list _ l' (fun x Hx => u_build e1 (c ++ [x]) x He1 (Z' x Hx) (Hl x (I' x Hx)))) as [bs Hbs].
  exists (ZNode _ _ z (T_1 (pr e1)) (T_3 (pr e1)) (T_4 (pr e1)) (T_5 (pr e1)) (T_6 (pr e1)) bs). split; [reflexivity|].
  assert (Em : map u_chal bs = l') by (apply (Forall2_map_l _ _ _ _ Hbs); intros; tauto).
  split.
  { unfold z_node_wf. cbn [z_us]. rewrite Em.
    split; [rewrite <- L', <- Em, map_length; reflexivity|]. split; [exact N'|].
    apply Forall_forall. intros xn Hx. destruct (Forall2_in_r _ _ _ _ Hbs Hx) as (? & _ & _ & Hw & _). exact Hw. }
  intros un xn w us Ls Rs a b Hu Hx Hb. cbn [z_us] in Hu. destruct (Forall2_in_r _ _ _ _ Hbs Hu) as (u & _ & Eu & _ & Hlf).
  destruct (Hlf _ _ _ _ _ _ _ Hx Hb) as (e' & He' & Hs' & Hc' & Ho & Hi). exists e'. split; [exact He'|].
  split; [apply (sb_below 2 e e1 e'); auto; lia|]. split; [rewrite Hc', Eu, <- app_assoc; reflexivity|].
  split; [|auto]. apply same_before_S in Hs'. rewrite <- (H2 e1 e' He1 He' Hs'). reflexivity.
Qed.

Definition y_leaf (e : E) (c : list F) (zn : z_node G1 ipp_tree) (un : u_node ipp_tree) (xn : x_node ipp_tree)
    (w : F) (us : list F) (Ls Rs : list G1) (a b : F) : Prop :=
  exists e', In e' T /\ sb 1 e e' = true /\ ch e' = c ++ z_chal zn :: u_chal un :: x_chal xn :: w :: us /\
    Ts_of (pr e') = [z_T1 zn; z_T3 zn; z_T4 zn; z_T5 zn; z_T6 zn] /\
    opening_of (pr e') = [x_tx xn; x_txb xn; x_eb xn] /\ proof_ipp (pr e') = IPPProof Ls Rs a b.

Lemma y_build e c y : In e T -> y <> 0 -> gd (q :: 5%nat :: 6%nat :: 2%nat :: rounds) 1 e c = true ->
  exists yn, y_chal yn = y /\ y_node_wf k q yn /\
    forall zn un xn w us Ls Rs a b, In zn (y_zs yn) -> In un (z_us zn) -> In xn (u_xs un) ->
      x_branch xn w us Ls Rs a b -> y_leaf e c zn un xn w us Ls Rs a b.
Proof.
  intros He Hy Hg. apply good_cons in Hg as (e1 & He1 & Hs & Hg).
  destruct (good_children_ok _ _ _ _ _ _ _ _ _ _ HC Hg) as (l & Nl & Ll & _ & Hl).
  destruct (pick_any l q Nl Ll) as (l' & L' & N' & I').
  destruct (choose_list _ l' (fun x Hx => z_build e1 (c ++ [x]) x He1 (Hl x (I' x Hx)))) as [bs Hbs].
  exists (YNode _ _ y bs). split; [reflexivity|].
  assert (Em : map z_chal bs = l') by (apply (Forall2_map_l _ _ _ _ Hbs); intros; tauto).
  split.
  { unfold y_node_wf. cbn [y_chal y_zs]. rewrite Em. split; [exact Hy|].
    split; [rewrite <- L', <- Em, map_length; reflexivity|]. split; [exact N'|].
    apply Forall_forall. intros xn Hx. destruct (Forall2_in_r _ _ _ _ Hbs Hx) as (? & _ & _ & Hw & _). exact Hw. }
  intros zn un xn w us Ls Rs a b Hz Hu Hx Hb. cbn [y_zs] in Hz. destruct (Forall2_in_r _ _ _ _ Hbs Hz) as (z & _ & Ez & _ & Hlf).
  destruct (Hlf _ _ _ _ _ _ _ _ Hu Hx Hb) as (e' & He' & Hs' & Hc' & Ho & Hi). exists e'. split; [exact He'|].
  split; [apply (sb_below 1 e e1 e'); auto; lia|]. split; [rewrite Hc', Ez, <- app_assoc; reflexivity|]. auto.
Qed.

(** how many challenges of each kind may lead to wins without a tree *)
Definition thresholds : list nat := (2 ^ k)%nat :: q :: 5%nat :: 6%nat :: 2%nat :: rounds.

Theorem tree_build e0 : gd thresholds 0 e0 [] = true ->
  exists e1 f t, In e1 T /\ proof_tree_wf k q t /\ each_branch (fun pf c => exists e, In e T /\ pt 0 e1 = pt 0 e /\ pr e = pf /\ ch e = c) f t.
Proof.
  intros Hg. apply good_cons in Hg as (e1 & He1 & _ & Hg).
  destruct (good_children_ok _ _ _ _ _ _ _ _ _ _ HC Hg) as (l & Nl & Ll & _ & Hl).
  destruct (pick_nonzero l (2 ^ k) Nl Ll) as (l' & L' & N' & I' & Z'). rewrite Forall_forall in Z'.
  destruct (choose_list _ l' (fun x Hx => y_build e1 ([] ++ [x]) x He1 (Z' x Hx) (Hl x (I' x Hx)))) as [bs Hbs].
  exists e1, (first_of (pr e1)), bs. split; [exact He1|].
  assert (Em : map y_chal bs = l') by (apply (Forall2_map_l _ _ _ _ Hbs); intros; tauto).
  split.
  { unfold proof_tree_wf. rewrite Em.
    split; [rewrite <- L', <- Em, map_length; reflexivity|]. split; [exact N'|].
    apply Forall_forall. intros xn Hx. destruct (Forall2_in_r _ _ _ _ Hbs Hx) as (? & _ & _ & Hw & _). exact Hw. }
  intros yn zn un xn w it us Ls Rs a b Hy Hz Hu Hx Hw Hb.
  destruct (Forall2_in_r _ _ _ _ Hbs Hy) as (y & _ & Ey & _ & Hlf).
  destruct (Hlf zn un xn w us Ls Rs a b Hz Hu Hx) as (e' & He' & Hs' & Hc' & Ht & Ho & Hi); [exists it; auto|].
  apply same_before_S in Hs'. exists e'. split; [exact He'|]. split; [exact Hs'|]. split; [|rewrite Hc', Ey; reflexivity].
  pose proof (H0 e1 e' He1 He' Hs') as Hf.
  unfold first_of, Ts_of, opening_of, branch_proof in *. cbn [f_AI1 f_AO1 f_S1 f_AI2 f_AO2 f_S2].
  injection Hf as -> -> -> -> -> ->. injection Ht as <- <- <- <- <-. injection Ho as <- <- <-. rewrite <- Hi.
  destruct (pr e'). reflexivity.
Qed.
End Build.
