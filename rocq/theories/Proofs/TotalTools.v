(** Rules for showing that a program ends, or panics, and that its constraints use existing
    variables only: of the verifier and, in Proofs/AttemptTools.v, of the prover. *)
From Coq Require Import ZArith String List Lia Arith Permutation.
From Verif.Base Require Import Outcome Fp Params Algebra.
From Verif.Model Require Import Transcript LinComb Prog IPP Prover Verifier.
From Verif.Spec Require Import R1CS.
From Verif.Proofs Require Import LinCombProofs CircuitMain GadgetTools.
Import ListNotations.
Local Open Scope nat_scope.
Local Notation length := List.length.

Section Total.
Context {P : Params} {OK : ParamsOk P}.
Local Notation vr := var_in_range.
Local Notation lr := lc_in_range.

(** One side of the protocol: whether it knows the values, and what [commit] gives it when
    there are [c] commitments so far. *)
Class side (CA CR : Type) := Side { knows : bool; handed : nat -> CR -> Prop }.
#[global] Instance verifier_side : side G1 var := Side _ _ false (fun c v => v = VCommitted c).
#[global] Instance prover_side : side (F * F) (G1 * var) := Side _ _ true (fun c x => snd x = VCommitted c).

Section Generic.
Context {CA CR : Type} {S : side CA CR}.
Local Notation pg := (prog CA CR).
(** an assignment as it has to be passed *)
Definition given {A} (a : option A) : Prop := knows = true -> a <> None.
(** ... and as [evaluate_lc] returns it *)
Definition seen {A} (a : option A) : Prop := if knows then a <> None else a = None.

(** [p] is the half-used gate, [n] the number of gates and [c] that of commitments; [D] is
    what a panic has to satisfy *)
Fixpoint wp {A} (m : pg A) (p : option nat) (n c : nat) (D : Prop) (Q : A -> option nat -> nat -> nat -> Prop) : Prop :=
  match m with
  | PRet a => Q a p n c
  | PPanic => D
  | PMultiply l r f => lr n c l /\ lr n c r /\ wp (f (VLeft n, VRight n, VOut n)) p (Datatypes.S n) c D Q
  | PAllocate a f => given a /\ match p with
                     | None => wp (f (Ok (VLeft n))) (Some n) (Datatypes.S n) c D Q
                     | Some i => wp (f (Ok (VRight i))) None n c D Q
                     end
  | PAllocMultiplier a f => given a /\ wp (f (Ok (VLeft n, VRight n, VOut n))) p (Datatypes.S n) c D Q
  | PConstrain l f => lr n c l /\ wp (f tt) p n c D Q
  | PSpecify _ _ => False
  | PEvaluate l f => lr n c l /\ forall x, seen x -> wp (f x) p n c D Q
  | PAllocSingle a f => given a /\ match p with
                        | None => wp (f (Ok (VLeft n, None))) (Some n) (Datatypes.S n) c D Q
                        | Some i => wp (f (Ok (VRight i, Some (VOut i)))) None n c D Q
                        end
  | PChallenge _ _ => False
  | PCommit _ f => forall x, handed c x -> wp (f x) p n (Datatypes.S c) D Q
  | PShuffle l f => forall l', Permutation l l' -> wp (f l') p n c D Q
  | PRandom f => forall x, wp (f x) p n c D Q
  end.
End Generic.

Lemma vr_mono n c n' c' v : n <= n' -> c <= c' -> vr n c v -> vr n' c' v.
Proof. destruct v; cbn; lia. Qed.
Lemma lr_mono n c n' c' l : n <= n' -> c <= c' -> lr n c l -> lr n' c' l.
Proof. intros Hn Hc H v x Hv. apply (vr_mono n c); auto. exact (H v x Hv). Qed.
Lemma lr_nil n c : lr n c []. Proof. intros v x []. Qed.
Lemma lr_cons n c v x l : vr n c v -> lr n c l -> lr n c ((v, x) :: l).
Proof. intros Hv Hl w e [E|Hi]; [injection E as <- <-; exact Hv|exact (Hl w e Hi)]. Qed.
Lemma lr_app n c a b : lr n c a -> lr n c b -> lr n c (a ++ b).
Proof. intros Ha Hb v x Hi. apply in_app_iff in Hi as [Hi|Hi]; [exact (Ha v x Hi)|exact (Hb v x Hi)]. Qed.
Lemma lr_map n c (f : var * F -> var * F) l : (forall v x, fst (f (v, x)) = v) -> lr n c l -> lr n c (map f l).
Proof.
  intros Hf Hl v x Hi. apply in_map_iff in Hi as ([w e] & E & Hi). pose proof (Hf w e) as X. rewrite E in X. cbn in X. subst v.
  exact (Hl w e Hi).
Qed.
Lemma lr_sub n c a b : lr n c a -> lr n c b -> lr n c (lc_sub a b).
Proof. intros Ha Hb. apply lr_app; [exact Ha|]. apply lr_map; [reflexivity|exact Hb]. Qed.
Lemma lr_add n c a b : lr n c a -> lr n c b -> lr n c (lc_add a b).
Proof. apply lr_app. Qed.
Lemma lr_mul n c x a : lr n c a -> lr n c (fe_mul_lc x a).
Proof. apply lr_map. reflexivity. Qed.
Lemma lr_var n c v : vr n c v -> lr n c (lc_of_var v).
Proof. intros H. apply lr_cons; [exact H|apply lr_nil]. Qed.
Lemma lr_fe n c x : lr n c (lc_of_fe x).
Proof. apply lr_cons; [exact I|apply lr_nil]. Qed.
Lemma lr_var_sub n c v l : vr n c v -> lr n c l -> lr n c (var_sub_lc v l).
Proof. intros Hv Hl. apply lr_sub; [apply lr_var, Hv|exact Hl]. Qed.
Lemma lr_var_add n c v l : vr n c v -> lr n c l -> lr n c (var_add_lc v l).
Proof. intros Hv Hl. apply lr_add; [apply lr_var, Hv|exact Hl]. Qed.
Lemma lr_vars n c (vars : list var) (x : F) : Forall (vr n c) vars -> lr n c (map (fun i => (i, x)) vars).
Proof. intros H v e Hi. apply in_map_iff in Hi as (w & [= <- <-] & Hi). rewrite Forall_forall in H. exact (H w Hi). Qed.
Lemma Forall_vr_mono n c n' c' l : n <= n' -> c <= c' -> Forall (vr n c) l -> Forall (vr n' c') l.
Proof. intros Hn Hc. apply Forall_impl. intros a. apply vr_mono; assumption. Qed.
Lemma Forall_lr_mono n c n' c' l : n <= n' -> c <= c' -> Forall (lr n c) l -> Forall (lr n' c') l.
Proof. intros Hn Hc. apply Forall_impl. intros a. apply lr_mono; assumption. Qed.

(** the interpreter *)
Theorem vrun_wp {A} W (m : vprog A) : forall p n c D Q s, wp m p n c D Q ->
  v_pending s = p -> v_num_vars s = n -> length (v_V s) = c -> Forall (lr n c) (v_constraints s) ->
  (vrun W false m s = Panic /\ D) \/
  exists a s', vrun W false m s = Done (a, s') /\ Q a (v_pending s') (v_num_vars s') (length (v_V s')) /\
    Forall (lr (v_num_vars s') (length (v_V s'))) (v_constraints s').
Proof.
  induction m; intros p n c D Q s Hw Ep En Ec Hc; cbn [wp vrun] in *; try contradiction.
  - right. exists a, s. subst. auto.
  - left. auto.
  - destruct Hw as (Hl & Hr & Hw). unfold verifier_multiply, verifier_allocate_vars. cbn. rewrite En.
    eapply H; [exact Hw|exact Ep|reflexivity|exact Ec|]. cbn.
    apply Forall_app. split; [apply Forall_app; split|].
    + eapply Forall_lr_mono; [| |exact Hc]; lia.
    + constructor; [|constructor]. apply lr_app; [apply (lr_mono n c); auto|apply lr_cons; [cbn; lia|apply lr_nil]].
    + constructor; [|constructor]. apply lr_app; [apply (lr_mono n c); auto|apply lr_cons; [cbn; lia|apply lr_nil]].
  - destruct Hw as [_ Hw]. unfold verifier_allocate. subst p n. destruct (v_pending s) as [i|].
    + eapply H; [exact Hw|reflexivity|reflexivity|exact Ec|exact Hc].
    + eapply H; [exact Hw|reflexivity|reflexivity|exact Ec|]. cbn. eapply Forall_lr_mono; [| |exact Hc]; lia.
  - destruct Hw as [_ Hw]. unfold verifier_allocate_multiplier, verifier_allocate_vars. cbn. rewrite En.
    eapply H; [exact Hw|exact Ep|reflexivity|exact Ec|]. cbn. eapply Forall_lr_mono; [| |exact Hc]; lia.
  - destruct Hw as (Hl & Hw). eapply H; [exact Hw|exact Ep|exact En|exact Ec|]. cbn.
    apply Forall_app. split; [exact Hc|]. constructor; [exact Hl|constructor].
  - destruct Hw as [_ Hw]. eapply H; [apply Hw; reflexivity| | | |]; eassumption.
  - destruct Hw as [_ Hw]. unfold verifier_allocate_single, verifier_allocate. subst p n. destruct (v_pending s) as [i|].
    + eapply H; [exact Hw|reflexivity|reflexivity|exact Ec|exact Hc].
    + eapply H; [exact Hw|reflexivity|reflexivity|exact Ec|]. cbn. eapply Forall_lr_mono; [| |exact Hc]; lia.
  - unfold verifier_commit. cbn. rewrite Ec. eapply H; [apply Hw; reflexivity|exact Ep|exact En| |].
    + cbn. rewrite app_length. cbn. lia.
    + cbn. eapply Forall_lr_mono; [| |exact Hc]; lia.
  - eapply H; [apply Hw, permute_perm|exact Ep|exact En|exact Ec|exact Hc].
  - eapply H; [apply Hw|exact Ep|exact En|exact Ec|exact Hc].
Qed.

Section Rules.
Context {CA CR : Type} {Sd : side CA CR}.
Local Notation pg := (prog CA CR).

Lemma wp_mono {A} (m : pg A) : forall p n c (D D' : Prop) (Q Q' : A -> option nat -> nat -> nat -> Prop),
  (D -> D') -> (forall a p n c, Q a p n c -> Q' a p n c) -> wp m p n c D Q -> wp m p n c D' Q'.
Proof.
  induction m; intros p n c D D' Q Q' HD HQ Hw; cbn [wp] in *; try contradiction.
  - apply HQ, Hw.
  - apply HD, Hw.
  - destruct Hw as (H1 & H2 & Hw). split; [exact H1|]. split; [exact H2|]. exact (H _ _ _ _ _ _ _ _ HD HQ Hw).
  - destruct Hw as (H1 & Hw). split; [exact H1|]. destruct p; exact (H _ _ _ _ _ _ _ _ HD HQ Hw).
  - destruct Hw as (H1 & Hw). split; [exact H1|]. exact (H _ _ _ _ _ _ _ _ HD HQ Hw).
  - destruct Hw as (H1 & Hw). split; [exact H1|]. exact (H _ _ _ _ _ _ _ _ HD HQ Hw).
  - destruct Hw as (H1 & Hw). split; [exact H1|]. intros x Hx. exact (H _ _ _ _ _ _ _ _ HD HQ (Hw x Hx)).
  - destruct Hw as (H1 & Hw). split; [exact H1|]. destruct p; exact (H _ _ _ _ _ _ _ _ HD HQ Hw).
  - intros x Hx. exact (H _ _ _ _ _ _ _ _ HD HQ (Hw x Hx)).
  - intros l' Hl. exact (H _ _ _ _ _ _ _ _ HD HQ (Hw l' Hl)).
  - intros x. exact (H _ _ _ _ _ _ _ _ HD HQ (Hw x)).
Qed.
Lemma wp_bind {A B} (m : pg A) (f : A -> pg B) : forall p n c D Q,
  wp m p n c D (fun a p n c => wp (f a) p n c D Q) -> wp (pbind m f) p n c D Q.
Proof.
  induction m; intros p n c D Q Hw; cbn [wp pbind] in *; try contradiction; auto.
  - destruct Hw as (H1 & H2 & Hw). split; [exact H1|]. split; [exact H2|]. apply H, Hw.
  - destruct Hw as (H1 & Hw). split; [exact H1|]. destruct p; apply H, Hw.
  - destruct Hw as (H1 & Hw). split; [exact H1|]. apply H, Hw.
  - destruct Hw as (H1 & Hw). split; [exact H1|]. apply H, Hw.
  - destruct Hw as (H1 & Hw). split; [exact H1|]. intros x Hx. apply H, Hw, Hx.
  - destruct Hw as (H1 & Hw). split; [exact H1|]. destruct p; apply H, Hw.
Qed.

(** ends, without a half-used gate *)
Definition fine {A} (m : pg A) (n c : nat) (R : A -> nat -> nat -> Prop) : Prop :=
  wp m None n c False (fun a p n' c' => p = None /\ n <= n' /\ c <= c' /\ R a n' c').
Definition fineR {A} (m : pg (result A)) (n c : nat) (R : A -> nat -> nat -> Prop) : Prop :=
  fine m n c (fun x n' c' => exists a, x = Ok a /\ R a n' c').
(** panics *)
Definition crash {A} (m : pg A) (n c : nat) : Prop := wp m None n c True (fun _ _ _ _ => False).

Lemma fine_conv {A} (m : pg A) n c (R R' : A -> nat -> nat -> Prop) :
  fine m n c R -> (forall a n' c', n <= n' -> c <= c' -> R a n' c' -> R' a n' c') -> fine m n c R'.
Proof. intros H HR. eapply wp_mono; [| |exact H]; [auto|]. intros a p n' c' (H1 & H2 & H3 & H4). auto. Qed.
Lemma fineR_conv {A} (m : pg (result A)) n c (R R' : A -> nat -> nat -> Prop) :
  fineR m n c R -> (forall a n' c', n <= n' -> c <= c' -> R a n' c' -> R' a n' c') -> fineR m n c R'.
Proof. intros H HR. eapply fine_conv; [exact H|]. intros x n' c' H1 H2 (a & E & Ha). exists a. auto. Qed.
Lemma fine_ret {A} (a : A) n c (R : A -> nat -> nat -> Prop) : R a n c -> fine (PRet a) n c R.
Proof. intros H. cbn. auto. Qed.
Lemma fineR_ret {A} (a : A) n c (R : A -> nat -> nat -> Prop) : R a n c -> fineR (PRet (Ok a)) n c R.
Proof. intros H. apply fine_ret. exists a. auto. Qed.
Lemma fine_bind {A B} (m : pg A) (f : A -> pg B) n c R1 R2 :
  fine m n c R1 -> (forall a n' c', n <= n' -> c <= c' -> R1 a n' c' -> fine (f a) n' c' R2) -> fine (pbind m f) n c R2.
Proof.
  intros H1 H2. apply wp_bind. eapply wp_mono; [| |exact H1]; [auto|]. intros a p n' c' (-> & Hn & Hc & Ha).
  eapply wp_mono; [| |apply (H2 a n' c' Hn Hc Ha)]; [auto|]. intros b p n2 c2 (-> & Hn2 & Hc2 & Hb). split; [reflexivity|]. split; [lia|]. split; [lia|exact Hb].
Qed.
Lemma fineR_try {A B} (m : pg (result A)) (f : A -> pg (result B)) n c R1 R2 :
  fineR m n c R1 -> (forall a n' c', n <= n' -> c <= c' -> R1 a n' c' -> fineR (f a) n' c' R2) -> fineR (ptry m f) n c R2.
Proof. intros H1 H2. eapply fine_bind; [exact H1|]. intros x n' c' Hn Hc (a & -> & Ha). apply H2; assumption. Qed.
Lemma crash_bind_l {A B} (m : pg A) (f : A -> pg B) n c : crash m n c -> crash (pbind m f) n c.
Proof. intros H. apply wp_bind. eapply wp_mono; [| |exact H]; [auto|]. contradiction. Qed.
Lemma crash_bind_r {A B} (m : pg A) (f : A -> pg B) n c R1 :
  fine m n c R1 -> (forall a n' c', n <= n' -> c <= c' -> R1 a n' c' -> crash (f a) n' c') -> crash (pbind m f) n c.
Proof.
  intros H1 H2. apply wp_bind. eapply wp_mono; [| |exact H1]; [auto|]. intros a p n' c' (-> & Hn & Hc & Ha). apply H2; assumption.
Qed.
Lemma crash_try_r {A B} (m : pg (result A)) (f : A -> pg (result B)) n c R1 :
  fineR m n c R1 -> (forall a n' c', n <= n' -> c <= c' -> R1 a n' c' -> crash (f a) n' c') -> crash (ptry m f) n c.
Proof. intros H1 H2. eapply crash_bind_r; [exact H1|]. intros x n' c' Hn Hc (a & -> & Ha). apply H2; assumption. Qed.

(** calls *)
Lemma fine_multiply l r n c : lr n c l -> lr n c r ->
  fine (cs_multiply l r) n c (fun x n' c' => x = (VLeft n, VRight n, VOut n) /\ n' = S n /\ c' = c).
Proof. intros Hl Hr. cbn. split; [exact Hl|]. split; [exact Hr|]. repeat split; lia. Qed.
Lemma fine_constrain l n c : lr n c l -> fine (cs_constrain l) n c (fun _ n' c' => n' = n /\ c' = c).
Proof. intros Hl. cbn. split; [exact Hl|]. repeat split; lia. Qed.
Lemma fine_commit x n c : fine (cs_commit x) n c (fun v n' c' => handed c v /\ n' = n /\ c' = S c).
Proof. cbn. intros y Hy. repeat split; try lia. exact Hy. Qed.
Lemma fine_random n c : fine p_random n c (fun _ n' c' => n' = n /\ c' = c).
Proof. cbn. intros x. repeat split; lia. Qed.
Lemma fineR_multiplier a n c : given a -> fineR (cs_allocate_multiplier a) n c (fun x n' c' => x = (VLeft n, VRight n, VOut n) /\ n' = S n /\ c' = c).
Proof. intros Ha. cbn. split; [exact Ha|]. repeat split; try lia. eexists. repeat split; lia. Qed.
Lemma fine_evaluate l n c : lr n c l -> fine (cs_evaluate l) n c (fun x n' c' => seen x /\ n' = n /\ c' = c).
Proof. intros Hl. cbn. split; [exact Hl|]. intros x Hx. repeat split; try lia. exact Hx. Qed.
Lemma seen_given {A} (a : option A) : seen a -> given a.
Proof. unfold seen, given. intros H E. rewrite E in H. exact H. Qed.
Lemma given_map {A B} (f : A -> B) a : given a -> given (option_map f a).
Proof. intros H E. specialize (H E). destruct a; [discriminate|contradiction]. Qed.
Lemma fine_lift {A} (o : outcome A) a n c : o = Done a -> fine (p_lift o) n c (fun x n' c' => x = a /\ n' = n /\ c' = c).
Proof. intros ->. cbn. repeat split; lia. Qed.
Lemma crash_lift {A} (o : outcome A) n c : o = Panic -> crash (p_lift o) n c.
Proof. intros ->. exact I. Qed.
Lemma fine_simplify l n c : lr n c l -> fine (p_simplify l) n c (fun x n' c' => lr n c x /\ n' = n /\ c' = c).
Proof.
  intros Hl l' Hp. cbn. repeat split; try lia. apply (lc_same_in_range n c l); [|exact Hl]. apply accumulate_perm_same, Hp.
Qed.
Lemma fine_index {A} (l : list A) i n c : i < length l -> fine (p_lift (index l i)) n c (fun x n' c' => In x l /\ n' = n /\ c' = c).
Proof.
  intros Hi. destruct l as [|d t]; [cbn in Hi; lia|]. set (l := d :: t) in *.
  eapply fine_conv; [apply (fine_lift _ (nth i l d)); apply index_ok, Hi|]. intros x n' c' _ _ (-> & E1 & E2).
  split; [apply nth_In, Hi|auto].
Qed.

(** loops; [I] speaks of what is left of the list *)
Lemma fine_fold {A S} (f : S -> A -> pg S) (I : list A -> S -> nat -> nat -> Prop) : forall l s n c, I l s n c ->
  (forall s a l' n' c', n <= n' -> c <= c' -> I (a :: l') s n' c' -> fine (f s a) n' c' (I l')) -> fine (p_fold f l s) n c (I []).
Proof.
  induction l as [|a l IH]; intros s n c Hs Hf; cbn [p_fold]; [apply fine_ret; exact Hs|].
  eapply fine_bind; [apply (Hf s a l n c); auto|]. intros s' n' c' Hn Hc Hs'. apply IH; [exact Hs'|].
  intros s2 b l' n2 c2 Hn2 Hc2. apply Hf; lia.
Qed.
Lemma fineR_fold {A S} (f : S -> A -> pg (result S)) (I : list A -> S -> nat -> nat -> Prop) : forall l s n c, I l s n c ->
  (forall s a l' n' c', n <= n' -> c <= c' -> I (a :: l') s n' c' -> fineR (f s a) n' c' (I l')) -> fineR (p_try_fold f l s) n c (I []).
Proof.
  induction l as [|a l IH]; intros s n c Hs Hf; cbn [p_try_fold]; [apply fineR_ret; exact Hs|].
  eapply fineR_try; [apply (Hf s a l n c); auto|]. intros s' n' c' Hn Hc Hs'. apply IH; [exact Hs'|].
  intros s2 b l' n2 c2 Hn2 Hc2. apply Hf; lia.
Qed.
(** ... and [J] says that it will panic *)
Lemma crash_fold {A S} (f : S -> A -> pg S) (I : list A -> S -> nat -> nat -> Prop) : forall l s n c, I l s n c ->
  (forall s n' c', ~ I [] s n' c') ->
  (forall s a l' n' c', n <= n' -> c <= c' -> I (a :: l') s n' c' -> crash (f s a) n' c' \/ fine (f s a) n' c' (I l')) -> crash (p_fold f l s) n c.
Proof.
  induction l as [|a l IH]; intros s n c Hs Hn Hf; cbn [p_fold]; [destruct (Hn _ _ _ Hs)|].
  destruct (Hf s a l n c (le_n _) (le_n _) Hs) as [H|H]; [apply crash_bind_l, H|].
  eapply crash_bind_r; [exact H|]. intros s' n' c' H1 H2 Hs'. apply IH; [exact Hs'|exact Hn|].
  intros s2 b l' n2 c2 Hn2 Hc2. apply Hf; lia.
Qed.
Lemma crashR_fold {A S} (f : S -> A -> pg (result S)) (I : list A -> S -> nat -> nat -> Prop) : forall l s n c, I l s n c ->
  (forall s n' c', ~ I [] s n' c') ->
  (forall s a l' n' c', n <= n' -> c <= c' -> I (a :: l') s n' c' -> crash (f s a) n' c' \/ fineR (f s a) n' c' (I l')) -> crash (p_try_fold f l s) n c.
Proof.
  induction l as [|a l IH]; intros s n c Hs Hn Hf; cbn [p_try_fold]; [destruct (Hn _ _ _ Hs)|].
  destruct (Hf s a l n c (le_n _) (le_n _) Hs) as [H|H]; [apply crash_bind_l, H|].
  eapply crash_try_r; [exact H|]. intros s' n' c' H1 H2 Hs'. apply IH; [exact Hs'|exact Hn|].
  intros s2 b l' n2 c2 Hn2 Hc2. apply Hf; lia.
Qed.
End Rules.
End Total.
