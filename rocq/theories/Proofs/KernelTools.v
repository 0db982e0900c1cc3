(** Rules for showing that the constraints of a gadget use existing variables only
    and determine the committed values. *)
From Coq Require Import ZArith String List Lia Bool Ring Field Arith Permutation.
From Verif.Base Require Import Outcome Fp Params Algebra.
From Verif.Model Require Import Transcript LinComb Prog IPP Prover Verifier.
From Verif.Spec Require Import R1CS Protocol Gadget.
From Verif.Proofs Require Import LinCombProofs RunProofs ExtProofs CircuitMain GadgetTools Recover.
Import ListNotations.

Section Kernel.
Context {P : Params} {OK : ParamsOk P}.
Local Open Scope fe_scope.
Add Field FFkt : (Fp_field_theory modulus modulus_prime).

Definition inr (s : verifier) (v : var) : Prop := var_in_range (v_num_vars s) (length (v_V s)) v.
Definition inl (s : verifier) (l : lc) : Prop := lc_in_range (v_num_vars s) (length (v_V s)) l.
Record ranged (s : verifier) : Prop := {
  rg_cs : Forall (inl s) (v_constraints s);
  rg_pending : forall i, v_pending s = Some i -> (i < v_num_vars s)%nat
}.

Lemma inr_ext s s' v : vext s s' -> inr s v -> inr s' v.
Proof.
  intros H. pose proof (vx_n _ _ H). pose proof (prefix_length _ _ (vx_V _ _ H)). unfold inr. destruct v; cbn; lia.
Qed.
Lemma inl_ext s s' l : vext s s' -> inl s l -> inl s' l.
Proof. intros H Hl v c Hv. apply (inr_ext s s' v H). exact (Hl v c Hv). Qed.
Lemma Forall_inl_ext s s' l : vext s s' -> Forall (inl s) l -> Forall (inl s') l.
Proof. intros H. apply Forall_impl. intros a. apply inl_ext, H. Qed.
Lemma Forall_inr_ext s s' l : vext s s' -> Forall (inr s) l -> Forall (inr s') l.
Proof. intros H. apply Forall_impl. intros a. apply inr_ext, H. Qed.

Lemma inl_nil s : inl s []. Proof. intros v c []. Qed.
Lemma inl_cons s v c l : inr s v -> inl s l -> inl s ((v, c) :: l).
Proof. intros Hv Hl w e [E|Hi]; [injection E as <- <-; exact Hv|exact (Hl w e Hi)]. Qed.
Lemma inl_app s a b : inl s a -> inl s b -> inl s (a ++ b).
Proof. intros Ha Hb v c Hi. apply in_app_iff in Hi as [Hi|Hi]; [exact (Ha v c Hi)|exact (Hb v c Hi)]. Qed.
Lemma inl_map s (f : var * F -> var * F) l : (forall v c, fst (f (v, c)) = v) -> inl s l -> inl s (map f l).
Proof.
  intros Hf Hl v c Hi. apply in_map_iff in Hi as ([w e] & E & Hi). pose proof (Hf w e) as X. rewrite E in X. cbn in X. subst v.
  exact (Hl w e Hi).
Qed.
Lemma inl_sub s a b : inl s a -> inl s b -> inl s (lc_sub a b).
Proof. intros Ha Hb. apply inl_app; [exact Ha|]. apply inl_map; [reflexivity|exact Hb]. Qed.
Lemma inl_add s a b : inl s a -> inl s b -> inl s (lc_add a b).
Proof. apply inl_app. Qed.
Lemma inl_mul s c a : inl s a -> inl s (fe_mul_lc c a).
Proof. apply inl_map. reflexivity. Qed.
Lemma inl_neg s a : inl s a -> inl s (lc_neg a).
Proof. apply inl_map. reflexivity. Qed.
Lemma inr_one s : inr s VOne. Proof. exact I. Qed.
Lemma inl_var s v : inr s v -> inl s (lc_of_var v).
Proof. intros H. apply inl_cons; [exact H|apply inl_nil]. Qed.
Lemma inl_fe s c : inl s (lc_of_fe c).
Proof. apply inl_cons; [exact I|apply inl_nil]. Qed.
Lemma inl_var_sub s v l : inr s v -> inl s l -> inl s (var_sub_lc v l).
Proof. intros Hv Hl. apply inl_sub; [apply inl_var, Hv|exact Hl]. Qed.
Lemma inl_var_add s v l : inr s v -> inl s l -> inl s (var_add_lc v l).
Proof. intros Hv Hl. apply inl_add; [apply inl_var, Hv|exact Hl]. Qed.
Lemma inl_same s a b : lc_same a b -> inl s a -> inl s b.
Proof. apply lc_same_in_range. Qed.

Section D.
Context (d : nat -> F).
Local Notation dl := (delta_lc d).
Local Notation dv := (delta_var d).

Lemma dl_app a b : dl (a ++ b) = dl a + dl b.
Proof. induction a as [|[v c] t IH]; cbn; [ring|rewrite IH; ring]. Qed.
Lemma dl_neg a : dl (map (fun '(v, c) => (v, - c)) a) = - dl a.
Proof. induction a as [|[v c] t IH]; cbn; [ring|rewrite IH; ring]. Qed.
Lemma dl_add a b : dl (lc_add a b) = dl a + dl b. Proof. apply dl_app. Qed.
Lemma dl_sub a b : dl (lc_sub a b) = dl a - dl b.
Proof. unfold lc_sub. rewrite dl_app, dl_neg. ring. Qed.
Lemma dl_mul c a : dl (fe_mul_lc c a) = c * dl a.
Proof. induction a as [|[v e] t IH]; cbn; [ring|]. unfold fe_mul_lc in IH. rewrite IH. ring. Qed.
Lemma dl_var v : dl (lc_of_var v) = dv v. Proof. cbn. ring. Qed.
Lemma dl_fe c : dl (lc_of_fe c) = 0. Proof. cbn. ring. Qed.
Lemma dl_var_sub v l : dl (var_sub_lc v l) = dv v - dl l.
Proof. unfold var_sub_lc. rewrite dl_sub, dl_var. reflexivity. Qed.
Lemma dl_var_add v l : dl (var_add_lc v l) = dv v + dl l.
Proof. unfold var_add_lc. rewrite dl_add, dl_var. reflexivity. Qed.

Definition ker (s : verifier) : Prop := forall l, In l (v_constraints s) -> dl l = 0.
Lemma ker_ext s s' : vext s s' -> ker s' -> ker s.
Proof. intros H Hk l Hl. apply Hk. eapply prefix_in; [apply (vx_cs _ _ H)|exact Hl]. Qed.

Section Run.
Context (W : world) (ph : bool).

(** From states whose constraints use existing variables only, [m] leads to such
    states, with [U] and without asking for a second phase; and if the constraints of the final state vanish on [d],
    then [K]. *)
Definition kspec {A} (s : verifier) (m : vprog A) (U : A -> verifier -> Prop) (K : A -> Prop) : Prop :=
  ranged s -> forall a s', vrun W ph m s = Done (a, s') ->
    ranged s' /\ v_deferred s' = v_deferred s /\ U a s' /\ (ker s' -> K a).
Definition okk {A} (s : verifier) (m : vprog (result A)) (U : A -> verifier -> Prop) (K : A -> Prop) : Prop :=
  kspec s m (fun r s' => forall b, r = Ok b -> U b s') (fun r => forall b, r = Ok b -> K b).

Lemma kspec_conseq {A} s (m : vprog A) (U U' : A -> verifier -> Prop) (K K' : A -> Prop) :
  kspec s m U K -> (forall a s', vext s s' -> U a s' -> U' a s') -> (forall a, K a -> K' a) -> kspec s m U' K'.
Proof.
  intros H HU HK Hs a s' E. destruct (H Hs a s' E) as (H1 & Hd & H2 & H3). split; [exact H1|]. split; [exact Hd|].
  split; [apply HU; [eapply vrun_vext; exact E|exact H2]|]. intros Hk. apply HK, H3, Hk.
Qed.
Lemma kspec_bind {A B} s (m : vprog A) (f : A -> vprog B) U1 (K1 : A -> Prop) (U : B -> verifier -> Prop) (K : B -> Prop) :
  kspec s m U1 K1 -> (forall a s1, vext s s1 -> U1 a s1 -> kspec s1 (f a) U (fun b => K1 a -> K b)) -> kspec s (pbind m f) U K.
Proof.
  intros H1 H2 Hs b s2 E. rewrite vrun_bind in E.
  destruct (vrun W ph m s) as [[a s1]|] eqn:E1; [|discriminate]. cbn [obind] in E.
  destruct (H1 Hs a s1 E1) as (Hr & Hd & HU & HK). pose proof (vrun_vext _ _ _ _ _ _ E1) as Hx.
  destruct (H2 a s1 Hx HU Hr b s2 E) as (Hr2 & Hd2 & HU2 & HK2). split; [exact Hr2|]. split; [congruence|]. split; [exact HU2|].
  intros Hk. apply HK2; [exact Hk|]. apply HK. eapply ker_ext; [eapply vrun_vext; exact E|exact Hk].
Qed.
Lemma kspec_ret {A} s (a : A) (U : A -> verifier -> Prop) (K : A -> Prop) : U a s -> K a -> kspec s (PRet a) U K.
Proof. intros HU HK Hs a' s' E. injection E as <- <-. auto. Qed.
Lemma okk_ret {A} s (a : A) (U : A -> verifier -> Prop) (K : A -> Prop) : U a s -> K a -> okk s (PRet (Ok a)) U K.
Proof. intros HU HK. apply kspec_ret; intros b E; injection E as <-; assumption. Qed.
Lemma okk_err {A} s e (U : A -> verifier -> Prop) (K : A -> Prop) : okk s (PRet (Err e)) U K.
Proof. apply kspec_ret; discriminate. Qed.
Lemma kspec_panic {A} s (U : A -> verifier -> Prop) (K : A -> Prop) : kspec s PPanic U K.
Proof. intros Hs a' s' E. discriminate. Qed.
Lemma okk_conseq {A} s (m : vprog (result A)) (U U' : A -> verifier -> Prop) (K K' : A -> Prop) :
  okk s m U K -> (forall a s', vext s s' -> U a s' -> U' a s') -> (forall a, K a -> K' a) -> okk s m U' K'.
Proof.
  intros H HU HK. eapply kspec_conseq; [exact H| |].
  - intros r s' Hx H1 b E. apply HU; [exact Hx|apply H1, E].
  - intros r H1 b E. apply HK, H1, E.
Qed.
Lemma okk_try {A B} s (m : vprog (result A)) (f : A -> vprog (result B)) U1 (K1 : A -> Prop) (U : B -> verifier -> Prop) (K : B -> Prop) :
  okk s m U1 K1 -> (forall a s1, vext s s1 -> U1 a s1 -> okk s1 (f a) U (fun b => K1 a -> K b)) -> okk s (ptry m f) U K.
Proof.
  intros H1 H2. unfold ptry. eapply kspec_bind; [exact H1|]. intros [a|e] s1 Hx Ha.
  - eapply kspec_conseq; [apply (H2 a s1 Hx), Ha; reflexivity|auto|]. intros r Hr HK b E. apply (Hr b E). apply HK. reflexivity.
  - apply kspec_ret; [discriminate|]. intros _ b E. discriminate.
Qed.
Lemma okk_bind {A B} s (m : vprog A) (f : A -> vprog (result B)) U1 (K1 : A -> Prop) (U : B -> verifier -> Prop) (K : B -> Prop) :
  kspec s m U1 K1 -> (forall a s1, vext s s1 -> U1 a s1 -> okk s1 (f a) U (fun b => K1 a -> K b)) -> okk s (pbind m f) U K.
Proof.
  intros H1 H2. eapply kspec_bind; [exact H1|]. intros a s1 Hx Ha. eapply kspec_conseq; [apply (H2 a s1 Hx Ha)|auto|].
  intros r Hr HK b E. exact (Hr b E HK).
Qed.

(** *** calls *)
Lemma kspec_constrain s l : inl s l -> kspec s (cs_constrain l) (fun _ s' => v_V s' = v_V s) (fun _ => dl l = 0).
Proof.
  intros Hl [H1 H2] a s' E. cbn in E. injection E as <- <-. split; [|split; [reflexivity|split; [reflexivity|]]].
  - split; [|exact H2]. cbn. apply Forall_app. split; [exact H1|]. constructor; [exact Hl|constructor].
  - intros Hk. apply Hk. cbn. apply in_or_app. right. left. reflexivity.
Qed.
Lemma kspec_multiply s l r : inl s l -> inl s r -> kspec s (cs_multiply l r)
  (fun '(vl, vr, vo) s' => v_V s' = v_V s /\ inr s' vl /\ inr s' vr /\ inr s' vo /\ dv vl = 0 /\ dv vr = 0 /\ dv vo = 0)
  (fun _ => dl l = 0 /\ dl r = 0).
Proof.
  intros Hl Hr Hs a s' E. pose proof (vrun_vext _ _ _ _ _ _ E) as Hx. cbn in E. injection E as <- <-. split; [|split; [reflexivity|split]].
  - destruct Hs as [H1 H2]. split.
    + cbn. rewrite !Forall_app. split; [split|].
      * apply (Forall_inl_ext _ _ _ Hx), H1.
      * constructor; [|constructor]. apply inl_app; [apply (inl_ext _ _ _ Hx), Hl|]. apply inl_cons; [cbn; lia|apply inl_nil].
      * constructor; [|constructor]. apply inl_app; [apply (inl_ext _ _ _ Hx), Hr|]. apply inl_cons; [cbn; lia|apply inl_nil].
    + cbn. intros i E. apply H2 in E. lia.
  - repeat split; cbn; lia.
  - intros Hk. split.
    + assert (E := Hk (l ++ [(VLeft (v_num_vars s), - (1))])). rewrite dl_app in E. cbn in E.
      transitivity (dl l + (- (1) * 0 + 0)); [ring|]. apply E. rewrite !in_app_iff. left. right. left. reflexivity.
    + assert (E := Hk (r ++ [(VRight (v_num_vars s), - (1))])). rewrite dl_app in E. cbn in E.
      transitivity (dl r + (- (1) * 0 + 0)); [ring|]. apply E. rewrite !in_app_iff. right. left. reflexivity.
Qed.
Lemma okk_allocate_multiplier s o : okk s (cs_allocate_multiplier o)
  (fun '(vl, vr, vo) s' => v_V s' = v_V s /\ inr s' vl /\ inr s' vr /\ inr s' vo /\ dv vl = 0 /\ dv vr = 0 /\ dv vo = 0)
  (fun _ => True).
Proof.
  intros Hs a s' E. pose proof (vrun_vext _ _ _ _ _ _ E) as Hx. cbn in E. injection E as <- <-. split; [|split; [reflexivity|split]].
  - destruct Hs as [H1 H2]. split; [apply (Forall_inl_ext _ _ _ Hx), H1|]. cbn. intros i E. apply H2 in E. lia.
  - intros [[vl vr] vo] E. injection E as <- <- <-. repeat split; cbn; lia.
  - auto.
Qed.
Lemma okk_allocate_single s o : okk s (cs_allocate_single o)
  (fun '(v, vo) s' => v_V s' = v_V s /\ inr s' v /\ dv v = 0 /\ forall w, vo = Some w -> inr s' w /\ dv w = 0) (fun _ => True).
Proof.
  intros Hs a s' E. pose proof (vrun_vext _ _ _ _ _ _ E) as Hx. cbn in E.
  unfold verifier_allocate_single, verifier_allocate in E. destruct Hs as [H1 H2]. destruct (v_pending s) as [i|] eqn:Ep.
  - cbn in E. injection E as <- <-. specialize (H2 i eq_refl). split; [|split; [reflexivity|split; [|auto]]].
    + split; [apply (Forall_inl_ext _ _ _ Hx), H1|discriminate].
    + intros [v vo] E. injection E as <- <-. split; [reflexivity|]. split; [cbn; lia|]. split; [reflexivity|].
      intros w E. injection E as <-. split; [cbn; lia|reflexivity].
  - cbn in E. injection E as <- <-. split; [|split; [reflexivity|split; [|auto]]].
    + split; [apply (Forall_inl_ext _ _ _ Hx), H1|]. cbn. intros j E. injection E as <-. lia.
    + intros [v vo] E. injection E as <- <-. repeat split; try (cbn; lia); discriminate.
Qed.
Lemma kspec_evaluate s l : kspec s (cs_evaluate l) (fun o s' => o = None /\ v_V s' = v_V s) (fun _ => True).
Proof. intros Hs a s' E. cbn in E. injection E as <- <-. auto. Qed.
Lemma kspec_commit s c : kspec s (cs_commit c)
  (fun v s' => v = VCommitted (length (v_V s)) /\ v_V s' = v_V s ++ [c] /\ inr s' v) (fun _ => True).
Proof.
  intros Hs a s' E. pose proof (vrun_vext _ _ _ _ _ _ E) as Hx. cbn in E. destruct ph; [discriminate|]. cbn in E.
  injection E as <- <-. destruct Hs as [H1 H2]. split; [|split; [reflexivity|split; [|auto]]].
  - split; [apply (Forall_inl_ext _ _ _ Hx), H1|exact H2].
  - split; [reflexivity|]. split; [reflexivity|]. cbn. rewrite app_length. cbn. lia.
Qed.
Lemma kspec_lift {A} s (o : outcome A) : kspec s (p_lift o) (fun a s' => o = Done a /\ v_V s' = v_V s) (fun _ => True).
Proof. destruct o; [|apply kspec_panic]. apply kspec_ret; auto. Qed.
Lemma kspec_simplify s l : inl s l -> kspec s (p_simplify l) (fun m s' => v_V s' = v_V s /\ inl s' m /\ lc_same l m) (fun _ => True).
Proof.
  intros Hl Hs a s' E. unfold p_simplify in E. cbn in E. injection E as <- <-.
  assert (Hm : lc_same l (permute (w_order W (v_norder s)) (lc_accumulate l))) by (apply accumulate_perm_same, permute_perm).
  split; [split; apply Hs|]. split; [reflexivity|]. split; [|auto]. split; [reflexivity|]. split; [|exact Hm]. exact (inl_same s _ _ Hm Hl).
Qed.

(** *** loops *)
Lemma kspec_fold {A S} (f : S -> A -> vprog S) (I : nat -> S -> verifier -> Prop) (J : nat -> S -> Prop) l : forall s st,
  (forall j x st s, nth_error l j = Some x -> I j st s -> kspec s (f st x) (I (Datatypes.S j)) (fun st' => J j st -> J (Datatypes.S j) st')) ->
  I O st s -> J O st -> kspec s (p_fold f l st) (I (length l)) (J (length l)).
Proof.
  revert I J. induction l as [|x t IH]; intros I J s st Hf H0 HJ; cbn [p_fold].
  - apply kspec_ret; assumption.
  - eapply kspec_bind; [apply (Hf O x st s eq_refl H0)|]. intros st' s1 Hx H1 Hr b s2 E.
    specialize (IH (fun j => I (Datatypes.S j)) (fun j st => J (Datatypes.S O) st' -> J (Datatypes.S j) st) s1 st').
    destruct (fun H => IH H H1 (fun h => h) Hr b s2 E) as (Hr2 & Hd & HI & HK).
    { intros j y st2 s3 Hj Hi. eapply kspec_conseq; [apply (Hf (Datatypes.S j) y st2 s3 Hj Hi)|auto|]. cbn. auto. }
    split; [exact Hr2|]. split; [exact Hd|]. split; [exact HI|]. intros Hk Hp. apply (HK Hk). apply Hp, HJ.
Qed.
Lemma okk_try_fold {A S} (f : S -> A -> vprog (result S)) (I : nat -> S -> verifier -> Prop) (J : nat -> S -> Prop) l : forall s st,
  (forall j x st s, nth_error l j = Some x -> I j st s -> okk s (f st x) (I (Datatypes.S j)) (fun st' => J j st -> J (Datatypes.S j) st')) ->
  I O st s -> J O st -> okk s (p_try_fold f l st) (I (length l)) (J (length l)).
Proof.
  revert I J. induction l as [|x t IH]; intros I J s st Hf H0 HJ; cbn [p_try_fold].
  - apply okk_ret; assumption.
  - eapply okk_try; [apply (Hf O x st s eq_refl H0)|]. intros st' s1 Hx H1.
    eapply okk_conseq; [apply (IH (fun j => I (Datatypes.S j)) (fun j st => J (Datatypes.S O) st' -> J (Datatypes.S j) st) s1 st')|auto|].
    + intros j y st2 s3 Hj Hi. eapply okk_conseq; [apply (Hf (Datatypes.S j) y st2 s3 Hj Hi)|auto|]. cbn. auto.
    + exact H1.
    + auto.
    + cbn. intros a Ha Hp. apply Ha, Hp, HJ.
Qed.

(** *** the same, as first step of a program *)
Lemma okk_constrain_k {B} s l (f : unit -> vprog (result B)) (U : B -> verifier -> Prop) (K : B -> Prop) : inl s l ->
  (forall s', vext s s' -> v_V s' = v_V s -> okk s' (f tt) U (fun b => dl l = 0 -> K b)) -> okk s (pbind (cs_constrain l) f) U K.
Proof. intros Hl H. eapply okk_bind; [apply kspec_constrain, Hl|]. intros [] s1 Hx HV. apply H; assumption. Qed.
Lemma kspec_constrain_k {B} s l (f : unit -> vprog B) (U : B -> verifier -> Prop) (K : B -> Prop) : inl s l ->
  (forall s', vext s s' -> v_V s' = v_V s -> kspec s' (f tt) U (fun b => dl l = 0 -> K b)) -> kspec s (pbind (cs_constrain l) f) U K.
Proof. intros Hl H. eapply kspec_bind; [apply kspec_constrain, Hl|]. intros [] s1 Hx HV. apply H; assumption. Qed.
Lemma okk_multiply_k {B} s l r (f : var * var * var -> vprog (result B)) (U : B -> verifier -> Prop) (K : B -> Prop) : inl s l -> inl s r ->
  (forall s' vl vr vo, vext s s' -> v_V s' = v_V s -> inr s' vl -> inr s' vr -> inr s' vo -> dv vl = 0 -> dv vr = 0 -> dv vo = 0 ->
    okk s' (f (vl, vr, vo)) U (fun b => dl l = 0 -> dl r = 0 -> K b)) -> okk s (pbind (cs_multiply l r) f) U K.
Proof.
  intros Hl Hr H. eapply okk_bind; [apply (kspec_multiply s l r Hl Hr)|]. intros [[vl vr] vo] s1 Hx (HV & H1 & H2 & H3 & H4 & H5 & H6).
  eapply okk_conseq; [apply H; assumption|auto|]. cbn. intros a Ha [E1 E2]. auto.
Qed.
Lemma kspec_multiply_k {B} s l r (f : var * var * var -> vprog B) (U : B -> verifier -> Prop) (K : B -> Prop) : inl s l -> inl s r ->
  (forall s' vl vr vo, vext s s' -> v_V s' = v_V s -> inr s' vl -> inr s' vr -> inr s' vo -> dv vl = 0 -> dv vr = 0 -> dv vo = 0 ->
    kspec s' (f (vl, vr, vo)) U (fun b => dl l = 0 -> dl r = 0 -> K b)) -> kspec s (pbind (cs_multiply l r) f) U K.
Proof.
  intros Hl Hr H. eapply kspec_bind; [apply (kspec_multiply s l r Hl Hr)|]. intros [[vl vr] vo] s1 Hx (HV & H1 & H2 & H3 & H4 & H5 & H6).
  eapply kspec_conseq; [apply H; assumption|auto|]. cbn. intros a Ha [E1 E2]. auto.
Qed.
Lemma okk_allocate_multiplier_k {B} s o (f : var * var * var -> vprog (result B)) (U : B -> verifier -> Prop) (K : B -> Prop) :
  (forall s' vl vr vo, vext s s' -> v_V s' = v_V s -> inr s' vl -> inr s' vr -> inr s' vo -> dv vl = 0 -> dv vr = 0 -> dv vo = 0 ->
    okk s' (f (vl, vr, vo)) U K) -> okk s (ptry (cs_allocate_multiplier o) f) U K.
Proof.
  intros H. eapply okk_try; [apply okk_allocate_multiplier|]. intros [[vl vr] vo] s1 Hx (HV & H1 & H2 & H3 & H4 & H5 & H6).
  eapply okk_conseq; [apply H; assumption|auto|auto].
Qed.
Lemma okk_lift_k {A B} s (o : outcome A) (f : A -> vprog (result B)) (U : B -> verifier -> Prop) (K : B -> Prop) :
  (forall a, o = Done a -> okk s (f a) U K) -> okk s (pbind (p_lift o) f) U K.
Proof. intros H. destruct o as [a|]; [exact (H a eq_refl)|apply kspec_panic]. Qed.
Lemma kspec_lift_k {A B} s (o : outcome A) (f : A -> vprog B) (U : B -> verifier -> Prop) (K : B -> Prop) :
  (forall a, o = Done a -> kspec s (f a) U K) -> kspec s (pbind (p_lift o) f) U K.
Proof. intros H. destruct o as [a|]; [exact (H a eq_refl)|apply kspec_panic]. Qed.
Lemma okk_commit_k {B} s c (f : var -> vprog (result B)) (U : B -> verifier -> Prop) (K : B -> Prop) :
  (forall s', vext s s' -> v_V s' = v_V s ++ [c] -> inr s' (VCommitted (length (v_V s))) ->
    okk s' (f (VCommitted (length (v_V s)))) U K) -> okk s (pbind (cs_commit c) f) U K.
Proof.
  intros H. eapply okk_bind; [apply kspec_commit|]. intros v s1 Hx (-> & HV & Hi). eapply okk_conseq; [apply H; assumption|auto|auto].
Qed.
Lemma kspec_commit_k {B} s c (f : var -> vprog B) (U : B -> verifier -> Prop) (K : B -> Prop) :
  (forall s', vext s s' -> v_V s' = v_V s ++ [c] -> inr s' (VCommitted (length (v_V s))) ->
    kspec s' (f (VCommitted (length (v_V s)))) U K) -> kspec s (pbind (cs_commit c) f) U K.
Proof.
  intros H. eapply kspec_bind; [apply kspec_commit|]. intros v s1 Hx (-> & HV & Hi). eapply kspec_conseq; [apply H; assumption|auto|auto].
Qed.
End Run.
End D.
End Kernel.

(** move everything known about the old state to the new one *)
Ltac kcarry Hx :=
  match type of Hx with vext ?s _ =>
    repeat match goal with
    | H : inr s _ |- _ => apply (inr_ext _ _ _ Hx) in H
    | H : inl s _ |- _ => apply (inl_ext _ _ _ Hx) in H
    | H : Forall (inl s) _ |- _ => apply (Forall_inl_ext _ _ _ Hx) in H
    | H : Forall (inr s) _ |- _ => apply (Forall_inr_ext _ _ _ Hx) in H
    end
  end.
Ltac inl0 :=
  repeat first
    [ assumption
    | match goal with
      | |- inl _ (var_sub_lc _ _) => apply inl_var_sub
      | |- inl _ (var_add_lc _ _) => apply inl_var_add
      | |- inl _ (lc_sub _ _) => apply inl_sub
      | |- inl _ (lc_add _ _) => apply inl_add
      | |- inl _ (fe_mul_lc _ _) => apply inl_mul
      | |- inl _ (lc_neg _) => apply inl_neg
      | |- inl _ (lc_of_fe _) => apply inl_fe
      | |- inl _ (lc_of_var _) => apply inl_var
      | |- inl _ (_ :: _) => apply inl_cons
      | |- inl _ [] => apply inl_nil
      | |- inl _ (_ ++ _) => apply inl_app
      | |- inr _ VOne => apply inr_one
      end ].
Ltac dlv H :=
  repeat progress rewrite ?dl_sub, ?dl_add, ?dl_var_sub, ?dl_var_add, ?dl_app, ?dl_mul, ?dl_fe, ?dl_var in H;
  cbn [delta_lc] in H.
