(** The gadgets that do not open Merkle trees end, or panic, on both sides. *)
From Coq Require Import ZArith String List Lia Arith Permutation.
From Verif.Base Require Import Outcome Fp Params Algebra.
From Verif.Model Require Import Transcript LinComb Prog IPP Prover Verifier Gadgets Hash.
From Verif.Spec Require Import R1CS HashSpec.
From Verif.Proofs Require Import TotalTools.
Import ListNotations.
Local Open Scope nat_scope.
Local Notation length := List.length.
Local Notation vr := var_in_range.
Local Notation lr := lc_in_range.

Ltac rng_var := first [assumption | exact I | (cbn [var_in_range]; lia) | (eapply vr_mono; [| |eassumption]; lia)].
Ltac rng := cbn [q_var]; repeat first
  [ assumption | apply lr_sub | apply lr_add | apply lr_mul | apply lr_fe | apply lr_var_sub | apply lr_var_add | apply lr_var
  | apply lr_app | apply lr_nil | apply lr_cons | (eapply lr_mono; [| |eassumption]; lia) | rng_var ].

Section Tactics.
Context {P : Params} {OK : ParamsOk P} {CA CR : Type} {Sd : side CA CR}.
Local Notation pg := (prog CA CR).
Lemma fineR_bind {A B} (m : pg A) (f : A -> pg (result B)) n c R1 R2 :
  fine m n c R1 -> (forall a n' c', n <= n' -> c <= c' -> R1 a n' c' -> fineR (f a) n' c' R2) -> fineR (pbind m f) n c R2.
Proof. apply fine_bind. Qed.
Lemma fine_multiply_k {B} l r n c (f : var * var * var -> pg B) R : lr n c l -> lr n c r ->
  fine (f (VLeft n, VRight n, VOut n)) (S n) c R -> fine (pbind (cs_multiply l r) f) n c R.
Proof. intros Hl Hr H. eapply fine_bind; [apply fine_multiply; assumption|]. intros a n' c' _ _ (-> & -> & ->). exact H. Qed.
Lemma fine_constrain_k {B} l n c (f : unit -> pg B) R : lr n c l -> fine (f tt) n c R -> fine (pbind (cs_constrain l) f) n c R.
Proof. intros Hl H. eapply fine_bind; [apply fine_constrain; assumption|]. intros [] n' c' _ _ (-> & ->). exact H. Qed.
Lemma fine_scalar_k {B} l x n c (f : unit -> pg B) R : lr n c l -> fine (f tt) n c R -> fine (pbind (constrain_lc_with_scalar l x) f) n c R.
Proof. intros Hl H. apply fine_constrain_k; [|exact H]. apply lr_sub; [exact Hl|apply lr_fe]. Qed.
Lemma fine_handed_k {B} x n c (f : CR -> pg B) R : (forall y, handed c y -> fine (f y) n (S c) R) -> fine (pbind (cs_commit x) f) n c R.
Proof. intros H. eapply fine_bind; [apply fine_commit|]. intros a n' c' _ _ (Ha & -> & ->). apply H, Ha. Qed.
Lemma fine_evaluate_k {B} l n c (f : option F -> pg B) R : lr n c l -> (forall x, seen x -> fine (f x) n c R) -> fine (pbind (cs_evaluate l) f) n c R.
Proof. intros Hl H. eapply fine_bind; [apply fine_evaluate, Hl|]. intros a n' c' _ _ (Ha & -> & ->). apply H, Ha. Qed.
Lemma fineR_multiplier_k {B} a n c (f : var * var * var -> pg (result B)) R : given a ->
  fineR (f (VLeft n, VRight n, VOut n)) (S n) c R -> fineR (ptry (cs_allocate_multiplier a) f) n c R.
Proof. intros Ha H. eapply fineR_try; [apply fineR_multiplier, Ha|]. intros x n' c' _ _ (-> & -> & ->). exact H. Qed.
Lemma fine_index_k {A B} (l : list A) i n c (f : A -> pg B) R : i < length l -> (forall x, In x l -> fine (f x) n c R) ->
  fine (pbind (p_lift (index l i)) f) n c R.
Proof. intros Hi H. eapply fine_bind; [apply fine_index; exact Hi|]. intros x n' c' _ _ (Hx & -> & ->). apply H, Hx. Qed.
Lemma fineR_multiply_k {B} l r n c (f : var * var * var -> pg (result B)) R : lr n c l -> lr n c r ->
  fineR (f (VLeft n, VRight n, VOut n)) (S n) c R -> fineR (pbind (cs_multiply l r) f) n c R.
Proof. apply fine_multiply_k. Qed.
Lemma fineR_constrain_k {B} l n c (f : unit -> pg (result B)) R : lr n c l -> fineR (f tt) n c R -> fineR (pbind (cs_constrain l) f) n c R.
Proof. apply fine_constrain_k. Qed.
Lemma fineR_scalar_k {B} l x n c (f : unit -> pg (result B)) R : lr n c l -> fineR (f tt) n c R -> fineR (pbind (constrain_lc_with_scalar l x) f) n c R.
Proof. apply fine_scalar_k. Qed.
Lemma fineR_handed_k {B} x n c (f : CR -> pg (result B)) R : (forall y, handed c y -> fineR (f y) n (S c) R) -> fineR (pbind (cs_commit x) f) n c R.
Proof. apply fine_handed_k. Qed.
Lemma fineR_evaluate_k {B} l n c (f : option F -> pg (result B)) R : lr n c l -> (forall x, seen x -> fineR (f x) n c R) -> fineR (pbind (cs_evaluate l) f) n c R.
Proof. apply fine_evaluate_k. Qed.
Lemma fineR_index_k {A B} (l : list A) i n c (f : A -> pg (result B)) R : i < length l -> (forall x, In x l -> fineR (f x) n c R) ->
  fineR (pbind (p_lift (index l i)) f) n c R.
Proof. apply fine_index_k. Qed.
(** two calls of [allocate_single] in a row *)
Lemma fineR_singles_k {B} a b n c (h g : var * option var -> pg (result B)) R : given a -> given b -> h (VLeft n, None) = ptry (cs_allocate_single b) g ->
  fineR (g (VRight n, Some (VOut n))) (S n) c R -> fineR (ptry (cs_allocate_single a) h) n c R.
Proof.
  intros Ha Hb E H. unfold fineR, fine. unfold ptry at 1. cbn [pbind cs_allocate_single wp]. split; [exact Ha|].
  rewrite E. unfold ptry. cbn [pbind cs_allocate_single wp]. split; [exact Hb|].
  eapply wp_mono; [| |exact H]; [auto|]. intros x p n' c' (H1 & H2 & H3 & H4). repeat split; try assumption; lia.
Qed.
Lemma crash_multiply_k {B} l r n c (f : var * var * var -> pg B) : lr n c l -> lr n c r ->
  crash (f (VLeft n, VRight n, VOut n)) (S n) c -> crash (pbind (cs_multiply l r) f) n c.
Proof. intros Hl Hr H. eapply crash_bind_r; [apply fine_multiply; assumption|]. intros a n' c' _ _ (-> & -> & ->). exact H. Qed.
Lemma crash_handed_k {B} x n c (f : CR -> pg B) : (forall y, handed c y -> crash (f y) n (S c)) -> crash (pbind (cs_commit x) f) n c.
Proof. intros H. eapply crash_bind_r; [apply fine_commit|]. intros a n' c' _ _ (Ha & -> & ->). apply H, Ha. Qed.
End Tactics.

Ltac unpair := repeat match goal with |- context [match ?x with (_, _) => _ end] => is_var x; destruct x end.
Ltac giv := repeat apply given_map; first [assumption|apply seen_given; assumption].
Ltac fstep :=
  lazymatch goal with
  | |- fine (pbind (cs_multiply _ _) _) _ _ _ => apply fine_multiply_k; [rng|rng|]
  | |- fineR (pbind (cs_multiply _ _) _) _ _ _ => apply fineR_multiply_k; [rng|rng|]
  | |- fine (pbind (cs_constrain _) _) _ _ _ => apply fine_constrain_k; [rng|]
  | |- fineR (pbind (cs_constrain _) _) _ _ _ => apply fineR_constrain_k; [rng|]
  | |- fine (pbind (constrain_lc_with_scalar _ _) _) _ _ _ => apply fine_scalar_k; [rng|]
  | |- fineR (pbind (constrain_lc_with_scalar _ _) _) _ _ _ => apply fineR_scalar_k; [rng|]
  | |- fine (pbind (cs_evaluate _) _) _ _ _ => apply fine_evaluate_k; [rng|intros ? ?]
  | |- fineR (pbind (cs_evaluate _) _) _ _ _ => apply fineR_evaluate_k; [rng|intros ? ?]
  | |- fineR (ptry (cs_allocate_multiplier _) _) _ _ _ => apply fineR_multiplier_k; [giv|]
  | |- fineR (ptry (cs_allocate_single _) _) _ _ _ => eapply fineR_singles_k; [giv| |reflexivity|]; [giv|]
  | |- fineR (PRet (Ok _)) _ _ _ => apply fineR_ret
  | |- fine (PRet _) _ _ _ => apply fine_ret
  end.
Ltac fsteps := cbv zeta; repeat (fstep; cbv beta iota zeta).

Ltac findex := lazymatch goal with |- fineR _ _ _ _ => apply fineR_index_k | _ => apply fine_index_k end.
Section Gadgets.
Context {P : Params} {OK : ParamsOk P} {CA CR : Type} {Sd : side CA CR}.
Local Notation pg := (prog CA CR).
Local Notation any := (fun _ _ _ => True).

Lemma fine_bit v n c : vr n c (q_var v) -> given (q_assignment v) -> fineR (bit_gadget v) n c any.
Proof. intros Hv Hg. unfold bit_gadget. fsteps. exact I. Qed.
Lemma fine_nonzero x y n c : vr n c x -> vr n c y -> fineR (is_nonzero_gadget x y) n c any.
Proof. intros Hx Hy. unfold is_nonzero_gadget. fsteps. exact I. Qed.
Lemma fine_positive v k n c : vr n c (q_var v) -> given (q_assignment v) -> fineR (positive_no_gadget v k) n c any.
Proof.
  intros Hv Hg. unfold positive_no_gadget.
  eapply fineR_try; [apply (fineR_fold _ (fun _ (st : lc * F) n c => lr n c (fst st)))|].
  - cbn [fst]. rng.
  - intros [l e] i l' n' c' Hn Hc Hl. cbn [fst] in Hl. unfold positive_no_step. fsteps. cbn [fst]. rng.
  - intros [l e] n' c' Hn Hc Hl. cbn [fst] in *. fsteps. exact I.
Qed.
Lemma fine_sum l x n c : Forall (vr n c) l -> fineR (vector_sum_constraints l x) n c any.
Proof.
  intros H. unfold vector_sum_constraints. apply fineR_constrain_k; [|fsteps; exact I]. apply lr_cons; [exact I|]. apply lr_vars, H.
Qed.
Lemma fine_bounded checks v a b max min k n c : vr n c (q_var v) -> vr n c (q_var a) -> vr n c (q_var b) ->
  given (q_assignment a) -> given (q_assignment b) -> checks = false \/ (min <= max)%Z -> fineR (bound_check_gadget checks v a b max min k) n c any.
Proof.
  intros Hv Ha Hb Ga Gb Hd. unfold bound_check_gadget. fsteps.
  assert (exists d, u64_sub checks max min = Done d) as [d Ed].
  { unfold u64_sub. destruct (Z.ltb_spec max min) as [Hlt|_]; [|eexists; reflexivity].
    destruct Hd as [->|Hd]; [eexists; reflexivity|lia]. }
  eapply fineR_bind; [apply (fine_lift _ d), Ed|]. intros ? ? ? _ _ (-> & -> & ->). fsteps.
  eapply fineR_try; [apply fine_positive; assumption|]. intros ? n' c' Hn Hc _.
  eapply fineR_try; [apply fine_positive; [rng_var|exact Gb]|]. intros ? n2 c2 Hn2 Hc2 _. fsteps. exact I.
Qed.
Lemma crash_bounded v a b max min k n c : vr n c (q_var v) -> vr n c (q_var a) -> vr n c (q_var b) ->
  (max < min)%Z -> crash (bound_check_gadget true v a b max min k) n c.
Proof.
  intros Hv Ha Hb Hd. unfold bound_check_gadget.
  eapply crash_bind_r; [apply fine_constrain; rng|]. intros ? ? ? _ _ (-> & ->).
  eapply crash_bind_r; [apply fine_constrain; rng|]. intros ? ? ? _ _ (-> & ->).
  apply crash_bind_l, crash_lift. unfold u64_sub. destruct (Z.ltb_spec max min); [reflexivity|lia].
Qed.
Lemma in_vars n c n' c' (l : list quantity) x : Forall (fun q => vr n c (q_var q)) l -> In x l -> n <= n' -> c <= c' -> vr n' c' (q_var x).
Proof. rewrite Forall_forall. intros H Hx Hn Hc. apply (vr_mono n c); auto. Qed.
Ltac rng_in := match goal with H : In ?x ?l, F : Forall _ ?l |- vr _ _ (q_var ?x) => apply (in_vars _ _ _ _ l x F H); lia end.

Lemma fine_member v ds (set : list F) n c : vr n c (q_var v) -> Forall (fun q => vr n c (q_var q)) ds -> length set <= length ds ->
  fineR (set_membership_gadget v ds set) n c any.
Proof.
  intros Hv Hd HL. unfold set_membership_gadget.
  eapply fineR_bind; [apply (fine_fold _ (fun l (st : lc) n c => lr n c st /\ forall i, In i l -> i < length set))|].
  - split; [rng|]. intros i Hi. apply in_seq in Hi. lia.
  - intros l i l' n' c' Hn Hc [Hl Hi]. pose proof (Hi i (or_introl eq_refl)) as Hi1.
    findex; [lia|]. intros q Hq. findex; [exact Hi1|]. intros x Hx.
    assert (vr n' c' (q_var q)) by rng_in. fsteps. split; [rng|]. intros j Hj. apply Hi. right. exact Hj.
  - intros l n' c' Hn Hc [Hl _]. fsteps. exact I.
Qed.
Lemma fine_product items ds v n c : vr n c (q_var v) -> Forall (fun q => vr n c (q_var q)) ds -> Forall (fun q => given (q_assignment q)) ds -> length items <= length ds ->
  fineR (vector_product_gadget items ds v) n c any.
Proof.
  intros Hv Hd Hg HL. unfold vector_product_gadget.
  eapply fineR_try; [apply (fineR_fold _ (fun l (st : lc) n c => lr n c st /\ forall i, In i l -> i < length items))|].
  - split; [rng|]. intros i Hi. apply in_seq in Hi. lia.
  - intros l i l' n' c' Hn Hc [Hl Hi]. pose proof (Hi i (or_introl eq_refl)) as Hi1.
    findex; [lia|]. intros q Hq. findex; [exact Hi1|]. intros x Hx.
    assert (vr n' c' (q_var q)) by rng_in. assert (given (q_assignment q)) by (rewrite Forall_forall in Hg; apply Hg, Hq). fsteps. split; [rng|]. intros j Hj. apply Hi. right. exact Hj.
  - intros l n' c' Hn Hc [Hl _]. fsteps. exact I.
Qed.
Lemma fine_not_member v ds is (set : list F) n c : vr n c (q_var v) -> Forall (fun q => vr n c (q_var q)) ds ->
  Forall (fun q => vr n c (q_var q)) is -> length set <= length ds -> length set <= length is ->
  fineR (set_non_membership_gadget v ds is set) n c any.
Proof.
  intros Hv Hd Hds HL HL2. unfold set_non_membership_gadget. eapply fineR_conv.
  - apply (fineR_fold _ (fun l (_ : unit) n c => forall i, In i l -> i < length set)).
    + intros i Hi. apply in_seq in Hi. lia.
    + intros [] i l' n' c' Hn Hc Hi. pose proof (Hi i (or_introl eq_refl)) as Hi1.
      findex; [lia|]. intros q Hq. findex; [exact Hi1|]. intros x Hx.
      assert (vr n' c' (q_var q)) by rng_in. apply fineR_scalar_k; [rng|]. findex; [lia|]. intros q' Hq'.
      eapply fineR_conv; [apply fine_nonzero; [assumption|rng_in]|]. intros [] n2 c2 _ _ _ j Hj. apply Hi. right. exact Hj.
  - auto.
Qed.
Lemma fine_hamming o (new : list F) k n c : Forall (fun q => vr n c (q_var q)) o -> length o = length new ->
  fineR (hamming_distance_gadget o new k) n c any.
Proof.
  intros Ho HL. unfold hamming_distance_gadget. rewrite HL, Nat.eqb_refl. cbn [negb].
  eapply fineR_try; [apply (fineR_fold _ (fun l (st : list var) n c => Forall (vr n c) st /\ forall i, In i l -> i < length new))|].
  - split; [constructor|]. intros i Hi. apply in_seq in Hi. lia.
  - intros l i l' n' c' Hn Hc [Hl Hi]. pose proof (Hi i (or_introl eq_refl)) as Hi1.
    findex; [lia|]. intros q Hq. findex; [exact Hi1|]. intros x Hx. assert (vr n' c' (q_var q)) by rng_in. fsteps.
    eapply fineR_bind; [apply (fine_lift _ (VOut n')); reflexivity|]. intros ? ? ? _ _ (-> & -> & ->). fsteps.
    split; [|intros j Hj; apply Hi; right; exact Hj]. apply Forall_app. split; [eapply Forall_vr_mono; [| |exact Hl]; lia|].
    constructor; [cbn; lia|constructor].
  - intros l n' c' Hn Hc [Hl _]. eapply fineR_try; [apply fine_sum, Hl|]. intros ? ? ? _ _ _. fsteps. exact I.
Qed.
Lemma fine_mimc l r k cs image n c : vr n c (q_var l) -> vr n c (q_var r) -> k <= length cs -> fineR (mimc_gadget l r k cs image) n c any.
Proof.
  intros Hl Hr HL. unfold mimc_gadget, enforce_mimc_2_inputs.
  eapply fineR_try; [eapply fineR_bind; [apply (fine_fold _ (fun l (st : lc * lc) n c => (lr n c (fst st) /\ lr n c (snd st)) /\ forall i, In i l -> i < k))|]|].
  - split; [cbn [fst snd]; split; rng|]. intros i Hi. apply in_seq in Hi. lia.
  - intros [x y] i l' n' c' Hn Hc [[Hx Hy] Hi]. cbn [fst snd] in *. pose proof (Hi i (or_introl eq_refl)) as Hi1.
    findex; [lia|]. intros q Hq. fsteps. cbn [fst snd]. split; [split; rng|]. intros j Hj. apply Hi. right. exact Hj.
  - intros [x y] n' c' Hn Hc [[Hx Hy] _]. cbn [fst snd] in *. apply (fineR_ret _ _ _ (fun x n c => lr n c x)). exact Hx.
  - intros x n' c' Hn Hc Hx. cbv beta in Hx. fsteps. exact I.
Qed.
Lemma crash_mimc l r k cs image n c : vr n c (q_var l) -> vr n c (q_var r) -> length cs < k -> crash (mimc_gadget l r k cs image) n c.
Proof.
  intros Hl Hr HL. unfold mimc_gadget, enforce_mimc_2_inputs. apply crash_bind_l, crash_bind_l.
  apply (crash_fold _ (fun rest (st : lc * lc) n c => (lr n c (fst st) /\ lr n c (snd st)) /\ exists a, rest = seq a (length rest) /\ a <= length cs < a + length rest)).
  - split; [cbn [fst snd]; split; rng|]. exists 0. rewrite seq_length. split; [reflexivity|lia].
  - intros s n' c' [_ (a & _ & H)]. cbn in H. lia.
  - intros [x y] i l' n' c' Hn Hc [[Hx Hy] (a & Ea & Hal)]. cbn [fst snd length seq] in *. injection Ea as Ei El. subst i.
    destruct (Nat.eq_dec a (length cs)) as [E|E].
    + left. apply crash_bind_l, crash_lift, index_out. lia.
    + right. findex; [lia|]. intros q Hq. fsteps. cbn [fst snd]. split; [split; rng|].
      exists (S a). split; [exact El|lia].
Qed.

(** *** Poseidon *)
Section Poseidon.
Context (p : poseidon_params) (sbox : sbox_type) (HP : params_ok p).

Lemma fine_sbox x k n c : lr n c x -> fineR (synthesize_sbox sbox x k) n c (fun v n c => vr n c v).
Proof.
  intros Hx. unfold synthesize_sbox. destruct sbox.
  - unfold synthesize_cube_sbox. fsteps. rng_var.
  - unfold synthesize_inverse_sbox. fsteps.
    eapply fineR_try; [apply fine_nonzero; rng_var|]. intros ? n' c' Hn Hc _.
    eapply fineR_bind; [apply (fine_lift _ (VOut n)); reflexivity|]. intros ? ? ? _ _ (-> & -> & ->). fsteps. rng_var.
  - unfold synthesize_quint_sbox. fsteps. rng_var.
Qed.

Lemma mapM_all {A B} (f : A -> outcome B) (I : B -> Prop) l : (forall a, In a l -> exists b, f a = Done b /\ I b) ->
  exists bs, mapM f l = Done bs /\ Forall I bs /\ length bs = length l.
Proof.
  induction l as [|a l IH]; intros H; cbn [mapM]; [exists []; auto|].
  destruct (H a (or_introl eq_refl)) as (b & Eb & Hb). destruct (IH (fun x Hx => H x (or_intror Hx))) as (bs & E & Hbs & HL).
  exists (b :: bs). rewrite Eb. cbn [obind]. rewrite E. cbn [obind length]. auto.
Qed.
Lemma foldM_all {A S} (f : S -> A -> outcome S) (I : S -> Prop) l : forall s, I s ->
  (forall s a, In a l -> I s -> exists s', f s a = Done s' /\ I s') -> exists s', foldM f l s = Done s' /\ I s'.
Proof.
  induction l as [|a l IH]; intros s Hs Hf; cbn [foldM]; [exists s; auto|].
  destruct (Hf s a (or_introl eq_refl) Hs) as (s' & E & Hs'). rewrite E. cbn [obind]. apply IH; [exact Hs'|].
  intros s2 b Hb. apply Hf. right. exact Hb.
Qed.
Lemma index_in {A} (l : list A) i : i < length l -> exists x, index l i = Done x /\ In x l.
Proof.
  intros H. destruct l as [|d t]; [cbn in H; lia|]. set (l := d :: t) in *. exists (nth i l d). split; [apply index_ok, H|apply nth_In, H].
Qed.
Lemma linear_layer_fine outs n c : Forall (lr n c) outs -> length outs = width p ->
  exists ls, apply_linear_layer p outs = Done ls /\ Forall (lr n c) ls /\ length ls = width p.
Proof.
  intros Ho HL. unfold apply_linear_layer. rewrite HL.
  match goal with |- exists ls, mapM ?f ?l = _ /\ _ => destruct (mapM_all f (lr n c) l) as (bs & E & Hb & Hlen) end.
  - intros i Hi. apply in_seq in Hi.
    apply (foldM_all _ (lr n c)); [apply lr_nil|]. intros acc j Hj Hacc. apply in_seq in Hj.
    destruct (index_in (MDS_matrix p) j) as (row & -> & Hrow); [rewrite (pk_rows p HP); lia|]. cbn [obind].
    pose proof (pk_cols p HP) as Hcols. rewrite Forall_forall in Hcols. specialize (Hcols row Hrow).
    destruct (index_in row i) as (m & -> & Hm); [lia|]. cbn [obind].
    destruct (index_in outs j) as (o & -> & Hin); [lia|]. cbn [obind].
    eexists. split; [reflexivity|]. rewrite Forall_forall in Ho. specialize (Ho o Hin). rng.
  - exists bs. split; [exact E|]. split; [exact Hb|]. rewrite Hlen. apply seq_length.
Qed.

(** [off] round keys are used so far, [k] more rounds will come *)
Definition state_fine k (st : list lc * nat) n c : Prop :=
  Forall (lr n c) (fst st) /\ length (fst st) = width p /\ snd st + k * width p <= length (round_keys p).

Lemma fine_full_layer ins off n c : Forall (lr n c) ins -> length ins = width p -> off + width p <= length (round_keys p) ->
  fineR (p_try_fold (full_sbox_constraints p sbox ins) (seq 0 (width p)) ([], off)) n c
    (fun st n c => Forall (lr n c) (fst st) /\ length (fst st) = width p /\ snd st = off + width p).
Proof.
  intros Hi HL Hk. eapply fineR_conv.
  - apply (fineR_fold _ (fun rest (st : list lc * nat) n c => Forall (lr n c) (fst st) /\ snd st = off + length (fst st) /\
       length (fst st) + length rest = width p /\ rest = seq (length (fst st)) (length rest))).
    + cbn [fst snd length]. rewrite seq_length. split; [constructor|]. split; [lia|]. split; [lia|reflexivity].
    + intros [outs o] i l' n' c' Hn Hc (Ho & Eo & Hlen & Hseq). cbn [fst snd length seq] in *. subst o. injection Hseq as Ei El. subst i.
      unfold full_sbox_constraints. findex; [lia|]. intros k _. findex; [lia|]. intros x Hx.
      rewrite Forall_forall in Hi. specialize (Hi x Hx).
      eapply fineR_try; [apply fine_sbox; rng|]. intros v n2 c2 Hn2 Hc2 Hv. cbv beta in Hv. apply fineR_ret. cbn [fst snd]. rewrite app_length. cbn [length].
      split; [apply Forall_app; split; [eapply Forall_lr_mono; [| |exact Ho]; lia|constructor; [rng|constructor]]|].
      split; [lia|]. split; [lia|]. rewrite Nat.add_1_r. exact El.
  - intros [outs o] n' c' Hn Hc (Ho & Eo & Hlen & _). cbn [fst snd length] in *. subst o. split; [exact Ho|]. split; lia.
Qed.
Lemma fine_partial_layer ins off n c : Forall (lr n c) ins -> length ins = width p -> off + width p <= length (round_keys p) ->
  fineR (p_try_fold (partial_sbox_constraints p sbox ins) (seq 0 (width p)) ([], off)) n c
    (fun st n c => Forall (lr n c) (fst st) /\ length (fst st) = width p /\ snd st = off + width p).
Proof.
  intros Hi HL Hk. eapply fineR_conv.
  - apply (fineR_fold _ (fun rest (st : list lc * nat) n c => Forall (lr n c) (fst st) /\ snd st = off + length (fst st) /\
       length (fst st) + length rest = width p /\ rest = seq (length (fst st)) (length rest))).
    + cbn [fst snd length]. rewrite seq_length. split; [constructor|]. split; [lia|]. split; [lia|reflexivity].
    + intros [outs o] i l' n' c' Hn Hc (Ho & Eo & Hlen & Hseq). cbn [fst snd length seq] in *. subst o. injection Hseq as Ei El. subst i.
      unfold partial_sbox_constraints. findex; [lia|]. intros k _. findex; [lia|]. intros x Hx.
      rewrite Forall_forall in Hi. specialize (Hi x Hx).
      destruct (Nat.eqb _ _).
      * eapply fineR_try; [apply fine_sbox; rng|]. intros v n2 c2 Hn2 Hc2 Hv. cbv beta in Hv. apply fineR_ret. cbn [fst snd]. rewrite app_length. cbn [length].
        split; [apply Forall_app; split; [eapply Forall_lr_mono; [| |exact Ho]; lia|constructor; [rng|constructor]]|].
        split; [lia|]. split; [lia|]. rewrite Nat.add_1_r. exact El.
      * apply fineR_ret. cbn [fst snd]. rewrite app_length. cbn [length].
        split; [apply Forall_app; split; [eapply Forall_lr_mono; [| |exact Ho]; lia|constructor; [rng|constructor]]|].
        split; [lia|]. split; [lia|]. rewrite Nat.add_1_r. exact El.
  - intros [outs o] n' c' Hn Hc (Ho & Eo & Hlen & _). cbn [fst snd length] in *. subst o. split; [exact Ho|]. split; lia.
Qed.
Lemma fine_full_round k st i n c : state_fine (S k) st n c -> fineR (full_round_constraints p sbox st i) n c (state_fine k).
Proof.
  intros (Hs & HL & Hk). destruct st as [ins off]. cbn [fst snd] in *. unfold full_round_constraints.
  eapply fineR_try; [apply fine_full_layer; [exact Hs|exact HL|lia]|]. intros [outs o] n' c' Hn Hc (Ho & Hl & Eo). cbn [fst snd] in *.
  destruct (linear_layer_fine outs n' c' Ho Hl) as (ls & El & Hls & Hlls).
  eapply fineR_bind; [apply (fine_lift _ ls), El|]. intros ? ? ? _ _ (-> & -> & ->). apply fineR_ret.
  split; [exact Hls|]. split; [exact Hlls|]. cbn [snd]. lia.
Qed.
Lemma fine_simplify_all ls n c : Forall (lr n c) ls ->
  fine (p_fold (fun input_vars l => pbind (p_simplify l) (fun l => PRet (input_vars ++ [l]))) ls []) n c
    (fun xs n c => Forall (lr n c) xs /\ length xs = length ls).
Proof.
  intros H. eapply fine_conv.
  - apply (fine_fold _ (fun rest (xs : list lc) n c => Forall (lr n c) rest /\ Forall (lr n c) xs /\ length xs + length rest = length ls)).
    + auto.
    + intros xs l rest n' c' Hn Hc (Hr & Hx & HL). inversion Hr as [|? ? Hl Hrest]; subst.
      eapply fine_bind; [apply fine_simplify; exact Hl|]. intros l2 ? ? _ _ (Hl2 & -> & ->). apply fine_ret.
      split; [exact Hrest|]. split; [apply Forall_app; split; [exact Hx|constructor; [exact Hl2|constructor]]|].
      rewrite app_length. cbn [length] in *. lia.
  - intros xs n' c' Hn Hc (_ & Hx & HL). cbn [length] in HL. split; [exact Hx|lia].
Qed.
Lemma fine_partial_round k st i n c : state_fine (S k) st n c -> fineR (partial_round_constraints p sbox st i) n c (state_fine k).
Proof.
  intros (Hs & HL & Hk). destruct st as [ins off]. cbn [fst snd] in *. unfold partial_round_constraints.
  eapply fineR_try; [apply fine_partial_layer; [exact Hs|exact HL|lia]|]. intros [outs o] n' c' Hn Hc (Ho & Hl & Eo). cbn [fst snd] in *.
  destruct (linear_layer_fine outs n' c' Ho Hl) as (ls & El & Hls & Hlls).
  eapply fineR_bind; [apply (fine_lift _ ls), El|]. intros ? ? ? _ _ (-> & -> & ->).
  eapply fineR_bind; [apply fine_simplify_all; exact Hls|]. intros xs n2 c2 Hn2 Hc2 (Hx & Hlx). apply fineR_ret.
  split; [exact Hx|]. split; [cbn [fst]; lia|]. cbn [snd]. lia.
Qed.
Lemma fine_rounds (f : list lc * nat -> nat -> pg (result (list lc * nat))) k st n c l :
  (forall k st i n c, state_fine (S k) st n c -> fineR (f st i) n c (state_fine k)) ->
  state_fine (length l + k) st n c -> fineR (p_try_fold f l st) n c (state_fine k).
Proof.
  intros Hf Hs. apply (fineR_fold f (fun rest => state_fine (length rest + k))); [exact Hs|].
  intros st' i l' n' c' _ _ H. apply Hf. exact H.
Qed.
Lemma fine_permutation ins n c : Forall (lr n c) ins -> length ins = width p ->
  fineR (Poseidon_permutation_constraints p sbox ins) n c (fun xs n c => Forall (lr n c) xs /\ length xs = width p).
Proof.
  intros Hi HL. unfold Poseidon_permutation_constraints. pose proof (pk_keys p HP) as HK.
  eapply fineR_bind; [apply (fine_lift _ tt); rewrite HL, Nat.eqb_refl; reflexivity|]. intros ? ? ? _ _ (-> & -> & ->).
  eapply fineR_try; [apply (fine_rounds _ (partial_rounds p + full_rounds_end p)); [exact fine_full_round|]|].
  { split; [exact Hi|]. split; [exact HL|]. cbn [snd]. rewrite seq_length. lia. }
  intros st n1 c1 H1 H2 Hst.
  eapply fineR_try; [apply (fine_rounds _ (full_rounds_end p)); [exact fine_partial_round|]|].
  { rewrite seq_length. exact Hst. }
  intros st2 n2 c2 H3 H4 Hst2.
  eapply fineR_try; [apply (fine_rounds _ 0); [exact fine_full_round|]|].
  { rewrite seq_length, Nat.add_0_r. exact Hst2. }
  intros [xs o] n3 c3 H5 H6 (Hx & Hlx & _). apply fineR_ret. split; [exact Hx|exact Hlx].
Qed.
Lemma fine_out xs n c : Forall (lr n c) xs -> 1 < length xs ->
  fineR (pbind (p_lift (index xs 1)) (fun out => PRet (Ok out))) n c (fun x n c => lr n c x).
Proof.
  intros Hx HL. findex; [exact HL|]. intros x Hin. apply fineR_ret. rewrite Forall_forall in Hx. apply Hx, Hin.
Qed.
Lemma fine_hash_2 xl xr s n c : width p = 3 -> lr n c xl -> lr n c xr -> lr n c s ->
  fineR (Poseidon_hash_2_constraints p sbox xl xr [s]) n c (fun x n c => lr n c x).
Proof.
  intros Hw Hl Hr Hs. unfold Poseidon_hash_2_constraints. rewrite Hw. cbn [length Nat.sub Nat.eqb index nth_error of_option app skipn p_lift assertb pbind].
  eapply fineR_try; [apply fine_permutation; [repeat (constructor; try assumption)|rewrite Hw; reflexivity]|].
  intros xs n' c' _ _ [Hx Hlx]. apply fine_out; [exact Hx|lia].
Qed.
Lemma fine_hash_4 ins s n c : width p = 5 -> Forall (lr n c) ins -> length ins = 4 -> lr n c s ->
  fineR (Poseidon_hash_4_constraints p sbox ins [s]) n c (fun x n c => lr n c x).
Proof.
  intros Hw Hi HL Hs. unfold Poseidon_hash_4_constraints. rewrite Hw, HL. cbn [length Nat.sub Nat.eqb index nth_error of_option app skipn p_lift assertb pbind].
  eapply fineR_try; [apply fine_permutation; [constructor; [exact Hs|]; apply Forall_app; split; [exact Hi|constructor]|cbn [length]; rewrite app_length; cbn [length]; lia]|].
  intros xs n' c' _ _ [Hx Hlx]. apply fine_out; [exact Hx|lia].
Qed.
Lemma fine_hash_8 ins s n c : width p = 9 -> Forall (lr n c) ins -> length ins = 8 -> lr n c s ->
  fineR (Poseidon_hash_8_constraints p sbox ins s) n c (fun x n c => lr n c x).
Proof.
  intros Hw Hi HL Hs. unfold Poseidon_hash_8_constraints. rewrite HL. cbn [length Nat.sub Nat.eqb index nth_error of_option app skipn p_lift assertb pbind].
  eapply fineR_try; [apply fine_permutation; [constructor; [exact Hs|exact Hi]|cbn [length]; lia]|].
  intros xs n' c' _ _ [Hx Hlx]. apply fine_out; [exact Hx|lia].
Qed.
Lemma Forall_lr_vars n c vars : Forall (vr n c) vars -> Forall (lr n c) (map (fun v => lc_of_var v) vars).
Proof. intros H. apply Forall_map. eapply Forall_impl; [|exact H]. intros v. apply lr_var. Qed.
Lemma fine_hash_2_gadget xl xr s output n c : width p = 3 -> vr n c xl -> vr n c xr -> vr n c s ->
  fineR (Poseidon_hash_2_gadget p sbox xl xr [s] output) n c any.
Proof.
  intros Hw Hl Hr Hs. unfold Poseidon_hash_2_gadget. cbn [map].
  eapply fineR_try; [apply fine_hash_2; [exact Hw|rng|rng|rng]|]. intros x n' c' _ _ Hx. cbv beta in Hx. fsteps. exact I.
Qed.
Lemma fine_hash_4_gadget ins s output n c : width p = 5 -> Forall (vr n c) ins -> length ins = 4 -> vr n c s ->
  fineR (Poseidon_hash_4_gadget p sbox ins [s] output) n c any.
Proof.
  intros Hw Hi HL Hs. unfold Poseidon_hash_4_gadget. rewrite HL. cbn [map Nat.eqb assertb p_lift pbind].
  eapply fineR_try; [apply fine_hash_4; [exact Hw|apply Forall_lr_vars, Hi|rewrite map_length; exact HL|rng]|].
  intros x n' c' _ _ Hx. cbv beta in Hx. fsteps. exact I.
Qed.
Lemma fine_hash_8_gadget ins s output n c : width p = 9 -> Forall (vr n c) ins -> length ins = 8 -> vr n c s ->
  fineR (Poseidon_hash_8_gadget p sbox ins s output) n c any.
Proof.
  intros Hw Hi HL Hs. unfold Poseidon_hash_8_gadget. rewrite HL. cbn [Nat.eqb assertb p_lift pbind].
  eapply fineR_try; [apply fine_hash_8; [exact Hw|apply Forall_lr_vars, Hi|rewrite map_length; exact HL|rng]|].
  intros x n' c' _ _ Hx. cbv beta in Hx. fsteps. exact I.
Qed.
End Poseidon.
End Gadgets.
