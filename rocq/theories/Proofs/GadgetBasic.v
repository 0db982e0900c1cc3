(** The gadgets of Model/Gadgets.v: what their circuits force. *)
From Coq Require Import ZArith String List Lia Bool Ring Field Arith.
From Verif.Base Require Import Outcome Fp Params Algebra.
From Verif.Model Require Import Transcript LinComb Prog VectorPoly IPP Prover Verifier Gadgets.
From Verif.Spec Require Import R1CS Sim Session Protocol Verdict Gadget.
From Verif.Proofs Require Import IPPProofs LinCombProofs RunProofs GadgetTools.
Import ListNotations.

Section Basic.
Context {P : Params} {OK : ParamsOk P}.
Local Open Scope fe_scope.
Add Field FFgb : (Fp_field_theory modulus modulus_prime).

Lemma sub_zero_eq (a b : F) : a - b = 0 -> a = b.
Proof. apply F_sub_zero. Qed.
Lemma fe_of_add a b : fe_of (a + b) = fe_of a + fe_of b.
Proof. apply of_Z_add. Qed.
Lemma fe_of_mul a b : fe_of (a * b) = fe_of a * fe_of b.
Proof. apply of_Z_mul. Qed.
Lemma fe_of_sub a b : fe_of (a - b) = fe_of a - fe_of b.
Proof. apply of_Z_sub. Qed.
Lemma fe_of_0 : fe_of 0 = 0. Proof. reflexivity. Qed.
Lemma fe_of_1 : fe_of 1 = 1. Proof. reflexivity. Qed.
Lemma fe_of_small z : (0 <= z < modulus)%Z -> fval (fe_of z) = z.
Proof. intros H. unfold fe_of. rewrite fval_of_Z. apply Z.mod_small. exact H. Qed.
Lemma fe_of_inj a b : (0 <= a < modulus)%Z -> (0 <= b < modulus)%Z -> fe_of a = fe_of b -> a = b.
Proof. intros Ha Hb E. rewrite <- (fe_of_small a Ha), <- (fe_of_small b Hb), E. reflexivity. Qed.

Lemma pow2_S j : (2 ^ Z.of_nat (S j) = 2 * 2 ^ Z.of_nat j)%Z.
Proof. rewrite Nat2Z.inj_succ, Z.pow_succ_r by lia. reflexivity. Qed.
Lemma pow2_pos j : (0 < 2 ^ Z.of_nat j)%Z.
Proof. apply Z.pow_pos_nonneg; lia. Qed.

Lemma index_inv {A} (l : list A) i x d : index l i = Done x -> (i < length l)%nat /\ x = nth i l d.
Proof.
  unfold index. destruct (nth_error l i) as [y|] eqn:E; [|discriminate]. intros H. injection H as <-.
  split; [apply nth_error_Some; congruence|]. symmetry. apply nth_error_nth. exact E.
Qed.

Lemma nth_error_seq0 n j i : nth_error (seq 0 n) j = Some i -> i = j /\ (j < n)%nat.
Proof.
  intros E. assert (H : (j < length (seq 0 n))%nat) by (apply nth_error_Some; congruence).
  rewrite seq_length in H. split; [|exact H].
  apply nth_error_nth with (d := O) in E. rewrite seq_nth in E by exact H. lia.
Qed.

Lemma bit_force (a b o : F) : o = a * b -> o = 0 -> a + (b - 1) = 0 -> b = 0 \/ b = 1.
Proof.
  intros H1 H2 H3. rewrite H2 in H1. symmetry in H1. apply F_mul_integral in H1 as [E|E]; [|auto].
  right. rewrite E in H3. transitivity (0 + (b - 1) + 1); [ring|rewrite H3; ring].
Qed.

(** *** Soundness *)
Section V.
Context (W : world) (ph : bool) (asg : assignment).
Local Notation val := (var_value asg).
Local Notation okspec := (okspec W ph asg).
Local Notation vspec := (vspec W ph asg).

Lemma bit_sound q s :
  okspec s (bit_gadget q) (fun _ s' => vkeep s s' /\ (val (q_var q) = 0 \/ val (q_var q) = 1)).
Proof.
  unfold bit_gadget. apply ok_allocate_multiplier. intros s1 a b o K1 Eo.
  apply ok_constrain. intros s2 K2 E1.
  apply ok_constrain. intros s3 K3 E2.
  apply ok_constrain. intros s4 K4 E3.
  apply ok_ret. split; [eauto using vkeep_trans|].
  lcv E1. lcv E2. lcv E3.
  assert (Eb : val b = val (q_var q)).
  { transitivity (val b + (- (1) * val (q_var q) + 0) + val (q_var q)); [ring|rewrite E1; ring]. }
  rewrite <- Eb. eapply bit_force; eassumption.
Qed.

Lemma nonzero_sound x xi s :
  okspec s (is_nonzero_gadget x xi) (fun _ s' => vkeep s s' /\ val x * val xi = 1).
Proof.
  unfold is_nonzero_gadget. apply ok_multiply. intros s1 vl1 vr1 o1 K1 _ _ _.
  apply ok_constrain. intros s2 K2 _.
  apply ok_multiply. intros s3 vl2 vr2 o2 K3 _ _ E2.
  apply ok_constrain. intros s4 K4 E3.
  apply ok_ret. split; [eauto using vkeep_trans|].
  lcv E2. lcv E3. apply sub_zero_eq in E3. rewrite <- E3, E2. ring.
Qed.

Lemma positive_sound q n s :
  okspec s (positive_no_gadget q n) (fun _ s' => vkeep s s' /\
    exists z, (0 <= z < 2 ^ Z.of_nat n)%Z /\ val (q_var q) = fe_of z).
Proof.
  unfold positive_no_gadget.
  eapply ok_try; [apply (ok_try_fold W ph asg (positive_no_step q)
    (fun j st s' => vkeep s s' /\ snd st = fe_of (2 ^ Z.of_nat j) /\ exists z, (0 <= z < 2 ^ Z.of_nat j)%Z /\
       lc_value asg (fst st) = - val (q_var q) + fe_of z))|].
  - intros j i [cv e] s1 _ (K & He & z & Hz & Hv). cbn [fst snd] in *. unfold positive_no_step.
    apply ok_allocate_multiplier. intros s2 a b o K2 Eo.
    apply ok_constrain. intros s3 K3 E2.
    apply ok_constrain. intros s4 K4 E3.
    apply ok_ret. cbn [fst snd].
    lcv E2. lcv E3. pose proof (bit_force _ _ _ Eo E2 E3) as Hb.
    split; [eauto using vkeep_trans|]. rewrite pow2_S. split.
    { rewrite He, <- fe_of_add. f_equal. lia. }
    rewrite lc_value_app, Hv. cbn [lc_value]. rewrite He. destruct Hb as [-> | ->].
    + exists z. split; [lia|]. ring.
    + exists (z + 2 ^ Z.of_nat j)%Z. split; [lia|]. rewrite fe_of_add. ring.
  - split; [apply vkeep_refl|]. split; [reflexivity|]. exists 0%Z. split; [cbn; lia|].
    cbn [lc_value fst]. rewrite fe_of_0. ring.
  - rewrite seq_length. intros [cv e] s1 (K & _ & z & Hz & Hv). cbn [fst] in *.
    apply ok_constrain. intros s2 K2 E. apply ok_ret. split; [eauto using vkeep_trans|].
    exists z. split; [exact Hz|]. rewrite Hv in E.
    transitivity (fe_of z - (- val (q_var q) + fe_of z)); [ring|rewrite E; ring].
Qed.

Lemma lc_value_ones vector : lc_value asg (map (fun i => (i, 1)) vector) = fsum (map val vector).
Proof. induction vector as [|v t IH]; [reflexivity|]. cbn. rewrite IH. ring. Qed.

Lemma vector_sum_sound vector sum s :
  okspec s (vector_sum_constraints vector sum) (fun _ s' => vkeep s s' /\ fsum (map val vector) = fe_of sum).
Proof.
  unfold vector_sum_constraints. apply ok_constrain. intros s1 K E. apply ok_ret. split; [exact K|].
  cbn [lc_value] in E. rewrite lc_value_ones in E. cbn [var_value] in E.
  transitivity (- fe_of sum * 1 + fsum (map val vector) + fe_of sum); [ring|rewrite E; ring].
Qed.

Lemma bound_check_sound checks v a b max min n s :
  okspec s (bound_check_gadget checks v a b max min n) (fun _ s' => vkeep s s' /\
    exists za zb, (0 <= za < 2 ^ Z.of_nat n)%Z /\ (0 <= zb < 2 ^ Z.of_nat n)%Z /\
      val (q_var v) = fe_of (min + za) /\ val (q_var v) = fe_of (max - zb)).
Proof.
  unfold bound_check_gadget. apply ok_constrain. intros s1 K1 E1. apply ok_constrain. intros s2 K2 E2.
  apply ok_lift. intros d Ed. unfold constrain_lc_with_scalar. apply ok_constrain. intros s3 K3 E3.
  eapply ok_try; [apply positive_sound|]. intros [] s4 (K4 & za & Hza & Ea).
  eapply ok_try; [apply positive_sound|]. intros [] s5 (K5 & zb & Hzb & Eb).
  apply ok_ret. split; [eauto 10 using vkeep_trans|]. exists za, zb. split; [exact Hza|]. split; [exact Hzb|].
  lcv E1. lcv E2. rewrite fe_of_add, fe_of_sub, <- Ea, <- Eb.
  apply sub_zero_eq in E1. apply sub_zero_eq in E2. rewrite <- E1, <- E2. split; ring.
Qed.

Fixpoint fprod (l : list F) : F := match l with [] => 1 | x :: t => x * fprod t end.

Lemma fprod_snoc l x : fprod (l ++ [x]) = fprod l * x.
Proof. induction l as [|y t IH]; cbn; [ring|rewrite IH; ring]. Qed.

Lemma fprod_zero l : fprod l = 0 -> In 0 l.
Proof.
  induction l as [|x t IH]; cbn; intros E.
  - exfalso. exact (F_one_neq_zero E).
  - apply F_mul_integral in E as [E|E]; auto.
Qed.

Lemma firstn_S_nth {A} (l : list A) j d : (j < length l)%nat -> firstn (S j) l = firstn j l ++ [nth j l d].
Proof.
  revert j. induction l as [|x t IH]; intros j H; [cbn in H; lia|]. destruct j as [|j]; [reflexivity|].
  cbn [firstn nth app]. f_equal. apply IH. cbn in H. lia.
Qed.

Lemma set_membership_sound v ds set s :
  okspec s (set_membership_gadget v ds set) (fun _ s' => vkeep s s' /\ In (val (q_var v)) set /\
    forall i, (i < length set)%nat -> exists d, nth_error ds i = Some d /\ val (q_var d) = nth i set 0 - val (q_var v)).
Proof.
  unfold set_membership_gadget.
  eapply ok_bind; [apply (vspec_fold W ph asg _ (fun j product s' => vkeep s s' /\
     lc_value asg product = fprod (map (fun x => x - val (q_var v)) (firstn j set)) /\
     forall i, (i < j)%nat -> exists d, nth_error ds i = Some d /\ val (q_var d) = nth i set 0 - val (q_var v)))|].
  - intros j i product s1 Hi (K & Hp & Hd). apply nth_error_seq0 in Hi as [-> Hj].
    apply vspec_bind, vspec_lift. intros d Ed. apply vspec_bind, vspec_lift. intros si Esi.
    apply (index_inv _ _ _ 0) in Esi as [_ ->].
    unfold constrain_lc_with_scalar. apply vspec_bind, vspec_constrain. intros s2 K2 E2.
    apply vspec_bind, vspec_multiply. intros s3 vl vr vo K3 _ _ E3. apply vspec_ret.
    split; [eauto using vkeep_trans|]. lcv E2. lcv E3.
    assert (E4 : val (q_var d) = nth j set 0 - val (q_var v)) by (apply sub_zero_eq in E2; rewrite <- E2; ring).
    split.
    + rewrite (firstn_S_nth _ _ 0) by exact Hj. rewrite map_app. cbn [map]. rewrite fprod_snoc, lc_value_of_var, E3, Hp, E4.
      reflexivity.
    + intros i Hi. destruct (Nat.eq_dec i j) as [-> | Hne]; [|apply Hd; lia].
      exists d. split; [|exact E4]. unfold index in Ed. destruct (nth_error ds j); [injection Ed as ->; reflexivity|discriminate].
  - split; [apply vkeep_refl|]. rewrite lc_value_of_var. split; [reflexivity|]. intros i Hi. lia.
  - rewrite seq_length, firstn_all. intros product s1 (K & Hp & Hd).
    apply ok_constrain. intros s2 K2 E. apply ok_ret. split; [eauto using vkeep_trans|]. split; [|exact Hd].
    rewrite Hp in E. apply fprod_zero in E. apply in_map_iff in E as [x [E Hx]].
    apply sub_zero_eq in E. rewrite <- E. exact Hx.
Qed.

Lemma vector_product_sound items vector value s :
  okspec s (vector_product_gadget items vector value) (fun _ s' => vkeep s s' /\
    (val (q_var value) = 0 \/ exists it, In it items /\ val (q_var value) = fe_of it)).
Proof.
  unfold vector_product_gadget.
  eapply ok_try; [apply (ok_try_fold W ph asg _ (fun j cs s' => vkeep s s' /\
     ((exists it, In it items /\ val (q_var value) = fe_of it) \/
      lc_value asg cs = - val (q_var value))))|].
  - intros j i cs s1 Hi (K & Hp). apply nth_error_seq0 in Hi as [-> Hj].
    apply ok_lift. intros vi Evi. apply ok_lift. intros it Eit. apply (index_inv _ _ _ 0%Z) in Eit as [Hit Eit].
    apply ok_allocate_multiplier. intros s2 bv iv o1 K2 E1.
    unfold constrain_lc_with_scalar. apply ok_constrain. intros s3 K3 E2.
    apply ok_multiply. intros s4 vl vr o2 K4 _ _ E3. apply ok_constrain. intros s5 K5 E4.
    apply ok_ret. split; [eauto 10 using vkeep_trans|].
    lcv E2. lcv E3. lcv E4. apply sub_zero_eq in E2. apply sub_zero_eq in E4.
    destruct Hp as [Hp|Hp]; [left; exact Hp|].
    assert (E5 : val bv * (fe_of it - val (q_var value)) = 0).
    { transitivity (val o1 - val o2); [rewrite E1, E3, E2; ring|rewrite E4; ring]. }
    apply F_mul_integral in E5 as [E5|E5].
    + right. rewrite lc_value_app, Hp. cbn [lc_value]. rewrite E1, E5. ring.
    + left. exists it. split; [rewrite Eit; apply nth_In; exact Hit|]. symmetry. apply sub_zero_eq. exact E5.
  - split; [apply vkeep_refl|]. right. cbn [lc_value]. ring.
  - intros cs s1 (K & Hp).
    apply ok_constrain. intros s2 K2 E. apply ok_ret. split; [eauto using vkeep_trans|].
    destruct Hp as [Hp|Hp]; [right; exact Hp|left].
    transitivity (- (- val (q_var value))); [ring|]. rewrite <- Hp, E. ring.
Qed.

Lemma non_membership_sound v ds dis set s :
  okspec s (set_non_membership_gadget v ds dis set) (fun _ s' => vkeep s s' /\ ~ In (val (q_var v)) set /\
    forall i, (i < length set)%nat -> exists d di, nth_error ds i = Some d /\ nth_error dis i = Some di /\
      val (q_var d) = nth i set 0 - val (q_var v) /\ val (q_var d) * val (q_var di) = 1).
Proof.
  unfold set_non_membership_gadget.
  eapply ok_conseq; [apply (ok_try_fold W ph asg _ (fun j _ s' => vkeep s s' /\ ~ In (val (q_var v)) (firstn j set) /\
    forall i, (i < j)%nat -> exists d di, nth_error ds i = Some d /\ nth_error dis i = Some di /\
      val (q_var d) = nth i set 0 - val (q_var v) /\ val (q_var d) * val (q_var di) = 1))|].
  - intros j i [] s1 Hi (K & Hp & Hd). apply nth_error_seq0 in Hi as [-> Hj].
    apply ok_lift. intros d Ed. apply ok_lift. intros si Esi. apply (index_inv _ _ _ 0) in Esi as [_ ->].
    unfold constrain_lc_with_scalar. apply ok_constrain. intros s2 K2 E2.
    apply ok_lift. intros di Edi. eapply ok_conseq; [apply nonzero_sound|]. intros [] s3 (K3 & E3).
    split; [eauto using vkeep_trans|]. lcv E2.
    assert (E4 : val (q_var d) = nth j set 0 - val (q_var v)) by (apply sub_zero_eq in E2; rewrite <- E2; ring).
    split.
    + rewrite (firstn_S_nth _ _ 0) by exact Hj.
      rewrite in_app_iff. intros [H|[H|[]]]; [exact (Hp H)|].
      apply F_one_neq_zero. rewrite <- E3, E4, H. ring.
    + intros i Hi. destruct (Nat.eq_dec i j) as [-> | Hne]; [|apply Hd; lia].
      exists d, di. unfold index in Ed, Edi.
      destruct (nth_error ds j); [injection Ed as ->|discriminate]. destruct (nth_error dis j); [injection Edi as ->|discriminate]. auto.
  - split; [apply vkeep_refl|]. split; [intros []|]. intros i Hi. lia.
  - rewrite seq_length, firstn_all. intros [] s1 H. exact H.
Qed.
End V.
End Basic.
