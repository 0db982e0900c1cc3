(** The gadgets of Model/Gadgets.v: an honest witness satisfies them, and the
    prover and the verifier build the same circuit. *)
From Coq Require Import ZArith String List Lia Bool Ring Field Arith.
From Verif.Base Require Import Outcome Fp Params Algebra.
From Verif.Model Require Import Transcript LinComb Prog VectorPoly IPP Prover Verifier Gadgets.
From Verif.Spec Require Import R1CS Sim Session Protocol Verdict Gadget.
From Verif.Proofs Require Import IPPProofs LinCombProofs RunProofs GadgetTools GadgetBasic.
Import ListNotations.

Section Complete.
Context {P : Params} {OK : ParamsOk P}.
Local Open Scope fe_scope.
Add Field FFgc : (Fp_field_theory modulus modulus_prime).
Context (W W' : world) (ph : bool).
Local Notation both := (both W W' ph).
Notation oks := (fun a b _ => a = Ok tt /\ b = Ok tt).

Lemma both_ok ps vs : both 0 0 (PRet (Ok tt)) (PRet (Ok tt)) ps vs oks.
Proof. apply both_ret. split; reflexivity. Qed.

Lemma bit_both v x o ps vs : has_value ps v x -> x = 0 \/ x = 1 ->
  both 1 0 (bit_gadget (Quantity v (Some x))) (bit_gadget (Quantity v o)) ps vs oks.
Proof.
  intros Hv Hx. unfold bit_gadget. cbn [q_var q_assignment option_map].
  apply b_allocate_multiplier. intros ps1 vs1 a b c Hg V1 V2 V3. carry Hg.
  apply b_constrain; [apply lc_same_refl|lch; ring|]. intros ps2 vs2 Hg2. carry Hg2.
  apply b_constrain; [apply lc_same_refl|lch; destruct Hx as [-> | ->]; ring|]. intros ps3 vs3 Hg3. carry Hg3.
  apply b_constrain; [apply lc_same_refl|lch; ring|]. intros ps4 vs4 Hg4.
  apply both_ok.
Qed.

Lemma nonzero_both x xi a ps vs : has_value ps x a -> has_value ps xi (finv a) -> a <> 0 ->
  both 2 0 (is_nonzero_gadget x xi) (is_nonzero_gadget x xi) ps vs oks.
Proof.
  intros Hx Hxi Ha. unfold is_nonzero_gadget.
  eapply b_multiply; [apply lc_same_refl|apply lc_same_refl|lch0|lch0|]. intros ps1 vs1 vl vr vo Hg V1 V2 V3. carry Hg.
  apply b_constrain; [apply lc_same_refl|lch; ring|]. intros ps2 vs2 Hg2. carry Hg2.
  eapply b_multiply; [apply lc_same_refl|apply lc_same_refl|lch0|lch0|]. intros ps3 vs3 vl' vr' vo' Hg3 V1' V2' V3'. carry Hg3.
  apply b_constrain; [apply lc_same_refl|lch|].
  { transitivity (a * finv a - 1); [ring|]. rewrite finv_r by exact Ha. ring. }
  intros ps4 vs4 Hg4. apply both_ok.
Qed.

Lemma Z_mod_bit a j : (0 <= j)%Z -> (a mod 2 ^ (Z.succ j) = a mod 2 ^ j + (if Z.odd (Z.shiftr a j) then 2 ^ j else 0))%Z.
Proof.
  intros Hj. rewrite Z.pow_succ_r by exact Hj. assert (0 < 2 ^ j)%Z by (apply Z.pow_pos_nonneg; lia).
  rewrite (Z.mul_comm 2), Z.rem_mul_r by lia. rewrite Z.shiftr_div_pow2 by exact Hj.
  rewrite Zmod_odd. destruct (Z.odd _); lia.
Qed.

Lemma positive_both v q n o ps vs : has_value ps v q -> (fval q < 2 ^ Z.of_nat n)%Z ->
  both n 0 (positive_no_gadget (Quantity v (Some q)) n) (positive_no_gadget (Quantity v o) n) ps vs oks.
Proof.
  intros Hv Hq. unfold positive_no_gadget. eapply both_cost; [eapply both_try; [eapply (both_try_fold W W' ph 1 0 _ _ _ _ ps vs _ _
    (fun j st st' ps' => st = st' /\ has_value ps' v q /\ snd st = fe_of (2 ^ Z.of_nat j) /\
       lc_has ps' (fst st) (- q + fe_of (fval q mod 2 ^ Z.of_nat j))))|]| |].
  - reflexivity.
  - intros j i i' [cv e] st' ps1 vs1 Hi Hi' Hg0 (<- & Hv1 & He & Hl). cbn [fst snd] in *.
    apply nth_error_seq0 in Hi as [-> Hj]. apply nth_error_seq0 in Hi' as [-> _].
    unfold positive_no_step. cbn [q_var q_assignment option_map].
    set (x := if fe_bit q j then 0 else 1 : F). set (y := if fe_bit q j then 1 else 0 : F).
    replace (if fe_bit q j then (0 : F, 1 : F) else (1, 0)) with (x, y) by (unfold x, y; destruct (fe_bit q j); reflexivity).
    apply b_allocate_multiplier. intros ps2 vs2 a b c Hg2 V1 V2 V3. carry Hg2.
    apply b_constrain; [apply lc_same_refl|lch; unfold x, y; destruct (fe_bit q j); ring|]. intros ps3 vs3 Hg3. carry Hg3.
    apply b_constrain; [apply lc_same_refl|lch; unfold x, y; destruct (fe_bit q j); ring|]. intros ps4 vs4 Hg4. carry Hg4.
    apply both_ret. eexists _, _. split; [reflexivity|]. split; [reflexivity|]. split; [reflexivity|].
    split; [exact Hv1|]. cbn [fst snd]. rewrite pow2_S. split.
    { rewrite He, <- fe_of_add. f_equal. lia. }
    lch. rewrite <- pow2_S, Nat2Z.inj_succ, Z_mod_bit, fe_of_add, He by lia.
    unfold y, fe_bit. destruct (Z.odd _); rewrite ?fe_of_0; ring.
  - intros _. split; [reflexivity|]. split; [exact Hv|]. split; [reflexivity|]. cbn [fst]. lch.
    cbn [Z.of_nat Z.pow]. rewrite Z.mod_1_r, fe_of_0. ring.
  - intros [cv e] st' ps1 vs1 Hg (<- & Hv1 & _ & Hl). cbn [fst] in *. rewrite seq_length in Hl.
    apply b_constrain; [apply lc_same_refl| |].
    + eapply lc_has_eq; [exact Hl|]. pose proof (fval_range modulus modulus_prime q). rewrite Z.mod_small by lia.
      unfold fe_of. rewrite of_Z_fval. ring.
    + intros ps2 vs2 _. apply both_ok.
  - rewrite seq_length. lia.
  - lia.
Qed.

Lemma lc_has_ones ps vars xs : Forall2 (has_value ps) vars xs -> lc_has ps (map (fun i => (i, 1)) vars) (fsum xs).
Proof.
  intros H. induction H as [|v x vars xs Hv _ IH]; [apply lc_has_nil|]. cbn [map]. lch. cbn. ring.
Qed.

Lemma vector_sum_both vars xs sum ps vs : Forall2 (has_value ps) vars xs -> fsum xs = fe_of sum ->
  both 0 0 (vector_sum_constraints vars sum) (vector_sum_constraints vars sum) ps vs oks.
Proof.
  intros Hx Hs. unfold vector_sum_constraints. pose proof (lc_has_ones _ _ _ Hx).
  apply b_constrain; [apply lc_same_refl|lch; rewrite Hs; ring|]. intros ps1 vs1 _. apply both_ok.
Qed.

Lemma bound_check_both checks v a b x lower upper n oa ob ov ov' ps vs :
  has_value ps v x -> has_value ps a (x - fe_of lower) -> has_value ps b (fe_of upper - x) ->
  (lower <= upper)%Z ->
  (fval (x - fe_of lower) < 2 ^ Z.of_nat n)%Z -> (fval (fe_of upper - x) < 2 ^ Z.of_nat n)%Z ->
  both (n + n) 0
    (bound_check_gadget checks (Quantity v ov) (Quantity a (Some (x - fe_of lower))) (Quantity b (Some (fe_of upper - x))) upper lower n)
    (bound_check_gadget checks (Quantity v ov') (Quantity a oa) (Quantity b ob) upper lower n) ps vs oks.
Proof.
  intros Hv Ha Hb Hz Hna Hnb. unfold bound_check_gadget, constrain_lc_with_scalar. cbn [q_var].
  apply b_constrain; [apply lc_same_refl|lch; ring|]. intros ps1 vs1 Hg1. carry Hg1.
  apply b_constrain; [apply lc_same_refl|lch; ring|]. intros ps2 vs2 Hg2. carry Hg2.
  assert (E : u64_sub checks upper lower = Done (upper - lower)%Z).
  { unfold u64_sub. destruct (Z.ltb_spec upper lower); [lia|reflexivity]. }
  eapply b_lift; [exact E|exact E|].
  apply b_constrain; [apply lc_same_refl|lch; rewrite !fe_of_sub; ring|]. intros ps3 vs3 Hg3. carry Hg3.
  eapply both_cost.
  { eapply b_gadget; [apply positive_both; [exact Ha|exact Hna]|]. intros ps4 vs4 Hg4. carry Hg4.
    eapply b_gadget; [apply positive_both; [exact Hb|exact Hnb]|]. intros ps5 vs5 Hg5.
    apply both_ok. }
  all: lia.
Qed.

Lemma index_done {A} (l : list A) i d : (i < length l)%nat -> index l i = Done (nth i l d).
Proof. apply index_ok. Qed.

Lemma forall2_nth {A B} (R : A -> B -> Prop) l l' d d' i : Forall2 R l l' -> (i < length l)%nat -> R (nth i l d) (nth i l' d').
Proof.
  intros H. revert i. induction H; intros i Hi; [cbn in Hi; lia|]. destruct i; [assumption|]. cbn in Hi. apply IHForall2. lia.
Qed.
Lemma forall2_len {A B} (R : A -> B -> Prop) l l' : Forall2 R l l' -> length l = length l'.
Proof. induction 1; cbn; congruence. Qed.

Lemma forall2_grew k r ps ps' vars xs : grew k r ps ps' -> Forall2 (has_value ps) vars xs -> Forall2 (has_value ps') vars xs.
Proof. intros Hg H. induction H; constructor; eauto using has_value_grew. Qed.

Lemma nth_map_in {A B} (f : A -> B) l i d d' : (i < length l)%nat -> nth i (map f l) d' = f (nth i l d).
Proof. intros H. rewrite (nth_indep _ d' (f d)) by (rewrite map_length; exact H). apply map_nth. Qed.

(** [qs] and [qs'] are the prover's and verifier's views of the same variables *)
Definition same_vars (qs qs' : list quantity) : Prop := map q_var qs = map q_var qs'.

Lemma same_vars_len qs qs' : same_vars qs qs' -> length qs = length qs'.
Proof. intros H. rewrite <- (map_length q_var qs), H. apply map_length. Qed.
Lemma same_vars_nth qs qs' i d : same_vars qs qs' -> q_var (nth i qs d) = q_var (nth i qs' d).
Proof. intros H. rewrite <- !(map_nth q_var), H. reflexivity. Qed.

Definition dq : quantity := Quantity VOne None.

Lemma set_membership_both v x set ds ds' o o' ps vs :
  has_value ps v x -> same_vars ds ds' -> Forall2 (has_value ps) (map q_var ds) (map (fun y => y - x) set) -> In x set ->
  both (length set) 0 (set_membership_gadget (Quantity v o) ds set) (set_membership_gadget (Quantity v o') ds' set) ps vs oks.
Proof.
  intros Hv Hsv Hd Hin. unfold set_membership_gadget. cbn [q_var].
  pose proof (forall2_len _ _ _ Hd) as HL. rewrite !map_length in HL.
  eapply both_cost.
  { eapply both_bind; [eapply (both_fold W W' ph 1 0 _ _ _ _ ps vs _ _
      (fun j st st' ps' => st = st' /\ lc_has ps' st (fprod (map (fun y => y - x) (firstn j set)))))|].
    - reflexivity.
    - intros j i i' st st' ps1 vs1 Hi Hi' Hg (<- & Hl). apply nth_error_seq0 in Hi as [-> Hj]. apply nth_error_seq0 in Hi' as [-> _].
      carry Hg. apply (forall2_grew _ _ _ _ _ _ Hg) in Hd.
      assert (Hdj : has_value ps1 (q_var (nth j ds dq)) (nth j set 0 - x)).
      { rewrite <- (map_nth q_var). rewrite <- (nth_map_in (fun y => y - x) set j 0 0) by exact Hj.
        apply forall2_nth; [exact Hd|]. rewrite map_length. lia. }
      eapply b_lift; [apply (index_done _ _ dq); lia|apply (index_done _ _ dq); rewrite <- (same_vars_len _ _ Hsv); lia|].
      eapply b_lift; [apply (index_done _ _ 0); lia|apply (index_done _ _ 0); lia|].
      unfold constrain_lc_with_scalar. rewrite <- (same_vars_nth _ _ _ _ Hsv).
      apply b_constrain; [apply lc_same_refl|lch; ring|]. intros ps2 vs2 Hg2. carry Hg2.
      eapply b_multiply; [apply lc_same_refl|apply lc_same_refl|lch0|lch0|]. intros ps3 vs3 vl vr vo Hg3 V1 V2 V3. carry Hg3.
      apply both_ret. split; [reflexivity|]. rewrite (firstn_S_nth _ _ 0) by exact Hj. rewrite map_app. cbn [map].
      rewrite fprod_snoc. lch. reflexivity.
    - intros _. split; [reflexivity|]. lch. reflexivity.
    - intros st st' ps1 vs1 Hg (<- & Hl). rewrite seq_length, firstn_all in Hl.
      apply b_constrain; [apply lc_same_refl| |].
      + eapply lc_has_eq; [exact Hl|]. clear - OK Hin. induction set as [|y t IH]; [contradiction|]. cbn.
        destruct Hin as [->|Hin]; [ring|rewrite IH by exact Hin; ring].
      + intros ps2 vs2 _. apply both_ok. }
  all: rewrite seq_length; lia.
Qed.

Lemma vector_product_both items vector vector' value x bits o o' ps vs :
  has_value ps value x -> same_vars vector vector' -> map q_assignment vector = map Some bits -> length items = length bits ->
  (forall i, (i < length items)%nat -> nth i bits 0 = 0 \/ (nth i bits 0 = 1 /\ fe_of (nth i items 0%Z) = x)) ->
  x * fsum bits = x ->
  both (2 * length items) 0 (vector_product_gadget items vector (Quantity value o))
    (vector_product_gadget items vector' (Quantity value o')) ps vs oks.
Proof.
  intros Hv Hsv Ha HL Hb Hs. unfold vector_product_gadget. cbn [q_var].
  assert (HL2 : length vector = length items).
  { rewrite <- (map_length q_assignment), Ha, map_length. congruence. }
  eapply both_cost.
  { eapply both_try; [eapply (both_try_fold W W' ph 2 0 _ _ _ _ ps vs _ _
      (fun j st st' ps' => st = st' /\ has_value ps' value x /\ lc_has ps' st (- x + x * fsum (firstn j bits))))|].
    - reflexivity.
    - intros j i i' st st' ps1 vs1 Hi Hi' Hg (<- & Hv1 & Hl). apply nth_error_seq0 in Hi as [-> Hj]. apply nth_error_seq0 in Hi' as [-> _].
      eapply b_lift; [apply (index_done _ _ dq); lia|apply (index_done _ _ dq); rewrite <- (same_vars_len _ _ Hsv); lia|].
      eapply b_lift; [apply (index_done _ _ 0%Z); lia|apply (index_done _ _ 0%Z); lia|].
      replace (q_assignment (nth j vector dq)) with (Some (nth j bits 0)).
      2:{ rewrite <- (map_nth q_assignment), Ha. rewrite (nth_map_in Some bits j 0) by lia. reflexivity. }
      cbn [option_map]. apply b_allocate_multiplier. intros ps2 vs2 bv iv o1 Hg2 V1 V2 V3. carry Hg2.
      unfold constrain_lc_with_scalar.
      apply b_constrain; [apply lc_same_refl|lch; ring|]. intros ps3 vs3 Hg3. carry Hg3.
      eapply b_multiply; [apply lc_same_refl|apply lc_same_refl|lch0|lch0|]. intros ps4 vs4 vl vr o2 Hg4 V1' V2' V3'. carry Hg4.
      assert (Hprod : nth j bits 0 * fe_of (nth j items 0%Z) = nth j bits 0 * x).
      { destruct (Hb j Hj) as [-> | [_ ->]]; ring. }
      apply b_constrain; [apply lc_same_refl|lch; rewrite Hprod; ring|]. intros ps5 vs5 Hg5. carry Hg5.
      apply both_ret. eexists _, _. split; [reflexivity|]. split; [reflexivity|]. split; [reflexivity|]. split; [exact Hv1|].
      rewrite (firstn_S_nth _ _ 0) by lia. rewrite fsum_app. lch. rewrite Hprod. cbn. ring.
    - intros _. split; [reflexivity|]. split; [exact Hv|]. lch. cbn. ring.
    - intros st st' ps1 vs1 Hg (<- & Hv1 & Hl). rewrite seq_length, HL, firstn_all, Hs in Hl.
      apply b_constrain; [apply lc_same_refl|eapply lc_has_eq; [exact Hl|ring]|].
      intros ps2 vs2 _. apply both_ok. }
  all: rewrite seq_length; lia.
Qed.

Lemma non_membership_both v x set ds dis ds' dis' o o' ps vs :
  has_value ps v x -> same_vars ds ds' -> same_vars dis dis' ->
  Forall2 (has_value ps) (map q_var ds) (map (fun y => y - x) set) ->
  Forall2 (has_value ps) (map q_var dis) (map (fun y => finv (y - x)) set) -> ~ In x set ->
  both (2 * length set) 0 (set_non_membership_gadget (Quantity v o) ds dis set)
    (set_non_membership_gadget (Quantity v o') ds' dis' set) ps vs oks.
Proof.
  intros Hv Hsv Hsv' Hd Hdi Hin. unfold set_non_membership_gadget. cbn [q_var].
  pose proof (forall2_len _ _ _ Hd) as HL. pose proof (forall2_len _ _ _ Hdi) as HL'. rewrite !map_length in HL, HL'.
  eapply both_cost.
  { eapply both_conseq; [eapply (both_try_fold W W' ph 2 0 _ _ _ _ ps vs _ _ (fun _ _ _ _ => True))|].
    - reflexivity.
    - intros j i i' [] [] ps1 vs1 Hi Hi' Hg _. apply nth_error_seq0 in Hi as [-> Hj]. apply nth_error_seq0 in Hi' as [-> _].
      carry Hg. apply (forall2_grew _ _ _ _ _ _ Hg) in Hd. apply (forall2_grew _ _ _ _ _ _ Hg) in Hdi.
      assert (Hdj : has_value ps1 (q_var (nth j ds dq)) (nth j set 0 - x)).
      { rewrite <- (map_nth q_var). rewrite <- (nth_map_in (fun y => y - x) set j 0 0) by exact Hj.
        apply forall2_nth; [exact Hd|]. rewrite map_length. lia. }
      assert (Hdij : has_value ps1 (q_var (nth j dis dq)) (finv (nth j set 0 - x))).
      { rewrite <- (map_nth q_var). rewrite <- (nth_map_in (fun y => finv (y - x)) set j 0 0) by exact Hj.
        apply forall2_nth; [exact Hdi|]. rewrite map_length. lia. }
      eapply b_lift; [apply (index_done _ _ dq); lia|apply (index_done _ _ dq); rewrite <- (same_vars_len _ _ Hsv); lia|].
      eapply b_lift; [apply (index_done _ _ 0); lia|apply (index_done _ _ 0); lia|].
      unfold constrain_lc_with_scalar. rewrite <- (same_vars_nth _ _ _ _ Hsv).
      apply b_constrain; [apply lc_same_refl|lch; ring|]. intros ps2 vs2 Hg2. carry Hg2.
      eapply b_lift; [apply (index_done _ _ dq); lia|apply (index_done _ _ dq); rewrite <- (same_vars_len _ _ Hsv'); lia|].
      rewrite <- (same_vars_nth _ _ _ _ Hsv'). eapply both_conseq; [eapply nonzero_both; [exact Hdj|exact Hdij|]|].
      + intros E. apply Hin. apply sub_zero_eq in E. rewrite <- E. apply nth_In. exact Hj.
      + intros a b ps3 _ [-> ->]. exists tt, tt. auto.
    - auto.
    - intros a b ps1 _ ([] & [] & -> & -> & _). auto. }
  all: rewrite seq_length; lia.
Qed.

(** one position of the Hamming gadget *)
Definition differs (x y : F) : F := if feqb x y then 0 else 1.

Lemma hamming_both original original' xs new count ps vs :
  same_vars original original' -> Forall2 (has_value ps) (map q_var original) xs -> length xs = length new ->
  p_pending ps = None -> fsum (map (fun '(x, y) => differs x y) (combine xs new)) = fe_of count ->
  both (2 * length new) 0 (hamming_distance_gadget original new count) (hamming_distance_gadget original' new count) ps vs oks.
Proof.
  intros Hsv Hx HL Hp Hc. unfold hamming_distance_gadget.
  pose proof (forall2_len _ _ _ Hx) as HL'. rewrite map_length in HL'.
  assert (E1 : Nat.eqb (length original) (length new) = true) by (apply Nat.eqb_eq; lia).
  assert (E2 : Nat.eqb (length original') (length new) = true) by (apply Nat.eqb_eq; rewrite <- (same_vars_len _ _ Hsv); lia).
  rewrite E1, E2. cbn [negb].
  eapply both_cost.
  { eapply both_try; [eapply (both_try_fold W W' ph 2 0 _ _ _ _ ps vs _ _
      (fun j st st' ps' => st = st' /\ Forall2 (has_value ps') st (map (fun '(x, y) => differs x y) (firstn j (combine xs new)))))|].
    - reflexivity.
    - intros j i i' st st' ps1 vs1 Hi Hi' Hg (<- & Hl). apply nth_error_seq0 in Hi as [-> Hj]. apply nth_error_seq0 in Hi' as [-> _].
      apply (forall2_grew _ _ _ _ _ _ Hg) in Hx.
      assert (Hxj : has_value ps1 (q_var (nth j original dq)) (nth j xs 0)).
      { rewrite <- (map_nth q_var). apply forall2_nth; [exact Hx|]. rewrite map_length. lia. }
      eapply b_lift; [apply (index_done _ _ dq); lia|apply (index_done _ _ dq); rewrite <- (same_vars_len _ _ Hsv); lia|].
      eapply b_lift; [apply (index_done _ _ 0); lia|apply (index_done _ _ 0); lia|].
      rewrite <- (same_vars_nth _ _ _ _ Hsv).
      eapply b_evaluate; [lch0|]. cbn [option_map].
      set (d := nth j xs 0 - nth j new 0).
      unfold ptry at 1 3. cbn [cs_allocate_single pbind].
      eapply both_singles; [rewrite (gr_pending _ _ _ _ Hg); exact Hp|intros; reflexivity|intros; reflexivity|].
      intros i ps2 vs2 Hg2 V1 V2 V3. carry Hg2. cbn [pbind p_lift of_option].
      assert (Ed : d * finv d = differs (nth j xs 0) (nth j new 0)).
      { unfold differs. destruct (feqb_spec modulus (nth j xs 0) (nth j new 0)) as [E|E].
        - unfold d. rewrite E. ring.
        - apply finv_r. unfold d. intros E0. apply E, sub_zero_eq, E0. }
      eapply b_multiply; [apply lc_same_refl|apply lc_same_refl|lch0|lch0|]. intros ps3 vs3 vl vr vo Hg3 V1' V2' V3'. carry Hg3.
      apply b_constrain; [apply lc_same_refl|lch|].
      { rewrite Ed. unfold differs. destruct (feqb_spec modulus (nth j xs 0) (nth j new 0)) as [E|E]; [|ring].
        unfold d. rewrite E. ring. }
      intros ps4 vs4 Hg4. carry Hg4. apply both_ret. eexists _, _. split; [reflexivity|]. split; [reflexivity|]. split; [reflexivity|].
      rewrite (firstn_S_nth _ _ (0, 0)) by (rewrite combine_length; lia). rewrite map_app. apply Forall2_app.
      + apply (forall2_grew _ _ _ _ _ _ Hg4), (forall2_grew _ _ _ _ _ _ Hg3), (forall2_grew _ _ _ _ _ _ Hg2). exact Hl.
      + cbn [map]. rewrite combine_nth by exact HL. rewrite <- Ed. constructor; [exact V3|constructor].
    - intros _. split; [reflexivity|]. constructor.
    - intros st st' ps1 vs1 Hg (<- & Hl). rewrite seq_length in Hl.
      rewrite firstn_all2 in Hl by (rewrite combine_length; lia).
      eapply b_gadget; [eapply vector_sum_both; [exact Hl|exact Hc]|]. intros ps2 vs2 _. apply both_ok. }
  all: rewrite seq_length; lia.
Qed.
End Complete.
