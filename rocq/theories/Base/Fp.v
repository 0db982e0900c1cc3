(** The scalar field: integers modulo the (prime) group order.

    Models [amcl_wrapper::field_elem::FieldElement], whose values are always
    kept reduced modulo [CurveOrder]. *)
From Coq Require Import ZArith Znumtheory List Lia Bool Eqdep_dec Ring Field.
Import ListNotations.
Local Open Scope Z_scope.

Section Fp.
Variable p : Z.

Record Fp : Type := mkFp { fval : Z; fval_ok : (fval mod p =? fval) = true }.

Lemma Fp_ext (a b : Fp) : fval a = fval b -> a = b.
Proof.
  destruct a as [x Hx], b as [y Hy]; simpl; intros ->.
  f_equal. apply UIP_dec. apply bool_dec.
Qed.

Lemma fval_mod (a : Fp) : fval a mod p = fval a.
Proof. apply Z.eqb_eq. apply fval_ok. Qed.

Lemma fp_of_Z_ok (z : Z) : ((z mod p) mod p =? z mod p) = true.
Proof. apply Z.eqb_eq. apply Zmod_mod. Qed.

(** [FieldElement::from(n)]: reduction modulo the order. *)
Definition of_Z (z : Z) : Fp := mkFp (z mod p) (fp_of_Z_ok z).

Definition fzero : Fp := of_Z 0.
Definition fone : Fp := of_Z 1.
Definition fadd (a b : Fp) : Fp := of_Z (fval a + fval b).
Definition fmul (a b : Fp) : Fp := of_Z (fval a * fval b).
Definition fopp (a : Fp) : Fp := of_Z (- fval a).
Definition fsub (a b : Fp) : Fp := of_Z (fval a - fval b).
Definition feqb (a b : Fp) : bool := fval a =? fval b.

(** Extended Euclid on integers, with fuel. *)
Fixpoint egcd (fuel : nat) (a b : Z) : Z * Z :=
  match fuel with
  | O => (1, 0)
  | S k => if b =? 0 then (1, 0)
           else let (x, y) := egcd k b (a mod b) in (y, x - (a / b) * y)
  end.

Definition egcd_fuel : nat := S (2 * S (Z.to_nat (Z.log2 p))).

(** [FieldElement::inverse]; amcl_wrapper returns 0 for 0. *)
Definition finv (a : Fp) : Fp :=
  if fval a =? 0 then fzero else of_Z (fst (egcd egcd_fuel (fval a) p)).
Definition fdiv (a b : Fp) : Fp := fmul a (finv b).

Lemma feqb_spec (a b : Fp) : reflect (a = b) (feqb a b).
Proof.
  unfold feqb. destruct (fval a =? fval b) eqn:E; constructor.
  - apply Fp_ext. apply Z.eqb_eq. assumption.
  - intros ->. rewrite Z.eqb_refl in E. discriminate.
Qed.

Lemma Fp_eq_dec (a b : Fp) : {a = b} + {a <> b}.
Proof. destruct (feqb_spec a b); [left|right]; assumption. Qed.

Lemma fval_of_Z (z : Z) : fval (of_Z z) = z mod p.
Proof. reflexivity. Qed.

Lemma of_Z_fval (a : Fp) : of_Z (fval a) = a.
Proof. apply Fp_ext. simpl. apply fval_mod. Qed.

Lemma of_Z_eq (a b : Z) : a mod p = b mod p -> of_Z a = of_Z b.
Proof. intros. apply Fp_ext. simpl. assumption. Qed.

Lemma of_Z_mod (a : Z) : of_Z (a mod p) = of_Z a.
Proof. apply of_Z_eq. apply Zmod_mod. Qed.

Lemma of_Z_add a b : of_Z (a + b) = fadd (of_Z a) (of_Z b).
Proof. apply of_Z_eq. simpl. apply Zplus_mod. Qed.
Lemma of_Z_mul a b : of_Z (a * b) = fmul (of_Z a) (of_Z b).
Proof. apply of_Z_eq. simpl. apply Zmult_mod. Qed.
Lemma of_Z_sub a b : of_Z (a - b) = fsub (of_Z a) (of_Z b).
Proof. apply of_Z_eq. simpl. apply Zminus_mod. Qed.
Lemma of_Z_opp a : of_Z (- a) = fopp (of_Z a).
Proof.
  apply of_Z_eq. simpl.
  replace (- a) with (0 - a) by lia. replace (- (a mod p)) with (0 - a mod p) by lia.
  rewrite Zminus_mod. rewrite (Zminus_mod 0 (a mod p)). rewrite Zmod_mod. reflexivity.
Qed.

Lemma Fp_ring_theory : ring_theory fzero fone fadd fmul fsub fopp (@eq Fp).
Proof.
  constructor; intros;
    repeat match goal with x : Fp |- _ => rewrite <- (of_Z_fval x); generalize (fval x); clear x; intro end;
    unfold fzero, fone; rewrite <- ?of_Z_add, <- ?of_Z_mul, <- ?of_Z_sub, <- ?of_Z_opp,
      <- ?of_Z_add, <- ?of_Z_mul, <- ?of_Z_sub, <- ?of_Z_opp;
    rewrite <- ?of_Z_add, <- ?of_Z_mul, <- ?of_Z_sub, <- ?of_Z_opp;
    f_equal; ring.
Qed.

Hypothesis Hp : prime p.

Lemma p_gt_1 : 1 < p.
Proof. destruct Hp. assumption. Qed.

Lemma fval_range (a : Fp) : 0 <= fval a < p.
Proof. rewrite <- fval_mod. apply Z.mod_pos_bound. pose proof p_gt_1. lia. Qed.

Lemma fone_neq_fzero : fone <> fzero.
Proof.
  intros H. apply (f_equal fval) in H. simpl in H.
  pose proof p_gt_1. rewrite Z.mod_1_l, Z.mod_0_l in H; lia.
Qed.

(** Each two steps halve the second argument. *)
Lemma egcd_correct : forall k fuel a b,
  0 <= a -> 0 <= b -> b < 2 ^ Z.of_nat k -> (2 * k + 1 <= fuel)%nat ->
  let '(x, y) := egcd fuel a b in a * x + b * y = Z.gcd a b.
Proof.
  induction k as [|k IH]; intros fuel a b Ha Hb Hlt Hf.
  - change (2 ^ Z.of_nat 0) with 1 in Hlt. assert (b = 0) by lia. subst b.
    destruct fuel as [|f]; [lia|]. cbn [egcd]. rewrite Z.eqb_refl.
    rewrite Z.gcd_0_r, Z.abs_eq by lia. ring.
  - destruct fuel as [|[|f]]; [lia|lia|]. cbn [egcd].
    destruct (Z.eqb_spec b 0) as [->|Hb0].
    { rewrite Z.gcd_0_r, Z.abs_eq by lia. ring. }
    destruct (Z.eqb_spec (a mod b) 0) as [Hm|Hm].
    { rewrite (Z.gcd_comm a b).
      replace (Z.gcd b a) with (Z.gcd (a mod b) b) by (rewrite Z.gcd_mod by lia; reflexivity).
      rewrite Hm, Z.gcd_0_l, Z.abs_eq by lia. ring. }
    pose proof (Z.mod_pos_bound a b ltac:(lia)) as Hr.
    set (r := a mod b) in *.
    pose proof (Z.mod_pos_bound b r ltac:(lia)) as Hs.
    assert (Hhalf : b mod r < 2 ^ Z.of_nat k).
    { assert (b mod r + r <= b).
      { pose proof (Z.div_mod b r ltac:(lia)).
        assert (1 <= b / r) by (apply Z.div_le_lower_bound; lia). nia. }
      rewrite Nat2Z.inj_succ, Z.pow_succ_r in Hlt by lia. lia. }
    specialize (IH f r (b mod r) ltac:(lia) ltac:(lia) Hhalf ltac:(lia)).
    destruct (egcd f r (b mod r)) as [x y].
    assert (G1 : Z.gcd r (b mod r) = Z.gcd a b).
    { rewrite (Z.gcd_comm r). rewrite Z.gcd_mod by lia. 
      unfold r. rewrite Z.gcd_mod by lia. apply Z.gcd_comm. }
    rewrite <- G1, <- IH.
    pose proof (Z.div_mod a b ltac:(lia)) as D1. fold r in D1.
    pose proof (Z.div_mod b r ltac:(lia)) as D2.
    set (q1 := a / b) in *. set (q2 := b / r) in *. set (s := b mod r) in *.
    nia.
Qed.

Lemma fval_nonzero (a : Fp) : a <> fzero -> fval a <> 0.
Proof.
  intros H E. apply H. apply Fp_ext. rewrite E. simpl. rewrite Z.mod_0_l; [reflexivity|].
  pose proof p_gt_1; lia.
Qed.

Lemma finv_l (a : Fp) : a <> fzero -> fmul (finv a) a = fone.
Proof.
  intros H. apply fval_nonzero in H. pose proof (fval_range a) as Hr. pose proof p_gt_1 as H1.
  unfold finv. destruct (Z.eqb_spec (fval a) 0) as [|_]; [contradiction|].
  assert (E : let '(x, y) := egcd egcd_fuel (fval a) p in fval a * x + p * y = Z.gcd (fval a) p).
  { apply egcd_correct with (k := S (Z.to_nat (Z.log2 p))); try lia.
    - rewrite Nat2Z.inj_succ, Z2Nat.id by apply Z.log2_nonneg.
      apply Z.log2_spec. lia.
    - unfold egcd_fuel. lia. }
  destruct (egcd egcd_fuel (fval a) p) as [x y]. cbn [fst].
  assert (G : Z.gcd (fval a) p = 1).
  { rewrite Z.gcd_comm. apply Zgcd_1_rel_prime. apply prime_rel_prime; [assumption|].
    intros D. apply Z.divide_pos_le in D; lia. }
  rewrite G in E. rewrite <- (of_Z_fval a) at 1. rewrite <- of_Z_mul.
  apply of_Z_eq. replace (x * fval a) with (1 + (- y) * p) by lia.
  apply Z_mod_plus_full.
Qed.

Lemma finv_0 : finv fzero = fzero.
Proof.
  reflexivity.
Qed.

Lemma Fp_field_theory : field_theory fzero fone fadd fmul fsub fopp fdiv finv (@eq Fp).
Proof.
  constructor.
  - apply Fp_ring_theory.
  - apply fone_neq_fzero.
  - reflexivity.
  - apply finv_l.
Qed.

Lemma fmul_integral (a b : Fp) : fmul a b = fzero -> a = fzero \/ b = fzero.
Proof.
  intros H. apply (f_equal fval) in H. unfold fmul, fzero in H. rewrite !fval_of_Z in H.
  rewrite Z.mod_0_l in H by (pose proof p_gt_1; lia).
  apply Z.mod_divide in H; [|pose proof p_gt_1; lia].
  pose proof (fval_range a). pose proof (fval_range b).
  apply prime_mult in H; [|assumption].
  destruct H as [H|H]; [left|right]; apply Fp_ext; unfold fzero; rewrite fval_of_Z;
    rewrite Z.mod_0_l by (pose proof p_gt_1; lia);
    pose proof p_gt_1; destruct H as [k Hk]; assert (k = 0) by nia; subst; lia.
Qed.

End Fp.

Arguments fval {p} _.
Arguments fval_ok {p} _.
Arguments fadd {p} _ _.
Arguments fmul {p} _ _.
Arguments fsub {p} _ _.
Arguments fopp {p} _.
Arguments finv {p} _.
Arguments fdiv {p} _ _.
Arguments feqb {p} _ _.

#[global] Arguments fadd : simpl never.
#[global] Arguments fmul : simpl never.
#[global] Arguments fsub : simpl never.
#[global] Arguments fopp : simpl never.
#[global] Arguments finv : simpl never.
#[global] Arguments fdiv : simpl never.
#[global] Arguments feqb : simpl never.
#[global] Arguments fzero : simpl never.
#[global] Arguments fone : simpl never.
#[global] Arguments of_Z : simpl never.
