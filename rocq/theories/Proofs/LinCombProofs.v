(** Proofs about linear combinations (src/r1cs/linear_combination.rs). *)
From Coq Require Import ZArith List Lia Bool Ring Field Permutation.
From Verif.Base Require Import Outcome Fp Params Algebra.
From Verif.Model Require Import LinComb.
From Verif.Spec Require Import R1CS.
Import ListNotations.

Lemma var_eqb_spec a b : reflect (a = b) (var_eqb a b).
Proof.
  destruct a, b; simpl; try (constructor; congruence);
    destruct (Nat.eqb_spec i i0); constructor; congruence.
Qed.

Lemma var_eqb_refl v : var_eqb v v = true.
Proof. destruct (var_eqb_spec v v); congruence. Qed.

Lemma remove_nth_perm {A} (l : list A) i x :
  nth_error l i = Some x -> Permutation l (x :: remove_nth i l).
Proof.
  revert i; induction l; intros i H; destruct i; simpl in *; try discriminate.
  - injection H as ->. reflexivity.
  - rewrite perm_swap. apply perm_skip. apply IHl. assumption.
Qed.

Lemma permute_perm {A} (code : list nat) (l : list A) : Permutation l (permute code l).
Proof.
  revert l; induction code as [|c code IH]; intros l; simpl; [reflexivity|].
  destruct l as [|a t]; [reflexivity|].
  destruct (nth_error (a :: t) c) as [x|] eqn:E; [|reflexivity].
  rewrite (remove_nth_perm _ _ _ E) at 1. apply perm_skip. apply IH.
Qed.

Lemma remove_nth_app {A} (l1 l2 : list A) x : remove_nth (length l1) (l1 ++ x :: l2) = l1 ++ l2.
Proof. induction l1; simpl; congruence. Qed.

(** every order is reachable *)
Lemma permute_complete {A} (l l' : list A) : Permutation l l' -> exists code, permute code l = l'.
Proof.
  revert l; induction l' as [|x l' IH]; intros l H.
  - apply Permutation_sym, Permutation_nil in H. subst. exists []. reflexivity.
  - destruct (in_split x l) as (l1 & l2 & ->).
    { apply (Permutation_in x (Permutation_sym H)). left. reflexivity. }
    apply Permutation_sym, Permutation_cons_app_inv, Permutation_sym in H.
    destruct (IH _ H) as [code Hc]. exists (length l1 :: code).
    simpl. destruct (l1 ++ x :: l2) eqn:E; [destruct l1; discriminate|]. rewrite <- E.
    rewrite nth_error_app2, Nat.sub_diag by lia. simpl.
    rewrite remove_nth_app, Hc. reflexivity.
Qed.

Section LinCombProofs.
Context {P : Params} {OK : ParamsOk P}.
Local Open Scope fe_scope.
Add Field FFlc : (Fp_field_theory modulus modulus_prime).

Lemma lc_value_app s a b : lc_value s (a ++ b) = lc_value s a + lc_value s b.
Proof. induction a as [|[v c] t IH]; simpl; [ring|rewrite IH; ring]. Qed.

Lemma coeff_app v a b : coeff v (a ++ b) = coeff v a + coeff v b.
Proof. induction a as [|[w c] t IH]; simpl; [ring|rewrite IH; ring]. Qed.

Lemma lc_value_of_var s v : lc_value s (lc_of_var v) = var_value s v.
Proof. simpl. ring. Qed.
Lemma lc_value_of_fe s x : lc_value s (lc_of_fe x) = x.
Proof. simpl. ring. Qed.
Lemma lc_value_fe_mul s x l : lc_value s (fe_mul_lc x l) = x * lc_value s l.
Proof. induction l as [|[v c] t IH]; simpl; [ring|unfold fe_mul_lc in *; rewrite IH; ring]. Qed.
Lemma lc_value_neg s l : lc_value s (lc_neg l) = - lc_value s l.
Proof. induction l as [|[v c] t IH]; simpl; [ring|unfold lc_neg in *; rewrite IH; ring]. Qed.
Lemma lc_value_add s a b : lc_value s (lc_add a b) = lc_value s a + lc_value s b.
Proof. apply lc_value_app. Qed.
Lemma lc_value_sub s a b : lc_value s (lc_sub a b) = lc_value s a - lc_value s b.
Proof. unfold lc_sub. rewrite lc_value_app. fold (lc_neg b). rewrite lc_value_neg. ring. Qed.
Lemma lc_value_fe_add_var s x v : lc_value s (fe_add_var x v) = x + var_value s v.
Proof. simpl. ring. Qed.
Lemma lc_value_var_sub s v l : lc_value s (var_sub_lc v l) = var_value s v - lc_value s l.
Proof. unfold var_sub_lc. rewrite lc_value_sub, lc_value_of_var. reflexivity. Qed.
Lemma lc_value_var_neg s v : lc_value s (var_neg v) = - var_value s v.
Proof. unfold var_neg. rewrite lc_value_neg, lc_value_of_var. reflexivity. Qed.
Lemma lc_value_var_add s v l : lc_value s (var_add_lc v l) = var_value s v + lc_value s l.
Proof. unfold var_add_lc. rewrite lc_value_add, lc_value_of_var. reflexivity. Qed.
Lemma lc_value_fe_sub_var s x v : lc_value s (fe_sub_var x v) = x - var_value s v.
Proof. simpl. ring. Qed.
Lemma lc_value_fe_mul_var s x v : lc_value s (fe_mul_var x v) = x * var_value s v.
Proof. simpl. ring. Qed.

Lemma lc_value_perm s a b : Permutation a b -> lc_value s a = lc_value s b.
Proof.
  induction 1 as [|[v c] l l' H IH|[v c] [w d] l|l1 l2 l3 H1 IH1 H2 IH2]; simpl.
  - reflexivity.
  - rewrite IH. reflexivity.
  - ring.
  - congruence.
Qed.

Lemma coeff_perm v a b : Permutation a b -> coeff v a = coeff v b.
Proof.
  induction 1 as [|[w c] l l' H IH|[w c] [x d] l|l1 l2 l3 H1 IH1 H2 IH2]; simpl.
  - reflexivity.
  - rewrite IH. reflexivity.
  - ring.
  - congruence.
Qed.

Lemma hm_entry_add_value s m v x : lc_value s (hm_entry_add m v x) = lc_value s m + x * var_value s v.
Proof.
  induction m as [|[w y] t IH]; simpl; [ring|].
  destruct (var_eqb_spec v w) as [->|Hne]; simpl; [ring|]. rewrite IH. ring.
Qed.

Lemma hm_entry_add_coeff u m v x :
  coeff u (hm_entry_add m v x) = coeff u m + (if var_eqb u v then x else 0).
Proof.
  induction m as [|[w y] t IH]; simpl; [destruct (var_eqb u v); ring|].
  destruct (var_eqb_spec v w) as [->|Hne]; simpl.
  - destruct (var_eqb u w); ring.
  - rewrite IH. ring.
Qed.

Lemma hm_entry_add_keys m v x u :
  In u (map fst (hm_entry_add m v x)) <-> u = v \/ In u (map fst m).
Proof.
  induction m as [|[w y] t IH]; simpl; [intuition congruence|].
  destruct (var_eqb_spec v w) as [->|Hne]; simpl; [intuition congruence|]. rewrite IH. intuition congruence.
Qed.

Lemma hm_entry_add_nodup m v x : NoDup (map fst m) -> NoDup (map fst (hm_entry_add m v x)).
Proof.
  induction m as [|[w y] t IH]; simpl; intros H.
  - constructor; [intros []|constructor].
  - inversion H; subst. destruct (var_eqb_spec v w) as [->|Hne]; simpl; [assumption|].
    constructor; [|apply IH; assumption].
    rewrite hm_entry_add_keys. intros [->|Hin]; [congruence|contradiction].
Qed.

Lemma lc_accumulate_aux (Q : list (var * F) -> lc -> Prop) :
  Q [] [] ->
  (forall m l v x, Q m l -> Q (hm_entry_add m v x) (l ++ [(v, x)])) ->
  forall l, Q (lc_accumulate l) l.
Proof.
  intros H0 HS l. unfold lc_accumulate.
  assert (G : forall l2 l1 m, Q m l1 ->
    Q (fold_left (fun m '(v, x) => hm_entry_add m v x) l2 m) (l1 ++ l2)).
  { induction l2 as [|[v x] l2 IH]; intros l1 m H; simpl; [rewrite app_nil_r; assumption|].
    replace (l1 ++ (v, x) :: l2) with ((l1 ++ [(v, x)]) ++ l2) by (rewrite <- app_assoc; reflexivity).
    apply IH. apply HS. assumption. }
  apply (G l [] []). assumption.
Qed.

Lemma lc_accumulate_value s l : lc_value s (lc_accumulate l) = lc_value s l.
Proof.
  apply (lc_accumulate_aux (fun m l => lc_value s m = lc_value s l)); [reflexivity|].
  intros m l' v x H. rewrite hm_entry_add_value, lc_value_app, H. simpl. ring.
Qed.

Lemma lc_accumulate_coeff u l : coeff u (lc_accumulate l) = coeff u l.
Proof.
  apply (lc_accumulate_aux (fun m l => coeff u m = coeff u l)); [reflexivity|].
  intros m l' v x H. rewrite hm_entry_add_coeff, coeff_app, H. simpl. ring.
Qed.

Lemma lc_accumulate_keys u l : In u (map fst (lc_accumulate l)) <-> In u (map fst l).
Proof.
  apply (lc_accumulate_aux (fun m l => In u (map fst m) <-> In u (map fst l))); [reflexivity|].
  intros m l' v x H. rewrite hm_entry_add_keys, map_app, in_app_iff, H. simpl. intuition congruence.
Qed.

Lemma lc_accumulate_nodup l : NoDup (map fst (lc_accumulate l)).
Proof.
  apply (lc_accumulate_aux (fun m l => NoDup (map fst m))); [constructor|].
  intros m l' v x H. apply hm_entry_add_nodup. assumption.
Qed.

Lemma coeff_nodup l v c : NoDup (map fst l) -> In (v, c) l -> coeff v l = c.
Proof.
  induction l as [|[w d] t IH]; simpl; intros Hnd Hin; [contradiction|].
  inversion Hnd; subst. destruct Hin as [Heq|Hin].
  - injection Heq as -> ->. rewrite var_eqb_refl.
    assert (Z : coeff v t = 0); [|rewrite Z; ring].
    clear - H1 OK. induction t as [|[w d] t IH]; simpl in *; [reflexivity|].
    destruct (var_eqb_spec v w) as [->|]; [exfalso; apply H1; left; reflexivity|].
    rewrite IH by (intros ?; apply H1; right; assumption). ring.
  - destruct (var_eqb_spec v w) as [->|].
    + exfalso. apply H1. apply (in_map fst) in Hin. assumption.
    + rewrite IH by assumption. ring.
Qed.

(** equal coefficients give equal values *)
Lemma coeff_notin l v : ~ In v (map fst l) -> coeff v l = 0.
Proof.
  induction l as [|[w d] t IH]; simpl; intros H; [reflexivity|].
  destruct (var_eqb_spec v w) as [->|]; [exfalso; apply H; left; reflexivity|].
  rewrite IH by tauto. ring.
Qed.

Fixpoint value_over (s : assignment) (l : lc) (vs : list var) : F :=
  match vs with
  | [] => 0
  | v :: t => coeff v l * var_value s v + value_over s l t
  end.

Lemma value_over_cons s v0 c l vs : NoDup vs -> In v0 vs ->
  value_over s ((v0, c) :: l) vs = c * var_value s v0 + value_over s l vs.
Proof.
  induction vs as [|v t IH]; intros Hnd Hin; [destruct Hin|].
  inversion Hnd; subst. simpl. destruct (var_eqb_spec v v0) as [->|Hne].
  - assert (E : value_over s ((v0, c) :: l) t = value_over s l t).
    { clear - H1. induction t as [|w t IH]; [reflexivity|]. simpl in *.
      destruct (var_eqb_spec w v0) as [->|]; [tauto|]. rewrite IH by tauto.
      replace (0 + coeff w l) with (coeff w l) by (symmetry; apply (Radd_0_l (Fp_ring_theory _))). reflexivity. }
    rewrite E. ring.
  - destruct Hin as [->|Hin]; [congruence|]. rewrite IH by assumption. ring.
Qed.

Lemma value_over_value s l vs : NoDup vs -> (forall v, In v (map fst l) -> In v vs) ->
  value_over s l vs = lc_value s l.
Proof.
  intros Hnd. induction l as [|[v c] t IH]; simpl; intros H.
  - clear - OK. induction vs; simpl; [reflexivity|]. rewrite IHvs. ring.
  - rewrite value_over_cons; [|assumption|apply H; left; reflexivity].
    rewrite IH by (intros; apply H; right; assumption). reflexivity.
Qed.

Lemma var_eq_dec (a b : var) : {a = b} + {a <> b}.
Proof. destruct (var_eqb_spec a b); [left|right]; assumption. Qed.

Lemma lc_equiv_value s a b : lc_equiv a b -> lc_value s a = lc_value s b.
Proof.
  intros H.
  set (vs := nodup var_eq_dec (map fst a ++ map fst b)).
  assert (Hnd : NoDup vs) by apply NoDup_nodup.
  rewrite <- (value_over_value s a vs), <- (value_over_value s b vs); try assumption.
  - clear Hnd. induction vs; simpl; [reflexivity|]. rewrite IHvs, H. reflexivity.
  - intros v Hv. apply nodup_In, in_or_app. right. assumption.
  - intros v Hv. apply nodup_In, in_or_app. left. assumption.
Qed.

Lemma lc_simplify_coeff code l v : coeff v (lc_simplify code l) = coeff v l.
Proof.
  unfold lc_simplify. rewrite <- (coeff_perm v _ _ (permute_perm code (lc_accumulate l))).
  apply lc_accumulate_coeff.
Qed.

End LinCombProofs.
