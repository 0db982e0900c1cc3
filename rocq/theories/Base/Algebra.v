(** Vectors of field elements and of group elements: inner products,
    multi-scalar multiplication and their algebra. *)
From Coq Require Import ZArith Znumtheory List Lia Bool Ring Field Permutation.
From Verif.Base Require Import Outcome Fp Params.
Import ListNotations.

Section Defs.
Context {P : Params}.
Local Open Scope fe_scope.

(** [FieldElementVector::sum] *)
Fixpoint fsum (l : list F) : F :=
  match l with
  | [] => 0
  | a :: t => a + fsum t
  end.

Fixpoint fpow (x : F) (n : nat) : F :=
  match n with
  | O => 1
  | S k => x * fpow x k
  end.

(** [FieldElementVector::new_vandermonde_vector]: 1, x, x^2, ... *)
Definition vandermonde (x : F) (n : nat) : list F := map (fpow x) (seq 0 n).

(** inner product of equally long vectors; truncates otherwise, see [inner_product] *)
Fixpoint ip (a b : list F) : F :=
  match a, b with
  | x :: a', y :: b' => x * y + ip a' b'
  | _, _ => 0
  end.

Definition zipw {A B C} (f : A -> B -> C) : list A -> list B -> list C :=
  fix go (a : list A) (b : list B) : list C :=
  match a, b with
  | x :: a', y :: b' => f x y :: go a' b'
  | _, _ => []
  end.

Definition vadd := zipw (@fadd modulus).
Definition vmul := zipw (@fmul modulus).
Definition vscale (c : F) : list F -> list F := map (fun x => c * x).

(** amcl_wrapper checks lengths and returns [Err]; all call sites [unwrap]. *)
Definition inner_product (a b : list F) : outcome F :=
  if Nat.eqb (length a) (length b) then Done (ip a b) else Panic.
Definition hadamard_product (a b : list F) : outcome (list F) :=
  if Nat.eqb (length a) (length b) then Done (vmul a b) else Panic.
Definition plus_vec (a b : list F) : outcome (list F) :=
  if Nat.eqb (length a) (length b) then Done (vadd a b) else Panic.

Definition zeros (n : nat) : list F := repeat 0 n.

Fixpoint gsum (l : list G1) : G1 :=
  match l with
  | [] => g1_id
  | a :: t => g1_add a (gsum t)
  end.

Fixpoint msm (k : list F) (g : list G1) : G1 :=
  match k, g with
  | x :: k', y :: g' => g1_add (g1_mul x y) (msm k' g')
  | _, _ => g1_id
  end.

(** [multi_scalar_mul_*], [inner_product_*]: length check, unwrapped by all callers *)
Definition msm_checked (k : list F) (g : list G1) : outcome G1 :=
  if Nat.eqb (length k) (length g) then Done (msm k g) else Panic.

(** [commit_to_field_element(g, h, v, r)] = v*g + r*h *)
Definition commit (g h : G1) (v r : F) : G1 := g1_add (g1_mul v g) (g1_mul r h).

(** [commit_to_field_element_vectors(G, H, h, a, b, r)] *)
Definition commit_vectors (G H : list G1) (h : G1) (a b : list F) (r : F) : outcome G1 :=
  if Nat.eqb (length G) (length a) && Nat.eqb (length H) (length b)
  then Done (g1_add (g1_add (msm a G) (msm b H)) (g1_mul r h)) else Panic.

(** [v[0..n]] with Rust's bounds check *)
Definition slice_to {A} (n : nat) (l : list A) : outcome (list A) :=
  if Nat.leb n (length l) then Done (firstn n l) else Panic.

(** [v[m..n]] *)
Definition slice {A} (m n : nat) (l : list A) : outcome (list A) :=
  if Nat.leb m n && Nat.leb n (length l) then Done (firstn (n - m) (skipn m l)) else Panic.

End Defs.

(** ** Reflective normalisation in the vector space G1 *)
Section GReflect.
Context {P : Params} {OK : ParamsOk P}.
Local Open Scope fe_scope.
Add Field FFgr : (Fp_field_theory modulus modulus_prime).

Lemma g1_id_r (a : G1) : g1_add a g1_id = a.
Proof. rewrite g1_add_comm. apply g1_add_id. Qed.

Lemma g1_add_cancel_l (a b c : G1) : g1_add a b = g1_add a c -> b = c.
Proof.
  intros H. rewrite <- (g1_add_id b), <- (g1_add_id c), <- (g1_add_neg a),
    <- !g1_add_assoc, H. reflexivity.
Qed.

Lemma g1_mul_zero (a : G1) : g1_mul 0 a = g1_id.
Proof.
  apply (g1_add_cancel_l (g1_mul 0 a)).
  rewrite <- g1_mul_add_l, g1_id_r. f_equal; ring.
Qed.

Lemma g1_mul_id (x : F) : g1_mul x g1_id = g1_id.
Proof.
  apply (g1_add_cancel_l (g1_mul x g1_id)).
  rewrite <- g1_mul_add_r, !g1_id_r. reflexivity.
Qed.

Lemma g1_mul_opp (x : F) (a : G1) : g1_mul (- x) a = g1_neg (g1_mul x a).
Proof.
  apply (g1_add_cancel_l (g1_mul x a)).
  rewrite <- g1_mul_add_l, (g1_add_comm _ (g1_neg _)), g1_add_neg.
  replace (x + - x) with (0:F) by ring. apply g1_mul_zero.
Qed.

Lemma g1_neg_mul (a : G1) : g1_neg a = g1_mul (- (1)) a.
Proof. rewrite g1_mul_opp, g1_mul_one. reflexivity. Qed.

Inductive gexp : Type :=
| GVar (n : nat)
| GZero
| GAdd (a b : gexp)
| GNeg (a : gexp)
| GMul (c : F) (a : gexp).

Fixpoint geval (env : list G1) (e : gexp) : G1 :=
  match e with
  | GVar n => nth n env g1_id
  | GZero => g1_id
  | GAdd a b => g1_add (geval env a) (geval env b)
  | GNeg a => g1_neg (geval env a)
  | GMul c a => g1_mul c (geval env a)
  end.

(** coefficient of variable [i] *)
Fixpoint gcoef (e : gexp) (i : nat) : F :=
  match e with
  | GVar n => if Nat.eqb n i then 1 else 0
  | GZero => 0
  | GAdd a b => gcoef a i + gcoef b i
  | GNeg a => - gcoef a i
  | GMul c a => c * gcoef a i
  end.

Fixpoint gcomb (env : list G1) (c : nat -> F) : G1 :=
  match env with
  | [] => g1_id
  | a :: t => g1_add (g1_mul (c O) a) (gcomb t (fun i => c (S i)))
  end.

Lemma gcomb_ext env c d : (forall i, (i < length env)%nat -> c i = d i) -> gcomb env c = gcomb env d.
Proof.
  revert c d; induction env as [|a t IH]; intros c d H; simpl; [reflexivity|].
  rewrite (H O) by (simpl; lia). f_equal. apply IH. intros i Hi. apply H. simpl; lia.
Qed.

Lemma gcomb_zero env c : (forall i, c i = 0) -> gcomb env c = g1_id.
Proof.
  revert c; induction env as [|a t IH]; intros c H; simpl; [reflexivity|].
  rewrite H, g1_mul_zero, g1_add_id. apply IH. intros; apply H.
Qed.

Lemma gcomb_add env c d : gcomb env (fun i => c i + d i) = g1_add (gcomb env c) (gcomb env d).
Proof.
  revert c d; induction env as [|a t IH]; intros c d; simpl; [rewrite g1_add_id; reflexivity|].
  rewrite g1_mul_add_l, (IH (fun i => c (S i)) (fun i => d (S i))).
  rewrite <- !g1_add_assoc. f_equal.
  rewrite !g1_add_assoc. f_equal. apply g1_add_comm.
Qed.

Lemma gcomb_scale env c x : gcomb env (fun i => x * c i) = g1_mul x (gcomb env c).
Proof.
  revert c; induction env as [|a t IH]; intros c; simpl; [rewrite g1_mul_id; reflexivity|].
  rewrite g1_mul_add_r, g1_mul_mul, (IH (fun i => c (S i))). reflexivity.
Qed.

Lemma gcomb_var env n :
  gcomb env (fun i => if Nat.eqb n i then 1 else 0) = nth n env g1_id.
Proof.
  revert n; induction env as [|a t IH]; intros n; simpl; [destruct n; reflexivity|].
  destruct n as [|n]; simpl.
  - rewrite g1_mul_one, gcomb_zero by reflexivity. apply g1_id_r.
  - rewrite g1_mul_zero, g1_add_id. apply IH.
Qed.

Lemma geval_gcomb env e : geval env e = gcomb env (gcoef e).
Proof.
  induction e; simpl.
  - symmetry. apply gcomb_var.
  - symmetry. apply gcomb_zero. reflexivity.
  - rewrite gcomb_add, IHe1, IHe2. reflexivity.
  - rewrite IHe, g1_neg_mul, <- gcomb_scale. apply gcomb_ext. intros. ring.
  - rewrite gcomb_scale, IHe. reflexivity.
Qed.

Lemma greflect env e1 e2 :
  map (gcoef e1) (seq 0 (length env)) = map (gcoef e2) (seq 0 (length env)) ->
  geval env e1 = geval env e2.
Proof.
  intros H. rewrite !geval_gcomb. apply gcomb_ext. intros i Hi.
  assert (N : nth_error (map (gcoef e1) (seq 0 (length env))) i
            = nth_error (map (gcoef e2) (seq 0 (length env))) i) by (rewrite H; reflexivity).
  assert (S : nth_error (seq 0 (length env)) i = Some i).
  { rewrite (nth_error_nth' _ O) by (rewrite seq_length; assumption).
    rewrite seq_nth by assumption. reflexivity. }
  rewrite !(map_nth_error _ _ _ S) in N. injection N. auto.
Qed.

End GReflect.

Ltac glist_add a l :=
  let rec go l' :=
    match l' with
    | nil => constr:(cons a l)
    | cons a _ => constr:(l)
    | cons _ ?t => go t
    end in go l.

Ltac gatoms e l :=
  match e with
  | g1_id => l
  | g1_add ?a ?b => let l1 := gatoms a l in gatoms b l1
  | g1_neg ?a => gatoms a l
  | g1_mul _ ?a => gatoms a l
  | _ => glist_add e l
  end.

Ltac gpos a l :=
  match l with
  | cons a _ => constr:(O)
  | cons _ ?t => let n := gpos a t in constr:(S n)
  end.

Ltac greify e l :=
  match e with
  | g1_id => constr:(GZero)
  | g1_add ?a ?b => let x := greify a l in let y := greify b l in constr:(GAdd x y)
  | g1_neg ?a => let x := greify a l in constr:(GNeg x)
  | g1_mul ?c ?a => let x := greify a l in constr:(GMul c x)
  | _ => let n := gpos e l in constr:(GVar n)
  end.

(** [gnorm]: reduce an equation in G1 to equations between the coefficients of
    its atoms (which the caller closes with [ring] or [field]). *)
Ltac gnorm :=
  match goal with
  | |- @eq ?T ?a ?b =>
    let l0 := constr:(@nil T) in
    let l1 := gatoms a l0 in
    let l := gatoms b l1 in
    let x := greify a l in
    let y := greify b l in
    change (geval l x = geval l y);
    apply greflect;
    cbv [gcoef map seq length Nat.eqb];
    repeat (apply (f_equal2 (@cons _)); [|]); try reflexivity
  end.

Section Lemmas.
Context {P : Params} {OK : ParamsOk P}.
Local Open Scope fe_scope.
Add Field FFal : (Fp_field_theory modulus modulus_prime).

Example gnorm_test (a b : G1) (x y : F) :
  g1_add (g1_mul x (g1_add a b)) (g1_neg (g1_mul y b)) = g1_add (g1_mul (x - y) b) (g1_mul x a).
Proof. gnorm; ring. Qed.

Lemma F_mul_integral (a b : F) : a * b = 0 -> a = 0 \/ b = 0.
Proof. apply fmul_integral. apply modulus_prime. Qed.

Lemma F_one_neq_zero : (1 : F) <> 0.
Proof. apply fone_neq_fzero. apply modulus_prime. Qed.

Lemma F_mul_nonzero (a b : F) : a <> 0 -> b <> 0 -> a * b <> 0.
Proof. intros Ha Hb H. apply F_mul_integral in H. tauto. Qed.

Lemma F_sub_zero (a b : F) : a - b = 0 -> a = b.
Proof. intros H. replace a with (a - b + b) by ring. rewrite H. ring. Qed.

Lemma finv_r (a : F) : a <> 0 -> a * finv a = 1.
Proof. intros. field. assumption. Qed.

Lemma finv_r_comm (a : F) : a <> 0 -> finv a * a = 1.
Proof. intros. field. assumption. Qed.

Lemma finv_nonzero (a : F) : a <> 0 -> finv a <> 0.
Proof.
  intros H E. apply F_one_neq_zero. rewrite <- (finv_r a H), E. ring.
Qed.

(** *** powers *)
Lemma fpow_add x m n : fpow x (m + n) = fpow x m * fpow x n.
Proof. induction m; simpl; [ring|rewrite IHm; ring]. Qed.

Lemma fpow_mul_base x y n : fpow (x * y) n = fpow x n * fpow y n.
Proof. induction n; simpl; [ring|rewrite IHn; ring]. Qed.

Lemma fpow_one n : fpow (1:F) n = 1.
Proof. induction n; simpl; [reflexivity|rewrite IHn; ring]. Qed.

Lemma fpow_inv x n : x <> 0 -> fpow x n * fpow (finv x) n = 1.
Proof.
  intros H. rewrite <- fpow_mul_base, finv_r by assumption. apply fpow_one.
Qed.

Lemma fpow_nonzero x n : x <> 0 -> fpow x n <> 0.
Proof.
  intros H. induction n; simpl; [apply F_one_neq_zero|apply F_mul_nonzero; assumption].
Qed.

(** *** sums *)
Lemma fsum_app a b : fsum (a ++ b) = fsum a + fsum b.
Proof. induction a; simpl; [ring|rewrite IHa; ring]. Qed.

Lemma fsum_map_add {A} (f g : A -> F) l :
  fsum (map (fun i => f i + g i) l) = fsum (map f l) + fsum (map g l).
Proof. induction l; simpl; [ring|rewrite IHl; ring]. Qed.

Lemma fsum_map_sub {A} (f g : A -> F) l :
  fsum (map (fun i => f i - g i) l) = fsum (map f l) - fsum (map g l).
Proof. induction l; simpl; [ring|rewrite IHl; ring]. Qed.

Lemma fsum_map_scale {A} (c : F) (f : A -> F) l :
  fsum (map (fun i => c * f i) l) = c * fsum (map f l).
Proof. induction l; simpl; [ring|rewrite IHl; ring]. Qed.

Lemma fsum_map_zero {A} (f : A -> F) l : (forall i, In i l -> f i = 0) -> fsum (map f l) = 0.
Proof.
  induction l; intros H; simpl; [reflexivity|].
  rewrite H by (left; reflexivity). rewrite IHl by (intros; apply H; right; assumption). ring.
Qed.

Lemma fsum_map_ext {A} (f g : A -> F) l :
  (forall i, In i l -> f i = g i) -> fsum (map f l) = fsum (map g l).
Proof. intros H. f_equal. apply map_ext_in. assumption. Qed.

Lemma fsum_perm (a b : list F) : Permutation a b -> fsum a = fsum b.
Proof. induction 1; simpl; try ring; congruence. Qed.

(** *** zipw *)
Lemma zipw_length {A B C} (f : A -> B -> C) a b :
  length (zipw f a b) = Nat.min (length a) (length b).
Proof. revert b; induction a; destruct b; simpl; auto. Qed.

Lemma zipw_map {A B C D} (f : B -> C -> D) (g : A -> B) (h : A -> C) l :
  zipw f (map g l) (map h l) = map (fun i => f (g i) (h i)) l.
Proof. induction l; simpl; congruence. Qed.

Lemma zipw_nth {A B C} (f : A -> B -> C) a b i da db dc :
  (i < length a)%nat -> (i < length b)%nat ->
  nth i (zipw f a b) dc = f (nth i a da) (nth i b db).
Proof.
  revert b i; induction a; destruct b; simpl; intros; try lia.
  destruct i; [reflexivity|]. apply IHa; lia.
Qed.

Lemma zipw_app {A B C} (f : A -> B -> C) a1 a2 b1 b2 :
  length a1 = length b1 -> zipw f (a1 ++ a2) (b1 ++ b2) = zipw f a1 b1 ++ zipw f a2 b2.
Proof. revert b1; induction a1; destruct b1; simpl; intros; try discriminate; [reflexivity|]. f_equal. apply IHa1. lia. Qed.

(** a list as the table of its entries *)
Lemma list_as_map {A} (l : list A) (d : A) : l = map (fun i => nth i l d) (seq 0 (length l)).
Proof.
  apply nth_ext with (d := d) (d' := nth (length l) l d).
  - rewrite map_length, seq_length. reflexivity.
  - intros n Hn. rewrite (map_nth (fun i => nth i l d)). rewrite seq_nth by assumption. reflexivity.
Qed.

Lemma list_as_map_n {A} (l : list A) (d : A) n : length l = n -> l = map (fun i => nth i l d) (seq 0 n).
Proof. intros <-. apply list_as_map. Qed.

Lemma nth_map_seq {A} (f : nat -> A) n i d : (i < n)%nat -> nth i (map f (seq 0 n)) d = f i.
Proof.
  intros H. rewrite (nth_indep _ d (f O)) by (rewrite map_length, seq_length; assumption).
  rewrite (map_nth f). rewrite seq_nth by assumption. reflexivity.
Qed.

(** *** inner products *)
Lemma ip_map {A} (f g : A -> F) l : ip (map f l) (map g l) = fsum (map (fun i => f i * g i) l).
Proof. induction l; simpl; congruence. Qed.

Lemma ip_sum_nth a b n : length a = n -> length b = n ->
  ip a b = fsum (map (fun i => nth i a 0 * nth i b 0) (seq 0 n)).
Proof.
  intros Ha Hb. rewrite (list_as_map_n a 0 n Ha) at 1. rewrite (list_as_map_n b 0 n Hb) at 1.
  apply ip_map.
Qed.

Lemma ip_app a1 a2 b1 b2 : length a1 = length b1 -> ip (a1 ++ a2) (b1 ++ b2) = ip a1 b1 + ip a2 b2.
Proof.
  revert b1; induction a1; destruct b1; simpl; intros; try discriminate; [ring|].
  rewrite IHa1 by lia. ring.
Qed.

Lemma ip_comm a b : ip a b = ip b a.
Proof. revert b; induction a; destruct b; simpl; try reflexivity. rewrite IHa. ring. Qed.

Lemma ip_vadd_l a b c : length a = length b -> ip (vadd a b) c = ip a c + ip b c.
Proof.
  revert b c; induction a; destruct b, c; simpl; intros; try discriminate; try ring.
  unfold vadd in *. rewrite IHa by lia. ring.
Qed.

Lemma ip_vadd_r a b c : length b = length c -> ip a (vadd b c) = ip a b + ip a c.
Proof. intros. rewrite !(ip_comm a). apply ip_vadd_l. assumption. Qed.

Lemma ip_vscale_l k a b : ip (vscale k a) b = k * ip a b.
Proof. revert b; induction a; destruct b; simpl; try ring. unfold vscale in *. rewrite IHa. ring. Qed.

Lemma ip_vscale_r k a b : ip a (vscale k b) = k * ip a b.
Proof. rewrite ip_comm, ip_vscale_l, ip_comm. reflexivity. Qed.

Lemma ip_zeros_l n b : ip (zeros n) b = 0.
Proof. revert b; induction n; destruct b; simpl; try reflexivity. unfold zeros in *. rewrite IHn. ring. Qed.

Lemma ip_nil_r a : ip a [] = 0.
Proof. destruct a; reflexivity. Qed.

Lemma vscale_length c a : length (vscale c a) = length a.
Proof. apply map_length. Qed.
Lemma zeros_length n : length (zeros n) = n.
Proof. apply repeat_length. Qed.
Lemma vandermonde_length x n : length (vandermonde x n) = n.
Proof. unfold vandermonde. rewrite map_length, seq_length. reflexivity. Qed.

(** *** group sums and multi-scalar multiplication *)
Lemma gsum_app a b : gsum (a ++ b) = g1_add (gsum a) (gsum b).
Proof. induction a; simpl; [rewrite g1_add_id; reflexivity|rewrite IHa, g1_add_assoc; reflexivity]. Qed.

Lemma msm_map {A} (f : A -> F) (g : A -> G1) l :
  msm (map f l) (map g l) = gsum (map (fun i => g1_mul (f i) (g i)) l).
Proof. induction l; simpl; congruence. Qed.

Lemma msm_sum_nth k g n : length k = n -> length g = n ->
  msm k g = gsum (map (fun i => g1_mul (nth i k 0) (nth i g g1_id)) (seq 0 n)).
Proof.
  intros Hk Hg. rewrite (list_as_map_n k 0 n Hk) at 1. rewrite (list_as_map_n g g1_id n Hg) at 1.
  apply msm_map.
Qed.

Lemma gsum_map_add {A} (f g : A -> G1) l :
  gsum (map (fun i => g1_add (f i) (g i)) l) = g1_add (gsum (map f l)) (gsum (map g l)).
Proof. induction l; simpl; [rewrite g1_add_id; reflexivity|]. rewrite IHl. gnorm; ring. Qed.

Lemma gsum_map_scale {A} (c : F) (f : A -> G1) l :
  gsum (map (fun i => g1_mul c (f i)) l) = g1_mul c (gsum (map f l)).
Proof. induction l; simpl; [rewrite g1_mul_id; reflexivity|]. rewrite IHl. gnorm; ring. Qed.

Lemma gsum_map_mul {A} (f : A -> F) (g : G1) l :
  gsum (map (fun i => g1_mul (f i) g) l) = g1_mul (fsum (map f l)) g.
Proof. induction l; simpl; [rewrite g1_mul_zero; reflexivity|]. rewrite IHl. gnorm; ring. Qed.

Lemma gsum_map_ext {A} (f g : A -> G1) l :
  (forall i, In i l -> f i = g i) -> gsum (map f l) = gsum (map g l).
Proof. intros H. f_equal. apply map_ext_in. assumption. Qed.

Lemma gsum_map_id {A} (f : A -> G1) l : (forall i, In i l -> f i = g1_id) -> gsum (map f l) = g1_id.
Proof.
  induction l; intros H; simpl; [reflexivity|].
  rewrite H by (left; reflexivity). rewrite IHl by (intros; apply H; right; assumption).
  apply g1_add_id.
Qed.

Lemma msm_app k1 k2 g1 g2 : length k1 = length g1 ->
  msm (k1 ++ k2) (g1 ++ g2) = g1_add (msm k1 g1) (msm k2 g2).
Proof.
  revert g1; induction k1; destruct g1; simpl; intros; try discriminate;
    [rewrite g1_add_id; reflexivity|].
  rewrite IHk1 by lia. apply g1_add_assoc.
Qed.

Lemma msm_vadd a b g : length a = length b -> msm (vadd a b) g = g1_add (msm a g) (msm b g).
Proof.
  revert b g; induction a; destruct b, g; simpl; intros; try discriminate; try (rewrite g1_add_id; reflexivity).
  unfold vadd in *. rewrite IHa by lia. gnorm; ring.
Qed.

Lemma msm_vscale c a g : msm (vscale c a) g = g1_mul c (msm a g).
Proof.
  revert g; induction a; destruct g; simpl; try (rewrite g1_mul_id; reflexivity).
  unfold vscale in *. rewrite IHa. gnorm; ring.
Qed.

Lemma msm_zeros n g : msm (zeros n) g = g1_id.
Proof.
  revert g; induction n; destruct g; simpl; try reflexivity.
  unfold zeros in *. rewrite IHn, g1_mul_zero. apply g1_add_id.
Qed.

Lemma msm_nil_r k : msm k [] = g1_id.
Proof. destruct k; reflexivity. Qed.

Lemma msm_map_points (f : G1 -> G1) c k g : (forall x, f x = g1_mul c x) ->
  msm k (map f g) = g1_mul c (msm k g).
Proof.
  intros H. revert g; induction k; destruct g; simpl; try (rewrite g1_mul_id; reflexivity).
  rewrite IHk, H. gnorm; ring.
Qed.

Lemma msm_zipw_add a g1 g2 : length g1 = length g2 ->
  msm a (zipw g1_add g1 g2) = g1_add (msm a g1) (msm a g2).
Proof.
  revert g1 g2; induction a; destruct g1, g2; simpl; intros; try discriminate;
    try (rewrite g1_add_id; reflexivity).
  rewrite IHa by lia. gnorm; ring.
Qed.

Lemma g1_eqb_refl (a : G1) : g1_eqb a a = true.
Proof. apply g1_eqb_spec. reflexivity. Qed.

Lemma g1_eqb_neq (a b : G1) : g1_eqb a b = false <-> a <> b.
Proof.
  destruct (g1_eqb a b) eqn:E; split; intros; try discriminate; try congruence.
  - apply g1_eqb_spec in E. contradiction.
  - intros H2. apply g1_eqb_spec in H2. congruence.
Qed.

End Lemmas.
