(** A polynomial with n coefficients and n distinct roots is zero. *)
From Coq Require Import ZArith List Lia Bool Ring Field.
From Verif.Base Require Import Outcome Fp Params Algebra.
From Verif.Model Require Import LinComb.
From Verif.Spec Require Import R1CS Protocol.
From Verif.Proofs Require Import FlattenProofs.
Import ListNotations.

Section RootProofs.
Context {P : Params} {OK : ParamsOk P}.
Local Open Scope fe_scope.
Add Field FFroot : (Fp_field_theory modulus modulus_prime).

(** Horner evaluation, leading coefficient first *)
Fixpoint horner (acc : F) (c : list F) (x : F) : F :=
  match c with
  | [] => acc
  | a :: t => horner (acc * x + a) t x
  end.

(** partial values: the coefficients of the quotient by [X - r] *)
Fixpoint partials (acc : F) (c : list F) (r : F) : list F :=
  match c with
  | [] => []
  | a :: t => acc :: partials (acc * r + a) t r
  end.

Lemma partials_length acc c r : length (partials acc c r) = length c.
Proof. revert acc; induction c; intros; simpl; [reflexivity|f_equal; apply IHc]. Qed.

Lemma horner_acc acc c x : horner acc c x = acc * fpow x (length c) + horner 0 c x.
Proof.
  revert acc; induction c as [|a t IH]; intros acc; simpl; [ring|].
  rewrite (IH (acc * x + a)), (IH (0 * x + a)). ring.
Qed.

Lemma horner_divide acc c r x :
  horner acc c x = horner acc c r + (x - r) * horner 0 (partials acc c r) x.
Proof.
  revert acc; induction c as [|a t IH]; intros acc; cbn [horner partials]; [simpl; ring|].
  replace (0 * x + acc) with acc by ring.
  rewrite (horner_acc acc), partials_length.
  specialize (IH (acc * r + a)). rewrite (horner_acc (acc * x + a)). rewrite (horner_acc (acc * r + a) t x) in IH.
  replace (horner 0 t x) with (horner (acc * r + a) t r + (x - r) * horner 0 (partials (acc * r + a) t r) x
     - (acc * r + a) * fpow x (length t)) by (rewrite <- IH; ring).
  ring.
Qed.

Lemma partials_zero acc c r : Forall (fun q => q = 0) (partials acc c r) -> horner acc c r = 0 ->
  acc = 0 /\ Forall (fun a => a = 0) c.
Proof.
  revert acc; induction c as [|a t IH]; intros acc; cbn [horner partials]; intros H E.
  - split; [exact E|constructor].
  - inversion H; subst. destruct (IH _ H3 E) as [E1 E2]. split; [reflexivity|].
    constructor; [|assumption]. rewrite <- E1. ring.
Qed.

Lemma horner_roots (rs : list F) : forall acc c, NoDup rs -> (forall r, In r rs -> horner acc c r = 0) ->
  (length c < length rs)%nat -> acc = 0 /\ Forall (fun a => a = 0) c.
Proof.
  induction rs as [|r rs IH]; intros acc c Hnd Hr Hlen; simpl in Hlen; [lia|].
  inversion Hnd; subst. destruct c as [|a t].
  - split; [|constructor]. apply (Hr r). left. reflexivity.
  - apply (partials_zero acc (a :: t) r); [|apply Hr; left; reflexivity].
    cbn [partials]. destruct (IH acc (partials (acc * r + a) t r) H2) as [E1 E2].
    + intros x Hx. assert (Hxr : x - r <> 0) by (intros E; apply F_sub_zero in E; subst; contradiction).
      pose proof (horner_divide acc (a :: t) r x) as D.
      rewrite (Hr x) in D by (right; assumption). rewrite (Hr r) in D by (left; reflexivity).
      cbn [partials] in D. cbn [horner] in D. replace (0 * x + acc) with acc in D by ring.
      assert (D' : (x - r) * horner acc (partials (acc * r + a) t r) x = 0) by (rewrite D; ring).
      apply F_mul_integral in D' as [D'|D']; [contradiction|exact D'].
    + rewrite partials_length. simpl in Hlen. lia.
    + constructor; assumption.
Qed.

Lemma horner_app acc c a x : horner acc (c ++ [a]) x = horner acc c x * x + a.
Proof. revert acc; induction c; intros; simpl; [reflexivity|apply IHc]. Qed.

Lemma horner_rev (l : list F) x : horner 0 (rev l) x = fsum (map (fun i => nth i l 0 * fpow x i) (seq 0 (length l))).
Proof.
  induction l as [|a t IH]; [reflexivity|]. simpl rev. rewrite horner_app, IH.
  simpl length. cbn [seq map fsum nth fpow]. rewrite fsum_seq_shift. cbn [nth fpow].
  transitivity (a + x * fsum (map (fun i => nth i t 0 * fpow x i) (seq 0 (length t)))); [ring|].
  rewrite <- fsum_map_scale. replace (a * 1) with a by ring. f_equal. apply fsum_map_ext. intros. ring.
Qed.

Theorem roots_bound (f : nat -> F) n (rs : list F) : NoDup rs ->
  (forall r, In r rs -> sum_n n (fun i => f i * fpow r i) = 0) -> (n <= length rs)%nat ->
  forall i, (i < n)%nat -> f i = 0.
Proof.
  intros Hnd Hr Hlen i Hi. set (l := map f (seq 0 n)).
  assert (Hl : length l = n) by (unfold l; rewrite map_length, seq_length; reflexivity).
  assert (Hnth : forall j, (j < n)%nat -> nth j l 0 = f j) by (intros j Hj; apply nth_map_seq; assumption).
  destruct (rev l) as [|a c] eqn:El.
  - apply (f_equal (@length F)) in El. rewrite rev_length, Hl in El. simpl in El. lia.
  - assert (Hlc : S (length c) = n).
    { apply (f_equal (@length F)) in El. rewrite rev_length, Hl in El. simpl in El. lia. }
    destruct (horner_roots rs a c Hnd) as [E1 E2].
    + intros r Hin. pose proof (horner_rev l r) as E. rewrite El, Hl in E. cbn [horner] in E.
      replace (0 * r + a) with a in E by ring. rewrite E. etransitivity; [|exact (Hr r Hin)]. apply fsum_map_ext.
      intros j Hj. apply in_seq in Hj. rewrite Hnth by lia. reflexivity.
    + lia.
    + rewrite <- (Hnth i Hi).
      assert (Hin : In (nth i l 0) (a :: c)) by (rewrite <- El, <- in_rev; apply nth_In; lia).
      destruct Hin as [<-|Hin]; [assumption|]. rewrite Forall_forall in E2. apply E2. assumption.
Qed.

(** constraints *)
Theorem zsum_roots s cs (zs : list F) l : In l cs -> lc_value s l <> 0 ->
  NoDup zs -> (forall z, In z zs -> zsum s cs z = 0) -> (length zs <= length cs)%nat.
Proof.
  intros Hl Hv Hnd Hz. apply In_nth with (d := []) in Hl as (q & Hq & El).
  destruct (Nat.le_gt_cases (length zs) (length cs)) as [|Hgt]; [assumption|exfalso]. apply Hv.
  set (f := fun i => match i with O => 0 | S j => lc_value s (nth j cs []) end).
  assert (E : f (S q) = 0); [|simpl in E; rewrite El in E; exact E].
  apply (roots_bound f (S (length cs)) zs Hnd); [|lia|lia].
  intros z Hin. etransitivity; [|exact (Hz z Hin)]. unfold sum_n, zsum. cbn [seq map fsum]. rewrite fsum_seq_shift.
  transitivity (0 + fsum (map (fun i => f (S i) * fpow z (S i)) (seq 0 (length cs)))).
  - simpl. ring.
  - rewrite <- (fsum_map_ext (fun q0 => fpow z (S q0) * lc_value s (nth q0 cs [])) (fun i => f (S i) * fpow z (S i))).
    + ring.
    + intros i _. simpl. ring.
Qed.

(** gates *)
Theorem ysum_roots (d : nat -> F) n (ys : list F) i : (i < n)%nat -> d i <> 0 ->
  NoDup ys -> (forall y, In y ys -> sum_n n (fun j => fpow y j * d j) = 0) -> (length ys < n)%nat.
Proof.
  intros Hi Hd Hnd Hy. destruct (Nat.lt_ge_cases (length ys) n) as [|Hge]; [assumption|exfalso].
  apply Hd. apply (roots_bound d n ys Hnd); [|assumption|assumption].
  intros y Hin. etransitivity; [|exact (Hy y Hin)]. apply fsum_map_ext. intros. ring.
Qed.
End RootProofs.
