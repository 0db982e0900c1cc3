(** When the constraints determine the committed values: Gaussian elimination finds
    a left inverse of a matrix with a trivial kernel. *)
From Coq Require Import ZArith List Lia Bool Ring Field Arith.
From Verif.Base Require Import Outcome Fp Params Algebra.
From Verif.Model Require Import LinComb.
From Verif.Spec Require Import R1CS Protocol R1CSTree Knowledge.
From Verif.Proofs Require Import InterpProofs.
Import ListNotations.

Section Recover.
Context {P : Params} {OK : ParamsOk P}.
Local Open Scope fe_scope.
Add Field FFrec : (Fp_field_theory modulus modulus_prime).

Definition unit_vector (k j : nat) : F := if Nat.eqb k j then 1 else 0.
Definition dot (m : nat) (r d : nat -> F) : F := sum_n m (fun j => r j * d j).
Local Notation row := ((nat -> F) * (nat -> F))%type.

Lemma find_pivot (rows : list row) k :
  match find (fun r => negb (feqb (fst r k) 0)) rows with
  | Some p => In p rows /\ fst p k <> 0
  | None => forall r, In r rows -> fst r k = 0
  end.
Proof.
  destruct (find _ rows) as [p|] eqn:E.
  - apply find_some in E as [H1 H2]. cbn beta in H2. split; [exact H1|]. destruct (feqb_spec _ (fst p k) 0); [discriminate H2|assumption].
  - intros r Hr. pose proof (find_none _ _ E r Hr) as H. cbn beta in H. destruct (feqb_spec _ (fst r k) 0); [assumption|discriminate H].
Qed.

Section Matrix.
(** [nq] original rows *)
Context (nq : nat).

Lemma gauss_linear (a : nat -> F) m : forall rows : list row,
  (forall r, In r rows -> dot nq (snd r) a = 0) -> forall k, dot nq (gauss m rows k) a = 0.
Proof.
  induction m as [|m IH]; intros rows Hr k.
  - apply sum_n_zero. intros. cbn. ring.
  - cbn [gauss]. pose proof (find_pivot rows m) as Hp. destruct (find _ rows) as [p|].
    2:{ apply sum_n_zero. intros. ring. }
    destruct Hp as [Hp Hpm].
    assert (Hb : forall k, dot nq (gauss m (map (eliminate m p) rows) k) a = 0).
    { apply IH. intros r Hi. apply in_map_iff in Hi as (r0 & <- & Hi). unfold eliminate, dot. cbn [snd].
      rewrite (sum_n_ext nq _ (fun q => snd r0 q * a q - fst r0 m / fst p m * (snd p q * a q))) by (intros; ring).
      rewrite sum_n_sub, sum_n_scale. change (dot nq (snd r0) a - fst r0 m / fst p m * dot nq (snd p) a = 0).
      rewrite (Hr r0 Hi), (Hr p Hp). ring. }
    destruct (Nat.eqb_spec k m) as [->|Hne].
    + unfold dot.
      rewrite (sum_n_ext nq _ (fun q => finv (fst p m) * (snd p q * a q) -
        finv (fst p m) * sum_n m (fun j => fst p j * (gauss m (map (eliminate m p) rows) j q * a q)))).
      2:{ intros q Hq. rewrite ?Nat.eqb_refl.
          rewrite (sum_n_ext m (fun j => fst p j * (gauss m (map (eliminate m p) rows) j q * a q))
             (fun j => a q * (fst p j * gauss m (map (eliminate m p) rows) j q))) by (intros; ring).
          rewrite (sum_n_scale m). field. exact Hpm. }
      rewrite sum_n_sub, !sum_n_scale. change (sum_n nq (fun i => snd p i * a i)) with (dot nq (snd p) a). rewrite (Hr p Hp).
      rewrite sum_n_swap. rewrite (sum_n_zero m); [ring|]. intros j Hj. rewrite sum_n_scale.
      change (sum_n nq (fun i => gauss m (map (eliminate m p) rows) j i * a i)) with (dot nq (gauss m (map (eliminate m p) rows) j) a).
      rewrite Hb. ring.
    + apply (Hb k).
Qed.

Context (A : nat -> nat -> F).

Lemma gauss_ok m : forall rows : list row,
  (forall r, In r rows -> forall j, (j < m)%nat -> dot nq (snd r) (fun q => A q j) = fst r j) ->
  (forall d, (forall r, In r rows -> dot m (fst r) d = 0) -> forall j, (j < m)%nat -> d j = 0) ->
  forall k j, (k < m)%nat -> (j < m)%nat -> dot nq (gauss m rows k) (fun q => A q j) = unit_vector k j.
Proof.
  induction m as [|m IH]; intros rows Hr Hk k j Hlt Hj; [lia|]. cbn [gauss].
  pose proof (find_pivot rows m) as Hp. destruct (find _ rows) as [p|].
  2:{ exfalso. apply F_one_neq_zero. specialize (Hk (unit_vector m)).
      transitivity (unit_vector m m); [unfold unit_vector; rewrite Nat.eqb_refl; reflexivity|]. apply Hk; [|lia].
      intros r Hi. unfold dot. rewrite sum_n_last, (Hp r Hi). rewrite sum_n_zero; [ring|]. intros i Hlt'. unfold unit_vector.
      rewrite (proj2 (Nat.eqb_neq m i)) by lia. ring. }
  destruct Hp as [Hp Hpm]. set (rows' := map (eliminate m p) rows) in *.
  assert (He : forall r, In r rows -> forall j, (j < S m)%nat ->
    dot nq (snd (eliminate m p r)) (fun q => A q j) = fst (eliminate m p r) j).
  { intros r Hi i Hlt'. unfold eliminate. cbn [fst snd]. rewrite <- (Hr r Hi i Hlt'), <- (Hr p Hp i Hlt'). unfold dot.
    rewrite <- sum_n_scale, <- sum_n_sub. apply sum_n_ext. intros. ring. }
  assert (Hm : forall k, dot nq (gauss m rows' k) (fun q => A q m) = 0).
  { apply gauss_linear. intros r Hi. apply in_map_iff in Hi as (r0 & <- & Hi). rewrite (He r0 Hi m) by lia.
    unfold eliminate. cbn [fst]. field. exact Hpm. }
  assert (Hb : forall k j, (k < m)%nat -> (j < m)%nat -> dot nq (gauss m rows' k) (fun q => A q j) = unit_vector k j).
  { apply IH.
    - intros r Hi i Hlt'. apply in_map_iff in Hi as (r0 & <- & Hi). apply He; [exact Hi|lia].
    - intros d Hd.
      assert (Hext : forall j, (j < S m)%nat -> (fun j => if Nat.eqb j m then - (dot m (fst p) d / fst p m) else d j) j = 0).
      { apply Hk. intros r Hi. unfold dot. rewrite sum_n_last, Nat.eqb_refl.
        rewrite (sum_n_ext m _ (fun j => fst r j * d j)).
        2:{ intros i Hlt'. rewrite (proj2 (Nat.eqb_neq i m)) by lia. reflexivity. }
        specialize (Hd (eliminate m p r) (in_map _ _ _ Hi)). unfold dot, eliminate in Hd. cbn [fst] in Hd.
        rewrite (sum_n_ext m _ (fun j => fst r j * d j - fst r m / fst p m * (fst p j * d j))) in Hd by (intros; ring).
        rewrite sum_n_sub, sum_n_scale in Hd. unfold dot.
        transitivity (sum_n m (fun i => fst r i * d i) - fst r m / fst p m * sum_n m (fun i => fst p i * d i)); [field; exact Hpm|exact Hd]. }
      intros i Hlt'. specialize (Hext i ltac:(lia)). cbn beta in Hext. rewrite (proj2 (Nat.eqb_neq i m)) in Hext by lia. exact Hext. }
  destruct (Nat.eqb_spec k m) as [->|Hne].
  - unfold dot.
    rewrite (sum_n_ext nq _ (fun q => finv (fst p m) * (snd p q * A q j) -
      finv (fst p m) * sum_n m (fun i => fst p i * (gauss m rows' i q * A q j)))).
    2:{ intros q Hq. rewrite ?Nat.eqb_refl.
        rewrite (sum_n_ext m (fun i => fst p i * (gauss m rows' i q * A q j))
           (fun i => A q j * (fst p i * gauss m rows' i q))) by (intros; ring).
        rewrite (sum_n_scale m). field. exact Hpm. }
    rewrite sum_n_sub, !sum_n_scale. change (sum_n nq (fun i => snd p i * A i j)) with (dot nq (snd p) (fun q => A q j)).
    rewrite (Hr p Hp j Hj), sum_n_swap.
    destruct (Nat.eq_dec j m) as [->|Hjm].
    + rewrite (sum_n_zero m).
      * unfold unit_vector. rewrite Nat.eqb_refl. field. exact Hpm.
      * intros i Hi. rewrite sum_n_scale. change (sum_n nq (fun q => gauss m rows' i q * A q m)) with (dot nq (gauss m rows' i) (fun q => A q m)).
        rewrite Hm. ring.
    + rewrite (sum_n_single m _ j) by
        (try lia; intros i Hi Hij; rewrite sum_n_scale;
         change (sum_n nq (fun q => gauss m rows' i q * A q j)) with (dot nq (gauss m rows' i) (fun q => A q j));
         rewrite Hb by lia; unfold unit_vector; rewrite (proj2 (Nat.eqb_neq i j) Hij); ring).
      rewrite sum_n_scale. change (sum_n nq (fun q => gauss m rows' j q * A q j)) with (dot nq (gauss m rows' j) (fun q => A q j)).
      rewrite Hb by lia. unfold unit_vector. rewrite Nat.eqb_refl, (proj2 (Nat.eqb_neq m j)) by lia. ring.
  - change (dot nq (gauss m rows' k) (fun q => A q j) = unit_vector k j).
    destruct (Nat.eq_dec j m) as [->|Hjm]; [|apply Hb; lia].
    rewrite Hm. unfold unit_vector. rewrite (proj2 (Nat.eqb_neq k m) Hne). reflexivity.
Qed.
End Matrix.

(** *** Constraints *)

(** the part of a linear combination that consists of committed values *)
Definition delta_var (d : nat -> F) (v : var) : F := match v with VCommitted j => d j | _ => 0 end.
Fixpoint delta_lc (d : nat -> F) (l : lc) : F :=
  match l with
  | [] => 0
  | (v, c) :: t => c * delta_var d v + delta_lc d t
  end.

Lemma delta_lc_dot n m d l : lc_in_range n m l -> delta_lc d l = dot m (fun j => coeff (VCommitted j) l) d.
Proof.
  intros H. induction l as [|[v c] t IH]; cbn [delta_lc coeff].
  - unfold dot. rewrite sum_n_zero; [reflexivity|]. intros. ring.
  - rewrite IH by (intros w e Hw; apply (H w e); right; exact Hw). unfold dot.
    rewrite (sum_n_ext m (fun j => ((if var_eqb (VCommitted j) v then c else 0) + coeff (VCommitted j) t) * d j)
      (fun j => (if var_eqb (VCommitted j) v then c else 0) * d j + coeff (VCommitted j) t * d j)) by (intros; ring).
    rewrite sum_n_add. f_equal. specialize (H v c (or_introl eq_refl)). destruct v as [i|i|i|i|]; cbn [delta_var var_eqb];
      try (rewrite sum_n_zero; [ring|]; intros; ring).
    cbn in H. rewrite (sum_n_single m _ i H).
    + rewrite Nat.eqb_refl. reflexivity.
    + intros j Hj Hne. rewrite (proj2 (Nat.eqb_neq j i) Hne). ring.
Qed.

Theorem kernel_recovers n m cs : Forall (lc_in_range n m) cs ->
  (forall d, (forall l, In l cs -> delta_lc d l = 0) -> forall j, (j < m)%nat -> d j = 0) ->
  recovers (left_inverse m cs) m cs.
Proof.
  intros Hr Hk j j' Hj Hj'. unfold left_inverse.
  apply (gauss_ok (length cs) (fun q j => coeff (VCommitted j) (nth q cs [])) m (committed_rows cs)); [| |exact Hj|exact Hj'].
  - intros r Hi i _. unfold committed_rows in Hi. apply in_map_iff in Hi as (q & <- & Hq). apply in_seq in Hq. cbn [fst snd].
    unfold dot. rewrite (sum_n_single (length cs) _ q); [|lia|].
    + rewrite Nat.eqb_refl. ring.
    + intros i' Hi' Hne. rewrite (proj2 (Nat.eqb_neq q i')); [ring|]. intros E. apply Hne. symmetry. exact E.
  - intros d Hd. apply Hk. intros l Hl. rewrite Forall_forall in Hr. rewrite (delta_lc_dot n m d l (Hr l Hl)).
    apply (In_nth _ _ []) in Hl as (q & Hq & <-).
    refine (Hd (_, _) _). unfold committed_rows. apply in_map_iff. exists q. split; [reflexivity|]. apply in_seq. split; [apply Nat.le_0_l|exact Hq].
Qed.
End Recover.
