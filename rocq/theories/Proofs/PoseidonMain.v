(** [PoseidonParams::new], and when the Poseidon permutation is one. *)
From Coq Require Import ZArith Znumtheory String List Lia Bool Ring Field HexString.
From Verif.Base Require Import Outcome Fp Params Algebra.
From Verif.Model Require Import Hash PoseidonConstants PoseidonNew.
From Verif.Spec Require Import R1CS HashSpec PoseidonSpec.
From Verif.Proofs Require Import HashTools Fermat Cauchy.
Import ListNotations.

(** *** Checks of the tables *)
Definition const_ok (q : Z) (s : string) : bool :=
  match s with
  | String _ (String _ t) =>
      let z := HexString.to_Z s in
      (Nat.eqb (String.length t) 64 && match hex_value t 0 with Some n => Z.eqb n z | None => false end && (0 <=? z)%Z && (z <? q)%Z)%bool
  | _ => false
  end.
Definition cauchy_ok (q : Z) (w : nat) (m : list (list string)) : bool :=
  forallb (fun j => forallb (fun i =>
    Z.eqb ((HexString.to_Z (nth i (nth j m []) EmptyString) * Z.of_nat (w + i + j)) mod q) 1) (seq 0 w)) (seq 0 w).
Definition table_ok (q : Z) (w : nat) (rc : list string) (m : list (list string)) : bool :=
  (forallb (const_ok q) rc && Nat.eqb (length m) w && forallb (fun row => Nat.eqb (length row) w && forallb (const_ok q) row) m &&
   cauchy_ok q w m)%bool.
Definition rounds_of (w : nat) : nat := if Nat.eqb w 3 then 63 else if Nat.eqb w 5 then 64 else 65.

Lemma tables_checked : forallb (fun '(c, w) => (table_ok (table_order c) w (round_consts c w) (mds_entries c w) && Nat.eqb (length (round_consts c w)) (rounds_of w * w))%bool)
  [(Bls381, 3); (Bls381, 5); (Bls381, 9); (Bn254, 3); (Bn254, 5); (Bn254, 9); (Secp256k1, 5); (Ed25519, 3); (Ed25519, 5); (Ed25519, 9)]%nat = true.
Proof. vm_compute. reflexivity. Qed.
Lemma known_cases c w : known_width c w -> In (c, w)
  [(Bls381, 3); (Bls381, 5); (Bls381, 9); (Bn254, 3); (Bn254, 5); (Bn254, 9); (Secp256k1, 5); (Ed25519, 3); (Ed25519, 5); (Ed25519, 9)]%nat.
Proof. intros [[-> H]|[->|[-> H]]]; destruct c; cbn; tauto || (exfalso; apply H; reflexivity). Qed.
Lemma checked c w : known_width c w -> table_ok (table_order c) w (round_consts c w) (mds_entries c w) = true /\ length (round_consts c w) = (rounds_of w * w)%nat.
Proof.
  intros Hw. pose proof tables_checked as H. rewrite forallb_forall in H. specialize (H _ (known_cases c w Hw)). cbv beta iota in H.
  apply andb_prop in H as [H1 H2]. apply Nat.eqb_eq in H2. split; assumption.
Qed.
Lemma tables_ok c w : known_width c w -> table_ok (table_order c) w (round_consts c w) (mds_entries c w) = true.
Proof. intros H. apply checked. exact H. Qed.
Lemma supported_eq c w R : supported c w R <-> known_width c w /\ (R * w <= length (round_consts c w))%nat.
Proof.
  split.
  - intros H. assert (Hw : known_width c w) by (unfold supported, known_width in *; tauto). split; [exact Hw|].
    rewrite (proj2 (checked c w Hw)). apply Nat.mul_le_mono_r. unfold supported in H.
    destruct H as [(-> & _ & H)|[[-> H]|(-> & _ & H)]]; exact H.
  - intros [Hw H]. rewrite (proj2 (checked c w Hw)) in H. unfold supported. 
    destruct Hw as [[-> Hc]|[->|[-> Hc]]]; cbn [rounds_of Nat.eqb] in H; [left|right; left|right; right]; repeat split; try exact Hc; lia.
Qed.
Lemma rc_known c w : known_width c w -> ROUND_CONSTS_OF c w = Some (round_consts c w).
Proof. intros [[-> H]|[->|[-> H]]]; destruct c; reflexivity || (exfalso; apply H; reflexivity). Qed.
Lemma mds_known c w : known_width c w -> MDS_ENTRIES_OF c w = Some (mds_entries c w).
Proof. intros [[-> H]|[->|[-> H]]]; destruct c; reflexivity || (exfalso; apply H; reflexivity). Qed.
Lemma rc_unknown c w : (w = 3 \/ w = 5 \/ w = 9)%nat -> ~ known_width c w -> ROUND_CONSTS_OF c w = None.
Proof. intros [->|[->| ->]] H; unfold known_width in H; destruct c; try reflexivity; exfalso; apply H; (left; split; [reflexivity|discriminate]) || (right; left; reflexivity) || (right; right; split; [reflexivity|discriminate]). Qed.

Section Main.
Context {P : Params} {OK : ParamsOk P}.
Local Open Scope fe_scope.
Add Field Fp_pmain : (Fp_field_theory modulus modulus_prime).

Section New.
Context (Hbytes : (32 <= modbytes)%nat).

Lemma parse_ok q s : const_ok q s = true -> parse_constant s = Done (constant s).
Proof.
  intros H. destruct s as [|c1 [|c2 s]]; [discriminate|discriminate|].
  unfold const_ok in H. cbv zeta in H. repeat (apply andb_prop in H as [H ?]).
  apply Nat.eqb_eq in H. unfold parse_constant. cbn [remove_prefix obind]. unfold from_hex. rewrite H.
  replace (Nat.leb 64 (2 * modbytes)) with true by (symmetry; apply Nat.leb_le; lia). cbn [assertb obind].
  destruct (hex_value s 0) as [n|]; [|discriminate]. cbn [of_option obind].
  match goal with X : Z.eqb n _ = true |- _ => apply Z.eqb_eq in X; subst n end. reflexivity.
Qed.

Lemma map_nth_firstn {A B} (f : A -> B) (l : list A) d n : (n <= length l)%nat -> map (fun i => f (nth i l d)) (seq 0 n) = map f (firstn n l).
Proof.
  revert n. induction l as [|a l IH]; intros [|n] Hn; cbn [length] in Hn; try reflexivity; [lia|].
  cbn [seq firstn map nth]. f_equal. rewrite <- seq_shift, map_map. cbn [nth]. apply IH. lia.
Qed.

Lemma keys_done c w R : known_width c w -> (R * w <= length (round_consts c w))%nat ->
  gen_round_keys c w R = Done (map constant (firstn (R * w) (round_consts c w))).
Proof.
  intros Hw HR. unfold gen_round_keys. rewrite (rc_known c w Hw). cbn [of_option obind].
  replace (Nat.ltb (length (round_consts c w)) (R * w)) with false by (symmetry; apply Nat.ltb_ge; exact HR).
  cbn [negb assertb obind]. rewrite <- (map_nth_firstn constant _ EmptyString) by exact HR.
  apply mapM_ok. intros i Hi. apply in_seq in Hi.
  rewrite (index_ok _ i EmptyString) by lia. cbn [obind]. apply (parse_ok (table_order c)).
  pose proof (tables_ok c w Hw) as Ht. unfold table_ok in Ht. repeat (apply andb_prop in Ht as [Ht _]).
  rewrite forallb_forall in Ht. apply Ht. apply nth_In. lia.
Qed.

Lemma keys_panic c w R : known_width c w -> (length (round_consts c w) < R * w)%nat -> gen_round_keys c w R = Panic.
Proof.
  intros Hw HR. unfold gen_round_keys. rewrite (rc_known c w Hw). cbn [of_option obind].
  replace (Nat.ltb (length (round_consts c w)) (R * w)) with true by (symmetry; apply Nat.ltb_lt; exact HR).
  reflexivity.
Qed.

Lemma entries_ok c w : known_width c w -> length (mds_entries c w) = w /\
  forall row, In row (mds_entries c w) -> length row = w /\ Forall (fun s => const_ok (table_order c) s = true) row.
Proof.
  intros Hw. pose proof (tables_ok c w Hw) as Ht. unfold table_ok in Ht.
  apply andb_prop in Ht as [Ht _]. apply andb_prop in Ht as [Ht H2]. apply andb_prop in Ht as [_ H1].
  apply Nat.eqb_eq in H1. split; [exact H1|]. rewrite forallb_forall in H2. intros row Hr. specialize (H2 row Hr).
  apply andb_prop in H2 as [H2 H3]. apply Nat.eqb_eq in H2. split; [exact H2|].
  apply Forall_forall. rewrite forallb_forall in H3. exact H3.
Qed.

Lemma matrix_done c w : known_width c w -> gen_MDS_matrix c w = Done (map (map constant) (mds_entries c w)).
Proof.
  intros Hw. destruct (entries_ok c w Hw) as [Hl Hr]. unfold gen_MDS_matrix. rewrite (mds_known c w Hw). cbn [of_option obind].
  rewrite Hl, Nat.eqb_refl. cbn [assertb obind].
  transitivity (Done (map (map constant) (firstn w (mds_entries c w)))); [|rewrite <- Hl at 1; rewrite firstn_all; reflexivity].
  rewrite <- (map_nth_firstn (map constant) (mds_entries c w) []) by lia.
  apply mapM_ok. intros i Hi. apply in_seq in Hi. rewrite (index_ok _ i []) by lia. cbn [obind].
  destruct (Hr (nth i (mds_entries c w) [])) as [Hlr Hfr]; [apply nth_In; lia|].
  rewrite Hlr, Nat.eqb_refl. cbn [assertb obind].
  set (row := nth i (mds_entries c w) []) in *.
  transitivity (Done (map constant (firstn w row))); [|rewrite <- Hlr at 1; rewrite firstn_all; reflexivity].
  rewrite <- (map_nth_firstn constant row EmptyString) by lia.
  apply mapM_ok. intros j Hj. apply in_seq in Hj. rewrite (index_ok _ j EmptyString) by lia. cbn [obind].
  apply (parse_ok (table_order c)). rewrite Forall_forall in Hfr. apply Hfr. apply nth_In. lia.
Qed.

Lemma known_dec c w : known_width c w \/ ~ known_width c w.
Proof.
  assert (D : c = Secp256k1 \/ c <> Secp256k1) by (destruct c; (left; reflexivity) || (right; discriminate)).
  unfold known_width. destruct (Nat.eq_dec w 3), (Nat.eq_dec w 5), (Nat.eq_dec w 9); tauto.
Qed.

Theorem params_new c w fb fe pr :
  match PoseidonParams_new c w fb fe pr with
  | Done p =>
      supported c w (fb + pr + fe) /\
      p = PoseidonParams w fb fe pr (map constant (firstn ((fb + pr + fe) * w) (round_consts c w)))
            (map (map constant) (mds_entries c w)) /\
      params_ok p
  | Panic => ~ supported c w (fb + pr + fe)
  end.
Proof.
  assert (Hk : (Nat.eqb w 3 || Nat.eqb w 5 || Nat.eqb w 9)%bool = true <-> (w = 3 \/ w = 5 \/ w = 9)%nat).
  { rewrite !orb_true_iff, !Nat.eqb_eq. tauto. }
  unfold PoseidonParams_new. destruct (Nat.eqb w 3 || Nat.eqb w 5 || Nat.eqb w 9)%bool eqn:Ew.
  - cbn [assertb obind]. destruct (known_dec c w) as [Hw|Hw].
    2:{ unfold gen_round_keys. rewrite (rc_unknown c w (proj1 Hk eq_refl) Hw). cbn [of_option obind]. rewrite supported_eq. tauto. }
    destruct (Nat.le_gt_cases ((fb + pr + fe) * w) (length (round_consts c w))) as [Hle|Hgt].
    + rewrite keys_done by assumption. cbn [obind]. rewrite matrix_done by exact Hw. cbn [obind].
      split; [apply supported_eq; split; assumption|]. split; [reflexivity|].
      destruct (entries_ok c w Hw) as [Hl Hr]. constructor; cbn.
      * unfold known_width in Hw. lia.
      * rewrite map_length, firstn_length. lia.
      * rewrite map_length. exact Hl.
      * apply Forall_forall. intros row Hin. apply in_map_iff in Hin as (r & <- & Hin). rewrite map_length. apply Hr. exact Hin.
    + rewrite keys_panic by assumption. cbn [obind]. rewrite supported_eq. lia.
  - cbn [assertb obind]. rewrite supported_eq. intros [Hw _].
    assert (X : (w = 3 \/ w = 5 \/ w = 9)%nat) by (unfold known_width in Hw; tauto). apply Hk in X. discriminate.
Qed.
End New.

Lemma constants_reduced c s : modulus = table_order c ->
  (exists w, known_width c w /\ (In s (round_consts c w) \/ exists row, In row (mds_entries c w) /\ In s row)) ->
  fval (constant s) = HexString.to_Z s.
Proof.
  intros Hm (w & Hw & Hin).
  assert (Hc : const_ok (table_order c) s = true).
  { destruct Hin as [Hin|(row & Hrow & Hin)].
    - pose proof (tables_ok c w Hw) as Ht. unfold table_ok in Ht. repeat (apply andb_prop in Ht as [Ht _]).
      rewrite forallb_forall in Ht. apply Ht. exact Hin.
    - destruct (entries_ok c w Hw) as [_ Hr]. apply Hr in Hrow as [_ Hf]. rewrite Forall_forall in Hf. apply Hf. exact Hin. }
  destruct s as [|c1 [|c2 s]]; [discriminate|discriminate|]. unfold const_ok in Hc. cbv zeta in Hc.
  apply andb_prop in Hc as [Hc H1]. apply andb_prop in Hc as [_ H2]. apply Z.ltb_lt in H1. apply Z.leb_le in H2.
  unfold constant. rewrite fval_of_Z. apply Z.mod_small. rewrite Hm. lia.
Qed.

(** the entry in row [j] and column [i] is the inverse of [w + i + j] *)
Lemma entry_inverse c w i j : modulus = table_order c -> known_width c w -> (i < w)%nat -> (j < w)%nat ->
  nth i (nth j (map (map constant) (mds_entries c w)) []) 0 * of_Z modulus (Z.of_nat (w + i + j)) = 1.
Proof.
  intros Hm Hw Hi Hj. destruct (entries_ok c w Hw) as [Hl Hr].
  rewrite (nth_indep _ [] (map constant [])) by (rewrite map_length; lia). rewrite map_nth.
  rewrite (nth_indep _ 0 (constant EmptyString)) by (rewrite map_length, (proj1 (Hr _ (nth_In _ _ ltac:(rewrite Hl; exact Hj)))); exact Hi).
  rewrite map_nth.
  pose proof (tables_ok c w Hw) as Ht. unfold table_ok in Ht. apply andb_prop in Ht as [_ Ht].
  unfold cauchy_ok in Ht. rewrite forallb_forall in Ht. specialize (Ht j ltac:(apply in_seq; lia)).
  rewrite forallb_forall in Ht. specialize (Ht i ltac:(apply in_seq; lia)). apply Z.eqb_eq in Ht.
  unfold constant. rewrite <- of_Z_mul. apply Fp_ext. unfold fone. rewrite !fval_of_Z.
  rewrite (Z.mod_small 1) by (pose proof (p_gt_1 _ modulus_prime); lia). rewrite Hm. exact Ht.
Qed.

Lemma small_inj c a b : modulus = table_order c -> (0 <= a < 1000)%Z -> (0 <= b < 1000)%Z -> of_Z modulus a = of_Z modulus b -> a = b.
Proof.
  intros Hm Ha Hb E. apply (f_equal (@fval _)) in E. rewrite !fval_of_Z, Hm in E.
  assert (H1000 : (1000 < table_order c)%Z) by (destruct c; reflexivity).
  rewrite !Z.mod_small in E by lia. exact E.
Qed.

Theorem table_mds c w : modulus = table_order c -> known_width c w -> mds w (map (map constant) (mds_entries c w)).
Proof.
  intros Hm Hw. assert (Hw9 : (w <= 9)%nat) by (unfold known_width in Hw; lia).
  apply (cauchy_mds w _ (fun i => of_Z modulus (Z.of_nat (w + i))) (fun j => of_Z modulus (Z.of_nat j))).
  - rewrite map_length. apply entries_ok; exact Hw.
  - intros i j Hi Hj. rewrite <- of_Z_add, <- Nat2Z.inj_add. apply entry_inverse; assumption.
  - intros i i' Hi Hi' E. apply (small_inj c) in E; try exact Hm; lia.
  - intros j j' Hj Hj' E. apply (small_inj c) in E; try exact Hm; lia.
Qed.

(** *** The permutation *)
Lemma weight_zero x : weight x = O <-> Forall (fun a => a = 0) x.
Proof.
  unfold weight. induction x as [|a x IH]; cbn [filter].
  - split; [constructor|reflexivity].
  - destruct (feqb_spec _ a 0) as [->|Hn]; cbn [negb].
    + rewrite IH. split; [constructor; [reflexivity|assumption]|inversion 1; assumption].
    + split; [discriminate|]. inversion 1. contradiction.
Qed.

Definition vsub (x y : list F) : list F := map (fun '(a, b) => a - b) (combine x y).
Lemma vsub_zero x : forall y, length x = length y -> Forall (fun a => a = 0) (vsub x y) -> x = y.
Proof.
  induction x as [|a x IH]; intros [|b y] Hl H; try discriminate; [reflexivity|]. cbn in H. inversion H; subst. f_equal.
  - apply F_sub_zero. assumption.
  - apply IH; [injection Hl as Hl; exact Hl|assumption].
Qed.
Lemma dot_sub x : forall y c, length x = length y -> dot (vsub x y) c = dot x c - dot y c.
Proof.
  unfold dot. induction x as [|a x IH]; intros [|b y] c Hl; try discriminate; [cbn; ring|].
  destruct c as [|e c]; [cbn; ring|]. cbn [vsub combine map fsum]. unfold vsub in IH. rewrite IH by (injection Hl as Hl; exact Hl). ring.
Qed.
Lemma vec_mat_sub t m x y : length x = length y -> vec_mat t (vsub x y) m = vsub (vec_mat t x m) (vec_mat t y m).
Proof.
  intros Hl. unfold vec_mat. induction (seq 0 t) as [|i l IH]; [reflexivity|]. cbn [map vsub combine].
  rewrite dot_sub by exact Hl. f_equal. exact IH.
Qed.
Lemma vsub_length x y : length x = length y -> length (vsub x y) = length x.
Proof. intros H. unfold vsub. rewrite map_length, combine_length, <- H. apply Nat.min_id. Qed.
Lemma vsub_refl x : Forall (fun a => a = 0) (vsub x x).
Proof. induction x as [|a x IH]; cbn; constructor; [ring|exact IH]. Qed.

Lemma filter_le {A} (f : A -> bool) l : (length (filter f l) <= length l)%nat.
Proof. induction l as [|a l IH]; cbn; [lia|]. destruct (f a); cbn; lia. Qed.
Lemma mds_injective t m x y : mds t m -> length x = t -> length y = t -> vec_mat t x m = vec_mat t y m -> x = y.
Proof.
  intros Hm Hx Hy E. apply vsub_zero; [congruence|]. apply weight_zero.
  destruct (Nat.eq_dec (weight (vsub x y)) 0) as [|Hn]; [assumption|exfalso].
  assert (Hl : length (vsub x y) = t) by (rewrite vsub_length; congruence).
  specialize (Hm (vsub x y) Hl ltac:(lia)). rewrite vec_mat_sub, E in Hm by congruence.
  rewrite (proj2 (weight_zero _) (vsub_refl _)) in Hm.
  assert (Hle : (weight (vsub x y) <= t)%nat) by (rewrite <- Hl; unfold weight; apply filter_le).
  lia.
Qed.

Lemma sbox_injective sbox x y : sbox_invertible sbox -> sbox_value sbox x = sbox_value sbox y -> x = y.
Proof.
  destruct sbox; cbn [sbox_invertible sbox_value]; intros Hg E.
  - apply (power_injective 3); [lia|exact Hg|]. cbn [fpow]. transitivity (x * x * x); [ring|]. rewrite E. ring.
  - destruct (Fp_eq_dec _ x 0) as [->|Hx], (Fp_eq_dec _ y 0) as [->|Hy]; try reflexivity.
    + rewrite finv_0 in E. symmetry in E. exfalso. exact (finv_nonzero y Hy E).
    + rewrite finv_0 in E. exfalso. exact (finv_nonzero x Hx E).
    + transitivity (x * (finv y * y)); [rewrite finv_r_comm by exact Hy; ring|]. rewrite <- E.
      transitivity (finv x * x * y); [ring|]. rewrite finv_r_comm by exact Hx. ring.
  - apply (power_injective 5); [lia|exact Hg|]. cbn [fpow]. transitivity (x * x * x * x * x); [ring|]. rewrite E. ring.
Qed.

Lemma map_injective (f : F -> F) : (forall a b, f a = f b -> a = b) -> forall x y, map f x = map f y -> x = y.
Proof.
  intros Hf x. induction x as [|a x IH]; intros [|b y] E; try discriminate; [reflexivity|].
  injection E as E1 E2. f_equal; [apply Hf; exact E1|apply IH; exact E2].
Qed.
Lemma map_last_injective (f : F -> F) : (forall a b, f a = f b -> a = b) -> forall x y, length x = length y ->
  map_last f x = map_last f y -> x = y.
Proof.
  intros Hf x. induction x as [|a x IH]; intros [|b y] Hl E; try discriminate; [reflexivity|].
  injection Hl as Hl. destruct x as [|a' x], y as [|b' y]; try discriminate.
  - injection E as E. f_equal. apply Hf. exact E.
  - change (a :: map_last f (a' :: x) = b :: map_last f (b' :: y)) in E. injection E as E1 E2. subst b. f_equal.
    apply IH; [exact Hl|exact E2].
Qed.
Lemma vadd_injective k : forall x y, length x = length k -> length y = length k -> HashSpec.vadd x k = HashSpec.vadd y k -> x = y.
Proof.
  induction k as [|c k IH]; intros [|a x] [|b y] Hx Hy E; try discriminate; [reflexivity|].
  change (a + c :: HashSpec.vadd x k = b + c :: HashSpec.vadd y k) in E.
  assert (E1 : a + c = b + c) by (exact (f_equal (hd 0) E)). assert (E2 := f_equal (@tl F) E). cbn [tl] in E2. f_equal.
  - transitivity (a + c - c); [ring|]. rewrite E1. ring.
  - apply IH; [injection Hx as Hx; exact Hx|injection Hy as Hy; exact Hy|exact E2].
Qed.

Section Perm.
Context (p : poseidon_params) (sbox : sbox_type) (Hp : params_ok p)
  (Hinj : forall x y, length x = width p -> length y = width p -> vec_mat (width p) x (MDS_matrix p) = vec_mat (width p) y (MDS_matrix p) -> x = y)
  (Hs : sbox_invertible sbox).

Lemma keys_len r : (r < full_rounds_beginning p + partial_rounds p + full_rounds_end p)%nat -> length (keys_of_round p r) = width p.
Proof.
  intros Hr. pose proof (pk_keys _ Hp). unfold keys_of_round. rewrite firstn_length, skipn_length. apply Nat.min_l. nia.
Qed.
Lemma hvadd_len a b : length a = length b -> length (HashSpec.vadd a b) = length a.
Proof. intros H. unfold HashSpec.vadd. rewrite map_length, combine_length, <- H. apply Nat.min_id. Qed.
Lemma map_last_len f (l : list F) : length (map_last f l) = length l.
Proof. induction l as [|a [|b l] IH]; try reflexivity. change (S (length (map_last f (b :: l))) = S (length (b :: l))). rewrite IH. reflexivity. Qed.

Lemma full_injective r x y : (r < full_rounds_beginning p + partial_rounds p + full_rounds_end p)%nat ->
  length x = width p -> length y = width p -> full_value p sbox x r = full_value p sbox y r -> x = y.
Proof.
  intros Hr Hx Hy E. pose proof (keys_len r Hr) as Hk. unfold full_value in E.
  apply Hinj in E; [|rewrite map_length, hvadd_len; congruence|rewrite map_length, hvadd_len; congruence].
  apply map_injective in E; [|intros a b; apply sbox_injective; exact Hs].
  apply vadd_injective in E; [exact E|congruence|congruence].
Qed.
Lemma partial_injective r x y : (r < full_rounds_beginning p + partial_rounds p + full_rounds_end p)%nat ->
  length x = width p -> length y = width p -> partial_value p sbox x r = partial_value p sbox y r -> x = y.
Proof.
  intros Hr Hx Hy E. pose proof (keys_len r Hr) as Hk. unfold partial_value in E.
  apply Hinj in E; [|rewrite map_last_len, hvadd_len; congruence|rewrite map_last_len, hvadd_len; congruence].
  apply map_last_injective in E; [|intros a b; apply sbox_injective; exact Hs|rewrite !hvadd_len; congruence].
  apply vadd_injective in E; [exact E|congruence|congruence].
Qed.

Lemma fold_injective (g : list F -> nat -> list F) w rs :
  (forall x r, length x = w -> length (g x r) = w) ->
  (forall r, In r rs -> forall x y, length x = w -> length y = w -> g x r = g y r -> x = y) ->
  forall x y, length x = w -> length y = w -> fold_left g rs x = fold_left g rs y -> x = y.
Proof.
  intros Hl. induction rs as [|r rs IH]; intros Hi x y Hx Hy E; [exact E|]. cbn [fold_left] in E.
  apply (Hi r (or_introl eq_refl)); [exact Hx|exact Hy|].
  apply IH in E; [exact E| |apply Hl; exact Hx|apply Hl; exact Hy]. intros r' Hr'. apply Hi. right. exact Hr'.
Qed.

Lemma full_len x r : length x = width p -> length (full_value p sbox x r) = width p.
Proof. intros _. apply vec_mat_length. Qed.
Lemma partial_len x r : length x = width p -> length (partial_value p sbox x r) = width p.
Proof. intros _. apply vec_mat_length. Qed.
Lemma fold_len (g : list F -> nat -> list F) rs x : (forall x r, length x = width p -> length (g x r) = width p) ->
  length x = width p -> length (fold_left g rs x) = width p.
Proof. intros Hg. revert x. induction rs as [|r rs IH]; intros x Hx; [exact Hx|]. cbn [fold_left]. apply IH. apply Hg. exact Hx. Qed.

Theorem permutation_injective x y : length x = width p -> length y = width p ->
  permutation_value p sbox x = permutation_value p sbox y -> x = y.
Proof.
  intros Hx Hy E. unfold permutation_value in E.
  pose proof (fold_len (full_value p sbox) (seq 0 (full_rounds_beginning p))) as L1.
  apply (fold_injective (full_value p sbox) (width p)) in E.
  - apply (fold_injective (partial_value p sbox) (width p)) in E.
    + apply (fold_injective (full_value p sbox) (width p)) in E; [exact E|exact full_len| |exact Hx|exact Hy].
      intros r Hr. apply in_seq in Hr. intros a b. apply full_injective. lia.
    + exact partial_len.
    + intros r Hr. apply in_seq in Hr. intros a b. apply partial_injective. lia.
    + apply L1; [exact full_len|exact Hx].
    + apply L1; [exact full_len|exact Hy].
  - exact full_len.
  - intros r Hr. apply in_seq in Hr. intros a b. apply full_injective. lia.
  - apply fold_len; [exact partial_len|]. apply L1; [exact full_len|exact Hx].
  - apply fold_len; [exact partial_len|]. apply L1; [exact full_len|exact Hy].
Qed.
End Perm.
End Main.
