(** The extractor for the R1CS protocol is correct. *)
From Coq Require Import ZArith List Lia Bool Ring Field.
From Verif.Base Require Import Outcome Fp Params Algebra.
From Verif.Model Require Import LinComb IPP Prover.
From Verif.Spec Require Import R1CS Protocol IPPSpec Extractor R1CSTree R1CSExtractor.
From Verif.Proofs Require Import FlattenProofs RootProofs ExtractProofs InterpProofs RepProofs.
Import ListNotations.

Section R1CSExtract.
Context {P : Params} {OK : ParamsOk P}.
Local Open Scope fe_scope.
Add Field FFr1x : (Fp_field_theory modulus modulus_prime).

Lemma emap_map {A B C} (f : B -> extracted C) (g : A -> B) l : emap f (map g l) = emap (fun a => f (g a)) l.
Proof. induction l; simpl; [reflexivity|]. rewrite IHl. reflexivity. Qed.

Lemma Forall2_nth {A B} (Q : A -> B -> Prop) l l' d d' : Forall2 Q l l' ->
  length l' = length l /\ forall j, (j < length l)%nat -> Q (nth j l d) (nth j l' d').
Proof.
  induction 1 as [|a b l l' Hab Hl [IH1 IH2]]; simpl; [split; [reflexivity|lia]|]. split; [lia|].
  intros [|j] Hj; [assumption|]. apply IH2. lia.
Qed.

Lemma Forall2_in_r {A B} (Q : A -> B -> Prop) l l' b : Forall2 Q l l' -> In b l' -> exists a, In a l /\ Q a b.
Proof.
  induction 1 as [|x y l l' Hxy Hl IH]; simpl; [easy|]. intros [<-|Hb]; [exists x; auto|].
  destruct (IH Hb) as (a & Ha & Hq). exists a. auto.
Qed.

Lemma branch_exists t : exists us Ls Rs a b, branch t us Ls Rs a b.
Proof.
  induction t as [a b|L R u1 t1 (us & Ls & Rs & a & b & E)].
  - exists [], [], [], a, b. constructor.
  - do 5 eexists. apply branch_1. exact E.
Qed.

Section Main.
Context (g h : G1) (G H V : list G1) (n1 n k : nat) (cs : list lc).
Let B := g :: h :: G ++ H.
Let lG := length G.
Let lH := length H.
Let D := (2 + lG + lH)%nat.
Let N := next_power_of_two n.

Lemma HB : length B = D.
Proof. unfold B, D, lG, lH. simpl. rewrite app_length. reflexivity. Qed.

Notation rep := (rep B lG lH).
Notation good := (good B).

Let wL z := padded n (fun i => weight cs z (VLeft i)).
Let wR z := padded n (fun i => weight cs z (VRight i)).
Let wO z := padded n (fun i => weight cs z (VOut i)).

Lemma coords_nth (a b : F) (f e : nat -> F) : let w := a :: b :: map f (seq 0 lG) ++ map e (seq 0 lH) in
  nth 0 w 0 = a /\ nth 1 w 0 = b /\ (forall i, (i < lG)%nat -> nth (2 + i) w 0 = f i) /\
  (forall i, (i < lH)%nat -> nth (2 + lG + i) w 0 = e i).
Proof.
  cbv zeta. split; [reflexivity|]. split; [reflexivity|]. split; intros i Hi.
  - cbn [nth Nat.add]. rewrite app_nth1 by (rewrite map_length, seq_length; assumption).
    apply nth_map_seq. assumption.
  - cbn [nth Nat.add]. rewrite app_nth2 by (rewrite map_length, seq_length; lia).
    rewrite map_length, seq_length. replace (lG + i - lG)%nat with i by lia. apply nth_map_seq. assumption.
Qed.

Lemma rep_split w : gsum_n D (fun i => nth i w 0) B =
  g1_add (g1_add (g1_mul (nth 0 w 0) g) (g1_mul (nth 1 w 0) h))
    (g1_add (gsum_n lG (fun i => nth (2 + i) w 0) G) (gsum_n lH (fun i => nth (2 + lG + i) w 0) H)).
Proof.
  transitivity (gsum_i (S (S (lG + lH))) (fun i => g1_mul (nth i w 0) (nth i B g1_id))); [reflexivity|].
  rewrite !gsum_i_first, gsum_i_plus. unfold B. cbn [nth].
  rewrite (gsum_i_ext lG _ (fun i => g1_mul (nth (2 + i) w 0) (nth i G g1_id))).
  - rewrite (gsum_i_ext lH _ (fun i => g1_mul (nth (2 + lG + i) w 0) (nth i H g1_id))).
    + unfold gsum_n. fold (gsum_i lG (fun i => g1_mul (nth (2 + i) w 0) (nth i G g1_id))).
      fold (gsum_i lH (fun i => g1_mul (nth (2 + lG + i) w 0) (nth i H g1_id))). gnorm; ring.
    + intros i Hi. rewrite app_nth2 by (unfold lG; lia). cbn [Nat.add]. repeat f_equal. unfold lG. lia.
  - intros i Hi. rewrite app_nth1 by assumption. reflexivity.
Qed.

Lemma coords_msm (a b : F) (f e : nat -> F) : let w := a :: b :: map f (seq 0 lG) ++ map e (seq 0 lH) in
  length w = D /\ rep w (g1_add (g1_add (g1_mul a g) (g1_mul b h)) (g1_add (gsum_n lG f G) (gsum_n lH e H))).
Proof.
  cbv zeta. split.
  - cbn [length]. rewrite app_length, !map_length, !seq_length. reflexivity.
  - unfold RepProofs.rep. change (2 + lG + lH)%nat with D. rewrite rep_split.
    destruct (coords_nth a b f e) as (E0 & E1 & E2 & E3). cbv zeta in *. rewrite E0, E1.
    f_equal. f_equal; apply gsum_n_ext; assumption.
Qed.

Context (HN : N = (2 ^ k)%nat) (HNG : (N <= lG)%nat) (HNH : (N <= lH)%nat) (HnN : (n <= N)%nat).

Lemma msm_scaled (a : list F) (c : nat -> F) (X : list G1) : length a = N ->
  msm a (map (fun i => g1_mul (c i) (nth i X g1_id)) (seq 0 N)) = gsum_n N (fun i => c i * nth i a 0) X.
Proof.
  intros Ha. rewrite (msm_sum_nth _ _ N) by (try assumption; rewrite map_length, seq_length; reflexivity).
  apply gsum_i_ext. intros i Hi. rewrite (nth_map_seq (fun i => g1_mul (c i) (nth i X g1_id))) by assumption. gnorm; ring.
Qed.

Definition scaledG (u : F) : list G1 := map (fun i => g1_mul (phase_factor n1 u i) (nth i G g1_id)) (seq 0 N).
Definition scaledH (y u : F) : list G1 :=
  map (fun i => g1_mul (fpow (finv y) i * phase_factor n1 u i) (nth i H g1_id)) (seq 0 N).

(** [x A_I + x^2 A_O + x^3 S] *)
Definition point_AI (f : first_message) (u : F) : G1 := g1_add (f_AI1 f) (g1_mul u (f_AI2 f)).
Definition point_AO (f : first_message) (u : F) : G1 := g1_add (f_AO1 f) (g1_mul u (f_AO2 f)).
Definition point_S (f : first_message) (u : F) : G1 := g1_add (f_S1 f) (g1_mul u (f_S2 f)).
Definition points4 (f : first_message) (u : F) : list G1 := [g1_id; point_AI f u; point_AO f u; point_S f u].

Definition x_proof (f : first_message) (zn : z_node G1 ipp_tree) (xn : x_node ipp_tree) : r1cs_proof :=
  branch_proof f zn xn [] [] 0 0.

Definition ipp_accepts (f : first_message) (zn : z_node G1 ipp_tree) (xn : x_node ipp_tree) (y z u w : F) (it : ipp_tree) : Prop :=
  tree_accepts (g1_mul w g) (ipp_point (x_proof f zn xn) g h G H n1 n N cs y z u (x_chal xn) w)
    (scaledG u) (scaledH y u) it.

Lemma phase_factor_nonzero u i : u <> 0 -> phase_factor n1 u i <> 0.
Proof. intros. unfold phase_factor. destruct (i <? n1)%nat; [apply F_one_neq_zero|assumption]. Qed.

Lemma fpow_finv_nonzero y i : y <> 0 -> fpow (finv y) i <> 0.
Proof. intros. apply fpow_nonzero, finv_nonzero. assumption. Qed.

Lemma padded_lt m f i : (i < m)%nat -> padded m f i = f i.
Proof. intros Hi. unfold padded. apply Nat.ltb_lt in Hi. rewrite Hi. reflexivity. Qed.

Lemma good_leaf f zn xn y z u w it : y <> 0 -> u <> 0 -> w <> 0 -> tree_wf k it -> ipp_accepts f zn xn y z u w it ->
  let x := x_chal xn in
  good (leaf n1 n lG lH cs y z u x (x_tx xn) (x_eb xn) w (scalars_of it)) (fun r =>
    rep r (gsum_n 4 (fpow x) (points4 f u)) /\
    exists a b, length a = N /\ length b = N /\ nth 0 r 0 = w * (ip a b - x_tx xn) /\
      (forall i, (i < N)%nat -> nth (2 + i) r 0 = phase_factor n1 u i * (nth i a 0 - x * (fpow (finv y) i * wR z i))) /\
      (forall i, (i < N)%nat -> nth (2 + lG + i) r 0 =
         phase_factor n1 u i * (fpow (finv y) i * (nth i b 0 - (x * wL z i + wO z i)) + 1))).
Proof.
  intros Hy Hu Hw Hwf Hacc x.
  assert (HlG : length (scaledG u) = (2 ^ k)%nat) by (unfold scaledG; rewrite map_length, seq_length; assumption).
  assert (HlH : length (scaledH y u) = (2 ^ k)%nat) by (unfold scaledH; rewrite map_length, seq_length; assumption).
  pose proof (ipp_extract_ok k it _ _ _ _ HlG HlH Hwf Hacc) as E. unfold leaf. fold N.
  destruct (ipp_extract (scalars_of it)) as [a b|a b c]; simpl in E.
  - destruct E as (La & Lb & E). rewrite HlG, <- HN in La. rewrite HlH, <- HN in Lb.
    set (f1 := padded N _). set (f2 := padded N _). 
    destruct (coords_msm (w * (ip a b - x_tx xn)) (x_eb xn) f1 f2) as [_ Hrep].
    destruct (coords_nth (w * (ip a b - x_tx xn)) (x_eb xn) f1 f2) as (E0 & _ & E2 & E3).
    split.
    + unfold RepProofs.rep in *. rewrite Hrep. clear Hrep. unfold f1, f2. rewrite !gsum_n_padded by assumption.
      unfold scaledG, scaledH in E. rewrite !msm_scaled in E by assumption.
      unfold ipp_point, x_proof, branch_proof in E. cbn [A_I1 A_I2 A_O1 A_O2 S1 S2 e_blinding t_x] in E. fold x in E.
      set (P0 := g1_add (g1_mul x (point_AI f u)) (g1_add (g1_mul (fpow x 2) (point_AO f u)) (g1_mul (fpow x 3) (point_S f u)))).
      transitivity P0; [|unfold P0, gsum_n, points4; simpl; gnorm; ring].
      set (SG := gsum_n N (fun i => phase_factor n1 u i * (x * (fpow (finv y) i * padded n (fun i0 => weight cs z (VRight i0)) i))) G) in E.
      set (SH := gsum_n N (fun i => phase_factor n1 u i * (fpow (finv y) i * (x * padded n (fun i0 => weight cs z (VLeft i0)) i + padded n (fun i0 => weight cs z (VOut i0)) i) - 1)) H) in E.
      set (TG := gsum_n N (fun i => phase_factor n1 u i * nth i a 0) G) in E.
      set (TH := gsum_n N (fun i => fpow (finv y) i * phase_factor n1 u i * nth i b 0) H) in E.
      assert (E' : P0 = g1_add (g1_add (g1_add TG TH) (g1_mul (ip a b) (g1_mul w g)))
         (g1_neg (g1_add (g1_mul (- x_eb xn) h) (g1_add (g1_mul (x_tx xn * w) g) (g1_add SG SH))))).
      { rewrite <- E. unfold P0, point_AI, point_AO, point_S. gnorm; ring. }
      rewrite E'.
      rewrite (gsum_n_ext N _ (fun i => phase_factor n1 u i * nth i a 0 - phase_factor n1 u i * (x * (fpow (finv y) i * padded n (fun i0 => weight cs z (VRight i0)) i))))
        by (intros; ring).
      rewrite gsum_n_sub. fold TG SG.
      rewrite (gsum_n_ext N _ (fun i => fpow (finv y) i * phase_factor n1 u i * nth i b 0 - phase_factor n1 u i * (fpow (finv y) i * (x * padded n (fun i0 => weight cs z (VLeft i0)) i + padded n (fun i0 => weight cs z (VOut i0)) i) - 1)))
        by (intros; ring).
      rewrite gsum_n_sub. fold TH SH. gnorm; ring.
    + exists a, b. split; [assumption|]. split; [assumption|]. split; [exact E0|]. split; intros i Hi.
      * rewrite E2 by lia. unfold f1. rewrite padded_lt by assumption. reflexivity.
      * rewrite E3 by lia. unfold f2. rewrite padded_lt by assumption. reflexivity.
  - destruct E as (La & Lb & E & Hne). rewrite HlG, <- HN in La. rewrite HlH, <- HN in Lb.
    set (f1 := padded N _). set (f2 := padded N _).
    destruct (coords_msm (c * w) 0 f1 f2) as [Hl Hrep].
    destruct (coords_nth (c * w) 0 f1 f2) as (E0 & _ & E2 & E3).
    split; [rewrite HB; exact Hl|]. split.
    + apply (rep_msm B lG lH HB); [exact Hl|]. unfold RepProofs.rep in *. rewrite Hrep. unfold f1, f2. rewrite !gsum_n_padded by assumption.
      unfold scaledG, scaledH in E. rewrite !msm_scaled in E by assumption. rewrite <- E. gnorm; ring.
    + set (r := c * w :: _) in *. assert (Hnth : forall i, (i < D)%nat -> nth i r 0 <> 0 -> exists x0, In x0 r /\ x0 <> 0).
      { intros i Hi Hn. exists (nth i r 0). split; [apply nth_In; rewrite Hl; assumption|assumption]. }
      destruct Hne as [(e & He & Hn)|Hn].
      * apply in_app_or in He as [He|He]; apply In_nth with (d := 0) in He as (i & Hi & <-).
        -- apply (Hnth (2 + i)%nat); [unfold D; lia|]. rewrite E2 by lia. unfold f1. rewrite padded_lt by lia.
           apply F_mul_nonzero; [apply phase_factor_nonzero|]; assumption.
        -- apply (Hnth (2 + lG + i)%nat); [unfold D; lia|]. rewrite E3 by lia. unfold f2. rewrite padded_lt by lia.
           apply F_mul_nonzero; [apply F_mul_nonzero; [apply fpow_finv_nonzero|apply phase_factor_nonzero]|]; assumption.
      * apply (Hnth 0%nat); [unfold D; lia|]. rewrite E0. apply F_mul_nonzero; assumption.
Qed.

(** *** one value of x *)
Definition lx (y z u x : F) (r : list F) (i : nat) : F :=
  nth (2 + i) r 0 * finv (phase_factor n1 u i) + x * (fpow (finv y) i * wR z i).
Definition rx (y z u x : F) (r : list F) (i : nat) : F :=
  fpow y i * (nth (2 + lG + i) r 0 * finv (phase_factor n1 u i) - 1) + (x * wL z i + wO z i).

Lemma good_at_x f zn xn y z u : y <> 0 -> u <> 0 -> x_node_wf k xn ->
  ipp_accepts f zn xn y z u (x_w1 xn) (x_ipp1 xn) -> ipp_accepts f zn xn y z u (x_w2 xn) (x_ipp2 xn) ->
  good (at_x n1 n lG lH cs y z u (x_scalars xn)) (fun r =>
    rep r (gsum_n 4 (fpow (x_chal xn)) (points4 f u)) /\
    sum_n N (fun i => lx y z u (x_chal xn) r i * rx y z u (x_chal xn) r i) = x_tx xn).
Proof.
  intros Hy Hu (Hw1 & Hw2 & Hne & Hwf1 & Hwf2) Ha1 Ha2. unfold at_x, x_scalars.
  cbn [x_chal x_tx x_txb x_eb x_w1 x_w2 x_ipp1 x_ipp2].
  eapply good_bind; [apply (good_leaf f zn xn y z u (x_w1 xn) (x_ipp1 xn)); assumption|].
  intros r1 (Hr1 & a1 & b1 & La1 & Lb1 & E1 & Eg1 & Eh1).
  eapply good_bind; [apply (good_leaf f zn xn y z u (x_w2 xn) (x_ipp2 xn)); assumption|].
  intros r2 (Hr2 & a2 & b2 & La2 & Lb2 & E2 & Eg2 & Eh2).
  eapply good_bind; [apply (good_same B lG lH HB r1 r2 _ Hr1 Hr2)|]. intros tu Hs. cbv beta in Hs.
  split; [assumption|].
  assert (Hl : forall i r a, (i < N)%nat ->
    nth (2 + i) r 0 = phase_factor n1 u i * (nth i a 0 - x_chal xn * (fpow (finv y) i * wR z i)) ->
    lx y z u (x_chal xn) r i = nth i a 0).
  { intros i r a Hi E. unfold lx. rewrite E. field. apply phase_factor_nonzero. assumption. }
  assert (Hr : forall i r b, (i < N)%nat ->
    nth (2 + lG + i) r 0 = phase_factor n1 u i * (fpow (finv y) i * (nth i b 0 - (x_chal xn * wL z i + wO z i)) + 1) ->
    rx y z u (x_chal xn) r i = nth i b 0).
  { intros i r b Hi E. unfold rx. rewrite E.
    transitivity (fpow y i * fpow (finv y) i * (nth i b 0 - (x_chal xn * wL z i + wO z i)) + (x_chal xn * wL z i + wO z i)).
    - field. apply phase_factor_nonzero. assumption.
    - rewrite fpow_inv by assumption. ring. }
  assert (Ha : forall i, (i < N)%nat -> nth i a1 0 = nth i a2 0).
  { intros i Hi. rewrite <- (Hl i r1 a1), <- (Hl i r2 a2) by auto. unfold lx. rewrite Hs by (unfold D; lia). reflexivity. }
  assert (Hb : forall i, (i < N)%nat -> nth i b1 0 = nth i b2 0).
  { intros i Hi. rewrite <- (Hr i r1 b1), <- (Hr i r2 b2) by auto. unfold rx. rewrite Hs by (unfold D; lia). reflexivity. }
  assert (Hip : ip a1 b1 = ip a2 b2).
  { rewrite (ip_sum_nth a1 b1 N), (ip_sum_nth a2 b2 N) by assumption. apply sum_n_ext. intros i Hi. rewrite Ha, Hb by assumption. reflexivity. }
  assert (Hz : (x_w1 xn - x_w2 xn) * (ip a1 b1 - x_tx xn) = 0).
  { transitivity (nth 0 r1 0 - nth 0 r2 0).
    - rewrite E1, E2, <- Hip. ring.
    - rewrite Hs by (unfold D; lia). ring. }
  apply F_mul_integral in Hz as [Hz|Hz]; [apply F_sub_zero in Hz; contradiction|]. apply F_sub_zero in Hz. rewrite <- Hz.
  rewrite (ip_sum_nth a1 b1 N) by assumption. apply sum_n_ext. intros i Hi. rewrite (Hl i r1 a1), (Hr i r1 b1) by auto. reflexivity.
Qed.

(** *** one value of u *)
Definition gate_sum (y z : F) (aL aR aO : nat -> F) : F :=
  sum_n N (fun i => (aL i + fpow (finv y) i * wR z i) * (fpow y i * aR i + wL z i) + aO i * (wO z i - fpow y i)).

Definition point_V (z : F) : G1 := gsum_n (length V) (fun j => - weight cs z (VCommitted j)) V.

Definition x_accepts (f : first_message) (zn : z_node G1 ipp_tree) (y z u : F) (xn : x_node ipp_tree) : Prop :=
  t_equation (x_proof f zn xn) g h V n cs y z (x_chal xn) /\
  ipp_accepts f zn xn y z u (x_w1 xn) (x_ipp1 xn) /\ ipp_accepts f zn xn y z u (x_w2 xn) (x_ipp2 xn).

Definition points7 (zn : z_node G1 ipp_tree) (z : F) : list G1 :=
  [g1_id; z_T1 zn; point_V z; z_T3 zn; z_T4 zn; z_T5 zn; z_T6 zn].

Lemma t_rep_ok f zn xn y z : t_equation (x_proof f zn xn) g h V n cs y z (x_chal xn) ->
  rep (t_rep n lG lH cs y z (x_scalars xn)) (gsum_n 7 (fpow (x_chal xn)) (points7 zn z)).
Proof.
  intros E. unfold RepProofs.rep. change (2 + lG + lH)%nat with D. rewrite rep_split. unfold t_rep, x_scalars.
  cbn [x_chal x_tx x_txb nth Nat.add].
  rewrite (gsum_n_ext lG _ (fun _ => 0 * 0)), (gsum_n_ext lH _ (fun _ => 0 * 0)), !gsum_n_scale, !g1_mul_zero.
  - unfold t_equation, x_proof, branch_proof in E. cbn [t_x t_x_blinding T_1 T_3 T_4 T_5 T_6] in E. fold (point_V z) in E.
    set (dl := delta n cs y z - weight cs z VOne) in *.
    transitivity (g1_add (g1_add (g1_mul (x_tx xn) g) (g1_mul (x_txb xn) h)) (g1_mul (- (fpow (x_chal xn) 2 * dl)) g)); [gnorm; ring|].
    rewrite E. unfold gsum_n, points7. simpl. gnorm; ring.
  - intros i _. unfold zeros. rewrite nth_repeat. ring.
  - intros i _. unfold zeros. rewrite nth_repeat. ring.
Qed.

Lemma t_rep_zero xn y z i : (2 <= i)%nat -> nth i (t_rep n lG lH cs y z xn) 0 = 0.
Proof. intros Hi. destruct i as [|[|i]]; [lia|lia|]. unfold t_rep. cbn [nth]. unfold zeros. apply nth_repeat. Qed.

Definition x_dummy : x_node ipp_tree := XNode _ 0 0 0 0 0 (ILeaf 0 0) 0 (ILeaf 0 0).

Lemma good_at_u f zn y z un : y <> 0 -> u_node_wf k un ->
  Forall (x_accepts f zn y z (u_chal un)) (u_xs un) ->
  good (at_u n1 n lG lH cs y z (u_scalars un)) (fun '(ai, ao, vv) =>
    rep ai (point_AI f (u_chal un)) /\ rep ao (point_AO f (u_chal un)) /\ rep vv (point_V z) /\
    (forall i, (2 <= i < D)%nat -> nth i vv 0 = 0) /\
    gate_sum y z (fun i => nth (2 + i) ai 0 * finv (phase_factor n1 (u_chal un) i))
       (fun i => nth (2 + lG + i) ai 0 * finv (phase_factor n1 (u_chal un) i))
       (fun i => nth (2 + i) ao 0 * finv (phase_factor n1 (u_chal un) i)) =
    delta n cs y z - weight cs z VOne + nth 0 vv 0).
Proof.
  intros Hy (Hu & Hlen & Hnd & Hwf) Hacc. unfold at_u, u_scalars. cbn [u_chal u_xs]. set (u := u_chal un) in *.
  rewrite emap_map, !map_map.
  assert (Hchal : map (fun x => x_chal (x_scalars x)) (u_xs un) = map x_chal (u_xs un)) by reflexivity. rewrite Hchal. clear Hchal.
  rewrite Forall_forall in Hwf, Hacc.
  eapply good_bind.
  { apply (good_emap B _ _ (fun xn r => rep r (gsum_n 4 (fpow (x_chal xn)) (points4 f u)) /\
      sum_n N (fun i => lx y z u (x_chal xn) r i * rx y z u (x_chal xn) r i) = x_tx xn)).
    intros xn Hin. destruct (Hacc xn Hin) as (_ & A1 & A2). apply (good_at_x f zn); auto. }
  intros rs Hrs. apply (Forall2_nth _ _ _ x_dummy []) in Hrs as [Lrs Hrs].
  set (xs := map x_chal (u_xs un)) in *.
  assert (Lxs : length xs = 7%nat) by (unfold xs; rewrite map_length; assumption).
  assert (Hxs : forall j, (j < 7)%nat -> nth j xs 0 = x_chal (nth j (u_xs un) x_dummy)).
  { intros j Hj. unfold xs. rewrite (nth_indep _ 0 (x_chal x_dummy)) by (rewrite map_length; lia). apply map_nth. }
  eapply good_bind.
  { apply (good_fit B lG lH HB 4 xs rs (points4 f u)); [assumption|lia|lia|].
    intros j Hj. rewrite Lxs in Hj. rewrite Hxs by assumption. apply Hrs. lia. }
  intros cf [Lcf _ Rcf Vcf _].
  eapply good_bind.
  { apply (good_same B lG lH HB (nth 0 cf []) [] g1_id).
    - apply (Rcf 0%nat). lia.
    - apply rep_zero. }
  intros tu0 C0. cbv beta in C0.
  set (ts := map (fun x => t_rep n lG lH cs y z (x_scalars x)) (u_xs un)).
  assert (Hts : forall j, (j < 7)%nat -> nth j ts [] = t_rep n lG lH cs y z (x_scalars (nth j (u_xs un) x_dummy))).
  { intros j Hj. unfold ts. rewrite (nth_indep _ [] ((fun x => t_rep n lG lH cs y z (x_scalars x)) x_dummy)) by (rewrite map_length; lia).
    apply (map_nth (fun x => t_rep n lG lH cs y z (x_scalars x))). }
  eapply good_bind.
  { apply (good_fit B lG lH HB 7 xs ts (points7 zn z)); [assumption|lia|unfold ts; rewrite map_length; lia|].
    intros j Hj. rewrite Lxs in Hj. rewrite Hxs, Hts by assumption. apply (t_rep_ok f). apply Hacc. apply nth_In. lia. }
  intros ct [Lct _ Rct Vct Zct]. cbn [RepProofs.good].
  split; [apply (Rcf 1%nat); lia|]. split; [apply (Rcf 2%nat); lia|]. split; [apply (Rct 2%nat); lia|]. split.
  { intros i Hi. apply Zct; [lia|fold D; lia|]. intros j Hj. rewrite Lxs in Hj. rewrite Hts by assumption. apply t_rep_zero. lia. }
  set (dl := delta n cs y z - weight cs z VOne).
  (* coefficients of the polynomial in x *)
  pose (l1 := fun i => nth (2 + i) (nth 1 cf []) 0 * finv (phase_factor n1 u i) + fpow (finv y) i * wR z i).
  pose (l2 := fun i => nth (2 + i) (nth 2 cf []) 0 * finv (phase_factor n1 u i)).
  pose (l3 := fun i => nth (2 + i) (nth 3 cf []) 0 * finv (phase_factor n1 u i)).
  pose (r0 := fun i => wO z i - fpow y i).
  pose (r1 := fun i => fpow y i * (nth (2 + lG + i) (nth 1 cf []) 0 * finv (phase_factor n1 u i)) + wL z i).
  pose (r2 := fun i => fpow y i * (nth (2 + lG + i) (nth 2 cf []) 0 * finv (phase_factor n1 u i))).
  pose (r3 := fun i => fpow y i * (nth (2 + lG + i) (nth 3 cf []) 0 * finv (phase_factor n1 u i))).
  pose (lr := fun i => [0; l1 i * r0 i; l1 i * r1 i + l2 i * r0 i; l1 i * r2 i + l2 i * r1 i + l3 i * r0 i;
     l1 i * r3 i + l2 i * r2 i + l3 i * r1 i; l2 i * r3 i + l3 i * r2 i; l3 i * r3 i]).
  pose (c := fun e => sum_n N (fun i => nth e (lr i) 0) - (if Nat.eqb e 2 then dl else 0) - nth 0 (nth e ct []) 0).
  assert (Hc : c 2%nat = 0).
  { apply (roots_bound c 7 xs Hnd); [|lia|lia]. intros x Hx. apply In_nth with (d := 0) in Hx as (j & Hj & <-).
    rewrite Lxs in Hj. destruct (Hrs j) as [_ Hval]; [lia|]. rewrite <- Hxs in Hval by assumption.
    set (x := nth j xs 0) in *.
    assert (El : forall i, (i < N)%nat -> lx y z u x (nth j rs []) i * rx y z u x (nth j rs []) i = sum_n 7 (fun e => nth e (lr i) 0 * fpow x e)).
    { intros i Hi. unfold lx, rx. rewrite !Vcf by (fold D; unfold D; lia). fold x.
      pose proof (C0 (2 + i)%nat ltac:(lia)) as C1. pose proof (C0 (2 + lG + i)%nat ltac:(lia)) as C2.
      assert (Hnil : forall q, nth q (@nil F) 0 = 0) by (intros [|]; reflexivity). rewrite Hnil in C1, C2.
      unfold sum_n, lr, l1, l2, l3, r0, r1, r2, r3. cbn [seq map fsum nth fpow].
      change (S (S (lG + i))) with (2 + lG + i)%nat in *. change (S (S i)) with (2 + i)%nat in *.
      rewrite C1, C2. ring. }
    rewrite (sum_n_ext N _ _ El), sum_n_swap in Hval.
    assert (Et : x_tx (nth j (u_xs un) x_dummy) = fpow x 2 * dl + sum_n 7 (fun e => fpow x e * nth 0 (nth e ct []) 0)).
    { unfold x. rewrite <- (Vct j 0%nat) by (try (unfold D); lia). rewrite Hts by assumption. unfold t_rep. cbn [nth x_scalars x_tx x_chal].
      rewrite <- Hxs by assumption. fold dl. ring. }
    rewrite Et in Hval. unfold c.
    transitivity (sum_n 7 (fun e => sum_n N (fun i => nth e (lr i) 0 * fpow x e)) -
      (fpow x 2 * dl + sum_n 7 (fun e => fpow x e * nth 0 (nth e ct []) 0))).
    - transitivity (sum_n 7 (fun e => sum_n N (fun i => nth e (lr i) 0 * fpow x e)) -
        (sum_n 7 (fun e => fpow x e * (if Nat.eqb e 2 then dl else 0)) + sum_n 7 (fun e => fpow x e * nth 0 (nth e ct []) 0))).
      + rewrite <- sum_n_add, <- sum_n_sub. apply sum_n_ext. intros e _.
        transitivity (fpow x e * sum_n N (fun i => nth e (lr i) 0) - fpow x e * (if Nat.eqb e 2 then dl else 0) - fpow x e * nth 0 (nth e ct []) 0); [ring|].
        rewrite <- sum_n_scale. transitivity (sum_n N (fun i => nth e (lr i) 0 * fpow x e) - fpow x e * (if Nat.eqb e 2 then dl else 0) - fpow x e * nth 0 (nth e ct []) 0); [|ring].
        f_equal. f_equal. apply sum_n_ext. intros. ring.
      + f_equal. f_equal. rewrite (sum_n_single 7 _ 2) by (try lia; intros i _ Hne; apply Nat.eqb_neq in Hne; rewrite Hne; ring). reflexivity.
    - rewrite Hval. ring. }
  unfold c in Hc. cbn [Nat.eqb] in Hc.
  transitivity (sum_n N (fun i => nth 2 (lr i) 0)); [reflexivity|].
  apply F_sub_zero. etransitivity; [|exact Hc]. ring.
Qed.

(** *** one value of z *)
Definition pick (A : list (list F)) (e i : nat) : list F := if Nat.ltb i n1 then nth e A [] else nth (S e) A [].

Definition points_A (f : first_message) : list G1 := [f_AI1 f; f_AI2 f; f_AO1 f; f_AO2 f].

Definition u_dummy : u_node ipp_tree := UNode _ 0 [].

Record z_result (f : first_message) (y z : F) (A : list (list F)) (vv : list F) : Prop := {
  zr_length : length A = 4%nat;
  zr_lengths : forall e, (e < 4)%nat -> length (nth e A []) = D;
  zr_A : forall e, (e < 4)%nat -> rep (nth e A []) (nth e (points_A f) g1_id);
  zr_vv : rep vv (point_V z);
  zr_zero : forall i, (2 <= i < D)%nat -> nth i vv 0 = 0;
  zr_eq : gate_sum y z (fun i => nth (2 + i) (pick A 0 i) 0) (fun i => nth (2 + lG + i) (pick A 0 i) 0)
            (fun i => nth (2 + i) (pick A 2 i) 0) = delta n cs y z - weight cs z VOne + nth 0 vv 0
}.

Lemma good_at_z f zn y : y <> 0 -> z_node_wf k zn ->
  (forall un, In un (z_us zn) -> Forall (x_accepts f zn y (z_chal zn) (u_chal un)) (u_xs un)) ->
  good (at_z n1 n lG lH cs y (z_scalars zn)) (fun r => z_result f y (z_chal zn) (fst r) (snd r)).
Proof.
  intros Hy (Hlen & Hnd & Hwf) Hacc. unfold at_z, z_scalars. cbn [z_chal z_us]. set (z := z_chal zn) in *.
  rewrite emap_map, !map_map.
  assert (Hchal : map (fun x => u_chal (u_scalars x)) (z_us zn) = map u_chal (z_us zn)) by reflexivity. rewrite Hchal. clear Hchal.
  rewrite Forall_forall in Hwf.
  eapply good_bind.
  { eapply (good_emap B). intros un Hin. apply (good_at_u f zn); auto. }
  intros rs Hrs. apply (Forall2_nth _ _ _ u_dummy ([], [], [])) in Hrs as [Lrs Hrs].
  set (us := map u_chal (z_us zn)) in *.
  assert (Lus : length us = 5%nat) by (unfold us; rewrite map_length; assumption).
  assert (Hus : forall j, (j < 5)%nat -> nth j us 0 = u_chal (nth j (z_us zn) u_dummy)).
  { intros j Hj. unfold us. rewrite (nth_indep _ 0 (u_chal u_dummy)) by (rewrite map_length; lia). apply map_nth. }
  pose (RI := fun j => fst (fst (nth j rs ([], [], [])))).
  pose (RO := fun j => snd (fst (nth j rs ([], [], [])))).
  pose (RV := fun j => snd (nth j rs ([], [], []))).
  assert (HI : forall j, nth j (map (fun r : list F * list F * list F => fst (fst r)) rs) [] = RI j)
    by (intros j; exact (map_nth (fun r : list F * list F * list F => fst (fst r)) rs ([], [], []) j)).
  assert (HO : forall j, nth j (map (fun r : list F * list F * list F => snd (fst r)) rs) [] = RO j)
    by (intros j; exact (map_nth (fun r : list F * list F * list F => snd (fst r)) rs ([], [], []) j)).
  assert (Hj : forall j, (j < 5)%nat -> let u := nth j us 0 in
    rep (RI j) (point_AI f u) /\ rep (RO j) (point_AO f u) /\ rep (RV j) (point_V z) /\
    (forall i, (2 <= i < D)%nat -> nth i (RV j) 0 = 0) /\
    gate_sum y z (fun i => nth (2 + i) (RI j) 0 * finv (phase_factor n1 u i))
       (fun i => nth (2 + lG + i) (RI j) 0 * finv (phase_factor n1 u i))
       (fun i => nth (2 + i) (RO j) 0 * finv (phase_factor n1 u i)) =
    delta n cs y z - weight cs z VOne + nth 0 (RV j) 0).
  { intros j Hj. cbv zeta. rewrite Hus by assumption. unfold RI, RO, RV. specialize (Hrs j ltac:(lia)).
    destruct (nth j rs ([], [], [])) as [[ai ao] vv]. exact Hrs. }
  assert (Hu0 : forall j, (j < 5)%nat -> nth j us 0 <> 0).
  { intros j Hj0. rewrite Hus by assumption. apply Hwf. apply nth_In. lia. }
  eapply good_bind.
  { apply (good_fit B lG lH HB 2 us (map (fun r : list F * list F * list F => fst (fst r)) rs) [f_AI1 f; f_AI2 f]);
      [assumption|lia|rewrite map_length; lia|].
    intros j Hl. rewrite Lus in Hl. rewrite HI. destruct (Hj j Hl) as (R & _). unfold RepProofs.rep in *. rewrite R.
    unfold point_AI, gsum_n. simpl. gnorm; ring. }
  intros ci [Lci Dci Rci Vci _].
  eapply good_bind.
  { apply (good_fit B lG lH HB 2 us (map (fun r : list F * list F * list F => snd (fst r)) rs) [f_AO1 f; f_AO2 f]);
      [assumption|lia|rewrite map_length; lia|].
    intros j Hl. rewrite Lus in Hl. rewrite HO. destruct (Hj j Hl) as (_ & R & _). unfold RepProofs.rep in *. rewrite R.
    unfold point_AO, gsum_n. simpl. gnorm; ring. }
  intros co [Lco Dco Rco Vco _]. fold (RV 0%nat).
  eapply good_bind.
  { apply (good_echeck B _ _ (fun r : list F * list F * list F => forall i, (i < D)%nat -> nth i (snd r) 0 = nth i (RV 0%nat) 0)).
    intros r Hin. apply In_nth with (d := ([], [], [])) in Hin as (j & Hl & <-). fold (RV j).
    apply (good_same B lG lH HB _ _ (point_V z)); apply Hj; lia. }
  intros tu0 HV. cbv beta in HV. cbn [RepProofs.good fst snd].
  destruct ci as [|ci0 [|ci1 [|? ?]]]; try discriminate Lci. destruct co as [|co0 [|co1 [|? ?]]]; try discriminate Lco.
  cbn [app]. split.
  - reflexivity.
  - intros e He. destruct e as [|[|[|[|e]]]]; [apply (Dci 0%nat)|apply (Dci 1%nat)|apply (Dco 0%nat)|apply (Dco 1%nat)|]; lia.
  - intros e He. destruct e as [|[|[|[|e]]]]; [apply (Rci 0%nat)|apply (Rci 1%nat)|apply (Rco 0%nat)|apply (Rco 1%nat)|]; lia.
  - apply Hj. lia.
  - apply (Hj 0%nat). lia.
  - set (dl := delta n cs y z - weight cs z VOne + nth 0 (RV 0%nat) 0).
    unfold pick. cbn [nth].
    pose (a0 := fun i => nth (2 + i) ci0 0). pose (a1 := fun i => nth (2 + i) ci1 0).
    pose (b0 := fun i => nth (2 + lG + i) ci0 0). pose (b1 := fun i => nth (2 + lG + i) ci1 0).
    pose (o0 := fun i => nth (2 + i) co0 0). pose (o1 := fun i => nth (2 + i) co1 0).
    pose (c := fun i => fpow (finv y) i * wR z i). pose (d := fun i => wL z i). pose (e := fun i => wO z i - fpow y i).
    pose (Y := fun i => fpow y i).
    pose (cu := fun i => if Nat.ltb i n1
      then [0; 0; (a0 i + c i) * (Y i * b0 i + d i) + o0 i * e i; (a0 i + c i) * (Y i * b1 i) + a1 i * (Y i * b0 i + d i) + o1 i * e i; a1 i * (Y i * b1 i)]
      else [a0 i * (Y i * b0 i); a0 i * (Y i * b1 i + d i) + (a1 i + c i) * (Y i * b0 i) + o0 i * e i; (a1 i + c i) * (Y i * b1 i + d i) + o1 i * e i; 0; 0]).
    pose (cf := fun e => sum_n N (fun i => nth e (cu i) 0) - (if Nat.eqb e 2 then dl else 0)).
    assert (Hc : cf 2%nat = 0).
    { apply (roots_bound cf 5 us Hnd); [|lia|lia]. intros u Hu. apply In_nth with (d := 0) in Hu as (j & Hl & <-). rewrite Lus in Hl.
      destruct (Hj j Hl) as (_ & _ & _ & _ & E). specialize (Hu0 j Hl). 
      assert (EV : nth 0 (RV j) 0 = nth 0 (RV 0%nat) 0).
      { apply (HV (nth j rs ([], [], []))); [apply nth_In; lia|unfold D; lia]. }
      rewrite EV in E. fold dl in E.
      assert (VI : forall i, (i < D)%nat -> nth i (RI j) 0 = nth i ci0 0 + nth j us 0 * nth i ci1 0).
      { intros i Hi. rewrite <- HI, Vci by (try assumption; lia). unfold sum_n. simpl. ring. }
      assert (VO : forall i, (i < D)%nat -> nth i (RO j) 0 = nth i co0 0 + nth j us 0 * nth i co1 0).
      { intros i Hi. rewrite <- HO, Vco by (try assumption; lia). unfold sum_n. simpl. ring. }
      set (u := nth j us 0) in *.
      transitivity (sum_n 5 (fun e => sum_n N (fun i => nth e (cu i) 0 * fpow u e)) - sum_n 5 (fun e => (if Nat.eqb e 2 then dl else 0) * fpow u e)).
      { rewrite <- sum_n_sub. apply sum_n_ext. intros q _. unfold cf.
        transitivity (fpow u q * sum_n N (fun i => nth q (cu i) 0) - (if Nat.eqb q 2 then dl else 0) * fpow u q); [ring|].
        f_equal. rewrite <- sum_n_scale. apply sum_n_ext. intros. ring. }
      rewrite (sum_n_single 5 (fun e => (if Nat.eqb e 2 then dl else 0) * fpow u e) 2)
        by (try lia; intros i _ Hne; apply Nat.eqb_neq in Hne; rewrite Hne; ring).
      rewrite sum_n_swap. cbn [Nat.eqb].
      transitivity (fpow u 2 * dl - dl * fpow u 2); [|ring]. f_equal. rewrite <- E. unfold gate_sum. rewrite <- sum_n_scale.
      apply sum_n_ext. intros i Hi. rewrite !VI, VO by (unfold D; lia).
      fold (a0 i) (a1 i) (b0 i) (b1 i) (o0 i) (o1 i) (c i) (d i) (e i) (Y i).
      unfold sum_n, cu, phase_factor. destruct (i <? n1)%nat; cbn [seq map fsum nth fpow].
      - field. apply F_one_neq_zero.
      - field. assumption. }
    unfold cf in Hc. cbn [Nat.eqb] in Hc. apply F_sub_zero in Hc. etransitivity; [|exact Hc].
    unfold gate_sum. apply sum_n_ext. intros i Hi. unfold cu. destruct (i <? n1)%nat; reflexivity.
Qed.

(** *** one value of y *)
Definition row_ok (f : first_message) (yn : y_node G1 ipp_tree) (row : list (F * (list (list F) * list F))) : Prop :=
  Forall2 (fun zn e => fst e = z_chal zn /\ z_result f (y_chal yn) (z_chal zn) (fst (snd e)) (snd (snd e))) (y_zs yn) row.

Lemma accepted_x f t yn zn un xn : proof_tree_accepted g h G H V n1 n cs f t ->
  In yn t -> In zn (y_zs yn) -> In un (z_us zn) -> In xn (u_xs un) ->
  x_accepts f zn (y_chal yn) (z_chal zn) (u_chal un) xn.
Proof.
  intros Hacc Hy Hz Hu Hx. unfold x_accepts. split.
  - destruct (branch_exists (x_ipp1 xn)) as (us & Ls & Rs & a & b & Hb).
    destruct (Hacc yn zn un xn (x_w1 xn) (x_ipp1 xn) us Ls Rs a b Hy Hz Hu Hx (or_introl eq_refl) Hb) as [E _]. exact E.
  - split; intros us Ls Rs a b Hb.
    + destruct (Hacc yn zn un xn (x_w1 xn) (x_ipp1 xn) us Ls Rs a b Hy Hz Hu Hx (or_introl eq_refl) Hb) as [_ E]. exact E.
    + destruct (Hacc yn zn un xn (x_w2 xn) (x_ipp2 xn) us Ls Rs a b Hy Hz Hu Hx (or_intror (or_introl eq_refl)) Hb) as [_ E]. exact E.
Qed.

Lemma good_at_y f t yn : proof_tree_accepted g h G H V n1 n cs f t -> In yn t -> y_node_wf k (length cs) yn ->
  good (at_y n1 n lG lH cs (y_scalars yn)) (row_ok f yn).
Proof.
  intros Hacc Hin (Hy & _ & _ & Hwf). unfold at_y, y_scalars. cbn [y_chal y_zs]. rewrite emap_map.
  rewrite Forall_forall in Hwf. apply (good_emap B). intros zn Hz.
  eapply good_bind; [apply (good_at_z f zn (y_chal yn)); auto|].
  - intros un Hu. apply Forall_forall. intros xn Hx. apply (accepted_x f t yn); assumption.
  - intros r Hr. split; [reflexivity|exact Hr].
Qed.

(** *** the whole tree *)
Definition y_dummy : y_node G1 ipp_tree := YNode _ _ 0 [].
Definition z_dummy : z_node G1 ipp_tree := ZNode _ _ 0 g1_id g1_id g1_id g1_id g1_id [].

Lemma combination_rep_pts l ws (Xs : list G1) : (forall j, (j < length l)%nat -> rep (nth j ws []) (nth j Xs g1_id)) ->
  rep (combination lG lH l ws) (gsum_n (length l) (fun j => nth j l 0) Xs).
Proof. intros E. apply (rep_combination B lG lH l ws (fun j => nth j Xs g1_id)). assumption. Qed.

(** the combinations of the commitments, one for each constraint *)
Definition point_q (q : nat) : G1 := gsum_n (length V) (fun j => - coeff (VCommitted j) (nth q cs [])) V.

Lemma point_V_poly z : point_V z = gsum_n (S (length cs)) (fpow z) (g1_id :: map point_q (seq 0 (length cs))).
Proof.
  unfold gsum_n at 1. change (point_V z = gsum_i (S (length cs)) (fun i => g1_mul (fpow z i) (nth i (g1_id :: map point_q (seq 0 (length cs))) g1_id))).
  rewrite gsum_i_first. cbn [nth].
  rewrite (gsum_i_ext _ _ (fun q => g1_mul (fpow z (S q)) (point_q q))).
  2:{ intros q Hq. f_equal. apply nth_map_seq. assumption. }
  unfold point_q. rewrite <- (gsum_n_comb (length V) (length cs) (fun q => fpow z (S q)) (fun q j => - coeff (VCommitted j) (nth q cs [])) V).
  rewrite g1_mul_id, g1_add_id. unfold point_V. apply gsum_n_ext. intros j _. unfold weight.
  transitivity (- (1) * sum_n (length cs) (fun q => fpow z (S q) * coeff (VCommitted j) (nth q cs []))); [unfold sum_n; ring|].
  rewrite <- sum_n_scale. apply sum_n_ext. intros. ring.
Qed.

Lemma gate_sum_expand y z aL aR aO : y <> 0 ->
  gate_sum y z aL aR aO = sum_n N (fun i => fpow y i * (aL i * aR i - aO i)) + delta n cs y z +
    (sum_n n (fun i => weight cs z (VLeft i) * aL i) + sum_n n (fun i => weight cs z (VRight i) * aR i)
     + sum_n n (fun i => weight cs z (VOut i) * aO i)).
Proof.
  intros Hy.
  assert (Hpad : forall f, sum_n N (padded n f) = sum_n n f).
  { intros f. unfold padded. assert (Hgen : forall e, sum_n (n + e) (fun i => if (i <? n)%nat then f i else 0) = sum_n n f).
    { induction e.
      - rewrite Nat.add_0_r. apply sum_n_ext. intros i Hi. apply Nat.ltb_lt in Hi. rewrite Hi. reflexivity.
      - rewrite Nat.add_succ_r, sum_n_last, IHe. replace (n + e <? n)%nat with false by (symmetry; apply Nat.ltb_ge; lia). ring. }
    replace N with (n + (N - n))%nat by lia. apply Hgen. }
  unfold delta. rewrite <- !Hpad, <- !sum_n_add. apply sum_n_ext. intros i _. unfold wL, wR, wO, padded.
  destruct (i <? n)%nat.
  - transitivity (fpow y i * (aL i * aR i - aO i) + fpow (finv y) i * weight cs z (VRight i) * weight cs z (VLeft i) +
      (weight cs z (VLeft i) * aL i + fpow y i * fpow (finv y) i * weight cs z (VRight i) * aR i + weight cs z (VOut i) * aO i)); [ring|].
    rewrite fpow_inv by assumption. ring.
  - ring.
Qed.

Theorem r1cs_extract_ok M f t : Forall (lc_in_range n (length V)) cs -> recovers M (length V) cs ->
  proof_tree_wf k (length cs) t -> proof_tree_accepted g h G H V n1 n cs f t ->
  good (r1cs_extract n1 n lG lH (length V) cs M (tree_scalars t)) (witness_ok g h G H V n1 n cs f).
Proof.
  intros Hrange Hrec (Hlen & Hnd & Hwf) Hacc. unfold r1cs_extract, tree_scalars. rewrite emap_map.
  rewrite Forall_forall in Hwf. rewrite <- HN in Hlen.
  assert (HN1 : (0 < N)%nat). { rewrite HN. clear. induction k; simpl; lia. }
  eapply good_bind.
  { apply (good_emap B). intros yn Hin. apply (good_at_y f t yn Hacc Hin). apply Hwf. assumption. }
  intros rows Hrows.
  pose proof (Forall2_nth _ _ _ y_dummy [] Hrows) as [Lrows Hrow].
  set (row := nth 0 rows []). set (yn0 := nth 0 t y_dummy).
  assert (Hin0 : In yn0 t) by (apply nth_In; lia).
  assert (Hrow0 : row_ok f yn0 row) by (apply Hrow; lia).
  pose proof (Forall2_nth _ _ _ z_dummy (0, ([], [])) Hrow0) as [Lrow Hz0].
  destruct (Hwf yn0 Hin0) as (Hy0 & Lz0 & Hndz0 & _).
  set (A := fst (snd (nth 0 row (0, ([], []))))).
  assert (HA : (forall e, (e < 4)%nat -> length (nth e A []) = D) /\ forall e, (e < 4)%nat -> rep (nth e A []) (nth e (points_A f) g1_id)).
  { destruct (Hz0 0%nat ltac:(lia)) as [_ [_ LA RA _ _ _]]. split; assumption. }
  destruct HA as [LA RA].
  (* every entry of every row *)
  assert (Hent : forall r e, In r rows -> In e r -> exists yn zn, In yn t /\ In zn (y_zs yn) /\ fst e = z_chal zn /\
    z_result f (y_chal yn) (z_chal zn) (fst (snd e)) (snd (snd e))).
  { intros r e Hr He. destruct (Forall2_in_r _ _ _ r Hrows Hr) as (yn & Hyn & Hro).
    destruct (Forall2_in_r _ _ _ e Hro He) as (zn & Hzn & E & Hres). exists yn, zn. auto. }
  assert (Hent' : forall yn zn, In yn t -> In zn (y_zs yn) -> exists r e, In r rows /\ In e r /\ fst e = z_chal zn /\
    z_result f (y_chal yn) (z_chal zn) (fst (snd e)) (snd (snd e))).
  { intros yn zn Hyn Hzn. apply In_nth with (d := y_dummy) in Hyn as (a & Ha & <-).
    pose proof (Hrow a Ha) as Hro. pose proof (Forall2_nth _ _ _ z_dummy (0, ([], [])) Hro) as [Lr Hr].
    apply In_nth with (d := z_dummy) in Hzn as (b & Hb & <-).
    exists (nth a rows []), (nth b (nth a rows []) (0, ([], []))). split; [apply nth_In; lia|]. split; [apply nth_In; lia|].
    apply Hr. assumption. }
  eapply good_bind.
  { apply (good_emap B _ _ (fun r _ => forall e, In e r -> forall q i, (q < 4)%nat -> (i < D)%nat ->
      nth i (nth q (fst (snd e)) []) 0 = nth i (nth q A []) 0)).
    intros r Hr. apply (good_echeck B _ _ (fun e => forall q i, (q < 4)%nat -> (i < D)%nat ->
      nth i (nth q (fst (snd e)) []) 0 = nth i (nth q A []) 0)).
    intros e He. destruct (Hent r e Hr He) as (yn & zn & _ & _ & _ & [_ LAe RAe _ _ _]).
    unfold same4. eapply good_bind.
    - apply (good_echeck B _ _ (fun q => forall i, (i < D)%nat -> nth i (nth q (fst (snd e)) []) 0 = nth i (nth q A []) 0)).
      intros q Hq. apply in_seq in Hq. apply (good_same B lG lH HB _ _ (nth q (points_A f) g1_id)); [apply RAe|apply RA]; lia.
    - intros tu E q i Hq Hi. cbv beta in E. apply E; [apply in_seq; lia|assumption]. }
  intros tu1 HsA.
  assert (HsameA : forall r e, In r rows -> In e r -> forall q i, (q < 4)%nat -> (i < D)%nat ->
      nth i (nth q (fst (snd e)) []) 0 = nth i (nth q A []) 0).
  { intros r e Hr. apply In_nth with (d := []) in Hr as (a & Ha & <-).
    pose proof (Forall2_nth _ _ _ [] [] HsA) as [_ HsA']. intros He. apply (HsA' a Ha). assumption. }
  clear HsA tu1.
  (* commitments *)
  set (Q := length cs).
  assert (Hzs : map fst row = map z_chal (y_zs yn0)).
  { clear -Hrow0. unfold row_ok in Hrow0. revert Hrow0. generalize row. generalize (y_zs yn0). intros l r. induction 1 as [|? ? ? ? [E _] _ IH]; simpl; [reflexivity|]. rewrite E, IH. reflexivity. }
  rewrite Hzs. set (zs := map z_chal (y_zs yn0)) in *.
  assert (Lzs : length zs = S Q) by (unfold zs; rewrite map_length; assumption).
  assert (Hzn : forall j, (j < S Q)%nat -> nth j zs 0 = z_chal (nth j (y_zs yn0) z_dummy)).
  { intros j Hj. unfold zs. rewrite (nth_indep _ 0 (z_chal z_dummy)) by (rewrite map_length; lia). apply map_nth. }
  set (vvs := map (fun e : F * (list (list F) * list F) => snd (snd e)) row).
  assert (Hvvs : forall j, nth j vvs [] = snd (snd (nth j row (0, ([], [])))))
    by (intros j; exact (map_nth (fun e : F * (list (list F) * list F) => snd (snd e)) row (0, ([], [])) j)).
  eapply good_bind.
  { apply (good_fit B lG lH HB (S Q) zs vvs (g1_id :: map point_q (seq 0 Q))); [assumption|lia|unfold vvs; rewrite map_length; lia|].
    intros j Hj. rewrite Lzs in Hj. rewrite Hvvs, Hzn by assumption. unfold Q. rewrite <- point_V_poly. apply Hz0. lia. }
  intros U [LU _ RU _ ZU].
  set (VR := map (fun j => combination lG lH (map (fun q => - M j q) (seq 0 Q)) (tl U)) (seq 0 (length V))).
  assert (LVR : length VR = length V) by (unfold VR; rewrite map_length, seq_length; reflexivity).
  assert (HVR : forall j, (j < length V)%nat -> nth j VR [] = combination lG lH (map (fun q => - M j q) (seq 0 Q)) (tl U)).
  { intros j Hj. unfold VR. rewrite nth_map_seq by assumption. reflexivity. }
  assert (Htl : forall q, nth q (tl U) [] = nth (S q) U []) by (intros q; destruct U; [destruct q; reflexivity|reflexivity]).
  assert (RV : forall j, (j < length V)%nat -> rep (nth j VR []) (nth j V g1_id)).
  { intros j Hj. rewrite HVR by assumption.
    pose proof (combination_rep_pts (map (fun q => - M j q) (seq 0 Q)) (tl U) (map point_q (seq 0 Q))) as R.
    rewrite map_length, seq_length in R.
    assert (Hpre : forall q, (q < Q)%nat -> rep (nth q (tl U) []) (nth q (map point_q (seq 0 Q)) g1_id)).
    { intros q Hq. rewrite Htl. apply (RU (S q)). lia. }
    specialize (R Hpre). unfold RepProofs.rep in *. rewrite R. clear R.
    transitivity (gsum_i Q (fun q => g1_mul (- M j q) (point_q q))).
    { apply gsum_i_ext. intros q Hq. rewrite (nth_map_seq (fun q => - M j q)), (nth_map_seq point_q) by assumption. reflexivity. }
    unfold point_q. rewrite <- (gsum_n_comb (length V) Q (fun q => - M j q) (fun q j' => - coeff (VCommitted j') (nth q cs [])) V).
    rewrite (gsum_n_ext _ _ (fun j' => if Nat.eqb j j' then 1 else 0)).
    - unfold gsum_n. clear -Hj OK. fold (gsum_i (length V) (fun i => g1_mul (if Nat.eqb j i then 1 else 0) (nth i V g1_id))).
      revert Hj. generalize (length V) as m0. induction m0 as [|m0 IH]; intros Hj; [lia|]. rewrite gsum_i_last.
      destruct (Nat.eq_dec j m0) as [->|Hne].
      + rewrite Nat.eqb_refl, g1_mul_one, gsum_i_id; [apply g1_add_id|]. intros i Hi. destruct (Nat.eqb_spec m0 i); [lia|]. apply g1_mul_zero.
      + rewrite IH by lia. apply Nat.eqb_neq in Hne. rewrite Hne, g1_mul_zero. apply g1_id_r.
    - intros j' Hj'. rewrite <- (Hrec j j' Hj Hj'). apply sum_n_ext. intros. ring. }
  assert (ZV : forall j i, (j < length V)%nat -> (2 <= i < D)%nat -> nth i (nth j VR []) 0 = 0).
  { intros j i Hj Hi. rewrite HVR by assumption. rewrite combination_nth by (fold D; lia). rewrite map_length, seq_length.
    apply sum_n_zero. intros q Hq. rewrite Htl, (ZU i (S q)); [ring|lia|fold D; lia|].
    intros j' Hj'. rewrite Lzs in Hj'. rewrite Hvvs. destruct (Hz0 j' ltac:(lia)) as [_ [_ _ _ _ Zz _]]. apply Zz. assumption. }
  pose (wt := fun z => map (fun j => - weight cs z (VCommitted j)) (seq 0 (length V))).
  eapply good_bind.
  { apply (good_emap B _ _ (fun r _ => forall e, In e r -> forall i, (i < D)%nat ->
      nth i (snd (snd e)) 0 = nth i (combination lG lH (wt (fst e)) VR) 0)).
    intros r Hr. apply (good_echeck B _ _ (fun e => forall i, (i < D)%nat ->
      nth i (snd (snd e)) 0 = nth i (combination lG lH (wt (fst e)) VR) 0)).
    intros e He. destruct (Hent r e Hr He) as (yn & zn & _ & _ & Ez & [_ _ _ Rv _ _]).
    apply (good_same B lG lH HB _ _ (point_V (z_chal zn))); [assumption|].
    pose proof (combination_rep_pts (wt (fst e)) VR V) as R. unfold wt in R at 1 3. rewrite map_length, seq_length in R.
    specialize (R RV). unfold wt in R. unfold RepProofs.rep in *. rewrite R. rewrite Ez.
    apply gsum_n_ext. intros j Hj. rewrite (nth_map_seq (fun j => - weight cs (z_chal zn) (VCommitted j))) by assumption. reflexivity. }
  intros tu2 HsV.
  assert (HsameV : forall r e, In r rows -> In e r -> forall i, (i < D)%nat ->
      nth i (snd (snd e)) 0 = nth i (combination lG lH (wt (fst e)) VR) 0).
  { intros r e Hr. apply In_nth with (d := []) in Hr as (a & Ha & <-).
    pose proof (Forall2_nth _ _ _ [] [] HsV) as [_ HsV']. intros He. apply (HsV' a Ha). assumption. }
  clear HsV tu2. cbn [RepProofs.good].
  set (v := map (fun w : list F => nth 0 w 0) VR). set (gam := map (fun w : list F => nth 1 w 0) VR).
  assert (Hv : forall j, nth j v 0 = nth 0 (nth j VR []) 0) by (intros j; exact (map_nth (fun w : list F => nth 0 w 0) VR [] j)).
  assert (Hgam : forall j, nth j gam 0 = nth 1 (nth j VR []) 0) by (intros j; exact (map_nth (fun w : list F => nth 1 w 0) VR [] j)).
  set (aL := map _ (seq 0 n)). set (aR := map _ (seq 0 n)). set (aO := map _ (seq 0 n)).
  assert (HaL : forall i, (i < n)%nat -> nth i aL 0 = nth (2 + i) (pick A 0 i) 0) by (intros i Hi; unfold aL; rewrite nth_map_seq by assumption; reflexivity).
  assert (HaR : forall i, (i < n)%nat -> nth i aR 0 = nth (2 + lG + i) (pick A 0 i) 0) by (intros i Hi; unfold aR; rewrite nth_map_seq by assumption; reflexivity).
  assert (HaO : forall i, (i < n)%nat -> nth i aO 0 = nth (2 + i) (pick A 2 i) 0) by (intros i Hi; unfold aO; rewrite nth_map_seq by assumption; reflexivity).
  (* the equation for every y and z *)
  set (s := assignment_of v aL aR aO).
  assert (Heq : forall yn zn, In yn t -> In zn (y_zs yn) ->
    sum_n N (fun i => fpow (y_chal yn) i * (nth (2 + i) (pick A 0 i) 0 * nth (2 + lG + i) (pick A 0 i) 0 - nth (2 + i) (pick A 2 i) 0))
      + zsum s cs (z_chal zn) = 0).
  { intros yn zn Hyn Hzn'. destruct (Hent' yn zn Hyn Hzn') as (r & e & Hr & He & Ez & [_ _ _ _ _ Eq]).
    assert (Hy : y_chal yn <> 0) by (apply (Hwf yn Hyn)).
    rewrite (HsameV r e Hr He 0%nat) in Eq by (unfold D; lia). rewrite combination_nth in Eq by lia.
    unfold wt in Eq at 1. rewrite map_length, seq_length in Eq. rewrite Ez in Eq.
    assert (Epick : forall q i j, (q = 0 \/ q = 2)%nat -> (j < D)%nat -> nth j (pick (fst (snd e)) q i) 0 = nth j (pick A q i) 0).
    { intros q i j Hq Hj. unfold pick. destruct (i <? n1)%nat; apply (HsameA r e Hr He); lia. }
    assert (Eg : gate_sum (y_chal yn) (z_chal zn) (fun i => nth (2 + i) (pick (fst (snd e)) 0 i) 0)
      (fun i => nth (2 + lG + i) (pick (fst (snd e)) 0 i) 0) (fun i => nth (2 + i) (pick (fst (snd e)) 2 i) 0) =
      gate_sum (y_chal yn) (z_chal zn) (fun i => nth (2 + i) (pick A 0 i) 0)
      (fun i => nth (2 + lG + i) (pick A 0 i) 0) (fun i => nth (2 + i) (pick A 2 i) 0)).
    { apply sum_n_ext. intros i Hi. rewrite !Epick by (try (unfold D); lia). reflexivity. }
    rewrite Eg, gate_sum_expand in Eq by assumption.
    rewrite <- (flatten_zsum s n (length V) cs (z_chal zn) Hrange). unfold s, assignment_of. cbn [as_left as_right as_out as_committed].
    set (SG := sum_n N _) in Eq |- *. 
    fold (sum_n n (fun j => weight cs (z_chal zn) (VLeft j) * nth j aL 0)) (sum_n n (fun j => weight cs (z_chal zn) (VRight j) * nth j aR 0))
      (sum_n n (fun j => weight cs (z_chal zn) (VOut j) * nth j aO 0)) (sum_n (length V) (fun j => weight cs (z_chal zn) (VCommitted j) * nth j v 0)).
    rewrite (sum_n_ext n (fun j => weight cs (z_chal zn) (VLeft j) * nth j aL 0) (fun j => weight cs (z_chal zn) (VLeft j) * nth (2 + j) (pick A 0 j) 0)) by (intros i Hi; rewrite HaL by assumption; reflexivity).
    rewrite (sum_n_ext n (fun j => weight cs (z_chal zn) (VRight j) * nth j aR 0) (fun j => weight cs (z_chal zn) (VRight j) * nth (2 + lG + j) (pick A 0 j) 0)) by (intros i Hi; rewrite HaR by assumption; reflexivity).
    rewrite (sum_n_ext n (fun j => weight cs (z_chal zn) (VOut j) * nth j aO 0) (fun j => weight cs (z_chal zn) (VOut j) * nth (2 + j) (pick A 2 j) 0)) by (intros i Hi; rewrite HaO by assumption; reflexivity).
    rewrite (sum_n_ext (length V) (fun j => weight cs (z_chal zn) (VCommitted j) * nth j v 0)
      (fun j => - (1) * (nth j (wt (z_chal zn)) 0 * nth 0 (nth j VR []) 0))).
    2:{ intros j Hj. unfold wt. rewrite (nth_map_seq (fun j => - weight cs (z_chal zn) (VCommitted j))) by assumption. rewrite Hv. ring. }
    rewrite sum_n_scale. unfold wt. set (SV := sum_n (length V) _) in Eq |- *.
    set (S1' := sum_n n _) in Eq |- *. set (S2' := sum_n n _) in Eq |- *. set (S3' := sum_n n _) in Eq |- *.
    transitivity ((SG + delta n cs (y_chal yn) (z_chal zn) + (S1' + S2' + S3')) - (delta n cs (y_chal yn) (z_chal zn) - weight cs (z_chal zn) VOne + SV)); [ring|].
    rewrite Eq. ring. }
  set (gap := fun i => nth (2 + i) (pick A 0 i) 0 * nth (2 + lG + i) (pick A 0 i) 0 - nth (2 + i) (pick A 2 i) 0).
  assert (Hpoly : forall yn, In yn t -> sum_n N (fun i => fpow (y_chal yn) i * gap i) = 0 /\ forall q, (q < Q)%nat -> lc_value s (nth q cs []) = 0).
  { intros yn Hyn. destruct (Hwf yn Hyn) as (_ & Lz & Hndz & _).
    pose (c := fun e => match e with O => sum_n N (fun i => fpow (y_chal yn) i * gap i) | S q => lc_value s (nth q cs []) end).
    assert (Hc : forall e, (e < S Q)%nat -> c e = 0).
    { apply (roots_bound c (S Q) (map z_chal (y_zs yn)) Hndz); [|rewrite map_length; unfold Q; lia].
      intros z Hz. apply in_map_iff in Hz as (zn & <- & Hzn'). rewrite <- (Heq yn zn Hyn Hzn').
      rewrite sum_n_S. cbn [c fpow]. unfold gap. f_equal; [ring|]. unfold zsum. apply sum_n_ext. intros q _. cbn [c fpow]. ring. }
    split; [apply (Hc 0%nat); lia|]. intros q Hq. apply (Hc (S q)). lia. }
  assert (Hgap : forall i, (i < N)%nat -> gap i = 0).
  { apply (roots_bound gap N (map y_chal t) Hnd); [|rewrite map_length; lia].
    intros y Hy. apply in_map_iff in Hy as (yn & <- & Hyn). destruct (Hpoly yn Hyn) as [E _]. rewrite <- E. apply sum_n_ext. intros. ring. }
  unfold witness_ok. cbn [wit_v wit_blinding wit_aL wit_aR wit_aO wit_AI1 wit_AO1].
  split; [|split; [split|]].
  - intros j Hj. rewrite <- (RV j Hj), Hv, Hgam. change (2 + lG + lH)%nat with D. rewrite rep_split.
    rewrite (gsum_n_ext lG _ (fun _ => 0 * 0)), (gsum_n_ext lH _ (fun _ => 0 * 0)), !gsum_n_scale, !g1_mul_zero.
    + gnorm; ring.
    + intros i Hi. rewrite ZV by (unfold D; lia). ring.
    + intros i Hi. rewrite ZV by (unfold D; lia). ring.
  - intros i Hi. unfold gate_ok. cbn [as_left as_right as_out assignment_of]. rewrite HaL, HaR, HaO by assumption.
    apply F_sub_zero. apply Hgap. lia.
  - intros l Hl. apply In_nth with (d := []) in Hl as (q & Hq & <-). apply (Hpoly yn0 Hin0). assumption.
  - fold B.
    split; [rewrite HB; apply LA; lia|]. split; [apply (rep_msm B lG lH HB); [apply LA; lia|apply (RA 0%nat); lia]|].
    split; [rewrite HB; apply LA; lia|]. split; [apply (rep_msm B lG lH HB); [apply LA; lia|apply (RA 2%nat); lia]|].
    intros i Hi1 Hi. rewrite HaL, HaR, HaO by assumption. unfold pick. apply Nat.ltb_lt in Hi1. rewrite Hi1. auto.
Qed.

(** *** two witnesses *)
Lemma compare_ok n' cs' f f' w w' : (n <= lG)%nat -> (n <= lH)%nat ->
  f_AI1 f' = f_AI1 f -> f_AO1 f' = f_AO1 f ->
  witness_ok g h G H V n1 n cs f w -> witness_ok g h G H V n1 n' cs' f' w' ->
  good (compare_witnesses lG lH (length V) w w') (fun _ =>
    (forall j, (j < length V)%nat -> nth j (wit_v w) 0 = nth j (wit_v w') 0 /\ nth j (wit_blinding w) 0 = nth j (wit_blinding w') 0) /\
    (forall i, (i < n1)%nat -> (i < n)%nat -> (i < n')%nat ->
       nth i (wit_aL w) 0 = nth i (wit_aL w') 0 /\ nth i (wit_aR w) 0 = nth i (wit_aR w') 0 /\
       nth i (wit_aO w) 0 = nth i (wit_aO w') 0)).
Proof.
  clear HN HNG HNH HnN k.
  intros HnG HnH EI EO (Wv & _ & L1 & M1 & L2 & M2 & Wi) (Wv' & _ & L1' & M1' & L2' & M2' & Wi').
  fold B in L1, M1, L2, M2, L1', M1', L2', M2'. rewrite HB in L1, L2, L1', L2'. rewrite EI in M1'. rewrite EO in M2'.
  apply (rep_msm B lG lH HB _ _ L1) in M1. apply (rep_msm B lG lH HB _ _ L2) in M2.
  apply (rep_msm B lG lH HB _ _ L1') in M1'. apply (rep_msm B lG lH HB _ _ L2') in M2'.
  assert (Hrep : forall a b, rep [a; b] (g1_add (g1_mul a g) (g1_mul b h))).
  { intros a b. unfold RepProofs.rep. change (2 + lG + lH)%nat with D. rewrite rep_split. cbn [nth Nat.add].
    rewrite (gsum_n_ext lG _ (fun _ => 0 * 0)), (gsum_n_ext lH _ (fun _ => 0 * 0)), !gsum_n_scale, !g1_mul_zero.
    - gnorm; ring.
    - intros i _. destruct (lG + i)%nat; ring.
    - intros i _. destruct i; ring. }
  unfold compare_witnesses.
  eapply good_bind; [apply (good_same B lG lH HB _ _ _ M1 M1')|]. intros t1 E1. cbv beta in E1.
  eapply good_bind; [apply (good_same B lG lH HB _ _ _ M2 M2')|]. intros t2 E2. cbv beta in E2.
  eapply good_bind.
  { apply (good_echeck B _ _ (fun j => nth j (wit_v w) 0 = nth j (wit_v w') 0 /\ nth j (wit_blinding w) 0 = nth j (wit_blinding w') 0)).
    intros j Hj. apply in_seq in Hj. eapply good_weaken.
    - apply (good_same B lG lH HB _ _ (nth j V g1_id)); [rewrite Wv by lia|rewrite Wv' by lia]; apply Hrep.
    - intros t3 E3. cbv beta in E3. split; [apply (E3 0%nat)|apply (E3 1%nat)]; lia. }
  intros t3 E3. cbv beta in E3. cbn [RepProofs.good]. split.
  - intros j Hj. apply E3. apply in_seq. lia.
  - intros i Hi1 Hi Hi'. destruct (Wi i Hi1 Hi) as (-> & -> & ->). destruct (Wi' i Hi1 Hi') as (-> & -> & ->).
    fold lG. rewrite !E1, E2 by (unfold D; lia). auto.
Qed.
End Main.
End R1CSExtract.
