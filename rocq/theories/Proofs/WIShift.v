(** Moving a proof from one witness to another by changing the random values. *)
From Coq Require Import ZArith String List Lia Bool Ring Field.
From Verif.Base Require Import Outcome Fp Params Algebra.
From Verif.Model Require Import Transcript LinComb Prog VectorPoly IPP Prover Verifier.
From Verif.Spec Require Import R1CS Sim Protocol Session.
From Verif.Proofs Require Import LinCombProofs RunProofs ExtProofs FlattenProofs IPPProofs VerifyProofs ProveProofs WICore.
Import ListNotations.

Section WIShift.
Context {P : Params} {OK : ParamsOk P}.
Local Open Scope fe_scope.
Add Field FFwis : (Fp_field_theory modulus modulus_prime).

Section Shift.
Context (h : G1) (gam : F) (Gs Hs : list F) (n1 n : nat) (t0 : transcript) (wf wf' : F -> var -> F).
Let N := next_power_of_two n.
Definition pts (l : list F) : list G1 := map (fun a => g1_mul a h) l.
Context (Hn : (n1 <= n)%nat) (HG : (n <= length Gs)%nat) (HH : (n <= length Hs)%nat).
Context (Hwf : forall z v, wf' z v = wf z v).

Lemma msm_pts a gs : msm a (pts gs) = g1_mul (ip a gs) h.
Proof.
  revert gs. induction a as [|x a IH]; intros [|y gs]; cbn [msm ip pts map]; try (symmetry; apply g1_mul_zero).
  fold (pts gs). rewrite IH. gnorm; ring.
Qed.

(** sums over the gates of the two phases *)
Definition lo (a gs : list F) : F := sum_n n1 (fun i => nth i a 0 * nth i gs 0).
Definition hi (a gs : list F) : F := sum_n (n - n1) (fun i => nth (n1 + i) a 0 * nth (n1 + i) gs 0).

Lemma nth_firstn_low {A} (l : list A) k i d : (i < k)%nat -> nth i (firstn k l) d = nth i l d.
Proof. revert k i. induction l as [|a l IH]; intros [|k] [|i] Hi; try reflexivity; try lia. cbn. apply IH. lia. Qed.
Lemma nth_skipn_at {A} (l : list A) k i d : nth i (skipn k l) d = nth (k + i) l d.
Proof. revert l. induction k as [|k IH]; intros l; [reflexivity|]. destruct l; [destruct i; reflexivity|]. cbn. apply IH. Qed.

Lemma ip_lo a gs : length a = n -> (n <= length gs)%nat -> ip (firstn n1 a) (firstn n1 gs) = lo a gs.
Proof.
  intros La Lg. rewrite (ip_sum_nth _ _ n1) by (rewrite firstn_length; lia).
  apply sum_n_ext. intros i Hi. rewrite !nth_firstn_low by exact Hi. reflexivity.
Qed.
Lemma ip_hi a gs : length a = n -> (n <= length gs)%nat -> ip (skipn n1 a) (firstn (n - n1) (skipn n1 gs)) = hi a gs.
Proof.
  intros La Lg. rewrite (ip_sum_nth _ _ (n - n1)) by (rewrite ?firstn_length, ?skipn_length; lia).
  apply sum_n_ext. intros i Hi. rewrite nth_firstn_low by exact Hi. rewrite !nth_skipn_at. reflexivity.
Qed.

Lemma pts_firstn k l : firstn k (pts l) = pts (firstn k l).
Proof. apply firstn_map. Qed.
Lemma pts_skipn k l : skipn k (pts l) = pts (skipn k l).
Proof. apply skipn_map. Qed.

Lemma first_point_log a b r : length a = n -> length b = n ->
  first_point h (pts Gs) (pts Hs) n1 a b r = g1_mul (lo a Gs + lo b Hs + r) h.
Proof.
  intros La Lb. unfold first_point. rewrite !pts_firstn, !msm_pts, !ip_lo by assumption. gnorm; ring.
Qed.
Lemma first_point_o_log a r : length a = n -> first_point_o h (pts Gs) n1 a r = g1_mul (lo a Gs + r) h.
Proof. intros La. unfold first_point_o. rewrite !pts_firstn, !msm_pts, !ip_lo by assumption. gnorm; ring. Qed.
Lemma second_point_log a b r : length a = n -> length b = n ->
  second_point h (pts Gs) (pts Hs) n1 n a b r = g1_mul (hi a Gs + hi b Hs + r) h.
Proof.
  intros La Lb. unfold second_point. rewrite !pts_skipn, !pts_firstn, !msm_pts, !ip_hi by assumption. gnorm; ring.
Qed.
Lemma second_point_o_log a r : length a = n -> second_point_o h (pts Gs) n1 n a r = g1_mul (hi a Gs + r) h.
Proof. intros La. unfold second_point_o. rewrite !pts_skipn, !pts_firstn, !msm_pts, !ip_hi by assumption. gnorm; ring. Qed.

Record wit_sized (w : wit) : Prop := { ws_L : length (wit_aL w) = n; ws_R : length (wit_aR w) = n; ws_O : length (wit_aO w) = n }.
Record masks_sized (m : masks) : Prop := { ms_L : length (m_sL m) = n; ms_R : length (m_sR m) = n }.

Section Two.
Context (w w' : wit) (Hw : wit_sized w) (Hw' : wit_sized w') (y z x : F).
Let xi := finv x.

Definition shift_sL (sL : list F) : list F :=
  tab n (fun i => nth i sL 0 + (nth i (wit_aL w) 0 - nth i (wit_aL w') 0) * (xi * xi) + (nth i (wit_aO w) 0 - nth i (wit_aO w') 0) * xi).
Definition shift_sR (sR : list F) : list F :=
  tab n (fun i => nth i sR 0 + (nth i (wit_aR w) 0 - nth i (wit_aR w') 0) * (xi * xi)).

Definition shift_points (m : masks) : masks :=
  let sL := shift_sL (m_sL m) in
  let sR := shift_sR (m_sR m) in
  {| m_i1 := m_i1 m + (lo (wit_aL w) Gs + lo (wit_aR w) Hs - (lo (wit_aL w') Gs + lo (wit_aR w') Hs));
     m_o1 := m_o1 m + (lo (wit_aO w) Gs - lo (wit_aO w') Gs);
     m_b1 := m_b1 m + (lo (m_sL m) Gs + lo (m_sR m) Hs - (lo sL Gs + lo sR Hs));
     m_i2 := m_i2 m + (hi (wit_aL w) Gs + hi (wit_aR w) Hs - (hi (wit_aL w') Gs + hi (wit_aR w') Hs));
     m_o2 := m_o2 m + (hi (wit_aO w) Gs - hi (wit_aO w') Gs);
     m_b2 := m_b2 m + (hi (m_sL m) Gs + hi (m_sR m) Hs - (hi sL Gs + hi sR Hs));
     m_sL := sL; m_sR := sR;
     m_t1 := m_t1 m; m_t3 := m_t3 m; m_t4 := m_t4 m; m_t5 := m_t5 m; m_t6 := m_t6 m |}.

Definition shift (m : masks) : masks :=
  let m' := shift_points m in
  let p := c_poly n wf w m y z in
  let p' := c_poly n wf' w' m' y z in
  {| m_i1 := m_i1 m'; m_o1 := m_o1 m'; m_b1 := m_b1 m'; m_i2 := m_i2 m'; m_o2 := m_o2 m'; m_b2 := m_b2 m';
     m_sL := m_sL m'; m_sR := m_sR m';
     m_t1 := m_t1 m + (t1 p - t1 p') * gam;
     m_t3 := m_t3 m + (t3 p - t3 p') * gam;
     m_t4 := m_t4 m + (t4 p - t4 p') * gam;
     m_t5 := m_t5 m + (t5 p - t5 p') * gam;
     m_t6 := m_t6 m + (t6 p - t6 p') * gam |}.

Lemma shift_sized m : masks_sized (shift m).
Proof. constructor; cbn; unfold shift_sL, shift_sR; apply tab_length. Qed.

Lemma x_xi : x <> 0 -> x * xi = 1.
Proof. intros Hx. unfold xi. apply finv_r. exact Hx. Qed.

Lemma left_kept sL i : (i < n)%nat ->
  x * nth i (wit_aL w') 0 + x * x * nth i (wit_aO w') 0 + x * x * x * nth i (shift_sL sL) 0 =
  x * nth i (wit_aL w) 0 + x * x * nth i (wit_aO w) 0 + x * x * x * nth i sL 0.
Proof.
  intros Hi. unfold shift_sL. rewrite tab_nth by exact Hi. destruct (Fp_eq_dec _ x 0) as [E|Hx]; [rewrite E; ring|].
  set (a' := nth i (wit_aL w') 0). set (o' := nth i (wit_aO w') 0). set (a := nth i (wit_aL w) 0). set (o := nth i (wit_aO w) 0).
  transitivity (x * a' + x * x * o' + x * x * x * nth i sL 0 + x * (a - a') * (x * xi) * (x * xi) + x * x * (o - o') * (x * xi)); [ring|].
  rewrite x_xi by exact Hx. ring.
Qed.
Lemma right_kept sR i : (i < n)%nat ->
  x * nth i (wit_aR w') 0 + x * x * x * nth i (shift_sR sR) 0 = x * nth i (wit_aR w) 0 + x * x * x * nth i sR 0.
Proof.
  intros Hi. unfold shift_sR. rewrite tab_nth by exact Hi. destruct (Fp_eq_dec _ x 0) as [E|Hx]; [rewrite E; ring|].
  set (a' := nth i (wit_aR w') 0). set (a := nth i (wit_aR w) 0).
  transitivity (x * a' + x * x * x * nth i sR 0 + x * (a - a') * (x * xi) * (x * xi)); [ring|].
  rewrite x_xi by exact Hx. ring.
Qed.

Lemma sum_comb3 k (a b c d : nat -> F) c1 c2 c3 :
  c1 * sum_n k (fun i => a i * d i) + c2 * sum_n k (fun i => b i * d i) + c3 * sum_n k (fun i => c i * d i) =
  sum_n k (fun i => (c1 * a i + c2 * b i + c3 * c i) * d i).
Proof. rewrite <- !sum_n_scale, <- !sum_n_add. apply sum_n_ext. intros. ring. Qed.
Lemma sum_comb2 k (a c d : nat -> F) c1 c3 :
  c1 * sum_n k (fun i => a i * d i) + c3 * sum_n k (fun i => c i * d i) =
  sum_n k (fun i => (c1 * a i + c3 * c i) * d i).
Proof. rewrite <- !sum_n_scale, <- !sum_n_add. apply sum_n_ext. intros. ring. Qed.

Lemma lo_kept_L sL : x * lo (wit_aL w') Gs + x * x * lo (wit_aO w') Gs + x * x * x * lo (shift_sL sL) Gs =
  x * lo (wit_aL w) Gs + x * x * lo (wit_aO w) Gs + x * x * x * lo sL Gs.
Proof. unfold lo. rewrite !sum_comb3. apply sum_n_ext. intros i Hi. rewrite left_kept by lia. reflexivity. Qed.
Lemma hi_kept_L sL : x * hi (wit_aL w') Gs + x * x * hi (wit_aO w') Gs + x * x * x * hi (shift_sL sL) Gs =
  x * hi (wit_aL w) Gs + x * x * hi (wit_aO w) Gs + x * x * x * hi sL Gs.
Proof. unfold hi. rewrite !sum_comb3. apply sum_n_ext. intros i Hi. rewrite left_kept by lia. reflexivity. Qed.
Lemma lo_kept_R sR : x * lo (wit_aR w') Hs + x * x * x * lo (shift_sR sR) Hs = x * lo (wit_aR w) Hs + x * x * x * lo sR Hs.
Proof. unfold lo. rewrite !sum_comb2. apply sum_n_ext. intros i Hi. rewrite right_kept by lia. reflexivity. Qed.
Lemma hi_kept_R sR : x * hi (wit_aR w') Hs + x * x * x * hi (shift_sR sR) Hs = x * hi (wit_aR w) Hs + x * x * x * hi sR Hs.
Proof. unfold hi. rewrite !sum_comb2. apply sum_n_ext. intros i Hi. rewrite right_kept by lia. reflexivity. Qed.

Lemma eb_kept m u : c_eb (shift m) y z u x = c_eb m y z u x.
Proof.
  unfold c_eb. cbn.
  pose proof (lo_kept_L (m_sL m)) as A1. pose proof (hi_kept_L (m_sL m)) as A2.
  pose proof (lo_kept_R (m_sR m)) as A3. pose proof (hi_kept_R (m_sR m)) as A4.
  set (a1 := lo (wit_aL w') Gs) in *. set (a2 := lo (wit_aO w') Gs) in *. set (a3 := lo (shift_sL (m_sL m)) Gs) in *.
  set (b1 := lo (wit_aL w) Gs) in *. set (b2 := lo (wit_aO w) Gs) in *. set (b3 := lo (m_sL m) Gs) in *.
  set (c1 := hi (wit_aL w') Gs) in *. set (c2 := hi (wit_aO w') Gs) in *. set (c3 := hi (shift_sL (m_sL m)) Gs) in *.
  set (d1 := hi (wit_aL w) Gs) in *. set (d2 := hi (wit_aO w) Gs) in *. set (d3 := hi (m_sL m) Gs) in *.
  set (e1 := lo (wit_aR w') Hs) in *. set (e3 := lo (shift_sR (m_sR m)) Hs) in *.
  set (f1 := lo (wit_aR w) Hs) in *. set (f3 := lo (m_sR m) Hs) in *.
  set (g1 := hi (wit_aR w') Hs) in *. set (g3 := hi (shift_sR (m_sR m)) Hs) in *.
  set (k1 := hi (wit_aR w) Hs) in *. set (k3 := hi (m_sR m) Hs) in *.
  apply F_sub_zero.
  transitivity ((x * b1 + x * x * b2 + x * x * x * b3) - (x * a1 + x * x * a2 + x * x * x * a3) +
    u * ((x * d1 + x * x * d2 + x * x * x * d3) - (x * c1 + x * x * c2 + x * x * x * c3)) +
    ((x * f1 + x * x * x * f3) - (x * e1 + x * x * x * e3)) +
    u * ((x * k1 + x * x * x * k3) - (x * g1 + x * x * x * g3))); [ring|].
  rewrite A1, A2, A3, A4. ring.
Qed.

Lemma lx_kept m u i : (i < n)%nat -> c_lx wf' w' (shift m) y z u x i = c_lx wf w m y z u x i.
Proof.
  intros Hi. unfold c_lx, c_l1. rewrite Hwf. cbn [shift m_sL shift_points].
  pose proof (left_kept (m_sL m) i Hi) as K.
  set (q := fpow (finv y) i * wf z (VRight i)).
  transitivity (x * q + (x * nth i (wit_aL w') 0 + x * x * nth i (wit_aO w') 0 + x * x * x * nth i (shift_sL (m_sL m)) 0)); [ring|].
  rewrite K. ring.
Qed.
Lemma rx_kept m u i : c_rx n wf' w' (shift m) y z u x i = c_rx n wf w m y z u x i.
Proof.
  unfold c_rx, c_r0, c_r1, c_r3. rewrite !Hwf. cbn [shift m_sR shift_points]. destruct (Nat.ltb_spec i n) as [Hi|Hi]; [|reflexivity].
  pose proof (right_kept (m_sR m) i Hi) as K.
  set (q := fpow y i). set (wo := wf z (VOut i)). set (wl := wf z (VLeft i)).
  transitivity (wo - q + x * wl + q * (x * nth i (wit_aR w') 0 + x * x * x * nth i (shift_sR (m_sR m)) 0)); [ring|].
  rewrite K. ring.
Qed.
Lemma tx_as_sum v ww m u : c_tx n v ww m y z u x = sum_n n (fun i => c_lx v ww m y z u x i * c_rx n v ww m y z u x i).
Proof.
  unfold c_tx, c_poly. rewrite <- poly_sum. apply sum_n_ext. intros i Hi. unfold c_lx, c_rx.
  destruct (Nat.ltb_spec i n); [reflexivity|lia].
Qed.
Lemma tx_kept m u : c_tx n wf' w' (shift m) y z u x = c_tx n wf w m y z u x.
Proof. rewrite !tx_as_sum. apply sum_n_ext. intros i Hi. rewrite lx_kept, rx_kept by exact Hi. reflexivity. Qed.

(** the second coefficient is fixed by the commitments *)
Definition second_coefficient_kept : Prop := forall m m',
  t2 (c_poly n wf w m y z) * gam + c_t2b wf w z = t2 (c_poly n wf' w' m' y z) * gam + c_t2b wf' w' z.

Lemma poly_shift m : c_poly n wf' w' (shift m) y z = c_poly n wf' w' (shift_points m) y z.
Proof. reflexivity. Qed.

Lemma commit_moved a b r : commit (g1_mul gam h) h b (r + (a - b) * gam) = commit (g1_mul gam h) h a r.
Proof. unfold commit. gnorm; ring. Qed.
Lemma TT_kept m : c_TT (g1_mul gam h) h n wf' w' (shift m) y z = c_TT (g1_mul gam h) h n wf w m y z.
Proof.
  unfold c_TT. rewrite !poly_shift. cbn [shift m_t1 m_t3 m_t4 m_t5 m_t6]. rewrite !commit_moved. reflexivity.
Qed.

Lemma txb_kept m u : second_coefficient_kept -> c_txb wf' w' (shift m) y z u x = c_txb wf w m y z u x.
Proof.
  intros Hk. pose proof (tx_kept m u) as Ht. specialize (Hk m (shift_points m)).
  unfold c_tx in Ht. rewrite poly_shift in Ht. unfold c_txb, poly6_eval in *. cbn [t1 t2 t3 t4 t5 t6] in *.
  cbn [shift m_t1 m_t3 m_t4 m_t5 m_t6].
  set (p := c_poly n wf w m y z) in *. set (p' := c_poly n wf' w' (shift_points m) y z) in *.
  apply F_sub_zero.
  transitivity (x * x * ((t2 p' * gam + c_t2b wf' w' z) - (t2 p * gam + c_t2b wf w z)) +
    gam * (x * (t1 p + x * (t2 p + x * (t3 p + x * (t4 p + x * (t5 p + x * t6 p))))) -
           x * (t1 p' + x * (t2 p' + x * (t3 p' + x * (t4 p' + x * (t5 p' + x * t6 p'))))))); [ring|].
  rewrite <- Hk, Ht. ring.
Qed.

Theorem core_shift m pf tp : masks_sized m ->
  core (g1_mul gam h) h (pts Gs) (pts Hs) n1 n wf t0 w m = Done (Ok (pf, tp)) ->
  c_y (protocol_challenges t0 pf) = y -> c_z (protocol_challenges t0 pf) = z -> c_x (protocol_challenges t0 pf) = x ->
  second_coefficient_kept ->
  core (g1_mul gam h) h (pts Gs) (pts Hs) n1 n wf' t0 w' (shift m) = Done (Ok (pf, tp)).
Proof.
  intros [Hm1 Hm2] E Ey Ez Ex Hk. destruct Hw as [H1 H2 H3]. destruct Hw' as [H1' H2' H3']. destruct (shift_sized m) as [Hs1 Hs2].
  unfold core in *.
  assert (R1 : first_point h (pts Gs) (pts Hs) n1 (wit_aL w') (wit_aR w') (m_i1 (shift m)) =
               first_point h (pts Gs) (pts Hs) n1 (wit_aL w) (wit_aR w) (m_i1 m))
    by (rewrite !first_point_log by assumption; cbn [shift shift_points m_i1]; f_equal; ring).
  assert (R2 : first_point_o h (pts Gs) n1 (wit_aO w') (m_o1 (shift m)) = first_point_o h (pts Gs) n1 (wit_aO w) (m_o1 m))
    by (rewrite !first_point_o_log by assumption; cbn [shift shift_points m_o1]; f_equal; ring).
  assert (R3 : first_point h (pts Gs) (pts Hs) n1 (m_sL (shift m)) (m_sR (shift m)) (m_b1 (shift m)) =
               first_point h (pts Gs) (pts Hs) n1 (m_sL m) (m_sR m) (m_b1 m))
    by (rewrite !first_point_log by assumption; cbn [shift shift_points m_b1 m_sL m_sR]; f_equal; ring).
  assert (R4 : second_point h (pts Gs) (pts Hs) n1 n (wit_aL w') (wit_aR w') (m_i2 (shift m)) =
               second_point h (pts Gs) (pts Hs) n1 n (wit_aL w) (wit_aR w) (m_i2 m))
    by (rewrite !second_point_log by assumption; cbn [shift shift_points m_i2]; f_equal; ring).
  assert (R5 : second_point_o h (pts Gs) n1 n (wit_aO w') (m_o2 (shift m)) = second_point_o h (pts Gs) n1 n (wit_aO w) (m_o2 m))
    by (rewrite !second_point_o_log by assumption; cbn [shift shift_points m_o2]; f_equal; ring).
  assert (R6 : second_point h (pts Gs) (pts Hs) n1 n (m_sL (shift m)) (m_sR (shift m)) (m_b2 (shift m)) =
               second_point h (pts Gs) (pts Hs) n1 n (m_sL m) (m_sR m) (m_b2 m))
    by (rewrite !second_point_log by assumption; cbn [shift shift_points m_b2 m_sL m_sR]; f_equal; ring).
  rewrite R1, R2, R3, R4, R5, R6.
  eapply finish_same; [exact E| | | | | |]; cbv zeta; rewrite ?Ey, ?Ez, ?Ex.
  - apply TT_kept.
  - apply tx_kept.
  - apply txb_kept. exact Hk.
  - apply eb_kept.
  - intros i Hi. apply lx_kept. exact Hi.
  - intros i Hi. apply rx_kept.
Qed.

Lemma add_cancel (a b c : F) : a + c = b + c -> a = b.
Proof. intros E. transitivity (a + c - c); [ring|]. rewrite E. ring. Qed.

Lemma masks_ext m1 m2 : m_i1 m1 = m_i1 m2 -> m_o1 m1 = m_o1 m2 -> m_b1 m1 = m_b1 m2 -> m_i2 m1 = m_i2 m2 -> m_o2 m1 = m_o2 m2 ->
  m_b2 m1 = m_b2 m2 -> m_sL m1 = m_sL m2 -> m_sR m1 = m_sR m2 -> m_t1 m1 = m_t1 m2 -> m_t3 m1 = m_t3 m2 -> m_t4 m1 = m_t4 m2 ->
  m_t5 m1 = m_t5 m2 -> m_t6 m1 = m_t6 m2 -> m1 = m2.
Proof. destruct m1, m2; cbn; intros; subst; reflexivity. Qed.

Theorem shift_injective m1 m2 : masks_sized m1 -> masks_sized m2 -> shift m1 = shift m2 -> m1 = m2.
Proof.
  intros [A1 A2] [B1 B2] E.
  assert (EL : m_sL m1 = m_sL m2).
  { apply (f_equal m_sL) in E. cbn in E. apply nth_ext with (d := 0) (d' := 0); [congruence|]. rewrite A1. intros i Hi.
    apply (f_equal (fun l => nth i l 0)) in E. unfold shift_sL in E. rewrite !tab_nth in E by exact Hi.
    apply add_cancel in E. apply add_cancel in E. exact E. }
  assert (ER : m_sR m1 = m_sR m2).
  { apply (f_equal m_sR) in E. cbn in E. apply nth_ext with (d := 0) (d' := 0); [congruence|]. rewrite A2. intros i Hi.
    apply (f_equal (fun l => nth i l 0)) in E. unfold shift_sR in E. rewrite !tab_nth in E by exact Hi.
    apply add_cancel in E. exact E. }
  assert (Ep : c_poly n wf w m1 y z = c_poly n wf w m2 y z) by (unfold c_poly, c_r3; rewrite EL, ER; reflexivity).
  assert (Ep' : c_poly n wf' w' (shift_points m1) y z = c_poly n wf' w' (shift_points m2) y z)
    by (unfold c_poly, c_r3; cbn [shift_points m_sL m_sR]; rewrite EL, ER; reflexivity).
  pose proof (f_equal m_i1 E) as E1. pose proof (f_equal m_o1 E) as E2. pose proof (f_equal m_b1 E) as E3.
  pose proof (f_equal m_i2 E) as E4. pose proof (f_equal m_o2 E) as E5. pose proof (f_equal m_b2 E) as E6.
  pose proof (f_equal m_t1 E) as E7. pose proof (f_equal m_t3 E) as E8. pose proof (f_equal m_t4 E) as E9.
  pose proof (f_equal m_t5 E) as E10. pose proof (f_equal m_t6 E) as E11. clear E.
  cbn [shift shift_points m_i1 m_o1 m_b1 m_i2 m_o2 m_b2 m_t1 m_t3 m_t4 m_t5 m_t6] in *.
  fold (shift_points m1) in *. fold (shift_points m2) in *.
  rewrite Ep, Ep' in *. clear Ep Ep'. rewrite EL, ER in *.
  apply masks_ext; try assumption; eapply add_cancel; eassumption.
Qed.
End Two.
End Shift.
End WIShift.
