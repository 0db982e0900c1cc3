(** The tree of conversations of an honest prover (TreeCheck.v) is well formed and
    accepted, for every circuit and every satisfying assignment. *)
From Coq Require Import ZArith List Lia Bool Ring Field.
From Verif.Base Require Import Outcome Fp Params Algebra.
From Verif.Model Require Import LinComb IPP Prover.
From Verif.Spec Require Import R1CS Protocol IPPSpec R1CSTree.
From Verif.Proofs Require Import FlattenProofs IPPProofs IPPMore VerifyProofs ProveProofs TreeCheck.
Import ListNotations.

Section HonestTree.
Context {P : Params} {OK : ParamsOk P}.
Local Open Scope fe_scope.
Add Field FFhon : (Fp_field_theory modulus modulus_prime).

(** *** The inner-product argument *)
Lemma honest_ipp_wf k : forall Q G H a b u1 u2 u3 u4,
  u1 <> 0 -> u2 <> 0 -> u3 <> 0 -> u4 <> 0 -> NoDup [u1 * u1; u2 * u2; u3 * u3; u4 * u4] ->
  tree_wf k (honest_ipp k Q G H a b u1 u2 u3 u4).
Proof.
  induction k as [|k IH]; intros Q G H a b u1 u2 u3 u4 N1 N2 N3 N4 ND; cbn [honest_ipp tree_wf]; [exact I|].
  repeat split; auto.
Qed.

Lemma honest_round k Q G H a b u : u <> 0 ->
  length a = (2 ^ S k)%nat -> length b = (2 ^ S k)%nat -> length G = (2 ^ S k)%nat -> length H = (2 ^ S k)%nat ->
  let m := (2 ^ k)%nat in
  let a1 := firstn m a in let a2 := skipn m a in let b1 := firstn m b in let b2 := skipn m b in
  let L := g1_add (g1_add (msm a1 (skipn m G)) (msm b2 (firstn m H))) (g1_mul (ip a1 b2) Q) in
  let R := g1_add (g1_add (msm a2 (firstn m G)) (msm b1 (skipn m H))) (g1_mul (ip a2 b1) Q) in
  let a' := vadd (vscale u a1) (vscale (finv u) a2) in
  let b' := vadd (vscale (finv u) b1) (vscale u b2) in
  g1_add (g1_add (g1_mul (u * u) L) (g1_add (g1_add (msm a G) (msm b H)) (g1_mul (ip a b) Q)))
    (g1_mul (finv u * finv u) R) =
  g1_add (g1_add (msm a' (fold_halves (finv u) u G)) (msm b' (fold_halves u (finv u) H))) (g1_mul (ip a' b') Q).
Proof.
  intros Hu Ha Hb HG HH. cbv zeta. unfold fold_halves.
  rewrite (div2_pow2_len G k HG), (div2_pow2_len H k HH).
  set (m := (2 ^ k)%nat) in *. rewrite pow2_S in *. fold m in Ha, Hb, HG, HH.
  destruct (firstn_skipn_len a m Ha) as [HaL HaR].
  destruct (firstn_skipn_len b m Hb) as [HbL HbR].
  destruct (firstn_skipn_len G m HG) as [HGL HGR].
  destruct (firstn_skipn_len H m HH) as [HHL HHR].
  rewrite (msm_firstn_skipn a G m), (msm_firstn_skipn b H m), (ip_firstn_skipn a b m).
  set (aL := firstn m a) in *. set (aR := skipn m a) in *.
  set (bL := firstn m b) in *. set (bR := skipn m b) in *.
  set (GL := firstn m G) in *. set (GR := skipn m G) in *.
  set (HL := firstn m H) in *. set (HR := skipn m H) in *.
  change (zipw (fun a b => g1_add (g1_mul (finv u) a) (g1_mul u b)) GL GR) with (fold_points (finv u) u GL GR).
  change (zipw (fun a b => g1_add (g1_mul u a) (g1_mul (finv u) b)) HL HR) with (fold_points u (finv u) HL HR).
  rewrite <- !fold_scalars_vadd.
  rewrite !msm_fold_points, !msm_fold_scalars, ip_fold_scalars, !ip_fold_scalars_r by lia.
  gnorm; field; assumption.
Qed.

Lemma honest_ipp_accepts k : forall Q G H a b u1 u2 u3 u4,
  u1 <> 0 -> u2 <> 0 -> u3 <> 0 -> u4 <> 0 ->
  length a = (2 ^ k)%nat -> length b = (2 ^ k)%nat -> length G = (2 ^ k)%nat -> length H = (2 ^ k)%nat ->
  tree_accepts Q (g1_add (g1_add (msm a G) (msm b H)) (g1_mul (ip a b) Q)) G H (honest_ipp k Q G H a b u1 u2 u3 u4).
Proof.
  induction k as [|k IH]; intros Q G H a b u1 u2 u3 u4 N1 N2 N3 N4 Ha Hb HG HH us Ls Rs fa fb Hbr.
  - cbn [honest_ipp] in Hbr. inversion Hbr; subst.
    destruct a as [|a0 [|? ?]]; simpl in Ha; try lia.
    destruct b as [|b0 [|? ?]]; simpl in Hb; try lia.
    destruct G as [|G0 [|? ?]]; simpl in HG; try lia.
    destruct H as [|H0 [|? ?]]; simpl in HH; try lia.
    simpl. gnorm; ring.
  - cbn [honest_ipp] in Hbr. rewrite (div2_pow2_len a k Ha) in Hbr.
    assert (Hnext : forall u, u <> 0 -> length (vadd (vscale u (firstn (2 ^ k) a)) (vscale (finv u) (skipn (2 ^ k) a))) = (2 ^ k)%nat /\
      length (vadd (vscale (finv u) (firstn (2 ^ k) b)) (vscale u (skipn (2 ^ k) b))) = (2 ^ k)%nat).
    { intros u _. rewrite !vadd_length, !vscale_length, !firstn_length, !skipn_length, Ha, Hb, pow2_S. lia. }
    inversion Hbr; subst; cbn [conversation];
      (rewrite (honest_round k) by assumption; apply IH with (u1 := u1) (u2 := u2) (u3 := u3) (u4 := u4);
       [assumption..| | | | |eassumption]; try apply fold_halves_length; try assumption; apply Hnext; assumption).
Qed.

(** *** The whole protocol *)
Lemma msm_tab_any N (f : nat -> F) G : (N <= length G)%nat -> msm (map f (seq 0 N)) G = gsum_n N f G.
Proof.
  intros E. rewrite gsum_n_firstn by assumption. change (map f (seq 0 N)) with (tab N f).
  rewrite (msm_firstn_skipn (tab N f) G N). rewrite firstn_all2 by (rewrite tab_length; lia).
  rewrite skipn_all2 by (rewrite tab_length; lia). cbn [msm]. apply g1_id_r.
Qed.

Section Honest.
Context (g h : G1) (G H : list G1) (n1 n k : nat) (cs : list lc) (v gam aL aR aO sL sR : list F).
Context (bl tau : list F) (c1 c2 c3 c4 : F).
Let N := (2 ^ k)%nat.
Hypothesis HN : next_power_of_two n = (2 ^ k)%nat.
Hypothesis HG : (2 ^ k <= length G)%nat.
Hypothesis HH : (2 ^ k <= length H)%nat.
Hypothesis Hgam : length gam = length v.
Hypothesis HaL : length aL = n.
Hypothesis HaR : length aR = n.
Hypothesis HaO : length aO = n.
Hypothesis Hr : Forall (lc_in_range n (length v)) cs.
Hypothesis Hsat : satisfies (assignment_of v aL aR aO) n cs.
Hypothesis Htau : nth 0 tau 0 = 0.
Hypothesis Hc1 : c1 <> 0.
Hypothesis Hc2 : c2 <> 0.
Hypothesis Hc3 : c3 <> 0.
Hypothesis Hc4 : c4 <> 0.

Let V := honest_V g h v gam.
Let first := honest_first h G H n1 k aL aR aO sL sR bl.
Let tree := honest_tree g h G H n1 n k cs v gam aL aR aO sL sR bl tau (c1, c2, c3, c4).
Let ht := honest_t n k cs aL aR aO sL sR.

Lemma n_le_N : (n <= N)%nat.
Proof. unfold N. rewrite <- HN. apply next_power_of_two_ge. Qed.

Lemma over (l : list F) i : length l = n -> (n <= i)%nat -> nth i l 0 = 0.
Proof. intros E Hi. apply nth_overflow. lia. Qed.

Lemma honest_t2 y z : y <> 0 ->
  ht y z 2 = delta n cs y z - weight cs z VOne
    - sum_n (length v) (fun j => weight cs z (VCommitted j) * nth j v 0).
Proof.
  intros Hy. pose proof n_le_N as Hle.
  pose proof (flatten_zsum (assignment_of v aL aR aO) n (length v) cs z Hr) as Ez.
  destruct Hsat as [Hg Hc]. rewrite zsum_satisfied in Ez by exact Hc.
  unfold ht, honest_t. cbn [nth].
  transitivity (sum_n n (fun i => (nth i aL 0 + fpow (finv y) i * weight cs z (VRight i)) * (fpow y i * nth i aR 0 + weight cs z (VLeft i))) +
                sum_n n (fun i => nth i aO 0 * (weight cs z (VOut i) - fpow y i))).
  { rewrite <- sum_n_add. rewrite (sum_n_padded n (2 ^ k)); [|exact Hle|].
    - apply sum_n_ext. intros i Hi. unfold padded. apply Nat.ltb_lt in Hi. rewrite Hi. reflexivity.
    - intros i Hi. unfold padded. destruct (Nat.ltb_spec i n); [lia|]. rewrite !over by (assumption || lia). ring. }
  rewrite (gate_sum n y (fun i => nth i aL 0) (fun i => nth i aR 0) (fun i => nth i aO 0)
    (fun i => weight cs z (VLeft i)) (fun i => weight cs z (VRight i)) (fun i => weight cs z (VOut i))) by
    (assumption || (intros i Hi; exact (Hg i Hi))).
  fold (delta n cs y z). unfold assignment_of in Ez. cbn [as_left as_right as_out as_committed] in Ez.
  unfold sum_n in *.
  match type of Ez with ?X + ?Y = _ => assert (Eo : Y = - X) by
    (transitivity (X + Y - X); [ring|rewrite Ez; ring]) end.
  rewrite Eo. ring.
Qed.

Lemma honest_tx y z x : sum_n 7 (fun e => fpow x e * ht y z e) =
  x * ht y z 1 + fpow x 2 * ht y z 2 + fpow x 3 * ht y z 3 + fpow x 4 * ht y z 4 + fpow x 5 * ht y z 5 + fpow x 6 * ht y z 6.
Proof.
  assert (E : ht y z 0 = 0). { unfold ht, honest_t. cbn [nth]. apply sum_n_zero. reflexivity. }
  unfold sum_n. cbn [seq map fsum fold_right]. rewrite E. cbn [fpow]. ring.
Qed.

Lemma honest_lr y z x : sum_n 7 (fun e => fpow x e * ht y z e) =
  ip (map (fun i => x * (nth i aL 0 + fpow (finv y) i * padded n (fun i => weight cs z (VRight i)) i) + fpow x 2 * nth i aO 0 + fpow x 3 * nth i sL 0) (seq 0 N))
     (map (fun i => (padded n (fun i => weight cs z (VOut i)) i - fpow y i) + x * (fpow y i * nth i aR 0 + padded n (fun i => weight cs z (VLeft i)) i)
        + fpow x 3 * (fpow y i * nth i sR 0)) (seq 0 N)).
Proof.
  rewrite honest_tx. unfold ht, honest_t. cbn [nth]. fold N. rewrite ip_map.
  fold (sum_n N (fun i => (x * (nth i aL 0 + fpow (finv y) i * padded n (fun i => weight cs z (VRight i)) i) + fpow x 2 * nth i aO 0 + fpow x 3 * nth i sL 0) *
     ((padded n (fun i => weight cs z (VOut i)) i - fpow y i) + x * (fpow y i * nth i aR 0 + padded n (fun i => weight cs z (VLeft i)) i)
        + fpow x 3 * (fpow y i * nth i sR 0)))).
  rewrite <- !sum_n_scale, <- !sum_n_add. apply sum_n_ext. intros i Hi.
  rewrite fpow_2, fpow_3, fpow_4, fpow_5, fpow_6. ring.
Qed.

Lemma phases (l : list F) X u : (N <= length X)%nat ->
  g1_add (msm (map (fun i => if Nat.ltb i n1 then nth i l 0 else 0) (seq 0 N)) X)
    (g1_mul u (msm (map (fun i => if Nat.ltb i n1 then 0 else nth i l 0) (seq 0 N)) X)) =
  gsum_n N (fun i => phase_factor n1 u i * nth i l 0) X.
Proof.
  intros E. rewrite !msm_tab_any by assumption. rewrite <- gsum_n_scale, <- gsum_n_add. apply gsum_n_ext.
  intros i _. unfold phase_factor. destruct (Nat.ltb i n1); ring.
Qed.

Lemma msm_map_scaled (f c : nat -> F) X :
  msm (map f (seq 0 N)) (map (fun i => g1_mul (c i) (nth i X g1_id)) (seq 0 N)) = gsum_n N (fun i => c i * f i) X.
Proof. rewrite msm_map. apply gsum_map_ext. intros i _. gnorm; ring. Qed.

Lemma honest_V_length : length V = length v.
Proof. unfold V, honest_V. rewrite zipw_length. lia. Qed.

Lemma honest_V_sum (w : nat -> F) : gsum_n (length V) w V =
  g1_add (g1_mul (sum_n (length v) (fun j => w j * nth j v 0)) g) (g1_mul (sum_n (length v) (fun j => w j * nth j gam 0)) h).
Proof.
  rewrite honest_V_length. rewrite gsum_n_firstn by (rewrite honest_V_length; lia).
  rewrite firstn_all2 by (rewrite honest_V_length; lia).
  unfold V, honest_V. change (fun x b : F => g1_add (g1_mul x g) (g1_mul b h)) with (commit g h).
  rewrite msm_commits by (rewrite ?tab_length; auto).
  rewrite (ip_sum_nth _ v (length v)) by (rewrite ?tab_length; reflexivity).
  rewrite (ip_sum_nth _ gam (length v)) by (rewrite ?tab_length; auto).
  f_equal; f_equal; apply sum_n_ext; intros j Hj; rewrite tab_nth by assumption; reflexivity.
Qed.

(** what the prover commits to in the inner-product argument *)
Definition honest_l (y z x : F) : list F :=
  map (fun i => x * (nth i aL 0 + fpow (finv y) i * padded n (fun i => weight cs z (VRight i)) i) + fpow x 2 * nth i aO 0 + fpow x 3 * nth i sL 0) (seq 0 N).
Definition honest_r (y z x : F) : list F :=
  map (fun i => (padded n (fun i => weight cs z (VOut i)) i - fpow y i) + x * (fpow y i * nth i aR 0 + padded n (fun i => weight cs z (VLeft i)) i)
        + fpow x 3 * (fpow y i * nth i sR 0)) (seq 0 N).
Definition scaled_G (u : F) : list G1 := map (fun i => g1_mul (phase_factor n1 u i) (nth i G g1_id)) (seq 0 N).
Definition scaled_H (y u : F) : list G1 := map (fun i => g1_mul (fpow (finv y) i * phase_factor n1 u i) (nth i H g1_id)) (seq 0 N).
Definition honest_proof (y z u x : F) (Ls Rs : list G1) (a b : F) : r1cs_proof :=
  branch_proof first (honest_z g h G H n1 n k cs v gam aL aR aO sL sR bl tau (c1, c2, c3, c4) y z [] [] 0 0)
    (honest_x g G H n1 n k cs v gam aL aR aO sL sR bl tau (c1, c2, c3, c4) y z u x 0 0) Ls Rs a b.

Lemma honest_equations y z u x w Ls Rs a b : y <> 0 ->
  let pf := honest_proof y z u x Ls Rs a b in
  t_equation pf g h V n cs y z x /\
  ipp_point pf g h G H n1 n N cs y z u x w =
    g1_add (g1_add (msm (honest_l y z x) (scaled_G u)) (msm (honest_r y z x) (scaled_H y u)))
      (g1_mul (ip (honest_l y z x) (honest_r y z x)) (g1_mul w g)).
Proof.
  intros Hys. unfold honest_proof, branch_proof, honest_z, honest_x.
  cbn [z_T1 z_T3 z_T4 z_T5 z_T6 x_tx x_txb x_eb]. cbv zeta.
  split.
  - unfold t_equation. cbn [t_x t_x_blinding T_1 T_3 T_4 T_5 T_6].
    rewrite honest_V_sum.
    change (sum_n 7 (fun e => fpow x e * honest_t n k cs aL aR aO sL sR y z e)) with (sum_n 7 (fun e => fpow x e * ht y z e)).
    rewrite honest_tx, honest_t2 by assumption.
    fold (ht y z 1) (ht y z 3) (ht y z 4) (ht y z 5) (ht y z 6).
    set (Sg := sum_n (length v) (fun j => - weight cs z (VCommitted j) * nth j gam 0)).
    assert (Ev : sum_n (length v) (fun j => - weight cs z (VCommitted j) * nth j v 0) =
      - sum_n (length v) (fun j => weight cs z (VCommitted j) * nth j v 0)).
    { transitivity (fopp 1 * sum_n (length v) (fun j => weight cs z (VCommitted j) * nth j v 0)); [|ring].
      rewrite <- sum_n_scale. apply sum_n_ext. intros. ring. }
    rewrite Ev. unfold sum_n at 2. cbn [seq map fsum fold_right Nat.eqb].
    generalize (ht y z 1) (ht y z 3) (ht y z 4) (ht y z 5) (ht y z 6). intros.
    generalize (sum_n (length v) (fun j => weight cs z (VCommitted j) * nth j v 0)). intros.
    rewrite Htau. cbn [fpow]. unfold ht. gnorm; ring.
  - symmetry. unfold honest_l, honest_r. rewrite <- honest_lr. fold (honest_l y z x) (honest_r y z x).
    change (sum_n 7 (fun e => fpow x e * honest_t n k cs aL aR aO sL sR y z e)) with (sum_n 7 (fun e => fpow x e * ht y z e)).
    unfold ipp_point. cbn [A_I1 A_O1 S1 A_I2 A_O2 S2 T_1 T_3 T_4 T_5 T_6 t_x t_x_blinding e_blinding].
    set (tx := sum_n 7 _).
    unfold honest_l, honest_r, scaled_G, scaled_H. rewrite !msm_map_scaled.
    set (wL := padded n (fun i => weight cs z (VLeft i))). set (wR := padded n (fun i => weight cs z (VRight i))).
    set (wO := padded n (fun i => weight cs z (VOut i))).
    assert (HGs : gsum_n N (fun i => phase_factor n1 u i *
         (x * (nth i aL 0 + fpow (finv y) i * wR i) + fpow x 2 * nth i aO 0 + fpow x 3 * nth i sL 0)) G =
      g1_add (gsum_n N (fun i => phase_factor n1 u i * (x * (fpow (finv y) i * wR i))) G)
      (g1_add (g1_mul x (gsum_n N (fun i => phase_factor n1 u i * nth i aL 0) G))
      (g1_add (g1_mul (fpow x 2) (gsum_n N (fun i => phase_factor n1 u i * nth i aO 0) G))
              (g1_mul (fpow x 3) (gsum_n N (fun i => phase_factor n1 u i * nth i sL 0) G))))).
    { rewrite <- !gsum_n_scale, <- !gsum_n_add. apply gsum_n_ext. intros i Hi. ring. }
    assert (HHs : gsum_n N (fun i => fpow (finv y) i * phase_factor n1 u i *
         (wO i - fpow y i + x * (fpow y i * nth i aR 0 + wL i) + fpow x 3 * (fpow y i * nth i sR 0))) H =
      g1_add (gsum_n N (fun i => phase_factor n1 u i * (fpow (finv y) i * (x * wL i + wO i) - 1)) H)
      (g1_add (g1_mul x (gsum_n N (fun i => phase_factor n1 u i * nth i aR 0) H))
              (g1_mul (fpow x 3) (gsum_n N (fun i => phase_factor n1 u i * nth i sR 0) H)))).
    { rewrite <- !gsum_n_scale, <- !gsum_n_add. apply gsum_n_ext. intros i Hi.
      pose proof (fpow_inv y i Hys) as E. set (a0 := fpow y i) in *. set (b0 := fpow (finv y) i) in *.
      match goal with |- ?A = _ => replace A with
        (phase_factor n1 u i * (b0 * (x * wL i + wO i) + (a0 * b0) * (x * nth i aR 0 + fpow x 3 * nth i sR 0 - 1))) by ring end.
      rewrite E. ring. }
    rewrite HGs, HHs.
    unfold first, honest_first. cbn [f_AI1 f_AO1 f_S1 f_AI2 f_AO2 f_S2]. fold N.
    rewrite <- !phases by assumption. change (msm [] H) with g1_id. gnorm; ring.
Qed.

Theorem honest_tree_accepted ys zs us xs w1 w2 :
  Forall (fun y => y <> 0) ys ->
  proof_tree_accepted g h G H V n1 n cs first (tree ys zs us xs w1 w2).
Proof.
  intros Hys yn zn un xn w it us' Ls Rs a b Hy Hz Hu Hx Hw Hb.
  unfold tree, honest_tree in Hy. apply in_map_iff in Hy as (y & <- & Hy).
  rewrite Forall_forall in Hys. specialize (Hys y Hy).
  cbn [y_zs y_chal] in *. apply in_map_iff in Hz as (z & <- & Hz).
  unfold honest_z in Hu |- *. cbn [z_us z_chal z_T1 z_T3 z_T4 z_T5 z_T6] in Hu |- *. apply in_map_iff in Hu as (u & <- & Hu).
  cbn [u_chal u_xs] in *. apply in_map_iff in Hx as (x & <- & Hx).
  destruct (honest_equations y z u x w Ls Rs a b Hys) as [Et Ep].
  split; [exact Et|]. cbv zeta.
  assert (Hit : it = honest_ipp k (g1_mul w g) (scaled_G u) (scaled_H y u) (honest_l y z x) (honest_r y z x) c1 c2 c3 c4).
  { unfold honest_x in Hw. cbn [x_w1 x_ipp1 x_w2 x_ipp2] in Hw.
    destruct Hw as [E|[E|[]]]; injection E as <- <-; reflexivity. }
  clear Hw. subst it. rewrite HN.
  match goal with |- conversation _ ?pt _ _ _ _ _ _ _ =>
    change pt with (ipp_point (honest_proof y z u x Ls Rs a b) g h G H n1 n N cs y z u x w) end.
  rewrite Ep.
  apply (honest_ipp_accepts k _ (scaled_G u) (scaled_H y u) _ _ c1 c2 c3 c4 Hc1 Hc2 Hc3 Hc4); try exact Hb;
    unfold honest_l, honest_r, scaled_G, scaled_H; rewrite map_length, seq_length; reflexivity.
Qed.

Theorem honest_tree_wf ys zs us xs w1 w2 :
  NoDup [c1 * c1; c2 * c2; c3 * c3; c4 * c4] ->
  length ys = (2 ^ k)%nat -> NoDup ys -> Forall (fun y => y <> 0) ys ->
  length zs = S (length cs) -> NoDup zs -> length us = 5%nat -> NoDup us -> Forall (fun u => u <> 0) us ->
  length xs = 7%nat -> NoDup xs -> w1 <> 0 -> w2 <> 0 -> w1 <> w2 ->
  proof_tree_wf k (length cs) (tree ys zs us xs w1 w2).
Proof.
  intros Hcs Ly Dy Ny Lz Dz Lu Du Nu Lx Dx N1 N2 N12. unfold tree, honest_tree.
  assert (Hid : forall (A : Type) (f : F -> A) (c : A -> F) l, (forall a, c (f a) = a) -> map c (map f l) = l).
  { intros A f c l E. rewrite map_map. rewrite (map_ext _ (fun a => a)) by exact E. apply map_id. }
  split; [rewrite map_length; exact Ly|]. split; [rewrite (Hid _ _ _ ys); auto|].
  apply Forall_forall. intros yn Hy. apply in_map_iff in Hy as (y & <- & Hy).
  rewrite Forall_forall in Ny. unfold y_node_wf. cbn [y_chal y_zs].
  split; [auto|]. split; [rewrite map_length; exact Lz|]. split; [rewrite (Hid _ _ _ zs); auto|].
  apply Forall_forall. intros zn Hz. apply in_map_iff in Hz as (z & <- & Hz).
  unfold z_node_wf, honest_z. cbn [z_us]. split; [rewrite map_length; exact Lu|].
  split; [rewrite (Hid _ _ _ us); auto|].
  apply Forall_forall. intros un Hu. apply in_map_iff in Hu as (u & <- & Hu).
  rewrite Forall_forall in Nu. unfold u_node_wf. cbn [u_chal u_xs].
  split; [auto|]. split; [rewrite map_length; exact Lx|]. split; [rewrite (Hid _ _ _ xs); auto|].
  apply Forall_forall. intros xn Hx. apply in_map_iff in Hx as (x & <- & Hx).
  unfold x_node_wf, honest_x. cbn [x_w1 x_w2 x_ipp1 x_ipp2].
  repeat split; auto using honest_ipp_wf.
Qed.
End Honest.

Theorem honest_trees_exist g h G H n1 n k cs v gam aL aR aO ys zs us xs w1 w2 c1 c2 c3 c4 :
  let N := next_power_of_two n in
  let nz := Forall (fun c : F => c <> 0) in
  N = (2 ^ k)%nat -> (N <= length G)%nat -> (N <= length H)%nat -> length gam = length v ->
  length aL = n -> length aR = n -> length aO = n ->
  Forall (lc_in_range n (length v)) cs -> satisfies (assignment_of v aL aR aO) n cs ->
  length ys = N -> NoDup ys -> nz ys -> length zs = S (length cs) -> NoDup zs ->
  length us = 5%nat -> NoDup us -> nz us -> length xs = 7%nat -> NoDup xs ->
  nz [w1; w2; c1; c2; c3; c4] -> w1 <> w2 -> NoDup [c1 * c1; c2 * c2; c3 * c3; c4 * c4] ->
  exists f t, proof_tree_wf k (length cs) t /\
    proof_tree_accepted g h G H (zipw (fun x b => g1_add (g1_mul x g) (g1_mul b h)) v gam) n1 n cs f t /\
    forall yn, In yn t -> In (y_chal yn) ys /\ forall zn, In zn (y_zs yn) -> In (z_chal zn) zs /\
      forall un, In un (z_us zn) -> In (u_chal un) us /\ forall xn, In xn (u_xs un) -> In (x_chal xn) xs.
Proof.
  intros N nz HN HG HH Hgam HaL HaR HaO Hr Hsat Ly Dy Ny Lz Dz Lu Du Nu Lx Dx Nw N12 Dc.
  unfold nz in *. rewrite HN in *.
  assert (Hc : forall c, In c [w1; w2; c1; c2; c3; c4] -> c <> 0) by (apply Forall_forall; exact Nw).
  exists (honest_first h G H n1 k aL aR aO [] [] []).
  exists (honest_tree g h G H n1 n k cs v gam aL aR aO [] [] [] [] (c1, c2, c3, c4) ys zs us xs w1 w2).
  split; [|split].
  - apply honest_tree_wf; try assumption; apply Hc; cbn [In]; tauto.
  - apply honest_tree_accepted; try assumption; try reflexivity; apply Hc; cbn [In]; tauto.
  - intros yn Hy. apply in_map_iff in Hy as (y & <- & Hy). split; [exact Hy|].
    intros zn Hz. apply in_map_iff in Hz as (z & <- & Hz). split; [exact Hz|].
    intros un Hu. apply in_map_iff in Hu as (u & <- & Hu). split; [exact Hu|].
    intros xn Hx. apply in_map_iff in Hx as (x & <- & Hx). exact Hx.
Qed.
End HonestTree.
