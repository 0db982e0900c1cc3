(** Proofs about the inner-product argument (src/ipp.rs). *)
From Coq Require Import ZArith String List Lia Bool Ring Field Arith.
From Verif.Base Require Import Outcome Fp Params Algebra.
From Verif.Model Require Import Transcript IPP.
Import ListNotations.

Lemma log2_pow2_lt k i : 0 < i -> i < 2 ^ k -> Nat.log2 i < k.
Proof. intros H0 H. apply Nat.log2_lt_pow2; assumption. Qed.

Lemma is_power_of_two_pow k : is_power_of_two (2 ^ k) = true.
Proof.
  unfold is_power_of_two. rewrite Nat.log2_pow2 by lia. rewrite Nat.eqb_refl.
  pose proof (Nat.pow_nonzero 2 k). destruct (Nat.eqb_spec (2 ^ k) 0); [lia|reflexivity].
Qed.

Lemma is_power_of_two_true n : is_power_of_two n = true -> exists k, n = 2 ^ k.
Proof.
  unfold is_power_of_two. intros H. apply andb_true_iff in H. destruct H as [_ H].
  apply Nat.eqb_eq in H. exists (Nat.log2 n). symmetry. assumption.
Qed.

Lemma div2_pow k : Nat.div2 (2 ^ S k) = 2 ^ k.
Proof. simpl Nat.pow. rewrite Nat.add_0_r. replace (2 ^ k + 2 ^ k) with (2 * 2 ^ k) by lia. apply Nat.div2_double. Qed.

Lemma pow2_pos k : 0 < 2 ^ k.
Proof. pose proof (Nat.pow_nonzero 2 k). lia. Qed.

Lemma pow2_S k : 2 ^ S k = 2 ^ k + 2 ^ k.
Proof. simpl. lia. Qed.

Section IPPProofs.
Context {P : Params} {OK : ParamsOk P}.
Local Open Scope fe_scope.
Add Field FFipp : (Fp_field_theory modulus modulus_prime).

(** The vector of products of challenges and inverse challenges: entry [i] is
    the product over the rounds of [u_j] or [1/u_j] according to the bits of
    [i], the first challenge corresponding to the most significant bit. *)
Fixpoint svec (us : list F) : list F :=
  match us with
  | [] => [1]
  | u :: us' => vscale (finv u) (svec us') ++ vscale u (svec us')
  end.

Lemma svec_length us : length (svec us) = 2 ^ length us.
Proof.
  induction us; [reflexivity|].
  simpl svec. rewrite app_length, !vscale_length, IHus. simpl. lia.
Qed.

Lemma vscale_rev c l : rev (vscale c l) = vscale c (rev l).
Proof. unfold vscale. symmetry. apply map_rev. Qed.

Lemma vscale_app c a b : vscale c (a ++ b) = vscale c a ++ vscale c b.
Proof. apply map_app. Qed.

Lemma vscale_vscale c d l : vscale c (vscale d l) = vscale (c * d) l.
Proof. unfold vscale. rewrite map_map. apply map_ext. intros. ring. Qed.

Lemma vscale_1 l : vscale 1 l = l.
Proof. unfold vscale. rewrite <- map_id. apply map_ext. intros. ring. Qed.

Lemma finv_finv (u : F) : u <> 0 -> finv (finv u) = u.
Proof.
  intros H. transitivity (finv (finv u) * (finv u * u)).
  - rewrite (Algebra.finv_r_comm u H). ring.
  - rewrite (Rmul_assoc (Fp_ring_theory modulus)), Algebra.finv_r_comm by (apply finv_nonzero; assumption). ring.
Qed.

Lemma svec_rev us : Forall (fun u => u <> 0) us -> rev (svec us) = svec (map finv us).
Proof.
  induction 1 as [|u us Hu H IH]; [reflexivity|].
  simpl. rewrite rev_app_distr, !vscale_rev, IH.
  replace (finv (finv u)) with u; [reflexivity|].
  symmetry. apply finv_finv. assumption.
Qed.

Lemma nth_vscale c l i : nth i (vscale c l) 0 = c * nth i l 0.
Proof.
  unfold vscale. destruct (Nat.lt_ge_cases i (length l)).
  - rewrite (nth_indep _ 0 (c * 0)) by (rewrite map_length; assumption).
    rewrite (map_nth (fun x => c * x)). reflexivity.
  - rewrite !nth_overflow; [ring|assumption|rewrite map_length; assumption].
Qed.

Lemma finv_mul (a b : F) : finv (a * b) = finv a * finv b.
Proof.
  destruct (Fp_eq_dec _ a 0) as [->|Ha].
  { replace (0 * b) with (0:F) by ring. rewrite !finv_0. ring. }
  destruct (Fp_eq_dec _ b 0) as [->|Hb].
  { replace (a * 0) with (0:F) by ring. rewrite !finv_0. ring. }
  field. auto.
Qed.

Lemma finv_one : finv (1:F) = 1.
Proof. field. apply F_one_neq_zero. Qed.

Lemma finv_u_sq (u : F) : finv u * (u * u) = u.
Proof.
  destruct (Fp_eq_dec _ u 0) as [->|Hu]; [rewrite finv_0; ring|]. field. assumption.
Qed.

Lemma svec_0 us : nth 0 (svec us) 0 = finv (fprod us).
Proof.
  induction us as [|u us IH]; simpl; [rewrite finv_one; reflexivity|].
  rewrite app_nth1 by (rewrite vscale_length, svec_length; apply pow2_pos).
  rewrite nth_vscale, IH. unfold fprod at 2. simpl. fold (fprod us). rewrite finv_mul. reflexivity.
Qed.

(** the recurrence of ipp.rs 305-312 *)
Lemma svec_rec us i : (0 < i < 2 ^ length us)%nat ->
  nth i (svec us) 0 =
  nth (i - 2 ^ Nat.log2 i) (svec us) 0 * nth ((length us - 1) - Nat.log2 i) (map (fun c => c * c) us) 0.
Proof.
  revert i; induction us as [|u us IH]; intros i [H0 Hi]; [simpl in Hi; lia|].
  simpl svec. simpl length in *.
  set (k := length us) in *.
  pose proof (Nat.log2_spec i H0) as [Hl1 Hl2].
  destruct (Nat.lt_ge_cases i (2 ^ k)) as [Hlt|Hge].
  - pose proof (log2_pow2_lt k i H0 Hlt) as Hlog.
    rewrite !app_nth1 by (rewrite vscale_length, svec_length; fold k; lia).
    rewrite !nth_vscale.
    rewrite (IH i) by (fold k; lia). fold k.
    replace (S k - 1 - Nat.log2 i)%nat with (S (k - 1 - Nat.log2 i)) by lia.
    simpl nth. ring.
  - assert (Hlog : Nat.log2 i = k).
    { apply Nat.log2_unique; lia. }
    rewrite Hlog.
    rewrite pow2_S in Hi.
    rewrite (app_nth2 _ _ _) by (rewrite vscale_length, svec_length; fold k; lia).
    rewrite vscale_length, svec_length. fold k.
    rewrite app_nth1 by (rewrite vscale_length, svec_length; fold k; lia).
    rewrite !nth_vscale.
    replace (S k - 1 - k)%nat with O by lia. simpl nth.
    transitivity ((finv u * (u * u)) * nth (i - 2 ^ k) (svec us) 0); [rewrite finv_u_sq; ring|ring].
Qed.

Lemma firstn_S_snoc {A} (l : list A) n d : (n < length l)%nat -> firstn (S n) l = firstn n l ++ [nth n l d].
Proof.
  revert n; induction l; intros n H; simpl in *; [lia|].
  destruct n; [reflexivity|]. simpl. f_equal. apply IHl. lia.
Qed.

Lemma nth_firstn_lt {A} (l : list A) n i d : (i < n)%nat -> nth i (firstn n l) d = nth i l d.
Proof.
  revert n i; induction l; intros n i H; [rewrite firstn_nil; reflexivity|].
  destruct n; [lia|]. destruct i; [reflexivity|]. simpl. apply IHl. lia.
Qed.

Lemma s_values_svec us :
  s_values (length us) (2 ^ length us) (finv (fprod us)) (map (fun c => c * c) us) = Done (svec us).
Proof.
  unfold s_values.
  set (k := length us). set (sv := svec us).
  assert (Hlen : length sv = (2 ^ k)%nat) by apply svec_length.
  pose proof (pow2_pos k) as Hpos.
  assert (G : forall m i, (0 < i)%nat -> (i + m = 2 ^ k)%nat ->
     foldM (fun s i =>
      let lg_i := Nat.log2 i in
      let k0 := (2 ^ lg_i)%nat in
      obind (index (map (fun c => c * c) us) ((k - 1) - lg_i)) (fun u_lg_i_sq =>
      obind (index s (i - k0)) (fun s_ik =>
      Done (s ++ [s_ik * u_lg_i_sq])))) (seq i m) (firstn i sv) = Done sv).
  { induction m as [|m IH]; intros i Hi Him; simpl.
    - rewrite firstn_all2 by lia. reflexivity.
    - assert (Hil : (0 < i < 2 ^ k)%nat) by lia.
      pose proof (log2_pow2_lt k i Hi (proj2 Hil)) as Hlog.
      pose proof (Nat.log2_spec i Hi) as [Hl1 _].
      pose proof (pow2_pos (Nat.log2 i)).
      rewrite (index_ok _ _ 0) by (rewrite map_length; fold k; lia). simpl.
      rewrite (index_ok _ _ 0) by (rewrite firstn_length, Hlen; lia). simpl.
      rewrite nth_firstn_lt by lia.
      unfold sv. rewrite <- svec_rec by assumption. fold sv.
      rewrite <- firstn_S_snoc by lia.
      apply IH; lia. }
  specialize (G (2 ^ k - 1)%nat 1%nat).
  rewrite <- G by lia. f_equal. symmetry.
  rewrite (firstn_S_snoc sv 0 0) by lia. simpl. unfold sv. rewrite svec_0. reflexivity.
Qed.

(** *** Batch inversion *)
Lemma batch_invert_go_spec l pre :
  Forall (fun u => u <> 0) l -> pre <> 0 ->
  batch_invert_go pre l = (map finv l, finv pre).
Proof.
  intros Hl; revert pre; induction Hl as [|a l Ha Hl IH]; intros pre Hpre; simpl; [reflexivity|].
  rewrite IH by (apply F_mul_nonzero; assumption).
  f_equal; [f_equal|].
  - field. auto.
  - field. auto.
Qed.

Lemma batch_invert_spec l : l <> [] \/ batch_invert_empty_panics = false ->
  Forall (fun u => u <> 0) l -> batch_invert l = Done (map finv l, finv (fprod l)).
Proof.
  intros Hne Hl. unfold batch_invert. destruct l.
  - destruct Hne as [Hne|Hne]; [congruence|]. rewrite Hne. simpl. rewrite finv_one. reflexivity.
  - rewrite batch_invert_go_spec; [reflexivity|assumption|apply F_one_neq_zero].
Qed.

Lemma ipp_challenges_length Ls Rs t :
  length (fst (ipp_challenges Ls Rs t)) = Nat.min (length Ls) (length Rs).
Proof.
  revert Rs t; induction Ls; destruct Rs; intros t; simpl; try reflexivity.
  destruct (ipp_challenges Ls Rs _) as [us t'] eqn:E.
  simpl. specialize (IHLs Rs). rewrite <- (IHLs (commit_point "R" g (commit_point "L" a t) ++ [TChallenge "u" modbytes])).
  rewrite E. reflexivity.
Qed.

(** the closed form of [verification_scalars] on well-formed proofs *)
Lemma verification_scalars_ok Ls Rs n t us t' :
  length Ls = length Rs -> (length Ls < 32)%nat -> n = (2 ^ length Ls)%nat ->
  (Ls <> [] \/ batch_invert_empty_panics = false) ->
  ipp_challenges Ls Rs (innerproduct_domain_sep n t) = (us, t') ->
  Forall (fun u => u <> 0) us ->
  verification_scalars Ls Rs n t =
  Done (Ok (map (fun u => u * u) us, map (fun u => finv u * finv u) us, svec us, t')).
Proof.
  intros HLR H32 Hn Hbi Hch Hnz. unfold verification_scalars.
  destruct (Nat.leb_spec 32 (length Ls)); [lia|].
  rewrite Hn, Nat.eqb_refl. rewrite <- Hn. simpl.
  rewrite Hch.
  assert (Hl : length us = length Ls).
  { pose proof (ipp_challenges_length Ls Rs (innerproduct_domain_sep n t)) as L.
    rewrite Hch in L. simpl in L. lia. }
  rewrite batch_invert_spec; [|destruct Hbi; [left; destruct us, Ls; simpl in *; congruence|right; assumption]|assumption].
  simpl. rewrite Hn, <- Hl, s_values_svec. simpl. rewrite map_map. reflexivity.
Qed.

(** *** The folding identities *)
Lemma fold_scalars_length x y l r : length (fold_scalars x y l r) = Nat.min (length l) (length r).
Proof. apply zipw_length. Qed.
Lemma fold_points_length x y l r : length (fold_points x y l r) = Nat.min (length l) (length r).
Proof. apply zipw_length. Qed.

Lemma fold_scalars_vadd x y l r : fold_scalars x y l r = vadd (vscale x l) (vscale y r).
Proof.
  unfold fold_scalars, vadd, vscale. revert r; induction l; destruct r; simpl; try reflexivity.
  rewrite IHl. f_equal. ring.
Qed.

Lemma fold_points_zip x y l r :
  fold_points x y l r = zipw g1_add (map (g1_mul x) l) (map (g1_mul y) r).
Proof.
  unfold fold_points. revert r; induction l; destruct r; simpl; try reflexivity.
  rewrite IHl. reflexivity.
Qed.

Lemma msm_fold_points k x y l r : length l = length r ->
  msm k (fold_points x y l r) = g1_add (g1_mul x (msm k l)) (g1_mul y (msm k r)).
Proof.
  intros H. rewrite fold_points_zip, msm_zipw_add by (rewrite !map_length; assumption).
  rewrite (msm_map_points (g1_mul x) x) by reflexivity.
  rewrite (msm_map_points (g1_mul y) y) by reflexivity. reflexivity.
Qed.

Lemma msm_fold_scalars g x y l r : length l = length r ->
  msm (fold_scalars x y l r) g = g1_add (g1_mul x (msm l g)) (g1_mul y (msm r g)).
Proof.
  intros H. rewrite fold_scalars_vadd, msm_vadd by (rewrite !vscale_length; assumption).
  rewrite !msm_vscale. reflexivity.
Qed.

Lemma ip_fold_scalars g x y l r : length l = length r ->
  ip (fold_scalars x y l r) g = x * ip l g + y * ip r g.
Proof.
  intros H. rewrite fold_scalars_vadd, ip_vadd_l by (rewrite !vscale_length; assumption).
  rewrite !ip_vscale_l. reflexivity.
Qed.

Lemma ip_fold_scalars_r g x y l r : length l = length r ->
  ip g (fold_scalars x y l r) = x * ip g l + y * ip g r.
Proof. intros H. rewrite ip_comm, ip_fold_scalars, !(ip_comm g) by assumption. reflexivity. Qed.

Lemma inner_product_ok a b : length a = length b -> inner_product a b = Done (ip a b).
Proof. intros H. unfold inner_product. rewrite H, Nat.eqb_refl. reflexivity. Qed.
Lemma hadamard_product_ok a b : length a = length b -> hadamard_product a b = Done (vmul a b).
Proof. intros H. unfold hadamard_product. rewrite H, Nat.eqb_refl. reflexivity. Qed.
Lemma msm_checked_ok a b : length a = length b -> msm_checked a b = Done (msm a b).
Proof. intros H. unfold msm_checked. rewrite H, Nat.eqb_refl. reflexivity. Qed.

(** the commitment that an inner-product proof is about *)
Definition ipp_commit (Q : G1) (a b : list F) (G H : list G1) : G1 :=
  g1_add (g1_add (msm a G) (msm b H)) (g1_mul (ip a b) Q).

(** what [verify_ipp] compares with, for challenges [us] *)
Definition ipp_expected (Q : G1) (G H : list G1) (a b : F) (us : list F) (Ls Rs : list G1) : G1 :=
  g1_add (g1_mul (a * b) Q)
  (g1_add (msm (vscale a (svec us)) G)
  (g1_add (msm (vscale b (rev (svec us))) H)
  (g1_add (msm (map (fun u => - (u * u)) us) Ls)
          (msm (map (fun u => - (finv u * finv u)) us) Rs)))).

Lemma firstn_skipn_len {A} (l : list A) m : length l = (m + m)%nat ->
  length (firstn m l) = m /\ length (skipn m l) = m.
Proof. intros H. rewrite firstn_length, skipn_length. lia. Qed.

Lemma msm_firstn_skipn a g m :
  msm a g = g1_add (msm (firstn m a) (firstn m g)) (msm (skipn m a) (skipn m g)).
Proof.
  revert a g; induction m; intros a g; simpl; [rewrite g1_add_id; reflexivity|].
  destruct a, g; simpl; rewrite ?g1_add_id; try reflexivity.
  - rewrite msm_nil_r. reflexivity.
  - rewrite <- g1_add_assoc. f_equal. apply IHm.
Qed.

Lemma msm_app_split a b g m : length a = m ->
  msm (a ++ b) g = g1_add (msm a (firstn m g)) (msm b (skipn m g)).
Proof.
  intros H. rewrite (msm_firstn_skipn (a ++ b) g m).
  rewrite firstn_app, skipn_app, H, Nat.sub_diag, firstn_all2, skipn_all2 by lia.
  simpl. rewrite app_nil_r. reflexivity.
Qed.

Lemma ip_firstn_skipn a b m : ip a b = ip (firstn m a) (firstn m b) + ip (skipn m a) (skipn m b).
Proof.
  revert a b; induction m; intros a b; simpl; [ring|].
  destruct a, b; simpl; try ring.
  - rewrite ip_nil_r. ring.
  - rewrite (IHm a b). ring.
Qed.

Lemma msm_three a b c g h q : length a = length g -> length b = length h ->
  msm (a ++ b ++ [c]) (g ++ h ++ [q]) = g1_add (msm a g) (g1_add (msm b h) (g1_mul c q)).
Proof.
  intros H1 H2. rewrite !msm_app by assumption. simpl. rewrite g1_id_r. reflexivity.
Qed.

(** One run of the loop: shape of the result and the identity it maintains. *)
Lemma ipp_loop_spec k : forall fuel Q a b G H t,
  (2 ^ k <= fuel + 1)%nat ->
  length a = (2 ^ k)%nat -> length b = (2 ^ k)%nat -> length G = (2 ^ k)%nat -> length H = (2 ^ k)%nat ->
  exists Ls Rs af bf us t',
    ipp_loop fuel (2 ^ k) Q a b G H t = Done (Ls, Rs, [af], [bf], t') /\
    length Ls = k /\ length Rs = k /\
    ipp_challenges Ls Rs t = (us, t') /\
    (Forall (fun u => u <> 0) us -> ipp_commit Q a b G H = ipp_expected Q G H af bf us Ls Rs).
Proof.
  induction k as [|k IH]; intros fuel Q a b G H t Hf Ha Hb HG HH.
  - destruct a as [|a0 [|? ?]]; simpl in Ha; try lia.
    destruct b as [|b0 [|? ?]]; simpl in Hb; try lia.
    destruct G as [|G0 [|? ?]]; simpl in HG; try lia.
    destruct H as [|H0 [|? ?]]; simpl in HH; try lia.
    exists [], [], a0, b0, [], t.
    split; [destruct fuel; reflexivity|].
    repeat split.
    intros _. unfold ipp_commit, ipp_expected. simpl. gnorm; ring.
  - pose proof (pow2_pos k) as Hpos. rewrite pow2_S in *.
    set (m := (2 ^ k)%nat) in *.
    destruct (firstn_skipn_len a m Ha) as [HaL HaR].
    destruct (firstn_skipn_len b m Hb) as [HbL HbR].
    destruct (firstn_skipn_len G m HG) as [HGL HGR].
    destruct (firstn_skipn_len H m HH) as [HHL HHR].
    set (aL := firstn m a) in *. set (aR := skipn m a) in *.
    set (bL := firstn m b) in *. set (bR := skipn m b) in *.
    set (GL := firstn m G) in *. set (GR := skipn m G) in *.
    set (HL := firstn m H) in *. set (HR := skipn m H) in *.
    set (L := msm (aL ++ bR ++ [ip aL bR]) (GR ++ HL ++ [Q])).
    set (R := msm (aR ++ bL ++ [ip aR bL]) (GL ++ HR ++ [Q])).
    set (t1 := commit_point "R" R (commit_point "L" L t)).
    set (u := challenge_value "u" t1).
    set (t2 := t1 ++ [TChallenge "u" modbytes]).
    destruct fuel as [|fuel]; [lia|].
    destruct (IH fuel Q (fold_scalars u (finv u) aL aR) (fold_scalars (finv u) u bL bR)
                (fold_points (finv u) u GL GR) (fold_points u (finv u) HL HR) t2)
      as (Ls & Rs & af & bf & us & t' & Hrun & HLs & HRs & Hch & Hid).
    { lia. }
    { rewrite fold_scalars_length. lia. }
    { rewrite fold_scalars_length. lia. }
    { rewrite fold_points_length. lia. }
    { rewrite fold_points_length. lia. }
    exists (L :: Ls), (R :: Rs), af, bf, (u :: us), t'.
    split; [|split; [simpl; lia|split; [simpl; lia|split]]].
    + simpl ipp_loop. destruct (Nat.eqb_spec (m + m) 1) as [Habs|_]; [lia|].
      replace (Nat.div2 (m + m)) with m.
      2:{ replace (m + m)%nat with (2 * m)%nat by lia. symmetry. apply Nat.div2_double. }
      fold aL aR bL bR GL GR HL HR.
      rewrite !inner_product_ok by lia. simpl.
      rewrite !msm_checked_ok by (rewrite !app_length; simpl; lia). simpl.
      fold L R. fold t1. fold u. fold t2. rewrite Hrun. reflexivity.
    + simpl ipp_challenges. fold t1. fold u. fold t2. rewrite Hch. reflexivity.
    + intros Hnz. pose proof (Forall_inv Hnz) as Hu. pose proof (Forall_inv_tail Hnz) as Hus. simpl in Hu.
      specialize (Hid Hus).
      assert (Hlus : length us = k).
      { pose proof (ipp_challenges_length Ls Rs t2) as Hl. rewrite Hch in Hl. simpl in Hl. lia. }
      assert (Hsv : length (svec us) = m) by (rewrite svec_length, Hlus; reflexivity).
      assert (Hrsv : length (rev (svec us)) = m) by (rewrite rev_length; assumption).
      unfold ipp_commit, ipp_expected in *.
      rewrite (msm_firstn_skipn a G m), (msm_firstn_skipn b H m), (ip_firstn_skipn a b m).
      fold aL aR bL bR GL GR HL HR.
      rewrite !msm_fold_points, !msm_fold_scalars, ip_fold_scalars, !ip_fold_scalars_r in Hid by lia.
      simpl map. simpl msm at 7 8. simpl svec.
      rewrite rev_app_distr, !vscale_rev, !vscale_app.
      rewrite (msm_app_split _ _ G m) by (rewrite !vscale_length; lia).
      rewrite (msm_app_split _ _ H m) by (rewrite !vscale_length; lia).
      fold GL GR HL HR.
      rewrite !vscale_vscale, !msm_vscale.
      rewrite !msm_vscale in Hid.
      subst L R. rewrite !msm_three by lia.
      set (MM1 := msm (map (fun u => - (u * u)) us) Ls) in *.
      set (MM2 := msm (map (fun u => - (finv u * finv u)) us) Rs) in *.
      set (iLL := ip aL bL) in *. set (iRR := ip aR bR) in *.
      set (iLR := ip aL bR) in *. set (iRL := ip aR bL) in *.
      set (m1 := msm aL GL) in *. set (m2 := msm aL GR) in *.
      set (m3 := msm aR GL) in *. set (m4 := msm aR GR) in *.
      set (n1 := msm bL HL) in *. set (n2 := msm bL HR) in *.
      set (n3 := msm bR HL) in *. set (n4 := msm bR HR) in *.
      set (s1 := msm (svec us) GL) in *. set (s2 := msm (svec us) GR) in *.
      set (r1 := msm (rev (svec us)) HL) in *. set (r2 := msm (rev (svec us)) HR) in *.
      match goal with |- ?lhs = ?rhs =>
        assert (E : forall X Y : G1, X = Y -> g1_add lhs (g1_add Y (g1_neg X)) = rhs -> lhs = rhs)
      end.
      { intros X Y -> HX. rewrite <- HX. gnorm; ring. }
      apply (E _ _ Hid).
      gnorm; field; assumption.
Qed.

(** *** [create_ipp] in terms of the plain loop on scaled bases *)
Definition scale_points (f : list F) (g : list G1) : list G1 := zipw g1_mul f g.

Lemma scale_points_length f g : length (scale_points f g) = Nat.min (length f) (length g).
Proof. apply zipw_length. Qed.

Lemma zipw_firstn {A B C} (f : A -> B -> C) m a b :
  firstn m (zipw f a b) = zipw f (firstn m a) (firstn m b).
Proof.
  revert a b; induction m; intros a b; [reflexivity|]. destruct a, b; simpl; try reflexivity.
  rewrite IHm. reflexivity.
Qed.

Lemma zipw_nil_r {A B C} (f : A -> B -> C) a : zipw f a [] = [].
Proof. destruct a; reflexivity. Qed.

Lemma zipw_skipn {A B C} (f : A -> B -> C) m a b :
  skipn m (zipw f a b) = zipw f (skipn m a) (skipn m b).
Proof.
  revert a b; induction m; intros a b; [reflexivity|]. destruct a, b; simpl; try reflexivity.
  - rewrite zipw_nil_r. reflexivity.
  - apply IHm.
Qed.

Lemma msm_vmul a f g : msm (vmul a f) g = msm a (scale_points f g).
Proof.
  unfold scale_points, vmul. revert f g; induction a; destruct f, g; simpl; try reflexivity.
  rewrite IHa, g1_mul_mul. reflexivity.
Qed.

Lemma fold_points_factors_scaled x y fl fr l r :
  length fl = length l -> length fr = length r ->
  fold_points_factors x y fl fr l r = fold_points x y (scale_points fl l) (scale_points fr r).
Proof.
  unfold fold_points_factors, fold_points, scale_points.
  revert fl fr r; induction l; destruct fl, fr, r; simpl; intros; try discriminate; try reflexivity.
  rewrite IHl by lia. rewrite !g1_mul_mul. reflexivity.
Qed.

Lemma ipp_loop_fuel k : forall f1 f2 Q a b G H t,
  (2 ^ k <= f1 + 1)%nat -> (2 ^ k <= f2 + 1)%nat ->
  ipp_loop f1 (2 ^ k) Q a b G H t = ipp_loop f2 (2 ^ k) Q a b G H t.
Proof.
  induction k as [|k IH]; intros f1 f2 Q a b G H t H1 H2; [destruct f1, f2; reflexivity|].
  pose proof (pow2_pos k). rewrite pow2_S in H1, H2.
  destruct f1 as [|f1], f2 as [|f2]; try lia.
  simpl ipp_loop at 1. simpl ipp_loop at 2. 
  change (2 ^ k + (2 ^ k + 0))%nat with (2 ^ S k)%nat. rewrite div2_pow.
  destruct (Nat.eqb (2 ^ S k) 1); [reflexivity|].
  destruct (inner_product _ _); [|reflexivity]. simpl.
  destruct (inner_product _ _); [|reflexivity]. simpl.
  destruct (msm_checked _ _); [|reflexivity]. simpl.
  destruct (msm_checked _ _); [|reflexivity]. simpl.
  rewrite (IH f1 f2) by lia. reflexivity.
Qed.

Lemma create_ipp_loop t Q Gf Hf G H a b k fuel :
  length G = (2 ^ k)%nat -> length H = (2 ^ k)%nat -> length a = (2 ^ k)%nat -> length b = (2 ^ k)%nat ->
  length Gf = (2 ^ k)%nat -> length Hf = (2 ^ k)%nat -> (2 ^ k <= fuel + 1)%nat ->
  create_ipp t Q Gf Hf G H a b =
  obind (ipp_loop fuel (2 ^ k) Q a b (scale_points Gf G) (scale_points Hf H)
           (innerproduct_domain_sep (2 ^ k) t))
    (fun r => let '(Ls, Rs, a, b, t) := r in
      obind (index a 0) (fun a0 => obind (index b 0) (fun b0 => Done (IPPProof Ls Rs a0 b0, t)))).
Proof.
  intros HG HH Ha Hb HGf HHf Hfuel. unfold create_ipp. rewrite HG.
  rewrite is_power_of_two_pow, HH, Ha, Hb, HGf, HHf, !Nat.eqb_refl. cbn [assertb obind].
  destruct k as [|k]; [destruct fuel; reflexivity|].
  rewrite div2_pow.
  pose proof (pow2_pos k) as Hpos.
  destruct fuel as [|fuel]; [rewrite pow2_S in Hfuel; lia|]. cbn [ipp_loop].
  rewrite div2_pow.
  destruct (Nat.eqb_spec (2 ^ S k) 1) as [Habs|_]; [rewrite pow2_S in Habs; lia|].
  set (t0 := innerproduct_domain_sep _ t).
  rewrite pow2_S in *. set (m := (2 ^ k)%nat) in *.
  destruct (firstn_skipn_len a m Ha) as [HaL HaR].
  destruct (firstn_skipn_len b m Hb) as [HbL HbR].
  destruct (firstn_skipn_len G m HG) as [HGL HGR].
  destruct (firstn_skipn_len H m HH) as [HHL HHR].
  destruct (firstn_skipn_len Gf m HGf) as [HGfL HGfR].
  destruct (firstn_skipn_len Hf m HHf) as [HHfL HHfR].
  unfold scale_points. rewrite !zipw_firstn, !zipw_skipn.
  fold (scale_points (firstn m Gf) (firstn m G)) (scale_points (skipn m Gf) (skipn m G))
       (scale_points (firstn m Hf) (firstn m H)) (scale_points (skipn m Hf) (skipn m H)).
  rewrite !inner_product_ok by lia.
  rewrite !hadamard_product_ok by lia. cbn [obind].
  rewrite !msm_checked_ok by (unfold vmul; rewrite !app_length, ?scale_points_length, ?zipw_length; simpl; lia).
  cbn [obind].
  rewrite !msm_three by (unfold vmul; rewrite ?scale_points_length, ?zipw_length; lia).
  rewrite !msm_vmul.
  unfold challenge_scalar. cbv beta iota zeta.
  rewrite !fold_points_factors_scaled by lia.
  unfold m. rewrite (ipp_loop_fuel k (2 ^ k) fuel) by lia.
  match goal with |- context [ipp_loop ?f ?n ?Q ?a ?b ?G ?H ?t] => destruct (ipp_loop f n Q a b G H t) as [r|] end;
    [|reflexivity].
  destruct r as [[[[? ?] ?] ?] ?]. reflexivity.
Qed.

(** The honest prover: shape of the proof and the identity it satisfies. *)
Lemma create_ipp_spec t Q Gf Hf G H a b k :
  length G = (2 ^ k)%nat -> length H = (2 ^ k)%nat -> length a = (2 ^ k)%nat -> length b = (2 ^ k)%nat ->
  length Gf = (2 ^ k)%nat -> length Hf = (2 ^ k)%nat ->
  exists Ls Rs af bf us t',
    create_ipp t Q Gf Hf G H a b = Done (IPPProof Ls Rs af bf, t') /\
    length Ls = k /\ length Rs = k /\
    ipp_challenges Ls Rs (innerproduct_domain_sep (2 ^ k) t) = (us, t') /\
    (Forall (fun u => u <> 0) us ->
     ipp_commit Q a b (scale_points Gf G) (scale_points Hf H)
     = ipp_expected Q (scale_points Gf G) (scale_points Hf H) af bf us Ls Rs).
Proof.
  intros HG HH Ha Hb HGf HHf.
  destruct (ipp_loop_spec k (2 ^ k) Q a b (scale_points Gf G) (scale_points Hf H)
              (innerproduct_domain_sep (2 ^ k) t))
    as (Ls & Rs & af & bf & us & t' & Hrun & HLs & HRs & Hch & Hid);
    try (rewrite ?scale_points_length; lia).
  exists Ls, Rs, af, bf, us, t'. split; [|auto].
  rewrite (create_ipp_loop t Q Gf Hf G H a b k (2 ^ k)) by (assumption || lia).
  rewrite Hrun. reflexivity.
Qed.

(** [verify_ipp] on well-formed inputs compares [Pt] with [ipp_expected]. *)
Lemma verify_ipp_spec n t Gf Hf Pt Q G H a b Ls Rs us t' :
  length Ls = length Rs -> (length Ls < 32)%nat -> n = (2 ^ length Ls)%nat ->
  (Ls <> [] \/ batch_invert_empty_panics = false) ->
  length G = n -> length H = n -> length Gf = n -> length Hf = n ->
  ipp_challenges Ls Rs (innerproduct_domain_sep n t) = (us, t') ->
  Forall (fun u => u <> 0) us ->
  verify_ipp n t Gf Hf Pt Q G H a b Ls Rs =
  Done (if g1_eqb (ipp_expected Q (scale_points Gf G) (scale_points Hf H) a b us Ls Rs) Pt
        then Ok tt else Err VerificationError, t').
Proof.
  intros HLR H32 Hn Hbi HG HH HGf HHf Hch Hnz. unfold verify_ipp.
  rewrite (verification_scalars_ok Ls Rs n t us t') by assumption.
  cbn [obind unwrap_result].
  assert (Hl : length us = length Ls).
  { pose proof (ipp_challenges_length Ls Rs (innerproduct_domain_sep n t)) as L.
    rewrite Hch in L. simpl in L. lia. }
  assert (Hs : length (svec us) = n) by (rewrite svec_length, Hl; congruence).
  rewrite firstn_all2 by (rewrite zipw_length; lia).
  rewrite msm_checked_ok.
  2:{ rewrite !app_length, !zipw_length, rev_length, !map_length. simpl. lia. }
  cbn [obind]. repeat f_equal. unfold ipp_expected.
  rewrite !msm_app by (rewrite ?zipw_length, ?rev_length, ?map_length; simpl; lia).
  assert (Z : forall c f s, zipw (fun g_i s_i => (c * s_i) * g_i) f s = vmul (vscale c s) f).
  { intros c f s. unfold vmul, vscale. clear. revert s; induction f; destruct s; simpl; try reflexivity.
    rewrite IHf. reflexivity. }
  rewrite !Z, !msm_vmul, !map_map. simpl. rewrite g1_id_r. reflexivity.
Qed.

End IPPProofs.
