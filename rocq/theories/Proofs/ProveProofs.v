(** What [Prover::prove] (prover.rs 322-593) returns, whatever the witness. *)
From Coq Require Import ZArith String List Lia Bool Ring Field Permutation.
From Verif.Base Require Import Outcome Fp Params Algebra.
From Verif.Model Require Import Transcript LinComb Prog VectorPoly IPP Prover Verifier.
From Verif.Spec Require Import R1CS Sim Protocol Session.
From Verif.Proofs Require Import LinCombProofs RunProofs ExtProofs FlattenProofs IPPProofs VerifyProofs.
Import ListNotations.

Section ProveProofs.
Context {P : Params} {OK : ParamsOk P}.
Local Open Scope fe_scope.
Add Field FFprv : (Fp_field_theory modulus modulus_prime).

Lemma ip_tab n f g : ip (tab n f) (tab n g) = sum_n n (fun i => f i * g i).
Proof. apply ip_map. Qed.

Lemma sum_n_ext n f g : (forall i, (i < n)%nat -> f i = g i) -> sum_n n f = sum_n n g.
Proof. intros H. apply fsum_map_ext. intros i Hi. apply in_seq in Hi. apply H. lia. Qed.
Lemma sum_n_add n f g : sum_n n (fun i => f i + g i) = sum_n n f + sum_n n g.
Proof. apply fsum_map_add. Qed.
Lemma sum_n_sub n f g : sum_n n (fun i => f i - g i) = sum_n n f - sum_n n g.
Proof. apply fsum_map_sub. Qed.
Lemma sum_n_scale n c f : sum_n n (fun i => c * f i) = c * sum_n n f.
Proof. apply fsum_map_scale. Qed.
Lemma sum_n_zero n f : (forall i, (i < n)%nat -> f i = 0) -> sum_n n f = 0.
Proof. intros H. apply fsum_map_zero. intros i Hi. apply in_seq in Hi. apply H. lia. Qed.
Lemma sum_n_split n N f : (n <= N)%nat ->
  sum_n N f = sum_n n f + sum_n (N - n) (fun i => f (n + i)%nat).
Proof.
  intros H. unfold sum_n. replace N with (n + (N - n))%nat at 1 by lia.
  rewrite seq_app, map_app, fsum_app. f_equal. simpl.
  rewrite <- (map_map (fun i => (n + i)%nat) f). do 2 f_equal.
  generalize (N - n)%nat as k. intros k. rewrite <- (Nat.add_0_r n) at 1.
  generalize 0%nat as j. induction k; intros j; simpl; [reflexivity|].
  f_equal. rewrite plus_n_Sm. apply IHk.
Qed.
Lemma sum_n_padded n N f : (n <= N)%nat -> (forall i, (n <= i < N)%nat -> f i = 0) -> sum_n N f = sum_n n f.
Proof.
  intros H Hz. rewrite (sum_n_split n N) by assumption.
  rewrite (sum_n_zero (N - n)); [ring|]. intros i Hi. apply Hz. lia.
Qed.

Lemma gsum_n_ext n f g G : (forall i, (i < n)%nat -> f i = g i) -> gsum_n n f G = gsum_n n g G.
Proof. intros H. apply gsum_map_ext. intros i Hi. apply in_seq in Hi. rewrite H by lia. reflexivity. Qed.
Lemma gsum_n_add n f g G : gsum_n n (fun i => f i + g i) G = g1_add (gsum_n n f G) (gsum_n n g G).
Proof.
  unfold gsum_n. rewrite <- gsum_map_add. apply gsum_map_ext. intros i _. apply g1_mul_add_l.
Qed.
Lemma gsum_n_scale n c f G : gsum_n n (fun i => c * f i) G = g1_mul c (gsum_n n f G).
Proof.
  unfold gsum_n. rewrite <- gsum_map_scale. apply gsum_map_ext. intros i _. rewrite g1_mul_mul. reflexivity.
Qed.
Lemma gsum_n_zero n f G : (forall i, (i < n)%nat -> f i = 0) -> gsum_n n f G = g1_id.
Proof.
  intros H. apply gsum_map_id. intros i Hi. apply in_seq in Hi. rewrite H by lia. apply g1_mul_zero.
Qed.

(** a commitment split at the phase boundary *)
Lemma two_phase_msm (a : list F) (G : list G1) n1 N u :
  (n1 <= length a)%nat -> (length a <= N)%nat -> (N <= length G)%nat ->
  g1_add (msm (firstn n1 a) (firstn n1 G))
         (g1_mul u (msm (skipn n1 a) (firstn (length a - n1) (skipn n1 G)))) =
  gsum_n N (fun i => phase_factor n1 u i * nth i a 0) G.
Proof.
  intros H1 H2 H3. rewrite gsum_n_firstn by assumption. rewrite <- msm_vscale.
  set (n := length a) in *.
  replace (tab N (fun i => phase_factor n1 u i * nth i a 0))
    with ((firstn n1 a ++ vscale u (skipn n1 a)) ++ zeros (N - n)).
  2:{ apply nth_ext with (d := 0) (d' := 0).
      - rewrite !app_length, vscale_length, firstn_length, skipn_length, zeros_length, tab_length. fold n. lia.
      - rewrite !app_length, vscale_length, firstn_length, skipn_length, zeros_length. fold n. intros i Hi.
        rewrite tab_nth by lia. unfold phase_factor.
        destruct (Nat.lt_ge_cases i n).
        + rewrite app_nth1 by (rewrite app_length, vscale_length, firstn_length, skipn_length; fold n; lia).
          destruct (Nat.ltb_spec i n1).
          * rewrite app_nth1 by (rewrite firstn_length; fold n; lia). rewrite nth_firstn_lt by lia. ring.
          * rewrite app_nth2 by (rewrite firstn_length; fold n; lia).
            rewrite firstn_length. fold n. rewrite nth_vscale. f_equal.
            rewrite <- (firstn_skipn n1 a) at 2. rewrite app_nth2 by (rewrite firstn_length; fold n; lia).
            rewrite firstn_length. reflexivity.
        + rewrite app_nth2 by (rewrite app_length, vscale_length, firstn_length, skipn_length; fold n; lia).
          unfold zeros. rewrite nth_repeat, (nth_overflow a) by (fold n; lia).
          destruct (Nat.ltb i n1); ring. }
  replace (firstn N G) with ((firstn n1 G ++ firstn (n - n1) (skipn n1 G)) ++ firstn (N - n) (skipn n G)).
  2:{ assert (E : forall k m, firstn (k + m) G = firstn k G ++ firstn m (skipn k G)).
      { intros k. clear. revert G. induction k; intros G m; [reflexivity|]. destruct G; simpl; [rewrite firstn_nil; reflexivity|].
        rewrite IHk. reflexivity. }
      rewrite <- E. replace (n1 + (n - n1))%nat with n by lia. rewrite <- E. f_equal. lia. }
  rewrite !msm_app.
  - rewrite msm_zeros, g1_id_r. reflexivity.
  - rewrite !firstn_length. fold n. lia.
  - rewrite !app_length, vscale_length, !firstn_length, !skipn_length. fold n. lia.
Qed.

(** *** Algebra of the argument, on index functions *)
Lemma poly_sum n x (l1 l2 l3 r0 r1 r3 : nat -> F) :
  sum_n n (fun i => (x * (l1 i + x * (l2 i + x * l3 i))) * (r0 i + x * (r1 i + x * (x * r3 i)))) =
  poly6_eval (Poly6 (sum_n n (fun i => l1 i * r0 i))
     (sum_n n (fun i => l1 i * r1 i) + sum_n n (fun i => l2 i * r0 i))
     (sum_n n (fun i => l2 i * r1 i) + sum_n n (fun i => l3 i * r0 i))
     (sum_n n (fun i => l1 i * r3 i) + sum_n n (fun i => l3 i * r1 i))
     (sum_n n (fun i => l2 i * r3 i)) (sum_n n (fun i => l3 i * r3 i))) x.
Proof.
  unfold poly6_eval. cbn [t1 t2 t3 t4 t5 t6].
  repeat (rewrite <- sum_n_scale || rewrite <- sum_n_add).
  apply sum_n_ext. intros. ring.
Qed.

Lemma msm_tab_scaled N f k G : (N <= length G)%nat ->
  msm (tab N f) (scale_points (tab N k) (firstn N G)) = gsum_n N (fun i => k i * f i) G.
Proof.
  intros E. rewrite <- msm_vmul, gsum_n_firstn by assumption. f_equal.
  unfold vmul. rewrite zipw_tab. apply map_ext. intros. ring.
Qed.

Lemma gate_sum n y (aL aR aO wL wR wO : nat -> F) : y <> 0 ->
  (forall i, (i < n)%nat -> aL i * aR i = aO i) ->
  sum_n n (fun i => (aL i + fpow (finv y) i * wR i) * (fpow y i * aR i + wL i)) +
  sum_n n (fun i => aO i * (wO i - fpow y i)) =
  sum_n n (fun i => wL i * aL i) + sum_n n (fun i => wR i * aR i) + sum_n n (fun i => wO i * aO i) +
  sum_n n (fun i => fpow (finv y) i * wR i * wL i).
Proof.
  intros Hy Hg. rewrite <- !sum_n_add. apply sum_n_ext. intros i Hi. rewrite <- (Hg i Hi).
  pose proof (fpow_inv y i Hy) as E. set (a := fpow y i) in *. set (b := fpow (finv y) i) in *.
  replace ((aL i + b * wR i) * (a * aR i + wL i)) with
    (a * aL i * aR i + aL i * wL i + (a * b) * (wR i * aR i) + b * wR i * wL i) by ring.
  rewrite E. ring.
Qed.

Lemma msm_commits g h w v vb : length w = length v -> length vb = length v ->
  msm w (zipw (commit g h) v vb) = g1_add (g1_mul (ip w v) g) (g1_mul (ip w vb) h).
Proof.
  intros E1 E2. revert w vb E1 E2; induction v; destruct w, vb; simpl; intros; try discriminate.
  - gnorm; ring.
  - rewrite IHv by lia. unfold commit. gnorm; ring.
Qed.

(** *** Values published by the honest prover *)
Section Honest.
Context (W : world) (s : prover) (G H : list G1).
Let n1 := length (p_aL s).
Let c0 := p_nrand s.
Lemma randoms_length c k : length (randoms W c k) = k.
Proof. unfold randoms. rewrite map_length, seq_length. reflexivity. Qed.

Lemma commit_vectors_ok G' H' h a b r : length G' = length a -> length H' = length b ->
  commit_vectors G' H' h a b r = Done (g1_add (g1_add (msm a G') (msm b H')) (g1_mul r h)).
Proof. intros E1 E2. unfold commit_vectors. rewrite E1, E2, !Nat.eqb_refl. reflexivity. Qed.

Lemma slice_to_ok {A} k (l : list A) : (k <= length l)%nat -> slice_to k l = Done (firstn k l).
Proof. intros E. unfold slice_to. destruct (Nat.leb_spec k (length l)); [reflexivity|lia]. Qed.

Lemma slice_ok {A} a b (l : list A) : (a <= b)%nat -> (b <= length l)%nat ->
  slice a b l = Done (firstn (b - a) (skipn a l)).
Proof.
  intros E1 E2. unfold slice. destruct (Nat.leb_spec a b); [|lia]. destruct (Nat.leb_spec b (length l)); [|lia].
  reflexivity.
Qed.

Lemma overwrite_tab k f : overwrite k (tab k f) = Done (tab k f).
Proof.
  unfold overwrite. rewrite tab_length, Nat.leb_refl, Nat.sub_diag. cbn [zeros repeat]. rewrite app_nil_r. reflexivity.
Qed.

Context (s2 : prover).
Let n := length (p_aL s2).
Let N := next_power_of_two n.
Let cs := p_constraints s2.
Let V := zipw (commit (p_g s2) (p_h s2)) (p_v s2) (p_v_blinding s2).

Theorem prove_char :
  pwf s -> prover_create_randomized_constraints W (hp_state1 W s G H) = Done (Ok s2) ->
  (N <= length G)%nat -> (N <= length H)%nat -> Forall (lc_in_range n (length (p_v s2))) cs ->
  exists proof t' us,
    prove W s G H = Done (Ok (proof, t')) /\
    first_phase_transcript proof (length (p_v s)) (p_transcript s) = p_transcript (hp_state1 W s G H) /\
    let c := protocol_challenges (p_transcript s2) proof in
    length (ipp_L (proof_ipp proof)) = Nat.log2_up n /\
    length (ipp_R (proof_ipp proof)) = Nat.log2_up n /\
    ipp_challenges (ipp_L (proof_ipp proof)) (ipp_R (proof_ipp proof)) (innerproduct_domain_sep N (c_t c)) = (us, t') /\
    (c_y c <> 0 -> Forall (fun u => u <> 0) us ->
     ipp_point proof (p_g s) (p_h s) G H n1 n N cs (c_y c) (c_z c) (c_u c) (c_x c) (c_w c) =
     ipp_expected (g1_mul (c_w c) (p_g s))
       (scale_points (tab N (phase_factor n1 (c_u c))) (firstn N G))
       (scale_points (tab N (fun i => fpow (finv (c_y c)) i * phase_factor n1 (c_u c) i)) (firstn N H))
       (ipp_a (proof_ipp proof)) (ipp_b (proof_ipp proof)) us (ipp_L (proof_ipp proof)) (ipp_R (proof_ipp proof))) /\
    (c_y c <> 0 ->
     check_t proof (p_g s) (p_h s) V (tab (length V) (fun j => - weight cs (c_z c) (VCommitted j)))
      (- weight cs (c_z c) VOne) (delta n cs (c_y c) (c_z c)) (c_x c) =
     g1_mul (- (c_x c * c_x c * zsum (prover_assignment s2) cs (c_z c))) (p_g s)).
Proof.
  intros Hwf E2 HG HH Hr.
  assert (Hwf1 : pwf (hp_state1 W s G H)) by (eapply pwf_same_wires; [..|exact Hwf]; reflexivity).
  destruct (prover_second_phase_ext _ _ _ Hwf1 E2) as
    (Hwf2 & Eg & Eh & Ev & Evb & Hle & EaL & EaR & EaO & _ & _ & _).
  cbn [hp_state1 p_with_transcript p_with_nrand p_aL p_aR p_aO p_g p_h p_v p_v_blinding] in *.
  fold n1 in Hle, EaL, EaR, EaO. fold n in Hle.
  pose proof (next_power_of_two_ge n : n <= N)%nat as HnN.
  pose proof (pwf_aR _ Hwf) as LaR. pose proof (pwf_aO _ Hwf) as LaO. fold n1 in LaR, LaO.
  pose proof (pwf_aR _ Hwf2) as LaR2. pose proof (pwf_aO _ Hwf2) as LaO2. fold n in LaR2, LaO2.
  unfold prove. cbn [p_with_transcript p_with_nrand p_transcript p_aL p_aR p_aO p_g p_h p_v p_v_blinding p_nrand].
  fold n1 c0. destruct (Nat.ltb_spec (length G) n1); [lia|].
  rewrite !slice_to_ok by lia. cbn [obind].
  rewrite commit_vectors_ok by (rewrite firstn_length; fold n1; lia). cbn [obind].
  rewrite msm_checked_ok by (rewrite firstn_length; lia). cbn [obind].
  rewrite commit_vectors_ok by (rewrite firstn_length, randoms_length; lia). cbn [obind].
  match goal with |- context [prover_create_randomized_constraints W ?e] => change e with (hp_state1 W s G H) end.
  rewrite E2. cbn [orbind].
  fold n. fold N. destruct (Nat.ltb_spec (length G) N); [lia|].
  set (has := Nat.ltb 0 (n - n1)). set (c1 := p_nrand s2).
  set (ib2 := if has then w_random W c1 else 0).
  set (ob2 := if has then w_random W (c1 + 1) else 0).
  set (sb2 := if has then w_random W (c1 + 2) else 0).
  set (c2 := if has then (c1 + 3)%nat else c1).
  set (sL2 := randoms W c2 (n - n1)). set (sR2 := randoms W (c2 + (n - n1)) (n - n1)).
  set (h := p_h s2).
  set (AI2 := g1_add (g1_add (msm (skipn n1 (p_aL s2)) (firstn (n - n1) (skipn n1 G)))
                             (msm (skipn n1 (p_aR s2)) (firstn (n - n1) (skipn n1 H)))) (g1_mul ib2 h)).
  set (AO2 := g1_add (msm (skipn n1 (p_aO s2)) (firstn (n - n1) (skipn n1 G))) (g1_mul ob2 h)).
  set (SS2 := g1_add (g1_add (msm sL2 (firstn (n - n1) (skipn n1 G)))
                             (msm sR2 (firstn (n - n1) (skipn n1 H)))) (g1_mul sb2 h)).
  match goal with |- exists _ _ _, obind ?e _ = _ /\ _ => assert (Esec : e = Done (AI2, AO2, SS2)) end.
  { unfold has in *. destruct (Nat.ltb_spec 0 (n - n1)) as [Hn2|Hn2].
    - rewrite !slice_ok by (try fold n; lia). cbn [obind].
      rewrite (firstn_all2 (skipn n1 (p_aL s2))) by (rewrite skipn_length; lia).
      rewrite (firstn_all2 (skipn n1 (p_aR s2))) by (rewrite skipn_length; lia).
      rewrite (firstn_all2 (skipn n1 (p_aO s2))) by (rewrite skipn_length; lia).
      rewrite commit_vectors_ok by (rewrite ?firstn_length, ?skipn_length; fold n; lia). cbn [obind].
      rewrite msm_checked_ok by (rewrite ?firstn_length, ?skipn_length; fold n; lia). cbn [obind].
      rewrite commit_vectors_ok
        by (unfold sL2, sR2; rewrite ?firstn_length, ?skipn_length, ?randoms_length; fold n; lia).
      reflexivity.
    - assert (n - n1 = 0)%nat as Z by lia. unfold AI2, AO2, SS2, ib2, ob2, sb2. rewrite Z. cbn [firstn].
      rewrite !msm_nil_r, !g1_mul_zero, !g1_id_r. reflexivity. }
  rewrite Esec. cbn [obind]. clear Esec.
  unfold challenge_scalar at 1 2. cbn [fst snd].
  set (y := challenge_value "y" _). set (z := challenge_value "z" _).
  rewrite (prover_flattened_ok s2 z Hr). cbn [obind]. fold n cs.
  set (wL := fun j => weight cs z (VLeft j)). set (wR := fun j => weight cs z (VRight j)).
  set (wO := fun j => weight cs z (VOut j)). set (wV := fun j => - weight cs z (VCommitted j)).
  set (sL := randoms W (c0 + 3) n1 ++ sL2). set (sR := randoms W (c0 + 3 + n1) n1 ++ sR2).
  assert (LsL : length sL = n) by (unfold sL, sL2; rewrite app_length, !randoms_length; lia).
  assert (LsR : length sR = n) by (unfold sR, sR2; rewrite app_length, !randoms_length; lia).
  rewrite LsL, LsR, Nat.min_id.
  set (aL := fun i => nth i (p_aL s2) 0). set (aR := fun i => nth i (p_aR s2) 0). set (aO := fun i => nth i (p_aO s2) 0).
  set (fsL := fun i => nth i sL 0). set (fsR := fun i => nth i sR 0).
  set (yi := finv y).
  rewrite (mapM_ok _ (fun i => (aL i + fpow yi i * wR i, aO i, fsL i, wO i - fpow y i,
     fpow y i * aR i + wL i, fpow y i * fsR i))).
  2:{ intros i Hi. apply in_seq in Hi. unfold prover_lr_entry.
      rewrite (index_ok (p_aL s2) i 0) by (fold n; lia). cbn [obind].
      rewrite (index_ok (p_aR s2) i 0) by lia. cbn [obind].
      rewrite (index_ok (p_aO s2) i 0) by lia. cbn [obind].
      rewrite tab_vandermonde, (index_ok _ i 0) by (rewrite tab_length; lia). cbn [obind].
      rewrite (index_ok (tab n wL) i 0) by (rewrite tab_length; lia). rewrite (index_ok (tab n wR) i 0) by (rewrite tab_length; lia).
      rewrite (index_ok (tab n wO) i 0) by (rewrite tab_length; lia). rewrite (index_ok sL i 0) by lia. rewrite (index_ok sR i 0) by lia.
      cbn [obind]. rewrite !tab_nth by lia. reflexivity. }
  cbn [obind]. rewrite !map_map.
  change (map (fun i => aL i + fpow yi i * wR i) (seq 0 n)) with (tab n (fun i => aL i + fpow yi i * wR i)).
  change (map (fun i => aO i) (seq 0 n)) with (tab n aO).
  change (map (fun i => fsL i) (seq 0 n)) with (tab n fsL).
  change (map (fun i => wO i - fpow y i) (seq 0 n)) with (tab n (fun i => wO i - fpow y i)).
  change (map (fun i => fpow y i * aR i + wL i) (seq 0 n)) with (tab n (fun i => fpow y i * aR i + wL i)).
  change (map (fun i => fpow y i * fsR i) (seq 0 n)) with (tab n (fun i => fpow y i * fsR i)).
  rewrite !overwrite_tab. cbn [obind].
  set (l1 := fun i => aL i + fpow yi i * wR i). set (r0 := fun i => wO i - fpow y i).
  set (r1 := fun i => fpow y i * aR i + wL i). set (r3 := fun i => fpow y i * fsR i).
  unfold special_inner_product. cbn [vp3_0 vp3_1 vp3_2 vp3_3].
  rewrite !inner_product_ok by (rewrite !tab_length; reflexivity). cbn [obind]. rewrite !ip_tab.
  set (tp := Poly6 _ _ _ _ _ _).
  set (c3 := (c2 + (n - n1) + (n - n1))%nat).
  cbn [t1 t2 t3 t4 t5 t6].
  set (T1 := commit _ _ (t1 tp) _). set (T3 := commit _ _ (t3 tp) _). set (T4 := commit _ _ (t4 tp) _).
  set (T5 := commit _ _ (t5 tp) _). set (T6 := commit _ _ (t6 tp) _).
  unfold challenge_scalar at 1 2. cbn [fst snd].
  set (u := challenge_value "u" _). set (x := challenge_value "x" _).
  rewrite inner_product_ok by (rewrite tab_length; symmetry; apply (pwf_vb _ Hwf2)). cbn [obind].
  set (tb := Poly6 _ _ _ _ _ _).
  unfold vec_poly3_eval at 1 2. cbn [vp3_0 vp3_1 vp3_2 vp3_3].
  rewrite zeros_length, tab_length.
  rewrite (mapM_ok _ (fun i => x * (l1 i + x * (aO i + x * fsL i)))).
  2:{ intros i Hi. apply in_seq in Hi. rewrite tab_zeros.
      rewrite !(index_ok (tab n _) i 0) by (rewrite tab_length; lia). cbn [obind]. rewrite !tab_nth by lia. f_equal. ring. }
  cbn [obind].
  rewrite (mapM_ok _ (fun i => r0 i + x * (r1 i + x * (x * r3 i)))).
  2:{ intros i Hi. apply in_seq in Hi. rewrite tab_zeros.
      rewrite !(index_ok (tab n _) i 0) by (rewrite tab_length; lia). cbn [obind]. rewrite !tab_nth by lia. f_equal. ring. }
  cbn [obind].
  set (lx := fun i => x * (l1 i + x * (aO i + x * fsL i))).
  set (rx := fun i => r0 i + x * (r1 i + x * (x * r3 i))).
  change (map lx (seq 0 n)) with (tab n lx). change (map rx (seq 0 n)) with (tab n rx).
  rewrite (tab_app_zeros n N lx) by assumption.
  assert (Erx : tab n rx ++ map (fun i => - fpow y (n + i)) (seq 0 (N - n)) =
                tab N (fun i => if Nat.ltb i n then rx i else - fpow y i)).
  { apply nth_ext with (d := 0) (d' := 0).
    - rewrite app_length, map_length, seq_length, !tab_length. lia.
    - rewrite app_length, map_length, seq_length, tab_length. intros i Hi. rewrite (tab_nth N) by lia.
      destruct (Nat.ltb_spec i n).
      + rewrite app_nth1 by (rewrite tab_length; lia). apply tab_nth. assumption.
      + rewrite app_nth2 by (rewrite tab_length; lia). rewrite tab_length.
        rewrite nth_map_seq by lia. do 2 f_equal. lia. }
  rewrite Erx. clear Erx.
  set (rxp := fun i => if Nat.ltb i n then rx i else - fpow y i).
  set (eb := x * _). unfold challenge_scalar at 1. cbn [fst snd]. set (w := challenge_value "w" _).
  rewrite (phase_factors_tab n1 n N u) by assumption.
  rewrite tab_vandermonde, zipw_tab. change (map _ (seq 0 N)) with (tab N (fun i => fpow yi i * phase_factor n1 u i)).
  set (tipp := _ ++ [TChallenge "w" modbytes]).
  destruct (create_ipp_spec tipp (g1_mul w (p_g s2)) (tab N (phase_factor n1 u))
      (tab N (fun i => fpow yi i * phase_factor n1 u i)) (firstn N G) (firstn N H)
      (tab N (padded n lx)) (tab N rxp) (Nat.log2_up n))
    as (Ls & Rs & af & bf & us & t' & Ec & L1 & L2 & Ech & Eid);
    try (rewrite ?firstn_length, ?tab_length; unfold N, next_power_of_two in *; lia).
  rewrite !slice_to_ok by assumption. cbn [obind].
  fold (tab N (phase_factor n1 u)). rewrite Ec. cbn [obind].
  eexists _, t', us. split; [reflexivity|]. split; [reflexivity|].
  cbn zeta. cbn [proof_ipp ipp_L ipp_R ipp_a ipp_b]. unfold protocol_challenges.
  cbn [A_I1 A_O1 S1 A_I2 A_O2 S2 T_1 T_3 T_4 T_5 T_6 t_x t_x_blinding e_blinding].
  fold y. cbn zeta. fold z. fold u. fold x. fold w. fold tipp. cbn [c_y c_z c_u c_x c_w c_t].
  split; [assumption|]. split; [assumption|]. split; [exact Ech|]. split.
  - (* the inner-product equation *)
    intros Hy Hus. rewrite Eg in Eid. etransitivity; [|exact (Eid Hus)]. clear Eid Ec Ech Hus.
    unfold ipp_commit. rewrite !msm_tab_scaled by assumption.
    unfold ipp_point. cbn [A_I1 A_O1 S1 A_I2 A_O2 S2 T_1 T_3 T_4 T_5 T_6 t_x t_x_blinding e_blinding].
    assert (Htx : ip (tab N (padded n lx)) (tab N rxp) = poly6_eval tp x).
    { rewrite ip_tab, (sum_n_padded n N); [|assumption|].
      - unfold tp. rewrite <- poly_sum. apply sum_n_ext. intros i Hi. unfold padded, rxp.
        destruct (Nat.ltb_spec i n); [reflexivity|lia].
      - intros i Hi. unfold padded. destruct (Nat.ltb_spec i n); [lia|]. ring. }
    rewrite Htx. clear Htx.
    pose proof (two_phase_msm (p_aL s2) G n1 N u) as TL. pose proof (two_phase_msm (p_aR s2) H n1 N u) as TR.
    pose proof (two_phase_msm (p_aO s2) G n1 N u) as TO. pose proof (two_phase_msm sL G n1 N u) as TsL.
    pose proof (two_phase_msm sR H n1 N u) as TsR.
    rewrite LsL in TsL. rewrite LsR in TsR. rewrite LaR2 in TR. rewrite LaO2 in TO. fold n in TL.
    specialize (TL Hle HnN HG). specialize (TO Hle HnN HG). specialize (TsL Hle HnN HG).
    specialize (TR Hle HnN HH). specialize (TsR Hle HnN HH).
    rewrite EaL in TL. rewrite EaR in TR. rewrite EaO in TO.
    assert (Ef : forall (a b : list F), length a = n1 -> firstn n1 (a ++ b) = a /\ skipn n1 (a ++ b) = b).
    { intros a b El. rewrite <- El, firstn_app, skipn_app, Nat.sub_diag, firstn_all, skipn_all. cbn.
      rewrite app_nil_r. auto. }
    destruct (Ef (randoms W (c0 + 3) n1) sL2) as [F1 F2]; [apply randoms_length|].
    destruct (Ef (randoms W (c0 + 3 + n1) n1) sR2) as [F3 F4]; [apply randoms_length|].
    unfold sL in TsL at 1 2. unfold sR in TsR at 1 2. rewrite F1, F2 in TsL. rewrite F3, F4 in TsR. clear F1 F2 F3 F4 Ef.
    assert (HGs : gsum_n N (fun i => phase_factor n1 u i * padded n lx i) G =
      g1_add (gsum_n N (fun i => phase_factor n1 u i * (x * (fpow (finv y) i * padded n wR i))) G)
      (g1_add (g1_mul x (gsum_n N (fun i => phase_factor n1 u i * aL i) G))
      (g1_add (g1_mul (x * x) (gsum_n N (fun i => phase_factor n1 u i * aO i) G))
              (g1_mul (x * x * x) (gsum_n N (fun i => phase_factor n1 u i * fsL i) G))))).
    { rewrite <- !gsum_n_scale, <- !gsum_n_add. apply gsum_n_ext. intros i Hi. unfold padded, lx, l1, aL, aO, fsL, yi.
      destruct (Nat.ltb_spec i n); [ring|]. rewrite !nth_overflow by (try fold n; lia). ring. }
    assert (HHs : gsum_n N (fun i => fpow yi i * phase_factor n1 u i * rxp i) H =
      g1_add (gsum_n N (fun i => phase_factor n1 u i * (fpow (finv y) i * (x * padded n wL i + padded n wO i) - 1)) H)
      (g1_add (g1_mul x (gsum_n N (fun i => phase_factor n1 u i * aR i) H))
              (g1_mul (x * x * x) (gsum_n N (fun i => phase_factor n1 u i * fsR i) H)))).
    { rewrite <- !gsum_n_scale, <- !gsum_n_add. apply gsum_n_ext. intros i Hi. unfold padded, rxp, rx, r0, r1, r3, yi.
      pose proof (fpow_inv y i Hy) as E. set (a := fpow y i) in *. set (b := fpow (finv y) i) in *.
      destruct (Nat.ltb_spec i n).
      - replace (b * phase_factor n1 u i * (wO i - a + x * (a * aR i + wL i + x * (x * (a * fsR i))))) with
          (phase_factor n1 u i * (b * (x * wL i + wO i) + (a * b) * (x * aR i + x * x * x * fsR i - 1))) by ring.
        rewrite E. ring.
      - replace (b * phase_factor n1 u i * (- a)) with (- (phase_factor n1 u i) * (a * b)) by ring. rewrite E.
        unfold aR, fsR. rewrite !nth_overflow by (try fold n; lia). ring. }
    rewrite HGs, HHs. fold aL aR aO fsL fsR.
    change (fun i => phase_factor n1 u i * nth i (p_aL s2) 0) with (fun i => phase_factor n1 u i * aL i) in TL.
    change (fun i => phase_factor n1 u i * nth i (p_aR s2) 0) with (fun i => phase_factor n1 u i * aR i) in TR.
    change (fun i => phase_factor n1 u i * nth i (p_aO s2) 0) with (fun i => phase_factor n1 u i * aO i) in TO.
    change (fun i => phase_factor n1 u i * nth i sL 0) with (fun i => phase_factor n1 u i * fsL i) in TsL.
    change (fun i => phase_factor n1 u i * nth i sR 0) with (fun i => phase_factor n1 u i * fsR i) in TsR.
    unfold hp_AI1, hp_AO1, hp_S1, AI2, AO2, SS2. fold n1 c0.
    rewrite fpow_2, fpow_3. fold h. rewrite <- Eh. fold h.
    rewrite <- TL, <- TR, <- TO, <- TsL, <- TsR. unfold eb.
    fold wL wR wO. gnorm; ring.
  - (* the t equation *)
    intros Hy. clear Ec Ech Eid.
    unfold check_t. cbn [A_I1 A_O1 S1 A_I2 A_O2 S2 T_1 T_3 T_4 T_5 T_6 t_x t_x_blinding e_blinding].
    unfold V. rewrite zipw_length, (pwf_vb _ Hwf2), Nat.min_id.
    rewrite msm_commits by (rewrite ?tab_length; try apply (pwf_vb _ Hwf2); reflexivity).
    rewrite <- (flatten_zsum _ n (length (p_v s2)) cs z Hr).
    fold wV. set (wvb := ip (tab (length (p_v s2)) wV) (p_v_blinding s2)) in *.
    assert (Hip : ip (tab (length (p_v s2)) wV) (p_v s2) =
       - sum_n (length (p_v s2)) (fun j => weight cs z (VCommitted j) * nth j (p_v s2) 0)).
    { rewrite (ip_sum_nth _ _ (length (p_v s2))) by (rewrite ?tab_length; reflexivity).
      transitivity (fopp 1 * sum_n (length (p_v s2)) (fun j => weight cs z (VCommitted j) * nth j (p_v s2) 0)); [|ring].
      rewrite <- sum_n_scale. apply sum_n_ext. intros i Hi. rewrite tab_nth by assumption. unfold wV. ring. }
    rewrite Hip. cbn [prover_assignment assignment_of as_left as_right as_out as_committed].
    assert (Ht2 : t2 tp = sum_n n (fun i => wL i * aL i) + sum_n n (fun i => wR i * aR i) +
                          sum_n n (fun i => wO i * aO i) + delta n cs y z).
    { unfold tp. cbn [t2]. unfold l1, r1, r0, yi. rewrite gate_sum; [reflexivity|assumption|].
      intros i Hi. apply (pwf_gate _ Hwf2). exact Hi. }
    unfold T1, T3, T4, T5, T6, commit.
    replace (poly6_eval tp x) with
      (x * (t1 tp + x * (t2 tp + x * (t3 tp + x * (t4 tp + x * (t5 tp + x * t6 tp)))))) by reflexivity.
    rewrite Ht2. unfold poly6_eval, tb. cbn [t1 t2 t3 t4 t5 t6]. fold wvb.
    rewrite Eg. fold h. rewrite <- Eh. fold h. fold (t1 tp).
    change (fsum (map (fun j => weight cs z (VLeft j) * nth j (p_aL s2) 0) (seq 0 n))) with (sum_n n (fun i => wL i * aL i)).
    change (fsum (map (fun j => weight cs z (VRight j) * nth j (p_aR s2) 0) (seq 0 n))) with (sum_n n (fun i => wR i * aR i)).
    change (fsum (map (fun j => weight cs z (VOut j) * nth j (p_aO s2) 0) (seq 0 n))) with (sum_n n (fun i => wO i * aO i)).
    change (fsum (map (fun j => weight cs z (VCommitted j) * nth j (p_v s2) 0) (seq 0 (length (p_v s2))))) with
      (sum_n (length (p_v s2)) (fun j => weight cs z (VCommitted j) * nth j (p_v s2) 0)).
    generalize (sum_n n (fun i => wL i * aL i)) (sum_n n (fun i => wR i * aR i)) (sum_n n (fun i => wO i * aO i))
      (sum_n (length (p_v s2)) (fun j => weight cs z (VCommitted j) * nth j (p_v s2) 0)) (delta n cs y z).
    intros. generalize (t1 tp) (t3 tp) (t4 tp) (t5 tp) (t6 tp). intros.
    gnorm; ring.
Qed.

End Honest.
End ProveProofs.
