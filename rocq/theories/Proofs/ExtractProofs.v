(** Special soundness of the inner-product argument. *)
From Coq Require Import ZArith String List Lia Bool Ring Field Arith.
From Verif.Base Require Import Outcome Fp Params Algebra.
From Verif.Model Require Import Transcript VectorPoly IPP.
From Verif.Spec Require Import IPPSpec Extractor Protocol.
From Verif.Proofs Require Import IPPProofs VerifyProofs IPPMore RootProofs.
Import ListNotations.

Section ExtractProofs.
Context {P : Params} {OK : ParamsOk P}.
Local Open Scope fe_scope.
Add Field FFext : (Fp_field_theory modulus modulus_prime).

Lemma sub_neq (a b : F) : a <> b -> a - b <> 0.
Proof. intros H E. apply H. apply F_sub_zero. assumption. Qed.

Lemma cubic_zero (c0 c1 c2 c3 v1 v2 v3 v4 : F) : NoDup [v1; v2; v3; v4] ->
  (forall v, In v [v1; v2; v3; v4] -> c0 + c1 * v + c2 * (v * v) + c3 * (v * v * v) = 0) ->
  c0 = 0 /\ c1 = 0 /\ c2 = 0 /\ c3 = 0.
Proof.
  intros Hnd H.
  assert (Hb : forall i, (i < 4)%nat -> nth i [c0; c1; c2; c3] 0 = 0).
  { apply (roots_bound (fun i => nth i [c0; c1; c2; c3] 0) 4 _ Hnd); [|simpl; lia].
    intros v Hv. etransitivity; [|exact (H v Hv)]. unfold sum_n. simpl. ring. }
  repeat split; [apply (Hb 0%nat)|apply (Hb 1%nat)|apply (Hb 2%nat)|apply (Hb 3%nat)]; lia.
Qed.

(** entries of the vectors used by the extractor *)
Lemma nth_vadd a b i : length a = length b -> nth i (vadd a b) 0 = nth i a 0 + nth i b 0.
Proof.
  intros E. destruct (Nat.lt_ge_cases i (length a)).
  - unfold vadd. rewrite (zipw_nth _ _ _ i 0 0) by lia. reflexivity.
  - rewrite !nth_overflow; [ring|lia|lia|rewrite vadd_length; lia].
Qed.

Lemma lin3_length c1 w1 c2 w2 c3 w3 n : length w1 = n -> length w2 = n -> length w3 = n ->
  length (lin3 c1 w1 c2 w2 c3 w3) = n.
Proof. intros. unfold lin3. rewrite !vadd_length, !vscale_length. lia. Qed.

Lemma nth_lin3 c1 w1 c2 w2 c3 w3 n i : length w1 = n -> length w2 = n -> length w3 = n ->
  nth i (lin3 c1 w1 c2 w2 c3 w3) 0 = c1 * nth i w1 0 + c2 * nth i w2 0 + c3 * nth i w3 0.
Proof.
  intros. unfold lin3. rewrite !nth_vadd by (rewrite ?vadd_length, ?vscale_length; lia).
  rewrite !nth_vscale. ring.
Qed.

Lemma msm_lin3 c1 w1 c2 w2 c3 w3 n g : length w1 = n -> length w2 = n -> length w3 = n ->
  msm (lin3 c1 w1 c2 w2 c3 w3) g =
  g1_add (g1_mul c1 (msm w1 g)) (g1_add (g1_mul c2 (msm w2 g)) (g1_mul c3 (msm w3 g))).
Proof.
  intros. unfold lin3. rewrite !msm_vadd by (rewrite ?vadd_length, ?vscale_length; lia).
  rewrite !msm_vscale. reflexivity.
Qed.

Lemma unfold_gens_length u a b c m : length a = m -> length b = m ->
  length (unfold_gens u a b c) = (m + m + (m + m) + 1)%nat.
Proof. intros. unfold unfold_gens. rewrite !app_length, !vscale_length. simpl. lia. Qed.

Lemma unfold_gens_nth u a b c m : length a = m -> length b = m ->
  forall j, (j < m)%nat ->
  nth j (unfold_gens u a b c) 0 = finv u * nth j a 0 /\
  nth (m + j) (unfold_gens u a b c) 0 = u * nth j a 0 /\
  nth (m + m + j) (unfold_gens u a b c) 0 = u * nth j b 0 /\
  nth (m + m + (m + j)) (unfold_gens u a b c) 0 = finv u * nth j b 0 /\
  nth (m + m + (m + m)) (unfold_gens u a b c) 0 = c.
Proof.
  intros Ha Hb j Hj. unfold unfold_gens. repeat split.
  - rewrite app_nth1 by (rewrite app_length, !vscale_length; lia).
    rewrite app_nth1 by (rewrite vscale_length; lia). apply nth_vscale.
  - rewrite app_nth1 by (rewrite app_length, !vscale_length; lia).
    rewrite app_nth2 by (rewrite vscale_length; lia). rewrite vscale_length, Ha.
    replace (m + j - m)%nat with j by lia. apply nth_vscale.
  - rewrite app_nth2 by (rewrite app_length, !vscale_length; lia). rewrite app_length, !vscale_length, Ha.
    replace (m + m + j - (m + m))%nat with j by lia.
    rewrite app_nth1 by (rewrite app_length, !vscale_length; lia).
    rewrite app_nth1 by (rewrite vscale_length; lia). apply nth_vscale.
  - rewrite app_nth2 by (rewrite app_length, !vscale_length; lia). rewrite app_length, !vscale_length, Ha.
    replace (m + m + (m + j) - (m + m))%nat with (m + j)%nat by lia.
    rewrite app_nth1 by (rewrite app_length, !vscale_length; lia).
    rewrite app_nth2 by (rewrite vscale_length; lia). rewrite vscale_length, Hb.
    replace (m + j - m)%nat with j by lia. apply nth_vscale.
  - rewrite app_nth2 by (rewrite app_length, !vscale_length; lia). rewrite app_length, !vscale_length, Ha.
    replace (m + m + (m + m) - (m + m))%nat with (m + m)%nat by lia.
    rewrite app_nth2 by (rewrite app_length, !vscale_length; lia). rewrite app_length, !vscale_length, Hb.
    rewrite Nat.sub_diag. reflexivity.
Qed.

Lemma msm_unfold_gens u a b c G H Q k :
  length G = (2 ^ S k)%nat -> length H = (2 ^ S k)%nat -> length a = (2 ^ k)%nat -> length b = (2 ^ k)%nat ->
  msm (unfold_gens u a b c) (G ++ H ++ [Q]) =
  g1_add (g1_add (msm a (fold_halves (finv u) u G)) (msm b (fold_halves u (finv u) H))) (g1_mul c Q).
Proof.
  intros HG HH Ha Hb. pose proof (pow2_S k) as E2. unfold unfold_gens.
  rewrite msm_app by (rewrite app_length, !vscale_length; lia).
  rewrite msm_app by (rewrite app_length, !vscale_length; lia).
  rewrite (msm_fold_halves a _ _ G k), (msm_fold_halves b _ _ H k) by assumption.
  simpl. rewrite g1_id_r, g1_add_assoc. reflexivity.
Qed.

Lemma msm_split3 w G H Q n : length G = n -> length H = n -> length w = (n + n + 1)%nat ->
  msm w (G ++ H ++ [Q]) =
  g1_add (g1_add (msm (firstn n w) G) (msm (firstn n (skipn n w)) H)) (g1_mul (nth (n + n) w 0) Q).
Proof.
  intros HG HH Hw.
  assert (E : w = firstn n w ++ firstn n (skipn n w) ++ [nth (n + n) w 0]).
  { rewrite <- (firstn_skipn n w) at 1. f_equal.
    rewrite <- (firstn_skipn n (skipn n w)) at 1. f_equal.
    assert (SS : skipn n (skipn n w) = skipn (n + n) w).
    { clear. generalize n at 1 3 as p. revert w. induction n as [|n IH]; intros w p; [rewrite Nat.add_0_r; reflexivity|].
      rewrite Nat.add_succ_r. destruct w; [rewrite !skipn_nil; reflexivity|]. simpl. apply IH. }
    rewrite SS. assert (L : length (skipn (n + n) w) = 1%nat) by (rewrite skipn_length; lia).
    rewrite <- (firstn_skipn (n + n) w) at 2.
    rewrite app_nth2 by (rewrite firstn_length; lia). rewrite firstn_length, Hw.
    replace (n + n - Nat.min (n + n) (n + n + 1))%nat with 0%nat by lia.
    destruct (skipn (n + n) w) as [|c [|]]; try discriminate. reflexivity. }
  rewrite E at 1.
  rewrite msm_app by (rewrite firstn_length; lia).
  rewrite msm_app by (rewrite firstn_length, skipn_length; lia).
  simpl. rewrite g1_id_r, g1_add_assoc. reflexivity.
Qed.

Section Combine.
Context (k : nat) (Q L R Pt : G1) (G H : list G1) (u1 u2 u3 u4 : F) (a1 b1 a2 b2 a3 b3 a4 b4 : list F).
Let m := (2 ^ k)%nat.
Hypothesis HG : length G = (2 ^ S k)%nat.
Hypothesis HH : length H = (2 ^ S k)%nat.
Hypothesis Hu1 : u1 <> 0.
Hypothesis Hu2 : u2 <> 0.
Hypothesis Hu3 : u3 <> 0.
Hypothesis Hu4 : u4 <> 0.
Hypothesis Hnd : NoDup [u1 * u1; u2 * u2; u3 * u3; u4 * u4].
Let folded u := g1_add (g1_add (g1_mul (u * u) L) Pt) (g1_mul (finv u * finv u) R).
Hypothesis O1 : opens Q (folded u1) (fold_halves (finv u1) u1 G) (fold_halves u1 (finv u1) H) a1 b1.
Hypothesis O2 : opens Q (folded u2) (fold_halves (finv u2) u2 G) (fold_halves u2 (finv u2) H) a2 b2.
Hypothesis O3 : opens Q (folded u3) (fold_halves (finv u3) u3 G) (fold_halves u3 (finv u3) H) a3 b3.
Hypothesis O4 : opens Q (folded u4) (fold_halves (finv u4) u4 G) (fold_halves u4 (finv u4) H) a4 b4.

Let W u a b := vscale (u * u) (unfold_gens u a b (ip a b)).

Lemma opens_len u a b : opens Q (folded u) (fold_halves (finv u) u G) (fold_halves u (finv u) H) a b ->
  length a = m /\ length b = m.
Proof.
  intros (E1 & E2 & _). rewrite (fold_halves_length _ _ G k HG) in E1. rewrite (fold_halves_length _ _ H k HH) in E2.
  auto.
Qed.

Lemma W_length u a b : length a = m -> length b = m -> length (W u a b) = (m + m + (m + m) + 1)%nat.
Proof. intros Ea Eb. unfold W. rewrite vscale_length. apply unfold_gens_length; assumption. Qed.

Lemma W_msm u a b : u <> 0 -> opens Q (folded u) (fold_halves (finv u) u G) (fold_halves u (finv u) H) a b ->
  msm (W u a b) (G ++ H ++ [Q]) =
  g1_add (g1_mul (u * u * (u * u)) L) (g1_add (g1_mul (u * u) Pt) R).
Proof.
  intros Hu O. pose proof (opens_len u a b O) as [La Lb]. destruct O as (_ & _ & E).
  unfold W. rewrite msm_vscale, (msm_unfold_gens u a b _ G H Q k) by assumption.
  rewrite <- E. unfold folded. gnorm; try ring. field. assumption.
Qed.

Let v1 := u1 * u1.
Let v2 := u2 * u2.
Let v3 := u3 * u3.
Let v4 := u4 * u4.
Let w1 := W u1 a1 b1.
Let w2 := W u2 a2 b2.
Let w3 := W u3 a3 b3.
Let w4 := W u4 a4 b4.
Let wL := lagr2 v1 v2 v3 w1 w2 w3.
Let wP := lagr1 v1 v2 v3 w1 w2 w3.
Let wR := lagr0 v1 v2 v3 w1 w2 w3.

Lemma v_distinct : v1 <> v2 /\ v1 <> v3 /\ v2 <> v3 /\ v1 <> v4 /\ v2 <> v4 /\ v3 <> v4.
Proof.
  fold v1 v2 v3 v4 in Hnd.
  inversion Hnd as [|? ? N1 Hnd1]; subst. inversion Hnd1 as [|? ? N2 Hnd2]; subst.
  inversion Hnd2 as [|? ? N3 _]; subst. simpl in *.
  repeat split; intros E; [apply N1|apply N1|apply N2|apply N1|apply N2|apply N3]; rewrite E; tauto.
Qed.

Ltac vfield := field; pose proof v_distinct as (?&?&?&?&?&?); repeat split; apply sub_neq; auto.

Let LEN := (m + m + (m + m) + 1)%nat.
Lemma w_lengths : length w1 = LEN /\ length w2 = LEN /\ length w3 = LEN /\ length w4 = LEN /\
  length wL = LEN /\ length wP = LEN /\ length wR = LEN.
Proof.
  pose proof (opens_len _ _ _ O1) as [A1 B1]. pose proof (opens_len _ _ _ O2) as [A2 B2].
  pose proof (opens_len _ _ _ O3) as [A3 B3]. pose proof (opens_len _ _ _ O4) as [A4 B4].
  pose proof (W_length u1 a1 b1 A1 B1). pose proof (W_length u2 a2 b2 A2 B2).
  pose proof (W_length u3 a3 b3 A3 B3). pose proof (W_length u4 a4 b4 A4 B4).
  repeat split; auto; apply lin3_length; assumption.
Qed.

Lemma wP_msm : msm wP (G ++ H ++ [Q]) = Pt.
Proof.
  destruct w_lengths as (L1 & L2 & L3 & _). unfold wP, lagr1. rewrite (msm_lin3 _ _ _ _ _ _ LEN) by assumption.
  unfold w1, w2, w3. rewrite (W_msm u1), (W_msm u2), (W_msm u3) by assumption. fold v1 v2 v3.
  gnorm; vfield.
Qed.
Lemma wL_msm : msm wL (G ++ H ++ [Q]) = L.
Proof.
  destruct w_lengths as (L1 & L2 & L3 & _). unfold wL, lagr2. rewrite (msm_lin3 _ _ _ _ _ _ LEN) by assumption.
  unfold w1, w2, w3. rewrite (W_msm u1), (W_msm u2), (W_msm u3) by assumption. fold v1 v2 v3.
  gnorm; vfield.
Qed.
Lemma wR_msm : msm wR (G ++ H ++ [Q]) = R.
Proof.
  destruct w_lengths as (L1 & L2 & L3 & _). unfold wR, lagr0. rewrite (msm_lin3 _ _ _ _ _ _ LEN) by assumption.
  unfold w1, w2, w3. rewrite (W_msm u1), (W_msm u2), (W_msm u3) by assumption. fold v1 v2 v3.
  gnorm; vfield.
Qed.

Let d := vadd (lin3 (v4 * v4) wL v4 wP 1 wR) (vscale (- (1)) w4).
Lemma d_length : length d = LEN.
Proof.
  destruct w_lengths as (L1 & L2 & L3 & L4 & LL & LP & LR). unfold d.
  rewrite vadd_length, vscale_length, (lin3_length _ _ _ _ _ _ LEN) by assumption. lia.
Qed.
Lemma d_msm : msm d (G ++ H ++ [Q]) = g1_id.
Proof.
  destruct w_lengths as (L1 & L2 & L3 & L4 & LL & LP & LR). unfold d.
  rewrite msm_vadd by (rewrite vscale_length, (lin3_length _ _ _ _ _ _ LEN) by assumption; congruence).
  rewrite msm_vscale, (msm_lin3 _ _ _ _ _ _ LEN), wL_msm, wP_msm, wR_msm by assumption.
  unfold w4. rewrite (W_msm u4) by assumption. fold v4. gnorm; ring.
Qed.

Hypothesis d_zero : forallb (fun c => feqb c 0) d = true.

(** every conversation agrees with the interpolated openings *)
Lemma interpolated j : forall v w, In (v, w) [(v1, w1); (v2, w2); (v3, w3); (v4, w4)] ->
  v * v * nth j wL 0 + v * nth j wP 0 + nth j wR 0 = nth j w 0.
Proof.
  destruct w_lengths as (L1 & L2 & L3 & L4 & LL & LP & LR).
  assert (E4 : v4 * v4 * nth j wL 0 + v4 * nth j wP 0 + nth j wR 0 = nth j w4 0).
  { assert (Ed : nth j d 0 = 0).
    { destruct (Nat.lt_ge_cases j (length d)) as [Hj|Hj]; [|apply nth_overflow; assumption].
      rewrite forallb_forall in d_zero. specialize (d_zero (nth j d 0) (nth_In _ _ Hj)).
      destruct (feqb_spec _ (nth j d 0) 0); [assumption|discriminate]. }
    unfold d in Ed. rewrite nth_vadd in Ed by (rewrite vscale_length, (lin3_length _ _ _ _ _ _ LEN) by assumption; congruence).
    rewrite nth_vscale, (nth_lin3 _ _ _ _ _ _ LEN) in Ed by assumption.
    apply F_sub_zero. etransitivity; [|exact Ed]. ring. }
  intros v w Hin. simpl in Hin.
  destruct Hin as [E|[E|[E|[E|[]]]]]; injection E as <- <-; try assumption;
    unfold wL, wP, wR, lagr2, lagr1, lagr0; rewrite !(nth_lin3 _ _ _ _ _ _ LEN) by assumption; vfield.
Qed.

Lemma combined_entries j : (j < m)%nat ->
  forall u a b, In (u, a, b) [(u1, a1, b1); (u2, a2, b2); (u3, a3, b3); (u4, a4, b4)] ->
  nth j a 0 = u * nth j wP 0 + finv u * nth (m + j) wP 0 /\
  nth j b 0 = finv u * nth (m + m + j) wP 0 + u * nth (m + m + (m + j)) wP 0.
Proof.
  intros Hj.
  pose proof (opens_len _ _ _ O1) as [A1 B1]. pose proof (opens_len _ _ _ O2) as [A2 B2].
  pose proof (opens_len _ _ _ O3) as [A3 B3]. pose proof (opens_len _ _ _ O4) as [A4 B4].
  assert (IE : forall i u a b, In (u, a, b) [(u1, a1, b1); (u2, a2, b2); (u3, a3, b3); (u4, a4, b4)] ->
    u * u * (u * u) * nth i wL 0 + u * u * nth i wP 0 + nth i wR 0 = nth i (W u a b) 0).
  { intros i u a b Hin. apply interpolated. simpl in Hin |- *.
    destruct Hin as [E|[E|[E|[E|[]]]]]; injection E as <- <- <-; auto. }
  assert (Hlen : forall u a b, In (u, a, b) [(u1, a1, b1); (u2, a2, b2); (u3, a3, b3); (u4, a4, b4)] ->
    u <> 0 /\ length a = m /\ length b = m).
  { intros u a b Hin. simpl in Hin. destruct Hin as [E|[E|[E|[E|[]]]]]; injection E as <- <- <-; auto. }
  (* a *)
  set (XL := nth j wL 0). set (XP := nth j wP 0). set (XR := nth j wR 0).
  set (YL := nth (m + j) wL 0). set (YP := nth (m + j) wP 0). set (YR := nth (m + j) wR 0).
  set (XL' := nth (m + m + j) wL 0). set (XP' := nth (m + m + j) wP 0). set (XR' := nth (m + m + j) wR 0).
  set (YL' := nth (m + m + (m + j)) wL 0). set (YP' := nth (m + m + (m + j)) wP 0). set (YR' := nth (m + m + (m + j)) wR 0).
  assert (EQ : forall u a b, In (u, a, b) [(u1, a1, b1); (u2, a2, b2); (u3, a3, b3); (u4, a4, b4)] ->
     (u * u * (u * u) * XL + u * u * XP + XR = u * nth j a 0 /\
      u * u * (u * u) * YL + u * u * YP + YR = u * u * u * nth j a 0) /\
     (u * u * (u * u) * XL' + u * u * XP' + XR' = u * u * u * nth j b 0 /\
      u * u * (u * u) * YL' + u * u * YP' + YR' = u * nth j b 0)).
  { intros u a b Hin. destruct (Hlen u a b Hin) as (Hu & La & Lb).
    destruct (unfold_gens_nth u a b (ip a b) m La Lb j Hj) as (N1 & N2 & N3 & N4 & _).
    unfold XL, XP, XR, YL, YP, YR, XL', XP', XR', YL', YP', YR'.
    rewrite !(IE _ u a b Hin). unfold W. rewrite !nth_vscale, N1, N2, N3, N4.
    repeat split; field; assumption. }
  destruct (cubic_zero (- YR) (XR - YP) (XP - YL) XL v1 v2 v3 v4 Hnd) as (C0 & C1 & C2 & C3).
  { assert (Hc : forall u a b, In (u, a, b) [(u1, a1, b1); (u2, a2, b2); (u3, a3, b3); (u4, a4, b4)] ->
       - YR + (XR - YP) * (u * u) + (XP - YL) * (u * u * (u * u)) + XL * (u * u * (u * u) * (u * u)) = 0).
    { intros u a b Hin. destruct (EQ u a b Hin) as [[E1 E2] _].
      transitivity (u * u * (u * u * (u * u) * XL + u * u * XP + XR) - (u * u * (u * u) * YL + u * u * YP + YR)); [ring|].
      rewrite E1, E2. ring. }
    intros v Hv. simpl in Hv. destruct Hv as [<-|[<-|[<-|[<-|[]]]]];
      [apply (Hc u1 a1 b1)|apply (Hc u2 a2 b2)|apply (Hc u3 a3 b3)|apply (Hc u4 a4 b4)]; simpl; auto. }
  destruct (cubic_zero (- XR') (YR' - XP') (YP' - XL') YL' v1 v2 v3 v4 Hnd) as (D0 & D1 & D2 & D3).
  { assert (Hc : forall u a b, In (u, a, b) [(u1, a1, b1); (u2, a2, b2); (u3, a3, b3); (u4, a4, b4)] ->
       - XR' + (YR' - XP') * (u * u) + (YP' - XL') * (u * u * (u * u)) + YL' * (u * u * (u * u) * (u * u)) = 0).
    { intros u a b Hin. destruct (EQ u a b Hin) as [_ [E1 E2]].
      transitivity (u * u * (u * u * (u * u) * YL' + u * u * YP' + YR') - (u * u * (u * u) * XL' + u * u * XP' + XR')); [ring|].
      rewrite E1, E2. ring. }
    intros v Hv. simpl in Hv. destruct Hv as [<-|[<-|[<-|[<-|[]]]]];
      [apply (Hc u1 a1 b1)|apply (Hc u2 a2 b2)|apply (Hc u3 a3 b3)|apply (Hc u4 a4 b4)]; simpl; auto. }
  apply F_sub_zero in C1. apply F_sub_zero in D1.
  intros u a b Hin. destruct (EQ u a b Hin) as [[E1 _] [_ E4]]. destruct (Hlen u a b Hin) as (Hu & _).
  split.
  - transitivity (finv u * (u * nth j a 0)); [field; assumption|]. rewrite <- E1, C3, C1. field. assumption.
  - transitivity (finv u * (u * nth j b 0)); [field; assumption|]. rewrite <- E4, D3, D1. field. assumption.
Qed.

Let A1 := firstn m wP.
Let A2 := firstn m (skipn m wP).
Let B1 := firstn m (skipn (m + m) wP).
Let B2 := firstn m (skipn (m + m + m) wP).

Lemma nth_part i j : (j < m)%nat -> nth j (firstn m (skipn i wP)) 0 = nth (i + j) wP 0.
Proof.
  intros Hj. rewrite nth_firstn_lt by assumption.
  destruct (Nat.lt_ge_cases i (length wP)) as [Hi|Hi].
  - rewrite <- (firstn_skipn i wP) at 2. rewrite app_nth2 by (rewrite firstn_length; lia).
    rewrite firstn_length. f_equal. lia.
  - rewrite skipn_all2 by assumption. rewrite !nth_overflow; [reflexivity|lia|simpl; lia].
Qed.

Lemma parts_length : length A1 = m /\ length A2 = m /\ length B1 = m /\ length B2 = m.
Proof.
  destruct w_lengths as (_ & _ & _ & _ & _ & LP & _). unfold A1, A2, B1, B2.
  rewrite !firstn_length, !skipn_length, LP. unfold LEN. lia.
Qed.

Lemma combined_vectors : forall u a b, In (u, a, b) [(u1, a1, b1); (u2, a2, b2); (u3, a3, b3); (u4, a4, b4)] ->
  a = vadd (vscale u A1) (vscale (finv u) A2) /\ b = vadd (vscale (finv u) B1) (vscale u B2).
Proof.
  destruct parts_length as (PA1 & PA2 & PB1 & PB2).
  pose proof (opens_len _ _ _ O1) as [LA1 LB1]. pose proof (opens_len _ _ _ O2) as [LA2 LB2].
  pose proof (opens_len _ _ _ O3) as [LA3 LB3]. pose proof (opens_len _ _ _ O4) as [LA4 LB4].
  intros u a b Hin.
  assert (Lab : length a = m /\ length b = m).
  { simpl in Hin. destruct Hin as [E|[E|[E|[E|[]]]]]; injection E as <- <- <-; auto. }
  destruct Lab as [La Lb].
  split; apply nth_ext with (d := 0) (d' := 0); try (rewrite vadd_length, !vscale_length; lia); rewrite ?La, ?Lb;
    intros j Hj; destruct (combined_entries j Hj u a b Hin) as [Ea Eb];
    rewrite nth_vadd, !nth_vscale by (rewrite !vscale_length; lia).
  - unfold A1, A2. change wP with (skipn 0 wP) at 1. rewrite !nth_part by assumption. exact Ea.
  - unfold B1, B2. rewrite !nth_part by assumption. rewrite <- (Nat.add_assoc (m + m) m j). exact Eb.
Qed.

Lemma combined_ip : nth (m + m + (m + m)) wP 0 = ip A1 B1 + ip A2 B2.
Proof.
  destruct parts_length as (PA1 & PA2 & PB1 & PB2).
  pose proof (opens_len _ _ _ O1) as [LA1 LB1]. pose proof (opens_len _ _ _ O2) as [LA2 LB2].
  pose proof (opens_len _ _ _ O3) as [LA3 LB3]. pose proof (opens_len _ _ _ O4) as [LA4 LB4].
  set (CL := nth (m + m + (m + m)) wL 0). set (CP := nth (m + m + (m + m)) wP 0). set (CR := nth (m + m + (m + m)) wR 0).
  assert (Hc : forall u a b, In (u, a, b) [(u1, a1, b1); (u2, a2, b2); (u3, a3, b3); (u4, a4, b4)] ->
    u <> 0 -> length a = m -> length b = m ->
    (CR - ip A2 B1) + (CP - (ip A1 B1 + ip A2 B2)) * (u * u) + (CL - ip A1 B2) * (u * u * (u * u)) + 0 * (u * u * (u * u) * (u * u)) = 0).
  { intros u a b Hin Hu La Lb. destruct (combined_vectors u a b Hin) as [Ea Eb].
    assert (IE : u * u * (u * u) * CL + u * u * CP + CR = nth (m + m + (m + m)) (W u a b) 0).
    { apply interpolated. simpl in Hin |- *. destruct Hin as [E|[E|[E|[E|[]]]]]; injection E as <- <- <-; auto. }
    unfold W in IE. rewrite nth_vscale in IE.
    destruct (unfold_gens_nth u a b (ip a b) m La Lb 0 (pow2_pos k)) as (_ & _ & _ & _ & N5).
    rewrite N5 in IE.
    assert (Eip : u * u * ip a b = u * u * (ip A1 B1 + ip A2 B2) + u * u * (u * u) * ip A1 B2 + ip A2 B1).
    { rewrite Ea, Eb. rewrite ip_vadd_l, !ip_vadd_r, !ip_vscale_l, !ip_vscale_r by (rewrite !vscale_length; lia).
      field. assumption. }
    transitivity ((u * u * (u * u) * CL + u * u * CP + CR) - u * u * ip a b); [rewrite Eip; ring|].
    rewrite IE. ring. }
  destruct (cubic_zero (CR - ip A2 B1) (CP - (ip A1 B1 + ip A2 B2)) (CL - ip A1 B2) 0 v1 v2 v3 v4 Hnd) as (_ & C1 & _ & _).
  { intros v Hv. simpl in Hv. destruct Hv as [<-|[<-|[<-|[<-|[]]]]];
      [apply (Hc u1 a1 b1)|apply (Hc u2 a2 b2)|apply (Hc u3 a3 b3)|apply (Hc u4 a4 b4)]; simpl; auto. }
  apply F_sub_zero. assumption.
Qed.

Lemma firstn_add {A} i j (l : list A) : firstn (i + j) l = firstn i l ++ firstn j (skipn i l).
Proof. revert l; induction i; intros l; [reflexivity|]. destruct l; simpl; [rewrite firstn_nil; reflexivity|]. rewrite IHi. reflexivity. Qed.

Lemma skipn_add {A} i j (l : list A) : skipn j (skipn i l) = skipn (i + j) l.
Proof. revert l; induction i; intros l; [reflexivity|]. destruct l; simpl; [apply skipn_nil|apply IHi]. Qed.

Lemma combined_opens : opens Q Pt G H (firstn (m + m) wP) (firstn (m + m) (skipn (m + m) wP)).
Proof.
  destruct w_lengths as (_ & _ & _ & _ & _ & LP & _). destruct parts_length as (PA1 & PA2 & PB1 & PB2).
  pose proof (pow2_S k) as E2. fold m in E2. unfold LEN in LP.
  unfold opens. rewrite !firstn_length, !skipn_length, LP, HG, HH.
  split; [lia|]. split; [lia|].
  rewrite <- wP_msm at 1. rewrite (msm_split3 wP G H Q (m + m)) by lia.
  f_equal. f_equal. rewrite combined_ip. rewrite !firstn_add, !skipn_add.
  fold A1 A2 B1 B2. rewrite ip_app by congruence. reflexivity.
Qed.
End Combine.

Lemma not_all_zero (l : list F) : forallb (fun c => feqb c 0) l = false -> exists c, In c l /\ c <> 0.
Proof.
  induction l as [|a l IH]; simpl; [discriminate|]. destruct (feqb_spec _ a 0) as [->|Ha]; simpl; intros E.
  - destruct (IH E) as (c & Hc & Hn). eauto.
  - eauto.
Qed.

Lemma combine4_ok k Q L R Pt G H u1 u2 u3 u4 a1 b1 a2 b2 a3 b3 a4 b4 :
  length G = (2 ^ S k)%nat -> length H = (2 ^ S k)%nat ->
  u1 <> 0 -> u2 <> 0 -> u3 <> 0 -> u4 <> 0 ->
  NoDup [u1 * u1; u2 * u2; u3 * u3; u4 * u4] ->
  let folded u := g1_add (g1_add (g1_mul (u * u) L) Pt) (g1_mul (finv u * finv u) R) in
  opens Q (folded u1) (fold_halves (finv u1) u1 G) (fold_halves u1 (finv u1) H) a1 b1 ->
  opens Q (folded u2) (fold_halves (finv u2) u2 G) (fold_halves u2 (finv u2) H) a2 b2 ->
  opens Q (folded u3) (fold_halves (finv u3) u3 G) (fold_halves u3 (finv u3) H) a3 b3 ->
  opens Q (folded u4) (fold_halves (finv u4) u4 G) (fold_halves u4 (finv u4) H) a4 b4 ->
  extraction_ok Q Pt G H (combine4 u1 u2 u3 u4 a1 b1 a2 b2 a3 b3 a4 b4).
Proof.
  intros HG HH Hu1 Hu2 Hu3 Hu4 Hnd folded O1 O2 O3 O4. unfold combine4.
  assert (La : length a1 = (2 ^ k)%nat).
  { destruct O1 as (E & _). rewrite (fold_halves_length _ _ G k HG) in E. assumption. }
  rewrite La. cbn zeta.
  match goal with |- context [forallb _ ?x] => set (d := x); destruct (forallb _ d) eqn:E end.
  - unfold split3. cbn [extraction_ok].
    exact (combined_opens k Q L R Pt G H u1 u2 u3 u4 a1 b1 a2 b2 a3 b3 a4 b4 HG HH Hu1 Hu2 Hu3 Hu4 Hnd O1 O2 O3 O4 E).
  - unfold split3. cbn [extraction_ok].
    pose proof (d_length k Q L R Pt G H u1 u2 u3 u4 a1 b1 a2 b2 a3 b3 a4 b4 HG HH O1 O2 O3 O4) as Ld.
    pose proof (d_msm k Q L R Pt G H u1 u2 u3 u4 a1 b1 a2 b2 a3 b3 a4 b4 HG HH Hu1 Hu2 Hu3 Hu4 Hnd O1 O2 O3 O4) as Md.
    change (length d = (2 ^ k + 2 ^ k + (2 ^ k + 2 ^ k) + 1)%nat) in Ld.
    change (msm d (G ++ H ++ [Q]) = g1_id) in Md.
    pose proof (pow2_S k) as E2. set (m := (2 ^ k)%nat) in *.
    rewrite (msm_split3 d G H Q (m + m)) in Md by lia.
    unfold relation. rewrite !firstn_length, !skipn_length, Ld, HG, HH.
    split; [lia|]. split; [lia|]. split; [exact Md|].
    destruct (not_all_zero d E) as (c & Hc & Hn).
    apply In_nth with (d := 0) in Hc as (j & Hj & Ej).
    destruct (Nat.eq_dec j (m + m + (m + m))) as [->|Hne].
    + right. congruence.
    + left. exists c. split; [|assumption]. rewrite <- firstn_add, <- Ej.
      rewrite <- (nth_firstn_lt d (m + m + (m + m)) j 0) by lia. apply nth_In. rewrite firstn_length. lia.
Qed.

Lemma lift_relation_ok k Q G H u x y z : length G = (2 ^ S k)%nat -> length H = (2 ^ S k)%nat -> u <> 0 ->
  relation Q (fold_halves (finv u) u G) (fold_halves u (finv u) H) x y z ->
  forall Pt, extraction_ok Q Pt G H (lift_relation u x y z).
Proof.
  intros HG HH Hu (Lx & Ly & E & Hn) Pt. cbn [lift_relation extraction_ok]. unfold relation.
  rewrite (fold_halves_length _ _ G k HG) in Lx. rewrite (fold_halves_length _ _ H k HH) in Ly.
  pose proof (pow2_S k).
  rewrite !app_length, !vscale_length. split; [lia|]. split; [lia|].
  rewrite (msm_fold_halves x _ _ G k), (msm_fold_halves y _ _ H k) by assumption. split; [assumption|].
  destruct Hn as [(c & Hc & Hne)|Hz]; [|right; assumption]. left.
  assert (M : forall c' l, In c l -> In (c' * c) (vscale c' l)) by (intros c' l Hl; apply (in_map (fun x => c' * x)); assumption).
  exists (u * c). split; [|apply F_mul_nonzero; assumption].
  apply in_app_iff in Hc. rewrite !in_app_iff. destruct Hc as [Hc|Hc]; [left; right|right; left]; apply M; assumption.
Qed.

Theorem ipp_extract_ok k : forall t Q Pt G H,
  length G = (2 ^ k)%nat -> length H = (2 ^ k)%nat -> tree_wf k t -> tree_accepts Q Pt G H t ->
  extraction_ok Q Pt G H (ipp_extract (scalars_of t)).
Proof.
  induction k as [|k IH]; intros t Q Pt G H HG HH Hwf Hacc.
  - destruct t as [a b|]; [|contradiction]. simpl. pose proof (Hacc _ _ _ _ _ (branch_leaf a b)) as C.
    destruct G as [|g [|? ?]]; try discriminate. destruct H as [|h [|? ?]]; try discriminate.
    simpl in C. unfold opens. split; [reflexivity|]. split; [reflexivity|]. rewrite C. simpl.
    gnorm; ring.
  - destruct t as [|L R u1 t1 u2 t2 u3 t3 u4 t4]; [contradiction|].
    destruct Hwf as ((Hu1 & Hu2 & Hu3 & Hu4) & Hnd & W1 & W2 & W3 & W4).
    assert (A1 := fun us Ls Rs a b Hb => Hacc _ _ _ _ _ (branch_1 L R u1 t1 u2 t2 u3 t3 u4 t4 us Ls Rs a b Hb)).
    assert (A2 := fun us Ls Rs a b Hb => Hacc _ _ _ _ _ (branch_2 L R u1 t1 u2 t2 u3 t3 u4 t4 us Ls Rs a b Hb)).
    assert (A3 := fun us Ls Rs a b Hb => Hacc _ _ _ _ _ (branch_3 L R u1 t1 u2 t2 u3 t3 u4 t4 us Ls Rs a b Hb)).
    assert (A4 := fun us Ls Rs a b Hb => Hacc _ _ _ _ _ (branch_4 L R u1 t1 u2 t2 u3 t3 u4 t4 us Ls Rs a b Hb)).
    cbn [conversation] in A1, A2, A3, A4.
    apply IH in A1; [|apply fold_halves_length; assumption|apply fold_halves_length; assumption|assumption].
    apply IH in A2; [|apply fold_halves_length; assumption|apply fold_halves_length; assumption|assumption].
    apply IH in A3; [|apply fold_halves_length; assumption|apply fold_halves_length; assumption|assumption].
    apply IH in A4; [|apply fold_halves_length; assumption|apply fold_halves_length; assumption|assumption].
    cbn [scalars_of ipp_extract].
    destruct (ipp_extract (scalars_of t1)) as [a1 b1|x y z]; [|apply (lift_relation_ok k); assumption].
    destruct (ipp_extract (scalars_of t2)) as [a2 b2|x y z]; [|apply (lift_relation_ok k); assumption].
    destruct (ipp_extract (scalars_of t3)) as [a3 b3|x y z]; [|apply (lift_relation_ok k); assumption].
    destruct (ipp_extract (scalars_of t4)) as [a4 b4|x y z]; [|apply (lift_relation_ok k); assumption].
    apply (combine4_ok k Q L R Pt G H); assumption.
Qed.
End ExtractProofs.
