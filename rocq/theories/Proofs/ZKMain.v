(** The simulator's proofs and the prover's proofs: coins and random values
    correspond one to one. *)
From Coq Require Import ZArith String List Lia Bool Ring Field.
From Verif.Base Require Import Outcome Fp Params Algebra.
From Verif.Model Require Import Transcript LinComb Prog VectorPoly IPP Prover Verifier.
From Verif.Spec Require Import R1CS Sim Protocol Session Verdict Indist Simulator.
From Verif.Proofs Require Import LinCombProofs RunProofs ExtProofs FlattenProofs IPPProofs VerifyProofs ProveProofs RoundTrip SyncMore CircuitMain PoseidonBijection WICore WIShift WIMain.
Import ListNotations.

Section ZK.
Context {P : Params} {OK : ParamsOk P}.
Local Open Scope fe_scope.
Add Field FFzk : (Fp_field_theory modulus modulus_prime).

(** *** Coins on a tape *)
Lemma take_front (l : list F) k : (k <= length l)%nat -> exists a r, l = a ++ r /\ length a = k.
Proof. intros H. exists (firstn k l), (skipn k l). split; [symmetry; apply firstn_skipn|]. rewrite firstn_length. lia. Qed.

Section Coins.
Context (n1 n : nat).

Record coins_ok (co : coins) : Prop := {
  co_l : length (k_l co) = n; co_r : length (k_r co) = n;
  co_none : Nat.ltb n1 n = false -> k_AI2 co = 0 /\ k_AO2 co = 0 /\ k_S2 co = 0
}.
Definition write_coins (co : coins) : list F :=
  [k_AI1 co; k_AO1 co; k_T3 co; k_T4 co; k_T5 co; k_T6 co; k_txb co; k_e co] ++
  (if Nat.ltb n1 n then [k_AI2 co; k_AO2 co; k_S2 co] else []) ++ k_l co ++ k_r co.
Definition coins_number : nat := ((if Nat.ltb n1 n then 11 else 8) + n + n)%nat.

Lemma write_length co : coins_ok co -> length (write_coins co) = coins_number.
Proof.
  intros [L R _]. unfold write_coins, coins_number. rewrite !app_length, L, R. destruct (Nat.ltb n1 n); cbn [length]; lia.
Qed.

Lemma firstn_app_len {A} (a b : list A) k : length a = k -> firstn k (a ++ b) = a.
Proof. intros <-. rewrite firstn_app, Nat.sub_diag, firstn_all. cbn. apply app_nil_r. Qed.
Lemma skipn_app_len {A} (a b : list A) k : length a = k -> skipn k (a ++ b) = b.
Proof. intros <-. rewrite skipn_app, Nat.sub_diag, skipn_all. reflexivity. Qed.

Lemma read_write co rest : coins_ok co -> read_coins n1 n (write_coins co ++ rest) = co.
Proof.
  intros [L R Hz]. unfold write_coins, read_coins. destruct co as [a1 a2 a3 a4 a5 t3 t4 t5 t6 tb e l r]. cbn [k_AI1 k_AO1 k_T3 k_T4 k_T5 k_T6 k_txb k_e k_AI2 k_AO2 k_S2 k_l k_r] in *.
  destruct (Nat.ltb n1 n).
  - cbn [app nth skipn Nat.add]. rewrite <- !app_assoc. rewrite (firstn_app_len l), (skipn_app_len l), (firstn_app_len r) by assumption. reflexivity.
  - destruct (Hz eq_refl) as (-> & -> & ->). cbn [app nth skipn Nat.add]. rewrite <- !app_assoc. rewrite (firstn_app_len l), (skipn_app_len l), (firstn_app_len r) by assumption. reflexivity.
Qed.

Lemma write_read tape : (coins_number <= length tape)%nat ->
  coins_ok (read_coins n1 n tape) /\ tape = write_coins (read_coins n1 n tape) ++ skipn coins_number tape.
Proof.
  intros H. assert (X : exists co rest, coins_ok co /\ tape = write_coins co ++ rest).
  { unfold coins_number in H.
    destruct tape as [|a1 [|a2 [|a3 [|a4 [|a5 [|a6 [|a7 [|a8 tape]]]]]]]]; cbn [length] in H; try (destruct (Nat.ltb n1 n); lia).
    destruct (Nat.ltb n1 n) eqn:E.
    - destruct tape as [|b1 [|b2 [|b3 tape]]]; cbn [length] in H; try lia.
      destruct (take_front tape n ltac:(lia)) as (l & r1 & -> & Ll). rewrite app_length in H.
      destruct (take_front r1 n ltac:(lia)) as (r & rest & -> & Lr).
      exists (Coins a1 a2 b1 b2 b3 a3 a4 a5 a6 a7 a8 l r), rest. split; [constructor; cbn [k_l k_r k_AI2 k_AO2 k_S2]; [exact Ll|exact Lr|intros Hf; rewrite E in Hf; discriminate Hf]|].
      unfold write_coins. rewrite E. cbn [app k_AI1 k_AO1 k_T3 k_T4 k_T5 k_T6 k_txb k_e k_AI2 k_AO2 k_S2 k_l k_r]. rewrite <- !app_assoc. reflexivity.
    - destruct (take_front tape n ltac:(lia)) as (l & r1 & -> & Ll). rewrite app_length in H.
      destruct (take_front r1 n ltac:(lia)) as (r & rest & -> & Lr).
      exists (Coins a1 a2 0 0 0 a3 a4 a5 a6 a7 a8 l r), rest. split; [constructor; cbn [k_l k_r k_AI2 k_AO2 k_S2]; auto|].
      unfold write_coins. rewrite E. cbn [app k_AI1 k_AO1 k_T3 k_T4 k_T5 k_T6 k_txb k_e k_AI2 k_AO2 k_S2 k_l k_r]. rewrite <- !app_assoc. reflexivity. }
  destruct X as (co & rest & Hc & ->). rewrite read_write by exact Hc. split; [exact Hc|].
  f_equal. symmetry. apply skipn_app_len. apply write_length. exact Hc.
Qed.

Lemma write_inj co co' r r' : coins_ok co -> coins_ok co' -> write_coins co ++ r = write_coins co' ++ r' -> co = co' /\ r = r'.
Proof.
  intros H H' E. assert (Ec : co = co') by (rewrite <- (read_write co r H), <- (read_write co' r' H'), E; reflexivity).
  split; [exact Ec|]. subst co'. eapply app_inv_head. exact E.
Qed.
End Coins.

(** *** When the prover outputs a proof, and when the simulator does *)
Lemma pair5 {A B C D E} (a a' : A) (b b' : B) (c c' : C) (d d' : D) (e e' : E) :
  (a, b, c, d, e) = (a', b', c', d', e') <-> a = a' /\ b = b' /\ c = c' /\ d = d' /\ e = e'.
Proof. split; [intros H; injection H as -> -> -> -> ->; auto|intros (-> & -> & -> & -> & ->); reflexivity]. Qed.

Lemma finish_iff g G H n1 n t0 AI1 AO1 SS1 AI2 AO2 SS2 TT tx txb eb l r pf tp :
  let N := next_power_of_two n in
  let c := protocol_challenges t0 pf in
  finish g G H n1 n t0 AI1 AO1 SS1 AI2 AO2 SS2 TT tx txb eb l r = Done (Ok (pf, tp)) <->
  A_I1 pf = AI1 /\ A_O1 pf = AO1 /\ S1 pf = SS1 /\ A_I2 pf = AI2 /\ A_O2 pf = AO2 /\ S2 pf = SS2 /\
  (T_1 pf, T_3 pf, T_4 pf, T_5 pf, T_6 pf) = TT (c_y c) (c_z c) /\
  t_x pf = tx (c_y c) (c_z c) (c_u c) (c_x c) /\ t_x_blinding pf = txb (c_y c) (c_z c) (c_u c) (c_x c) /\
  e_blinding pf = eb (c_y c) (c_z c) (c_u c) (c_x c) /\
  create_ipp (c_t c) (g1_mul (c_w c) g) (tab N (phase_factor n1 (c_u c))) (tab N (fun i => fpow (finv (c_y c)) i * phase_factor n1 (c_u c) i))
    (firstn N G) (firstn N H) (tab N (padded n (l (c_y c) (c_z c) (c_u c) (c_x c)))) (tab N (r (c_y c) (c_z c) (c_u c) (c_x c))) = Done (proof_ipp pf, tp).
Proof.
  intros N c. unfold finish. fold N. split.
  - set (y := challenge_value "y" _). set (z := challenge_value "z" _).
    destruct (TT y z) as [[[[T1 T3] T4] T5] T6] eqn:ET.
    set (u := challenge_value "u" _). set (x := challenge_value "x" _). set (w := challenge_value "w" _).
    intros E. match type of E with obind ?e _ = _ => destruct e as [[ipp tp']|] eqn:EI end; [|discriminate E].
    cbn [obind] in E. injection E as Epf Etp. subst pf tp'. unfold c, protocol_challenges.
    cbn [A_I1 A_O1 S1 A_I2 A_O2 S2 T_1 T_3 T_4 T_5 T_6 t_x t_x_blinding e_blinding proof_ipp]. cbn zeta.
    fold y. fold z. fold u. fold x. fold w. cbn [c_y c_z c_u c_x c_w c_t].
    repeat (split; [reflexivity|]). split; [symmetry; exact ET|]. repeat (split; [reflexivity|]). exact EI.
  - destruct pf as [a1 a2 a3 a4 a5 a6 T1 T3 T4 T5 T6 tx0 txb0 eb0 ipp]. unfold c, protocol_challenges.
    cbn [A_I1 A_O1 S1 A_I2 A_O2 S2 T_1 T_3 T_4 T_5 T_6 t_x t_x_blinding e_blinding proof_ipp]. cbn zeta.
    cbn [c_y c_z c_u c_x c_w c_t].
    intros (<- & <- & <- & <- & <- & <- & ET & Etx & Etxb & Eeb & EI).
    rewrite <- ET. rewrite <- Etx, <- Etxb, <- Eeb, EI. reflexivity.
Qed.

Lemma challenges_ipp t pf pf' :
  A_I2 pf = A_I2 pf' -> A_O2 pf = A_O2 pf' -> S2 pf = S2 pf' -> T_1 pf = T_1 pf' -> T_3 pf = T_3 pf' -> T_4 pf = T_4 pf' ->
  T_5 pf = T_5 pf' -> T_6 pf = T_6 pf' -> t_x pf = t_x pf' -> t_x_blinding pf = t_x_blinding pf' -> e_blinding pf = e_blinding pf' ->
  protocol_challenges t pf = protocol_challenges t pf'.
Proof. intros. unfold protocol_challenges. congruence. Qed.

Lemma simulate_iff g h G H V n1 n cs y z u x co t0 pf tp :
  let N := next_power_of_two n in
  let c := protocol_challenges t0 pf in
  simulate g h G H V n1 n cs y z u x co t0 = Done (pf, tp) <->
  A_I1 pf = g1_mul (k_AI1 co) h /\ A_O1 pf = g1_mul (k_AO1 co) h /\ S1 pf = sim_S1 g h G H n1 n cs y z u x co /\
  A_I2 pf = g1_mul (k_AI2 co) h /\ A_O2 pf = g1_mul (k_AO2 co) h /\ S2 pf = g1_mul (k_S2 co) h /\
  (T_1 pf, T_3 pf, T_4 pf, T_5 pf, T_6 pf) =
    (sim_T1 g h V n cs y z x co, g1_mul (k_T3 co) h, g1_mul (k_T4 co) h, g1_mul (k_T5 co) h, g1_mul (k_T6 co) h) /\
  t_x pf = sim_tx n y co /\ t_x_blinding pf = k_txb co /\ e_blinding pf = k_e co /\
  create_ipp (c_t c) (g1_mul (c_w c) g) (tab N (phase_factor n1 u)) (tab N (fun i => fpow (finv y) i * phase_factor n1 u i))
    (firstn N G) (firstn N H) (tab N (sim_l n co)) (tab N (sim_r n y co)) = Done (proof_ipp pf, tp).
Proof.
  intros N c. unfold simulate. fold N. set (pf0 := sim_proof g h G H V n1 n cs y z u x co (IPPProof [] [] 0 0)). split.
  - intros E. match type of E with obind ?e _ = _ => destruct e as [[ipp tp']|] eqn:EI end; [|discriminate E]. cbn [obind] in E. injection E as Epf Etp. subst tp'.
    assert (Ec : protocol_challenges t0 pf0 = c) by (unfold c; rewrite <- Epf; apply challenges_ipp; reflexivity).
    rewrite Ec in EI. rewrite <- Epf. cbn [sim_proof sim_draft A_I1 A_O1 S1 A_I2 A_O2 S2 T_1 T_3 T_4 T_5 T_6 t_x t_x_blinding e_blinding proof_ipp].
    repeat (split; [reflexivity|]). exact EI.
  - intros (E1 & E2 & E3 & E4 & E5 & E6 & ET & Etx & Etxb & Eeb & EI). apply pair5 in ET as (F1 & F3 & F4 & F5 & F6).
    assert (Ec : protocol_challenges t0 pf0 = c) by (unfold c; apply challenges_ipp; symmetry; assumption).
    rewrite Ec. unfold tab in EI. rewrite EI. cbn [obind].
    unfold sim_proof. cbn [sim_draft A_I1 A_O1 A_I2 A_O2 S2 T_3 T_4 T_5 T_6]. rewrite <- E1, <- E2, <- E3, <- E4, <- E5, <- E6, <- F1, <- F3, <- F4, <- F5, <- F6, <- Etx, <- Etxb, <- Eeb. destruct pf. reflexivity.
Qed.

Lemma ltb_has n1 n : Nat.ltb 0 (n - n1) = Nat.ltb n1 n.
Proof. destruct (Nat.ltb_spec 0 (n - n1)), (Nat.ltb_spec n1 n); reflexivity || lia. Qed.
Lemma hi_none n1 n a gs : Nat.ltb n1 n = false -> hi n1 n a gs = 0.
Proof. intros E. apply Nat.ltb_ge in E. unfold hi. replace (n - n1)%nat with O by lia. reflexivity. Qed.

(** *** In terms of discrete logarithms *)
Section Logs.
Context (h : G1).

Lemma gsum_pts k f (L : list F) : gsum_n k f (pts h L) = g1_mul (sum_n k (fun i => f i * nth i L 0)) h.
Proof.
  unfold gsum_n, sum_n. induction (seq 0 k) as [|i l IH]; cbn [map gsum fsum fold_right]; [symmetry; apply g1_mul_zero|].
  rewrite IH. unfold pts at 1. rewrite <- (g1_mul_zero h), (map_nth (fun a => g1_mul a h)). gnorm; ring.
Qed.

Lemma commits_pts (gam : F) (v vb : list F) : zipw (commit (g1_mul gam h) h) v vb = pts h (zipw (fun a b => a * gam + b) v vb).
Proof.
  revert vb. induction v as [|a v IH]; intros [|b vb]; cbn [zipw pts map]; try reflexivity. fold (pts h (zipw (fun a b => a * gam + b) v vb)).
  rewrite IH. f_equal. unfold commit. gnorm; ring.
Qed.
Lemma nth_openings (gam : F) (v vb : list F) j : length vb = length v -> nth j (zipw (fun a b => a * gam + b) v vb) 0 = nth j v 0 * gam + nth j vb 0.
Proof.
  revert vb j. induction v as [|a v IH]; intros [|b vb] [|j] L; try discriminate; cbn [zipw nth]; try ring. apply IH. cbn in L. lia.
Qed.

Section Point.
Context (gam : F) (Gs Hs : list F) (n1 n : nat) (cs : list lc) (v vb aL aR aO : list F).
Let N := next_power_of_two n.
Let wt := Wit aL aR aO vb.
Context (Hn : (n1 <= n)%nat) (HG : (n <= length Gs)%nat) (HH : (n <= length Hs)%nat).
Context (Hvb : length vb = length v) (Hsat : satisfies (assignment_of v aL aR aO) n cs) (Hr : Forall (lc_in_range n (length v)) cs).
Context (HaL : length aL = n) (HaR : length aR = n) (HaO : length aO = n).
Context (y z u x : F) (Hy : y <> 0) (Hx : x <> 0).
Let wf := weight cs.

(** the coins that correspond to the prover's random values *)
Definition coins_of (m : masks) : coins :=
  let p := c_poly n wf wt m y z in
  {| k_AI1 := lo n1 aL Gs + lo n1 aR Hs + m_i1 m; k_AO1 := lo n1 aO Gs + m_o1 m;
     k_AI2 := hi n1 n aL Gs + hi n1 n aR Hs + m_i2 m; k_AO2 := hi n1 n aO Gs + m_o2 m;
     k_S2 := hi n1 n (m_sL m) Gs + hi n1 n (m_sR m) Hs + m_b2 m;
     k_T3 := t3 p * gam + m_t3 m; k_T4 := t4 p * gam + m_t4 m; k_T5 := t5 p * gam + m_t5 m; k_T6 := t6 p * gam + m_t6 m;
     k_txb := c_txb wf wt m y z u x; k_e := c_eb m y z u x;
     k_l := tab n (c_lx wf wt m y z u x); k_r := tab n (c_rx n wf wt m y z u x) |}.

(** and back *)
Let xi := finv x.
Definition masks_of (co : coins) : masks :=
  let sL := tab n (fun i => xi * xi * (xi * nth i (k_l co) 0 - c_l1 wf wt y z i) - xi * nth i aO 0) in
  let sR := tab n (fun i => fpow (finv y) i * (xi * xi * xi * (nth i (k_r co) 0 - c_r0 wf y z i) - xi * xi * c_r1 wf wt y z i)) in
  let m0 := Masks 0 0 0 0 0 0 sL sR 0 0 0 0 0 in
  let p := c_poly n wf wt m0 y z in
  let i1 := k_AI1 co - (lo n1 aL Gs + lo n1 aR Hs) in
  let o1 := k_AO1 co - lo n1 aO Gs in
  let i2 := k_AI2 co - (hi n1 n aL Gs + hi n1 n aR Hs) in
  let o2 := k_AO2 co - hi n1 n aO Gs in
  let b2 := k_S2 co - (hi n1 n sL Gs + hi n1 n sR Hs) in
  let q3 := k_T3 co - t3 p * gam in
  let q4 := k_T4 co - t4 p * gam in
  let q5 := k_T5 co - t5 p * gam in
  let q6 := k_T6 co - t6 p * gam in
  {| m_i1 := i1; m_o1 := o1; m_i2 := i2; m_o2 := o2; m_b2 := b2;
     m_b1 := xi * (xi * (xi * k_e co - (i1 + u * i2)) - (o1 + u * o2)) - u * b2;
     m_sL := sL; m_sR := sR;
     m_t3 := q3; m_t4 := q4; m_t5 := q5; m_t6 := q6;
     m_t1 := xi * k_txb co - x * (c_t2b wf wt z + x * (q3 + x * (q4 + x * (q5 + x * q6)))) |}.

Lemma x_x : x * xi = 1.
Proof. unfold xi. apply finv_r. exact Hx. Qed.

Lemma cancel_xi (a b : F) : x * a = x * b -> a = b.
Proof. intros E. transitivity (x * xi * a); [rewrite x_x; ring|]. transitivity (xi * (x * a)); [ring|]. rewrite E. transitivity (x * xi * b); [ring|rewrite x_x; ring]. Qed.

Lemma left_back i l : x * (c_l1 wf wt y z i + x * (nth i aO 0 + x * (xi * xi * (xi * l - c_l1 wf wt y z i) - xi * nth i aO 0))) = l.
Proof.
  set (a := c_l1 wf wt y z i). set (o := nth i aO 0).
  transitivity (x * a + x * x * o + (x * xi) * (x * xi) * (x * xi) * l - (x * xi) * (x * xi) * x * a - x * (x * xi) * x * o); [ring|].
  rewrite x_x. ring.
Qed.
Lemma right_back i r : c_r0 wf y z i + x * (c_r1 wf wt y z i + x * (x * (fpow y i * (fpow (finv y) i * (xi * xi * xi * (r - c_r0 wf y z i) - xi * xi * c_r1 wf wt y z i))))) = r.
Proof.
  set (a := c_r0 wf y z i). set (b := c_r1 wf wt y z i). pose proof (fpow_inv y i Hy) as E.
  transitivity (a + x * b + (fpow y i * fpow (finv y) i) * ((x * xi) * (x * xi) * (x * xi) * (r - a) - (x * xi) * (x * xi) * x * b)); [ring|].
  rewrite E, x_x. ring.
Qed.

Lemma coins_of_ok m : masks_ok n1 n m -> coins_ok n1 n (coins_of m).
Proof.
  intros [_ Hz]. rewrite ltb_has in Hz. constructor; cbn [coins_of k_l k_r k_AI2 k_AO2 k_S2]; [apply tab_length|apply tab_length|].
  intros E. destruct (Hz E) as (-> & -> & ->). rewrite !hi_none by exact E. repeat split; ring.
Qed.
Lemma masks_of_ok co : coins_ok n1 n co -> masks_ok n1 n (masks_of co).
Proof.
  intros [_ _ Hz]. constructor; [constructor; cbn [masks_of m_sL m_sR]; apply tab_length|]. rewrite ltb_has. intros E.
  destruct (Hz E) as (E1 & E2 & E3). cbn [masks_of m_i2 m_o2 m_b2]. rewrite E1, E2, E3, !hi_none by exact E. repeat split; ring.
Qed.

Lemma lx_back co i : (i < n)%nat -> c_lx wf wt (masks_of co) y z u x i = nth i (k_l co) 0.
Proof. intros Hi. unfold c_lx. cbn [masks_of m_sL]. rewrite tab_nth by exact Hi. cbn [wt wit_aO]. apply left_back. Qed.
Lemma rx_back co i : (i < n)%nat -> c_rx n wf wt (masks_of co) y z u x i = nth i (k_r co) 0.
Proof.
  intros Hi. unfold c_rx. destruct (Nat.ltb_spec i n); [|lia]. unfold c_r3. cbn [masks_of m_sR]. rewrite tab_nth by exact Hi. apply right_back.
Qed.

Lemma tab_list (l : list F) : length l = n -> tab n (fun i => nth i l 0) = l.
Proof. intros <-. symmetry. apply list_as_tab. Qed.

Lemma coins_ext co co' : k_AI1 co = k_AI1 co' -> k_AO1 co = k_AO1 co' -> k_AI2 co = k_AI2 co' -> k_AO2 co = k_AO2 co' -> k_S2 co = k_S2 co' ->
  k_T3 co = k_T3 co' -> k_T4 co = k_T4 co' -> k_T5 co = k_T5 co' -> k_T6 co = k_T6 co' -> k_txb co = k_txb co' -> k_e co = k_e co' ->
  k_l co = k_l co' -> k_r co = k_r co' -> co = co'.
Proof. destruct co, co'; cbn; intros; subst; reflexivity. Qed.

Lemma coins_masks co : coins_ok n1 n co -> coins_of (masks_of co) = co.
Proof.
  intros [L R _]. apply coins_ext.
  - cbn. ring.
  - cbn. ring.
  - cbn. ring.
  - cbn. ring.
  - cbn [coins_of masks_of k_S2 m_sL m_sR m_b2]. ring.
  - cbn [coins_of masks_of k_T3 m_t3]. match goal with |- t3 ?a * _ + (_ - t3 ?b * _) = _ => change b with a end. ring.
  - cbn [coins_of masks_of k_T4 m_t4]. match goal with |- t4 ?a * _ + (_ - t4 ?b * _) = _ => change b with a end. ring.
  - cbn [coins_of masks_of k_T5 m_t5]. match goal with |- t5 ?a * _ + (_ - t5 ?b * _) = _ => change b with a end. ring.
  - cbn [coins_of masks_of k_T6 m_t6]. match goal with |- t6 ?a * _ + (_ - t6 ?b * _) = _ => change b with a end. ring.
  - cbn [coins_of k_txb]. unfold c_txb, poly6_eval. cbn [t1 t2 t3 t4 t5 t6]. set (m := masks_of co).
    assert (E : m_t1 m = xi * k_txb co - x * (c_t2b wf wt z + x * (m_t3 m + x * (m_t4 m + x * (m_t5 m + x * m_t6 m))))) by reflexivity.
    rewrite E. transitivity ((x * xi) * k_txb co); [ring|]. rewrite x_x. ring.
  - cbn [coins_of k_e]. unfold c_eb. set (m := masks_of co).
    assert (E : m_b1 m = xi * (xi * (xi * k_e co - (m_i1 m + u * m_i2 m)) - (m_o1 m + u * m_o2 m)) - u * m_b2 m) by reflexivity.
    rewrite E. set (a := m_i1 m + u * m_i2 m). set (b := m_o1 m + u * m_o2 m).
    transitivity (x * a + x * x * b + (x * xi) * ((x * xi) * (x * xi) * k_e co - (x * xi) * x * a - x * x * b)); [ring|]. rewrite x_x. ring.
  - cbn [coins_of k_l]. rewrite <- (tab_list (k_l co) L). apply tab_ext. intros i Hi. apply lx_back. exact Hi.
  - cbn [coins_of k_r]. rewrite <- (tab_list (k_r co) R). apply tab_ext. intros i Hi. apply rx_back. exact Hi.
Qed.

Lemma left_forth i s l : l = x * (c_l1 wf wt y z i + x * (nth i aO 0 + x * s)) ->
  xi * xi * (xi * l - c_l1 wf wt y z i) - xi * nth i aO 0 = s.
Proof.
  intros ->. set (a := c_l1 wf wt y z i). set (o := nth i aO 0).
  transitivity (xi * xi * ((x * xi) * a - a) + (x * xi) * (x * xi) * xi * o - xi * o + (x * xi) * (x * xi) * (x * xi) * s); [ring|]. rewrite x_x. ring.
Qed.
Lemma right_forth i s r : r = c_r0 wf y z i + x * (c_r1 wf wt y z i + x * (x * (fpow y i * s))) ->
  fpow (finv y) i * (xi * xi * xi * (r - c_r0 wf y z i) - xi * xi * c_r1 wf wt y z i) = s.
Proof.
  intros ->. set (a := c_r0 wf y z i). set (b := c_r1 wf wt y z i). pose proof (fpow_inv y i Hy) as E.
  transitivity (fpow (finv y) i * (xi * xi * ((x * xi) * b - b)) + (x * xi) * (x * xi) * (x * xi) * (fpow y i * fpow (finv y) i) * s); [ring|].
  rewrite E, x_x. ring.
Qed.

Lemma masks_coins m : masks_ok n1 n m -> masks_of (coins_of m) = m.
Proof.
  intros [[L R] _].
  assert (EL : m_sL (masks_of (coins_of m)) = m_sL m).
  { rewrite <- (tab_list (m_sL m) L). cbn [masks_of m_sL]. apply tab_ext. intros i Hi. cbn [coins_of k_l]. rewrite tab_nth by exact Hi.
    apply left_forth. reflexivity. }
  assert (ER : m_sR (masks_of (coins_of m)) = m_sR m).
  { rewrite <- (tab_list (m_sR m) R). cbn [masks_of m_sR]. apply tab_ext. intros i Hi. cbn [coins_of k_r]. rewrite tab_nth by exact Hi.
    apply right_forth. unfold c_rx. destruct (Nat.ltb_spec i n); [reflexivity|lia]. }
  assert (Ep : c_poly n wf wt (masks_of (coins_of m)) y z = c_poly n wf wt m y z) by (unfold c_poly, c_r3; rewrite EL, ER; reflexivity).
  assert (E3 : m_t3 (masks_of (coins_of m)) = m_t3 m).
  { transitivity (k_T3 (coins_of m) - t3 (c_poly n wf wt (masks_of (coins_of m)) y z) * gam); [reflexivity|]. rewrite Ep. cbn [coins_of k_T3]. ring. }
  assert (E4 : m_t4 (masks_of (coins_of m)) = m_t4 m).
  { transitivity (k_T4 (coins_of m) - t4 (c_poly n wf wt (masks_of (coins_of m)) y z) * gam); [reflexivity|]. rewrite Ep. cbn [coins_of k_T4]. ring. }
  assert (E5 : m_t5 (masks_of (coins_of m)) = m_t5 m).
  { transitivity (k_T5 (coins_of m) - t5 (c_poly n wf wt (masks_of (coins_of m)) y z) * gam); [reflexivity|]. rewrite Ep. cbn [coins_of k_T5]. ring. }
  assert (E6 : m_t6 (masks_of (coins_of m)) = m_t6 m).
  { transitivity (k_T6 (coins_of m) - t6 (c_poly n wf wt (masks_of (coins_of m)) y z) * gam); [reflexivity|]. rewrite Ep. cbn [coins_of k_T6]. ring. }
  assert (I1 : m_i1 (masks_of (coins_of m)) = m_i1 m) by (cbn; ring).
  assert (O1 : m_o1 (masks_of (coins_of m)) = m_o1 m) by (cbn; ring).
  assert (I2 : m_i2 (masks_of (coins_of m)) = m_i2 m) by (cbn; ring).
  assert (O2 : m_o2 (masks_of (coins_of m)) = m_o2 m) by (cbn; ring).
  assert (B2 : m_b2 (masks_of (coins_of m)) = m_b2 m).
  { transitivity (k_S2 (coins_of m) - (hi n1 n (m_sL (masks_of (coins_of m))) Gs + hi n1 n (m_sR (masks_of (coins_of m))) Hs)); [reflexivity|].
    rewrite EL, ER. cbn [coins_of k_S2]. ring. }
  assert (T1 : m_t1 (masks_of (coins_of m)) = m_t1 m).
  { set (mm := masks_of (coins_of m)) in *.
    transitivity (xi * k_txb (coins_of m) - x * (c_t2b wf wt z + x * (m_t3 mm + x * (m_t4 mm + x * (m_t5 mm + x * m_t6 mm))))); [reflexivity|].
    rewrite E3, E4, E5, E6. cbn [coins_of k_txb]. unfold c_txb, poly6_eval. cbn [t1 t2 t3 t4 t5 t6].
    set (q := c_t2b wf wt z + x * (m_t3 m + x * (m_t4 m + x * (m_t5 m + x * m_t6 m)))).
    transitivity ((x * xi) * m_t1 m + (x * xi) * x * q - x * q); [ring|]. rewrite x_x. ring. }
  assert (B1 : m_b1 (masks_of (coins_of m)) = m_b1 m).
  { set (mm := masks_of (coins_of m)) in *.
    transitivity (xi * (xi * (xi * k_e (coins_of m) - (m_i1 mm + u * m_i2 mm)) - (m_o1 mm + u * m_o2 mm)) - u * m_b2 mm); [reflexivity|].
    rewrite I1, I2, O1, O2, B2. cbn [coins_of k_e]. unfold c_eb. set (a := m_i1 m + u * m_i2 m). set (b := m_o1 m + u * m_o2 m).
    transitivity (xi * xi * ((x * xi) * a - a) + xi * ((x * xi) * (x * xi) * b - b) + (x * xi) * (x * xi) * (x * xi) * (m_b1 m + u * m_b2 m) - u * m_b2 m); [ring|].
    rewrite x_x. ring. }
  apply masks_ext; assumption.
Qed.

(** *** The two solved points *)
Lemma phase_sum (f : nat -> F) : sum_n n (fun i => phase_factor n1 u i * f i) = sum_n n1 f + u * sum_n (n - n1) (fun i => f (n1 + i)%nat).
Proof.
  rewrite (sum_n_split n1 n) by exact Hn. f_equal.
  - apply sum_n_ext. intros i Hi. unfold phase_factor. destruct (Nat.ltb_spec i n1); [ring|lia].
  - rewrite <- sum_n_scale. apply sum_n_ext. intros i _. unfold phase_factor. destruct (Nat.ltb_spec (n1 + i) n1); [lia|ring].
Qed.

Lemma pad_sum (f : nat -> F) gs : sum_n n (fun i => phase_factor n1 u i * (f i * nth i gs 0)) = sum_n N (fun i => phase_factor n1 u i * (padded n f i * nth i gs 0)).
Proof.
  rewrite (sum_n_padded n N); [|apply next_power_of_two_ge|intros i [Hi _]; unfold padded; destruct (Nat.ltb_spec i n); [lia|ring]].
  apply sum_n_ext. intros i Hi. unfold padded. destruct (Nat.ltb_spec i n); [reflexivity|lia].
Qed.

Lemma sim_l_coins m i : sim_l n (coins_of m) i = padded n (c_lx wf wt m y z u x) i.
Proof. unfold sim_l, padded. destruct (Nat.ltb_spec i n); [|reflexivity]. cbn [coins_of k_l]. apply tab_nth. assumption. Qed.
Lemma sim_r_coins m i : sim_r n y (coins_of m) i = c_rx n wf wt m y z u x i.
Proof.
  unfold sim_r. destruct (Nat.ltb_spec i n) as [Hi|Hi].
  - cbn [coins_of k_r]. apply tab_nth. assumption.
  - unfold c_rx. destruct (Nat.ltb_spec i n); [lia|reflexivity].
Qed.
Lemma sim_tx_coins m : sim_tx n y (coins_of m) = c_tx n wf wt m y z u x.
Proof.
  rewrite (tx_as_sum Gs Hs n1 n Hn HG HH). apply sum_n_ext. intros i Hi. rewrite sim_l_coins, sim_r_coins. unfold padded. destruct (Nat.ltb_spec i n); [reflexivity|lia].
Qed.

Lemma sim_T1_coins m :
  sim_T1 (g1_mul gam h) h (zipw (commit (g1_mul gam h) h) v vb) n cs y z x (coins_of m) =
  commit (g1_mul gam h) h (t1 (c_poly n wf wt m y z)) (m_t1 m).
Proof.
  unfold sim_T1, minus. rewrite sim_tx_coins, commits_pts, gsum_pts.
  cbn [sim_draft T_3 T_4 T_5 T_6 coins_of k_T3 k_T4 k_T5 k_T6 k_txb].
  pose proof (second_value gam n y z cs v vb aL aR aO m Hy Hvb Hsat Hr) as E2. fold wt in E2.
  assert (EV : sum_n (length (pts h (zipw (fun a b : F => a * gam + b) v vb)))
      (fun i => - weight cs z (VCommitted i) * nth i (zipw (fun a b : F => a * gam + b) v vb) 0) =
      - sum_n (length v) (fun j => weight cs z (VCommitted j) * (nth j v 0 * gam + nth j vb 0))).
  { replace (length (pts h (zipw (fun a b : F => a * gam + b) v vb))) with (length v).
    2:{ unfold pts. rewrite map_length. clear -Hvb. revert vb Hvb. induction v; intros [|b vb] L; try discriminate; [reflexivity|]. cbn in *. f_equal. apply IHl. lia. }
    transitivity (- (1) * sum_n (length v) (fun j => weight cs z (VCommitted j) * (nth j v 0 * gam + nth j vb 0))); [|ring].
    rewrite <- sum_n_scale. apply sum_n_ext. intros j _. rewrite nth_openings by exact Hvb. ring. }
  rewrite EV. clear EV. fold wf in E2 |- *. set (sv := sum_n (length v) _) in *.
  unfold c_tx, c_txb, poly6_eval. cbn [t1 t2 t3 t4 t5 t6]. set (p := c_poly n wf wt m y z) in *. set (q := c_t2b wf wt z) in *.
  set (d := delta n cs y z - wf z VOne) in *.
  rewrite fpow_2, fpow_3, fpow_4, fpow_5, fpow_6. fold xi. unfold commit.
  assert (Eq : q = d * gam - sv - t2 p * gam) by (rewrite <- E2; ring). rewrite Eq.
  transitivity (g1_mul ((x * xi) * (t1 p * gam + m_t1 m)) h); [gnorm; ring|]. rewrite x_x. gnorm; ring.
Qed.

Lemma sim_S1_coins m : masks_sized n m ->
  sim_S1 (g1_mul gam h) h (pts h Gs) (pts h Hs) n1 n cs y z u x (coins_of m) =
  first_point h (pts h Gs) (pts h Hs) n1 (m_sL m) (m_sR m) (m_b1 m).
Proof.
  intros [L R]. rewrite (first_point_log h Gs Hs n1 n) by assumption. unfold sim_S1, minus, ipp_point. fold N. rewrite !gsum_pts.
  cbn [sim_draft A_I1 A_O1 S1 A_I2 A_O2 S2 t_x e_blinding coins_of k_AI1 k_AO1 k_AI2 k_AO2 k_S2 k_e].
  assert (HnN : (n <= N)%nat) by apply next_power_of_two_ge.
  set (DG := fun i => x * nth i aL 0 + x * x * nth i aO 0 + x * x * x * nth i (m_sL m) 0).
  set (DH := fun i => x * nth i aR 0 + x * x * x * nth i (m_sR m) 0).
  assert (EG : sum_n N (fun i => phase_factor n1 u i * sim_l n (coins_of m) i * nth i Gs 0) =
    sum_n N (fun i => phase_factor n1 u i * (x * (fpow (finv y) i * padded n (fun i0 => weight cs z (VRight i0)) i)) * nth i Gs 0) +
    sum_n n (fun i => phase_factor n1 u i * (DG i * nth i Gs 0))).
  { rewrite pad_sum. rewrite <- sum_n_add. apply sum_n_ext. intros i Hi. rewrite sim_l_coins. unfold padded. destruct (Nat.ltb_spec i n); [|ring].
      unfold c_lx, c_l1, DG. cbn [wt wit_aL wit_aO]. fold wf. ring.
    }
  assert (EH : sum_n N (fun i => fpow (finv y) i * phase_factor n1 u i * sim_r n y (coins_of m) i * nth i Hs 0) =
    sum_n N (fun i => phase_factor n1 u i * (fpow (finv y) i * (x * padded n (fun i0 => weight cs z (VLeft i0)) i + padded n (fun i0 => weight cs z (VOut i0)) i) - 1) * nth i Hs 0) +
    sum_n n (fun i => phase_factor n1 u i * (DH i * nth i Hs 0))).
  { rewrite pad_sum. rewrite <- sum_n_add. apply sum_n_ext. intros i Hi. rewrite sim_r_coins. unfold padded, c_rx.
      pose proof (fpow_inv y i Hy) as E. set (a := fpow y i) in *. set (b := fpow (finv y) i) in *. destruct (Nat.ltb_spec i n).
      - unfold c_r0, c_r1, c_r3, DH. cbn [wt wit_aR]. fold wf. fold a.
        transitivity (phase_factor n1 u i * (b * (x * wf z (VLeft i) + wf z (VOut i)) - a * b) * nth i Hs 0 +
          phase_factor n1 u i * ((a * b) * (x * nth i aR 0 + x * x * x * nth i (m_sR m) 0) * nth i Hs 0)); [ring|]. rewrite E. ring.
      - transitivity (- (a * b) * phase_factor n1 u i * nth i Hs 0); [ring|]. rewrite E. ring.
    }
  rewrite EG, EH. clear EG EH. rewrite !phase_sum.
  assert (D1 : sum_n n1 (fun i => DG i * nth i Gs 0) = x * lo n1 aL Gs + x * x * lo n1 aO Gs + x * x * x * lo n1 (m_sL m) Gs).
  { unfold lo, DG. rewrite sum_comb3. reflexivity. }
  assert (D2 : sum_n (n - n1) (fun i => DG (n1 + i)%nat * nth (n1 + i) Gs 0) = x * hi n1 n aL Gs + x * x * hi n1 n aO Gs + x * x * x * hi n1 n (m_sL m) Gs).
  { unfold hi, DG. rewrite sum_comb3. reflexivity. }
  assert (D3 : sum_n n1 (fun i => DH i * nth i Hs 0) = x * lo n1 aR Hs + x * x * x * lo n1 (m_sR m) Hs).
  { unfold lo, DH. rewrite sum_comb2. reflexivity. }
  assert (D4 : sum_n (n - n1) (fun i => DH (n1 + i)%nat * nth (n1 + i) Hs 0) = x * hi n1 n aR Hs + x * x * x * hi n1 n (m_sR m) Hs).
  { unfold hi, DH. rewrite sum_comb2. reflexivity. }
  rewrite D1, D2, D3, D4. clear D1 D2 D3 D4.
  set (s1 := sum_n N _). set (s2 := sum_n N _). unfold c_eb.
  rewrite fpow_2, fpow_3.
  assert (Ei : finv (x * x * x) = xi * xi * xi) by (unfold xi; field; exact Hx). rewrite Ei.
  transitivity (g1_mul ((x * xi) * (x * xi) * (x * xi) * (lo n1 (m_sL m) Gs + lo n1 (m_sR m) Hs + m_b1 m)) h).
  - gnorm; ring.
  - rewrite x_x. gnorm; ring.
Qed.

Theorem core_iff_simulate m t0 pf tp : masks_sized n m ->
  let c := protocol_challenges t0 pf in
  c_y c = y -> c_z c = z -> c_u c = u -> c_x c = x ->
  core (g1_mul gam h) h (pts h Gs) (pts h Hs) n1 n wf t0 wt m = Done (Ok (pf, tp)) <->
  simulate (g1_mul gam h) h (pts h Gs) (pts h Hs) (zipw (commit (g1_mul gam h) h) v vb) n1 n cs y z u x (coins_of m) t0 = Done (pf, tp).
Proof.
  intros Hm c Ey Ez Eu Ex. unfold core. rewrite finish_iff, simulate_iff. cbv zeta. fold c. rewrite Ey, Ez, Eu, Ex.
  rewrite sim_S1_coins by exact Hm. rewrite sim_T1_coins, sim_tx_coins. destruct Hm as [L R].
  rewrite !(first_point_log h Gs Hs n1 n) by assumption. rewrite (first_point_o_log h Gs Hs n1 n) by assumption.
  rewrite !(second_point_log h Gs Hs n1 n) by assumption. rewrite (second_point_o_log h Gs Hs n1 n) by assumption.
  rewrite (tab_ext _ _ _ (fun i _ => sim_l_coins m i)), (tab_ext _ _ _ (fun i _ => sim_r_coins m i)).
  unfold c_TT. cbn [coins_of k_AI1 k_AO1 k_AI2 k_AO2 k_S2 k_T3 k_T4 k_T5 k_T6 k_txb k_e wt wit_aL wit_aR wit_aO].
  assert (Ec : forall a b, commit (g1_mul gam h) h a b = g1_mul (a * gam + b) h) by (intros a b; unfold commit; gnorm; ring).
  rewrite !Ec. reflexivity.
Qed.
End Point.
End Logs.

(** *** Counting *)
Lemma minus_same (a b c d : G1) : a = b -> c = d -> minus a c = minus b d.
Proof. intros -> ->. reflexivity. Qed.
Lemma simulate_same g h G H V n1 n cs cs' y z u x co t : Forall2 lc_same cs cs' ->
  simulate g h G H V n1 n cs y z u x co t = simulate g h G H V n1 n cs' y z u x co t.
Proof.
  intros E.
  assert (E1 : sim_T1 g h V n cs y z x co = sim_T1 g h V n cs' y z x co).
  { unfold sim_T1. rewrite (delta_same n cs cs' y z E), (weight_equiv cs cs' z VOne E).
    rewrite (gsum_n_ext (length V) (fun j => - weight cs z (VCommitted j)) (fun j => - weight cs' z (VCommitted j)) V) by (intros j _; rewrite (weight_equiv cs cs' z _ E); reflexivity).
    reflexivity. }
  assert (E2 : sim_S1 g h G H n1 n cs y z u x co = sim_S1 g h G H n1 n cs' y z u x co)
    by (unfold sim_S1; rewrite (ipp_point_same _ g h G H n1 n _ cs cs' y z u x 0 E); reflexivity).
  assert (E3 : forall ipp, sim_proof g h G H V n1 n cs y z u x co ipp = sim_proof g h G H V n1 n cs' y z u x co ipp)
    by (intros ipp; unfold sim_proof; rewrite E1, E2; reflexivity).
  unfold simulate. rewrite E3. match goal with |- obind ?e _ = _ => destruct e as [[ipp t']|] end; [|reflexivity]. cbn [obind]. rewrite E3. reflexivity.
Qed.

Lemma skipn_len_app {A} (a b : list A) k : length a = k -> skipn k (a ++ b) = b.
Proof. intros <-. rewrite skipn_app, skipn_all, Nat.sub_diag. reflexivity. Qed.

Section Count.
Context (W : world) (s s2 : prover) (vs vs2 : verifier) (G H : list G1) (pf : r1cs_proof) (tp : transcript) (k : nat).
Let n1 := length (p_aL s).
Let n := length (p_aL s2).
Context (Hwf : pwf s) (Hgen : generates (p_h s)).
Context (H2 : second_phase W s (first_phase_transcript pf (length (p_v s)) (p_transcript s)) s2).
Context (Hn1 : v_num_vars vs = n1) (Hvn : v_num_vars vs2 = n) (HV : v_V vs2 = zipw (commit (p_g s) (p_h s)) (p_v s) (p_v_blinding s)).
Context (Hcs : Forall2 lc_same (p_constraints s2) (v_constraints vs2)) (Ht : v_transcript vs2 = p_transcript s2).
Context (Hsat : satisfies (prover_assignment s2) n (p_constraints s2)).
Context (Hr : Forall (lc_in_range n (length (p_v s2))) (p_constraints s2)).
Context (HG : (next_power_of_two n <= length G)%nat) (HH : (next_power_of_two n <= length H)%nat).
Context (Hy : c_y (protocol_challenges (p_transcript s2) pf) <> 0) (Hx : c_x (protocol_challenges (p_transcript s2) pf) <> 0).
Context (Hk : (11 + 2 * n <= k)%nat).

Lemma count_simulated m : number_of k (yields W s G H pf tp) m <-> number_of k (simulates (p_g s) (p_h s) vs vs2 G H pf tp) m.
Proof.
  destruct Hgen as [Hh Hall].
  destruct (Hall (p_g s)) as [gam Eg]. destruct (all_logs _ G Hall) as [Gs EG]. destruct (all_logs _ H Hall) as [Hs EH].
  destruct (second_phase_facts _ _ _ _ Hwf H2) as (Hwf2 & Eg2 & Eh2 & Ev & Evb & Hle & _). fold n1 n in Hle.
  set (c := protocol_challenges (p_transcript s2) pf) in *.
  set (cs := p_constraints s2) in *.
  set (fwd := coins_of gam Gs Hs n1 n cs (p_v_blinding s2) (p_aL s2) (p_aR s2) (p_aO s2) (c_y c) (c_z c) (c_u c) (c_x c)).
  set (bwd := masks_of gam Gs Hs n1 n cs (p_v_blinding s2) (p_aL s2) (p_aR s2) (p_aO s2) (c_y c) (c_z c) (c_u c) (c_x c)).
  set (D := drawn n1 n).
  assert (ED : coins_number n1 n = D).
  { unfold coins_number, D, drawn. rewrite (ltb_has n1 n). destruct (Nat.ltb_spec n1 n); lia. }
  assert (HD : (D <= k)%nat) by (unfold D, drawn; destruct (Nat.ltb 0 (n - n1)); lia).
  set (mk := fun a => draw (with_tape W (p_nrand s) a) (p_nrand s) (p_nrand s + 3 + n1 + n1) n1 n).
  assert (Hpar : forall a, length a = k -> masks_ok n1 n (mk a) /\ a = blocks n1 n (mk a) ++ skipn D a).
  { intros a La. destruct (tape_blocks n1 n Hle a) as (m0 & rest & Hm & Ea); [fold D; lia|].
    assert (Em : mk a = m0) by (unfold mk; rewrite Ea; apply draw_blocks; assumption).
    rewrite Em. split; [exact Hm|]. rewrite Ea at 1. f_equal. rewrite Ea. symmetry. apply skipn_len_app.
    apply (blocks_length n1 n Hle m0 Hm). }
  assert (Hmk : forall m0 rest, masks_ok n1 n m0 -> mk (blocks n1 n m0 ++ rest) = m0) by (intros m0 rest Hm; unfold mk; apply draw_blocks; assumption).
  assert (Hpar' : forall a, length a = k -> coins_ok n1 n (read_coins n1 n a) /\ a = write_coins n1 n (read_coins n1 n a) ++ skipn D a).
  { intros a La. rewrite <- ED. apply write_read. rewrite ED. lia. }
  assert (Hok : forall m0, masks_ok n1 n m0 -> coins_ok n1 n (fwd m0)) by (intros m0; apply coins_of_ok; exact Hle).
  assert (Hok' : forall co, coins_ok n1 n co -> masks_ok n1 n (bwd co)) by (intros co; apply masks_of_ok; exact Hle).
  assert (Hn0 : (n <= next_power_of_two n)%nat) by apply next_power_of_two_ge.
  assert (LGs : (n <= length Gs)%nat) by (rewrite EG in HG; unfold pts in HG; rewrite map_length in HG; lia).
  assert (LHs : (n <= length Hs)%nat) by (rewrite EH in HH; unfold pts in HH; rewrite map_length in HH; lia).
  assert (Hiff : forall m0 rest rest', masks_ok n1 n m0 ->
    yields W s G H pf tp (blocks n1 n m0 ++ rest) <-> simulates (p_g s) (p_h s) vs vs2 G H pf tp (write_coins n1 n (fwd m0) ++ rest')).
  { intros m0 rest rest' Hm. unfold simulates. rewrite Hn1, Hvn, HV, Ht, read_write by (apply Hok; exact Hm). fold c.
    rewrite <- (simulate_same _ _ _ _ _ _ _ cs (v_constraints vs2)) by exact Hcs.
    pose proof (yields_core W s G H s2 pf tp m0 rest Hwf H2 HG HH Hr Hm) as Y. fold n1 n cs in Y.
    eapply iff_trans; [exact Y|]. clear Y.
    rewrite Eg, EG, EH, <- Ev, <- Evb. unfold fwd.
    apply (core_iff_simulate (p_h s) gam Gs Hs n1 n cs (p_v s2) (p_v_blinding s2) (p_aL s2) (p_aR s2) (p_aO s2)); try assumption; try reflexivity.
    - apply (pwf_vb _ Hwf2).
    - apply (pwf_aR _ Hwf2).
    - apply (pwf_aO _ Hwf2).
    - apply Hm. }
  assert (Hfb : forall co, coins_ok n1 n co -> fwd (bwd co) = co) by (intros co Hc; apply coins_masks with (v := p_v s2); try assumption; solve [apply (pwf_vb _ Hwf2)|apply (pwf_aR _ Hwf2)|apply (pwf_aO _ Hwf2)|reflexivity]).
  assert (Hbf : forall m0, masks_ok n1 n m0 -> bwd (fwd m0) = m0) by (intros m0 Hm; apply masks_coins with (v := p_v s2); try assumption; solve [apply (pwf_vb _ Hwf2)|apply (pwf_aR _ Hwf2)|apply (pwf_aO _ Hwf2)|reflexivity]).
  set (f := fun a => write_coins n1 n (fwd (mk a)) ++ skipn D a).
  set (f' := fun a => blocks n1 n (bwd (read_coins n1 n a)) ++ skipn D a).
  assert (A1 : forall a, length a = k -> yields W s G H pf tp a -> length (f a) = k /\ simulates (p_g s) (p_h s) vs vs2 G H pf tp (f a)).
  { intros a La Ya. destruct (Hpar a La) as [Hm Ea]. split.
    - unfold f. rewrite app_length, write_length, skipn_length, ED by (apply Hok; exact Hm). lia.
    - unfold f. rewrite <- (Hiff (mk a) (skipn D a)) by exact Hm. rewrite <- Ea. exact Ya. }
  assert (A2 : forall a, length a = k -> simulates (p_g s) (p_h s) vs vs2 G H pf tp a -> length (f' a) = k /\ yields W s G H pf tp (f' a)).
  { intros a La Ya. destruct (Hpar' a La) as [Hc Ea]. split.
    - unfold f'. rewrite app_length, blocks_length, skipn_length by (exact Hle || apply Hok'; exact Hc). fold D. lia.
    - unfold f'. rewrite (Hiff _ _ (skipn D a)) by (apply Hok'; exact Hc). rewrite Hfb by exact Hc. rewrite <- Ea. exact Ya. }
  assert (A3 : forall a b, length a = k -> length b = k -> f a = f b -> a = b).
  { intros a b La Lb E. destruct (Hpar a La) as [Hma Ea]. destruct (Hpar b Lb) as [Hmb Eb].
    apply write_inj in E as [E1 E2]; try (apply Hok; assumption).
    rewrite Ea, Eb, E2. do 2 f_equal. rewrite <- (Hbf _ Hma), <- (Hbf _ Hmb), E1. reflexivity. }
  assert (A4 : forall a b, length a = k -> length b = k -> f' a = f' b -> a = b).
  { intros a b La Lb E. destruct (Hpar' a La) as [Hma Ea]. destruct (Hpar' b Lb) as [Hmb Eb].
    apply blocks_app_inj in E as [E1 E2]; try (apply Hok'; assumption); try exact Hle.
    rewrite Ea, Eb, E2. do 2 f_equal. rewrite <- (Hfb _ Hma), <- (Hfb _ Hmb), E1. reflexivity. }
  split; eapply number_transfer; eauto.
Qed.
End Count.

Theorem zero_knowledge W W' g h t {A B} (R : A -> B -> Prop) pp vp a s b vs s2 vs2 G H pf tp k m :
  let n := length (p_aL s2) in
  let c := protocol_challenges (v_transcript vs2) pf in
  generates h -> sim g h R pp vp ->
  prun W false pp (prover_new g h t) = Done (a, s) -> vrun W' false vp (verifier_new t) = Done (b, vs) ->
  Forall no_random (p_deferred s) ->
  prover_create_randomized_constraints W (p_with_transcript (first_phase_transcript pf (length (p_v s)) (p_transcript s)) s) = Done (Ok s2) ->
  v_second W' pf vs vs2 ->
  Forall (lc_in_range n (length (p_v s))) (p_constraints s2) ->
  satisfies (prover_assignment s2) n (p_constraints s2) ->
  (next_power_of_two n <= length G)%nat -> (next_power_of_two n <= length H)%nat ->
  c_y c <> 0 -> c_x c <> 0 -> (11 + 2 * n <= k)%nat ->
  (number_of k (yields W s G H pf tp) m <-> number_of k (simulates g h vs vs2 G H pf tp) m).
Proof.
  intros n c Hgen Hs E Ev Hq E2 Ev2 Hr Hsat HG HH Hy Hx Hk.
  set (t1 := first_phase_transcript pf (length (p_v s)) (p_transcript s)) in *.
  destruct (first_phase_same W W' g h t R pp vp a s Hs E) as (b' & vs' & Ev' & _ & C & _).
  rewrite Ev in Ev'. injection Ev' as <- <-.
  destruct (prover_keys _ _ _ _ _ _ _ E) as [Eg Eh].
  assert (Hwf : pwf s) by (eapply reachable_pwf; econstructor; exact E).
  apply (second_phase_of _ _ _ _ Hq) in E2.
  destruct (second_phase_facts _ _ _ _ Hwf E2) as (_ & Eg2 & Eh2 & Epv & Epvb & _).
  assert (X := E2 (w_random W) O). assert (EW : World (w_random W) (w_order W) = W) by (destruct W; reflexivity). rewrite EW in X.
  destruct (second_phase_same W W' g h t R pp vp a b s vs t1 O _ Hs E Ev X) as (vs2' & Y & C2 & _).
  destruct C as [c1 c2 c3 c4 c5 c6 c7].
  assert (Et1 : t1 = first_phase_transcript pf (length (v_V vs)) (v_transcript vs)) by (unfold t1; rewrite c4, c7; reflexivity).
  unfold v_second, v_absorb in Ev2. rewrite <- Et1, Y in Ev2. injection Ev2 as ->.
  destruct C2 as [e1 e2 e3 e4 e5 e6 e7]. cbn [p_with_nrand p_aL p_constraints p_transcript p_v p_v_blinding p_g p_h] in *.
  unfold c in Hy, Hx. rewrite <- e7 in Hy, Hx. rewrite <- Eg, <- Eh.
  apply (count_simulated W s s2 vs vs2); try assumption.
  - rewrite Eh. exact Hgen.
  - rewrite e3, Epv, Epvb, Eg2, Eh2. reflexivity.
  - symmetry. exact e7.
  - rewrite Epv. exact Hr.
Qed.
End ZK.
