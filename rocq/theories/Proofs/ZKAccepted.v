(** Simulated proofs are accepted. *)
From Coq Require Import ZArith String List Lia Bool Ring Field.
From Verif.Base Require Import Outcome Fp Params Algebra.
From Verif.Model Require Import Transcript LinComb Prog VectorPoly IPP Prover Verifier.
From Verif.Spec Require Import R1CS Sim Protocol Session Verdict Indist Simulator.
From Verif.Proofs Require Import LinCombProofs FlattenProofs IPPProofs IPPMain VerifyProofs VerdictProofs ProveProofs RoundTrip R1CSMain ZKMain.
Import ListNotations.

Section Accepted.
Context {P : Params} {OK : ParamsOk P}.
Local Open Scope fe_scope.
Add Field FFzka : (Fp_field_theory modulus modulus_prime).

Lemma mul_inv_cancel (a : F) (X : G1) : a <> 0 -> g1_mul a (g1_mul (finv a) X) = X.
Proof. intros Ha. rewrite g1_mul_mul, (finv_r a Ha). apply g1_mul_one. Qed.

Lemma ip_padded N n (co : coins) y : (n <= N)%nat -> ip (tab N (sim_l n co)) (tab N (sim_r n y co)) = sim_tx n y co.
Proof.
  intros Hn. rewrite ip_tab. unfold sim_tx. apply sum_n_padded; [exact Hn|]. intros i [Hi _]. unfold sim_l, padded. destruct (Nat.ltb_spec i n); [lia|ring].
Qed.

Lemma simulated_equations vs vs2 g h G H pf tp tape :
  let n := v_num_vars vs2 in
  let c := protocol_challenges (v_transcript vs2) pf in
  (next_power_of_two n <= length G)%nat -> (next_power_of_two n <= length H)%nat ->
  Forall (lc_in_range n (length (v_V vs2))) (v_constraints vs2) ->
  (Nat.log2_up n < 32)%nat -> (1 < n)%nat \/ batch_invert_empty_panics = false ->
  c_x c <> 0 -> all_nonzero (round_challenges n c pf) ->
  simulates g h vs vs2 G H pf tp tape ->
  equation_ipp vs vs2 pf g h G H /\ equation_t vs2 pf g h /\ proof_fits vs2 pf G H.
Proof.
  intros n c HG HH Hr H32 Hbi Hx Hus Hsim. unfold simulates in Hsim. fold n c in Hsim.
  set (n1 := v_num_vars vs) in *. set (co := read_coins n1 n tape) in *. set (cs := v_constraints vs2) in *.
  set (y := c_y c) in *. set (z := c_z c) in *. set (u := c_u c) in *. set (x := c_x c) in *.
  apply (simulate_iff g h G H (v_V vs2) n1 n cs y z u x co (v_transcript vs2) pf tp) in Hsim.
  destruct Hsim as (E1 & E2' & E3 & E4 & E5 & E6 & ET & Etx & Etxb & Eeb & EI). apply pair5 in ET as (F1 & F3 & F4 & F5 & F6).
  fold c in EI. set (N := next_power_of_two n) in *.
  assert (HnN : (n <= N)%nat) by apply next_power_of_two_ge.
  assert (HN : N = (2 ^ Nat.log2_up n)%nat) by reflexivity.
  assert (Hlog : (1 < n)%nat -> (1 <= Nat.log2_up n)%nat).
  { intros Hn. change 1%nat with (Nat.log2_up 2). apply Nat.log2_up_le_mono. lia. }
  assert (LG : length (firstn N G) = (2 ^ Nat.log2_up n)%nat) by (rewrite firstn_length; lia).
  assert (LH : length (firstn N H) = (2 ^ Nat.log2_up n)%nat) by (rewrite firstn_length; lia).
  destruct (ipp_complete (Nat.log2_up n) (c_t c) (g1_mul (c_w c) g) (tab N (phase_factor n1 u)) (tab N (fun i => fpow (finv y) i * phase_factor n1 u i))
    (firstn N G) (firstn N H) (tab N (sim_l n co)) (tab N (sim_r n y co))) as (ipp & t' & EI' & Hver); try assumption; try (rewrite tab_length; exact HN).
  { destruct Hbi as [Hn|]; [left; specialize (Hlog Hn); lia|right; assumption]. }
  rewrite EI in EI'. injection EI' as Eipp <-. rewrite <- Eipp in Hver. specialize (Hver Hus).
  (* equation 1 *)
  assert (Q1 : equation_t vs2 pf g h).
  { unfold equation_t, t_equation. fold c y z x n cs. rewrite F1. unfold sim_T1. cbn [sim_draft T_3 T_4 T_5 T_6]. rewrite (mul_inv_cancel x) by exact Hx.
    rewrite <- F3, <- F4, <- F5, <- F6, <- Etx, <- Etxb. unfold minus.
    set (V := gsum_n _ _ _). gnorm; ring. }
  (* equation 2 *)
  assert (Q2 : ipp_point pf g h G H n1 n N cs y z u x (c_w c) =
     g1_add (g1_add (msm (vmul (tab N (sim_l n co)) (tab N (phase_factor n1 u))) (firstn N G))
       (msm (vmul (tab N (sim_r n y co)) (tab N (fun i => fpow (finv y) i * phase_factor n1 u i))) (firstn N H)))
     (g1_mul (ip (tab N (sim_l n co)) (tab N (sim_r n y co))) (g1_mul (c_w c) g))).
  { rewrite !msm_vmul, !msm_tab_scaled, ip_padded by assumption.
    pose proof (fpow_nonzero x 3 Hx) as Hx3. pose proof (f_equal (g1_mul (fpow x 3)) E3) as S. unfold sim_S1 in S.
    rewrite (mul_inv_cancel (fpow x 3)) in S by exact Hx3. unfold ipp_point in S |- *. fold N in S.
    cbn [sim_draft A_I1 A_O1 S1 A_I2 A_O2 S2 t_x e_blinding] in S. rewrite <- E1, <- E2', <- E4, <- E5, <- E6, <- Etx, <- Eeb in S. rewrite <- Etx.
    set (KG := gsum_n N (fun i => phase_factor n1 u i * (x * _)) G) in *. set (KH := gsum_n N (fun i => phase_factor n1 u i * (_ - 1)) H) in *.
    set (LLG := gsum_n N _ G) in *. set (LLH := gsum_n N _ H) in *.
    transitivity (g1_add (g1_mul (fpow x 3) (S1 pf)) (g1_add (g1_mul x (g1_add (A_I1 pf) (g1_mul u (A_I2 pf))))
      (g1_add (g1_mul (fpow x 2) (g1_add (A_O1 pf) (g1_mul u (A_O2 pf)))) (g1_add (g1_mul (fpow x 3) (g1_mul u (S2 pf)))
       (g1_add (g1_mul (- e_blinding pf) h) (g1_add (g1_mul (t_x pf * c_w c) g) (g1_add KG KH))))))); [gnorm; ring|].
    rewrite S. unfold minus. gnorm; ring. }
  assert (Q3 : equation_ipp vs vs2 pf g h G H).
  { unfold equation_ipp. fold c n1 n cs y z u x. fold N. exists tp. rewrite Q2. rewrite HN at 1. exact Hver. }
  destruct (create_ipp_shape _ _ _ _ _ _ _ _ _ _ EI) as (k & Lk & LL & LR).
  assert (Ek : k = Nat.log2_up n) by (apply (Nat.pow_inj_r 2); [lia|congruence]).
  assert (Hf : proof_fits vs2 pf G H).
  { constructor; try assumption; fold n.
    - congruence.
    - rewrite LL, Ek. exact H32.
    - rewrite LL, Ek. reflexivity. }
  auto.
Qed.

Theorem simulated_accepted W vs vs2 g h G H pf tp tape r :
  let n := v_num_vars vs2 in
  let c := protocol_challenges (v_transcript vs2) pf in
  v_second W pf vs vs2 ->
  (next_power_of_two n <= length G)%nat -> (next_power_of_two n <= length H)%nat ->
  Forall (lc_in_range n (length (v_V vs2))) (v_constraints vs2) ->
  (Nat.log2_up n < 32)%nat -> (1 < n)%nat \/ batch_invert_empty_panics = false ->
  c_x c <> 0 -> all_nonzero (round_challenges n c pf) ->
  simulates g h vs vs2 G H pf tp tape ->
  exists t', verify (with_random W (v_nrand vs2) r) vs pf g h G H = Done (Ok t').
Proof.
  intros n c E2 HG HH Hr H32 Hbi Hx Hus Hsim.
  destruct (simulated_equations vs vs2 g h G H pf tp tape HG HH Hr H32 Hbi Hx Hus Hsim) as (Q3 & Q1 & Hf).
  destruct (batching W vs vs2 pf g h G H E2 Hf) as [Hb _]. apply Hb. split; assumption.
Qed.

(** without reference to the random values *)
Lemma simulated_accepted_all vs vs2 g h G H pf tp tape :
  let n := v_num_vars vs2 in
  let c := protocol_challenges (v_transcript vs2) pf in
  (next_power_of_two n <= length G)%nat -> (next_power_of_two n <= length H)%nat ->
  Forall (lc_in_range n (length (v_V vs2))) (v_constraints vs2) ->
  (Nat.log2_up n < 32)%nat -> (1 < n)%nat \/ batch_invert_empty_panics = false ->
  c_x c <> 0 -> all_nonzero (round_challenges n c pf) ->
  simulates g h vs vs2 G H pf tp tape ->
  exists t', forall W, v_second W pf vs vs2 -> verify W vs pf g h G H = Done (Ok t').
Proof.
  intros n c HG HH Hr H32 Hbi Hx Hus Hsim.
  destruct (simulated_equations vs vs2 g h G H pf tp tape HG HH Hr H32 Hbi Hx Hus Hsim) as (Q3 & Q1 & Hf).
  destruct Hf as [HG' HH' Hr' HLR H32' HN Hb].
  exact (batch_accepts_all vs vs2 pf g h G H HG' HH' Hr' HLR H32' HN Hb Q3 Q1).
Qed.
End Accepted.
