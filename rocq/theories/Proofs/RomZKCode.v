(** Zero knowledge with a random oracle, with the challenges of the code. *)
From Coq Require Import ZArith String List Lia Bool Arith.
From Verif.Base Require Import Outcome Fp Params Algebra.
From Verif.Model Require Import Transcript LinComb Prog IPP Prover Verifier.
From Verif.Spec Require Import R1CS Session Protocol Indist Simulator Games RomSim TwoPhase RomTwo Compose GadgetGames RomSession Challenges.
From Verif.Proofs Require Import TreeCount OracleCount ChallengeBytes RomCount RomZK RomTwo RomSession.
Import ListNotations.
Local Notation length := List.length.
Local Notation zlen l := (Z.of_nat (length l)).

Section Code.
Context {P : Params} {OK : ParamsOk P} {ENC : EncodingOk P}.
Local Open Scope Z_scope.

(** Q / order + 2 / order + 2 / 256^MODBYTES, times order * 256^MODBYTES *)
Lemma code_error_bound Q x y T m :
  let C := code_challenges in
  let order := Z.to_nat modulus in
  (order * length C * (length C ^ m * x) <= order * length C * y + (Q * length C + 2 * order * times C (fzero _)) * T /\
   order * length C * y <= order * length C * (length C ^ m * x) + (Q * length C + 2 * order * times C (fzero _)) * T)%nat ->
  Z.abs (byte_strings ^ Z.of_nat m * Z.of_nat x - Z.of_nat y) * (modulus * byte_strings) <=
    (Z.of_nat Q * byte_strings + 2 * (byte_strings + modulus)) * Z.of_nat T.
Proof.
  intros C order [H1 H2]. apply Nat2Z.inj_le in H1, H2.
  rewrite !Nat2Z.inj_add, !Nat2Z.inj_mul, !Nat2Z.inj_add, !Nat2Z.inj_mul, Nat2Z.inj_pow in H1, H2.
  pose proof code_challenges_length as Hl. fold C in Hl. rewrite Hl in H1, H2.
  pose proof (code_repeats (fzero modulus)) as Hz. apply Nat2Z.inj_le in Hz. pose proof code_mu_bound as Hm.
  pose proof modulus_positive as Hp. unfold order in H1, H2. rewrite Z2Nat.id in H1, H2 by lia. fold C in Hz.
  set (z := Z.of_nat (times C (fzero modulus))) in *. set (mu := Z.of_nat code_mu) in *.
  assert (Hz1 : modulus * z <= byte_strings + modulus) by nia.
  set (a := byte_strings ^ Z.of_nat m * Z.of_nat x) in *. set (b := Z.of_nat y) in *. set (t := Z.of_nat T) in *. set (q := Z.of_nat Q) in *.
  assert (Ht : 0 <= t) by apply Nat2Z.is_nonneg.
  assert (He : (q * byte_strings + Z.of_nat 2 * modulus * z) * t <= (q * byte_strings + 2 * (byte_strings + modulus)) * t).
  { apply Z.mul_le_mono_nonneg_r; [exact Ht|]. change (Z.of_nat 2) with 2. lia. }
  destruct (Z.abs_spec (a - b)) as [[_ ->]|[_ ->]]; lia.
Qed.
End Code.

Section Stated.
Context {P : Params} {OK : ParamsOk P} {ENC : EncodingOk P}.
Local Open Scope fe_scope.
Lemma zk_code (s : prover) (vs : verifier) G H k kt D (A : distinguisher) Q :
  let n := length (p_aL s) in
  let g := p_g s in
  let h := p_h s in
  let V := v_V vs in
  let cs := v_constraints vs in
  let t0 := v_transcript vs in
  let C := code_challenges in
  p_reachable false s -> p_deferred s = [] -> same_circuit s vs -> generates h ->
  satisfies (prover_assignment s) n (p_constraints s) ->
  Forall (lc_in_range n (length (p_v s))) (p_constraints s) ->
  next_power_of_two n = (2 ^ k)%nat -> (2 ^ k <= length G)%nat -> (2 ^ k <= length H)%nat ->
  (11 + 2 * n <= kt)%nat -> NoDup D ->
  (forall pf, length (ipp_L (proof_ipp pf)) = k -> length (ipp_R (proof_ipp pf)) = k ->
     incl (proof_queries (length V) n t0 pf) D) ->
  at_most Q A ->
  let tapes := vectors every_scalar kt in
  let real := length (filter (fun '(ro, tape) => real_guess s G H A ro tape) (list_prod (oracles D C) tapes)) in
  let games := list_prod (list_prod (oracles D C) (vectors C (5 + k))) tapes in
  let simulated := length (filter (fun '(ro, c, tape) => simulated_guess g h G H V n cs t0 A ro c tape) games) in
  (Z.abs (byte_strings ^ Z.of_nat (5 + k) * Z.of_nat real - Z.of_nat simulated) * (modulus * byte_strings) <=
   (Z.of_nat Q * byte_strings + 2 * (byte_strings + modulus)) * zlen games)%Z.
Proof.
  intros n g h V cs t0 C Hr Hd Hs Hg Hsat Hran Hk HG HH Hkt HD Hcov HQ tapes real games simulated.
  apply code_error_bound. exact (rom_zk_times s vs G H k kt C D A Q Hr Hd Hs Hg Hsat Hran Hk HG HH Hkt HD Hcov HQ).
Qed.

Lemma zk_two_phase_code (s : prover) cbs labels n circ G H k kt D (A : distinguisher) Q :
  let g := p_g s in
  let h := p_h s in
  let V := zipw (commit g h) (p_v s) (p_v_blinding s) in
  let n1 := length (p_aL s) in
  let t0 := p_transcript s in
  let r := length labels in
  let C := code_challenges in
  p_reachable false s -> generates h -> prover_second_phase s cbs labels n circ ->
  next_power_of_two n = (2 ^ k)%nat -> (2 ^ k <= length G)%nat -> (2 ^ k <= length H)%nat ->
  (11 + 2 * n <= kt)%nat -> NoDup D ->
  (forall pf, length (ipp_L (proof_ipp pf)) = k -> length (ipp_R (proof_ipp pf)) = k ->
     incl (two_phase_queries labels (length V) n t0 pf) D) ->
  at_most Q A ->
  let tapes := vectors every_scalar kt in
  let real := length (filter (fun '(ro, tape) => two_phase_real_guess s cbs G H A ro tape) (list_prod (oracles D C) tapes)) in
  let games := list_prod (list_prod (oracles D C) (vectors C (r + (5 + k)))) tapes in
  let simulated := length (filter (fun '(ro, c, tape) =>
    two_phase_simulated_guess g h G H V n1 n labels circ t0 A ro c tape) games) in
  (Z.abs (byte_strings ^ Z.of_nat (r + (5 + k)) * Z.of_nat real - Z.of_nat simulated) * (modulus * byte_strings) <=
   (Z.of_nat Q * byte_strings + 2 * (byte_strings + modulus)) * zlen games)%Z.
Proof.
  intros g h V n1 t0 r C Hr Hg Hsec Hk HG HH Hkt HD Hcov HQ tapes real games simulated.
  apply code_error_bound. exact (rom_zk2_times s cbs labels n circ G H k kt C D A Q Hr Hg Hsec Hk HG HH Hkt HD Hcov HQ).
Qed.

Lemma zk_session_code W W' checks t g h (l : list call) G H k kt D (A : session_distinguisher) Q commss0 vs0 :
  let sts := map statement_of l in
  let ns := map size l in
  let n := v_num_vars vs0 in
  let C := code_challenges in
  Forall honest_call l -> Forall draws_all l -> generates h ->
  map (@length G1) commss0 = ns -> session_verifier W' checks t g h sts commss0 = Some vs0 ->
  next_power_of_two n = (2 ^ k)%nat -> (2 ^ k <= length G)%nat -> (2 ^ k <= length H)%nat ->
  (11 + 2 * n <= kt)%nat -> NoDup D ->
  (forall commss vs pf, map (@length G1) commss = ns -> session_verifier W' checks t g h sts commss = Some vs ->
     length (ipp_L (proof_ipp pf)) = k -> length (ipp_R (proof_ipp pf)) = k ->
     incl (proof_queries (length (v_V vs)) n (v_transcript vs) pf) D) ->
  (forall commss, at_most Q (handed A commss)) ->
  let tapes1 := vectors every_scalar (list_sum ns) in
  let tapes2 := vectors every_scalar kt in
  let real := length (filter (fun '(tape1, (ro, tape2)) => real_session_guess W checks t g h l G H A ro tape1 tape2)
    (list_prod tapes1 (list_prod (oracles D C) tapes2))) in
  let games := list_prod tapes1 (list_prod (list_prod (oracles D C) (vectors C (5 + k))) tapes2) in
  let simulated := length (filter (fun '(tape1, (ro, c, tape2)) => simulated_session_guess W' checks t g h sts ns G H A ro c tape1 tape2) games) in
  (Z.abs (byte_strings ^ Z.of_nat (5 + k) * Z.of_nat real - Z.of_nat simulated) * (modulus * byte_strings) <=
   (Z.of_nat Q * byte_strings + 2 * (byte_strings + modulus)) * zlen games)%Z.
Proof.
  intros sts ns n C Hl Hf Hg Hs0 E0 Hk HG HH Hkt HD Hcov HQ tapes1 tapes2 real games simulated.
  apply code_error_bound. exact (session_zk_times W W' checks t g h l Hl Hf Hg G H k kt C D A Q commss0 vs0 Hs0 E0 Hk HG HH Hkt HD Hcov HQ).
Qed.
End Stated.
