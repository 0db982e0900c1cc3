(** The challenges do not depend on the constraints of the circuit. *)
From Coq Require Import ZArith String List Lia Bool Ring Field.
From Verif.Base Require Import Outcome Fp Params Algebra.
From Verif.Model Require Import Transcript LinComb Prog VectorPoly IPP Prover Verifier.
From Verif.Spec Require Import R1CS Sim Protocol Frame Session.
From Verif.Proofs Require Import LinCombProofs RunProofs ExtProofs FlattenProofs IPPProofs VerifyProofs ProveProofs RoundTrip.
Import ListNotations.
Local Open Scope outcome_scope.

Section FrozenHeart.
Context {P : Params} {OK : ParamsOk P}.
Local Open Scope fe_scope.
Add Field FFfh : (Fp_field_theory modulus modulus_prime).

(** one-phase proofs: which points are published before [y] and [z] *)
Lemma prove_first_points W s G H pf tp : pwf s -> p_deferred s = [] -> prove W s G H = Done (Ok (pf, tp)) ->
  A_I1 pf = hp_AI1 W s G H /\ A_O1 pf = hp_AO1 W s G /\ S1 pf = hp_S1 W s G H /\
  A_I2 pf = g1_id /\ A_O2 pf = g1_id /\ S2 pf = g1_id.
Proof.
  intros Hwf Hd E.
  assert (E0 := E). apply (prove_inv _ _ _ _ _ Hwf) in E0 as (s2 & E2 & HG & HH & Hr).
  assert (Es2 : p_aL s2 = p_aL s).
  { unfold prover_create_randomized_constraints in E2.
    replace (p_deferred (p_with_pending None (hp_state1 W s G H))) with (p_deferred s) in E2 by reflexivity.
    rewrite Hd in E2. injection E2 as <-. reflexivity. }
  rewrite Es2 in HG, HH. pose proof (next_power_of_two_ge (length (p_aL s))) as Hge.
  pose proof (pwf_aR _ Hwf) as LaR. pose proof (pwf_aO _ Hwf) as LaO.
  revert E. unfold prove. cbn [p_with_transcript p_with_nrand p_transcript p_aL p_aR p_aO p_g p_h p_v p_v_blinding p_nrand].
  destruct (Nat.ltb_spec (length G) (length (p_aL s))); [lia|].
  rewrite (slice_to_ok s (length (p_aL s)) G), (slice_to_ok s (length (p_aL s)) H) by lia. cbn [obind].
  rewrite commit_vectors_ok by (rewrite firstn_length; lia). cbn [obind].
  rewrite msm_checked_ok by (rewrite firstn_length; lia). cbn [obind].
  rewrite commit_vectors_ok by (rewrite firstn_length, randoms_length; lia). cbn [obind].
  match goal with |- context [prover_create_randomized_constraints W ?e] => change e with (hp_state1 W s G H) end.
  rewrite E2. cbn [orbind]. rewrite Es2, Nat.sub_diag. change (Nat.ltb 0 0) with false. cbv iota. cbn [obind].
  destruct (Nat.ltb _ _); [discriminate|].
  unfold challenge_scalar. 
  repeat first
   [ match goal with |- obind ?e _ = _ -> _ => destruct e as [?|]; [|discriminate]; cbn [obind] end
   | match goal with |- (let '(_, _) := (_, _) in _) = _ -> _ => cbv iota beta end
   | match goal with |- match ?x with (_, _) => _ end = _ -> _ => is_var x; destruct x end ].
  cbn zeta. intros E. injection E as <- _. cbn [A_I1 A_O1 S1 A_I2 A_O2 S2].
  repeat split.
Qed.

Lemma prove_challenges_log W s G H pf tp : pwf s -> p_deferred s = [] -> prove W s G H = Done (Ok (pf, tp)) ->
  let s2t := r1cs_1phase_domain_sep (p_transcript (hp_state1 W s G H)) in
  let ty := commit_point "S2" g1_id (commit_point "A_O2" g1_id (commit_point "A_I2" g1_id s2t)) in
  c_y (protocol_challenges s2t pf) = challenge_value "y" ty /\
  c_z (protocol_challenges s2t pf) = challenge_value "z" (ty ++ [TChallenge "y" modbytes]).
Proof.
  intros Hwf Hd E. destruct (prove_first_points _ _ _ _ _ _ Hwf Hd E) as (_ & _ & _ & E1 & E2 & E3).
  cbn zeta. unfold protocol_challenges. rewrite E1, E2, E3. split; reflexivity.
Qed.

(** Changing the constraints of a one-phase circuit in any way leaves [y] and [z] unchanged. *)
Theorem yz_independent W s cs G H pf tp pf' tp' : pwf s -> p_deferred s = [] ->
  prove W s G H = Done (Ok (pf, tp)) -> prove W (p_with_constraints cs s) G H = Done (Ok (pf', tp')) ->
  let t0 := r1cs_1phase_domain_sep (first_phase_transcript pf (length (p_v s)) (p_transcript s)) in
  first_phase_transcript pf' (length (p_v s)) (p_transcript s) = first_phase_transcript pf (length (p_v s)) (p_transcript s) /\
  c_y (protocol_challenges t0 pf') = c_y (protocol_challenges t0 pf) /\
  c_z (protocol_challenges t0 pf') = c_z (protocol_challenges t0 pf).
Proof.
  intros Hwf Hd E E'.
  assert (Hwf' : pwf (p_with_constraints cs s)) by (eapply pwf_same_wires; [..|exact Hwf]; reflexivity).
  destruct (prove_first_points _ _ _ _ _ _ Hwf Hd E) as (E1 & E2 & E3 & E4 & E5 & E6).
  destruct (prove_first_points _ _ _ _ _ _ Hwf' Hd E') as (E1' & E2' & E3' & E4' & E5' & E6').
  cbn zeta. unfold first_phase_transcript, protocol_challenges.
  rewrite E1, E2, E3, E4, E5, E6, E1', E2', E3', E4', E5', E6'. repeat split.
Qed.


(** *** The attack *)
Lemma prun_constrain_all W ph2 cs : forall s,
  prun W ph2 (constrain_all cs) s = Done (tt, p_with_constraints (p_constraints s ++ cs) s).
Proof.
  induction cs as [|l cs IH]; intros s; simpl.
  - rewrite app_nil_r. destruct s; reflexivity.
  - rewrite IH. unfold prover_constrain. cbn [p_with_constraints p_constraints]. rewrite <- app_assoc. reflexivity.
Qed.

Lemma sim_constrain_all g h cs : sim g h eq (constrain_all cs) (constrain_all cs).
Proof.
  induction cs as [|l cs IH]; simpl; [constructor; reflexivity|].
  constructor; [|exact IH]. split; [intros v; reflexivity|intros v; reflexivity].
Qed.

Lemma sim_equals g h v b consts : sim g h eq (prove_equals v b consts) (verify_equals (commit g h v b) consts).
Proof.
  unfold prove_equals, verify_equals. simpl. constructor. intros w. simpl.
  constructor. intros vs. constructor. intros vs'. apply sim_constrain_all.
Qed.

Definition equals_state W g h t v b : prover :=
  match prun W false (prove_equals v b []) (prover_new g h t) with Done (_, s) => s | Panic => prover_new g h t end.

Lemma prun_equals W g h t v b consts :
  prun W false (prove_equals v b consts) (prover_new g h t) =
  Done (tt, p_with_constraints (map (equals (VCommitted 0)) consts) (equals_state W g h t v b)).
Proof.
  unfold equals_state, prove_equals. cbn [cs_commit cs_allocate_multiplier pbind prun].
  unfold prover_commit. cbn [prun pbind prover_new p_v length snd fst].
  unfold prover_allocate_multiplier, prover_allocate_vars.
  rewrite !prun_constrain_all. cbn [map]. rewrite app_nil_r.
  cbn [p_with_wires p_with_transcript p_with_v p_constraints app p_with_constraints]. reflexivity.
Qed.

Theorem frozen_heart W W' g h t v b G H s0 pf0 tp0 c1 :
  prun W false (prove_equals v b []) (prover_new g h t) = Done (tt, s0) ->
  prove W s0 G H = Done (Ok (pf0, tp0)) ->
  let z := c_z (protocol_challenges (r1cs_1phase_domain_sep (first_phase_transcript pf0 1 (p_transcript s0))) pf0) in
  z <> 0 ->
  let c2 := v + (v - c1) / z in
  exists s pf tp vs,
    prun W false (prove_equals v b [c1; c2]) (prover_new g h t) = Done (tt, s) /\
    prove W s G H = Done (Ok (pf, tp)) /\
    vrun W' false (verify_equals (commit g h v b) [c1; c2]) (verifier_new t) = Done (tt, vs) /\
    (let c := protocol_challenges (r1cs_1phase_domain_sep (first_phase_transcript pf0 1 (p_transcript s0))) pf in
     c_y c <> 0 ->
     Forall (fun u => u <> 0) (fst (ipp_challenges (ipp_L (proof_ipp pf)) (ipp_R (proof_ipp pf))
           (innerproduct_domain_sep 2 (c_t c)))) ->
     verify W' vs pf g h G H = Done (Ok tp)) /\
    (c1 <> v -> z <> - (1) -> c1 <> c2 /\
      forall a, ~ (lc_value a (equals (VCommitted 0) c1) = 0 /\ lc_value a (equals (VCommitted 0) c2) = 0)).
Proof.
  intros Erun Eprove z Hz c2. pose proof (prun_equals W g h t v b []) as Es0. rewrite Erun in Es0.
  injection Es0 as Es0. cbn [map] in Es0.
  pose proof (prun_equals W g h t v b [c1; c2]) as Es. set (s := p_with_constraints _ _) in Es.
  assert (Ess : s = p_with_constraints (map (equals (VCommitted 0)) [c1; c2]) s0).
  { rewrite Es0. unfold s. reflexivity. }
  assert (Hst : equals_state W g h t v b = s0).
  { unfold equals_state. rewrite Erun. reflexivity. }
  assert (Hsh : p_deferred s0 = [] /\ length (p_aL s0) = 2%nat /\ length (p_v s0) = 1%nat /\ p_v s0 = [v] /\ length (p_constraints s0) = 0%nat).
  { rewrite <- Hst. unfold equals_state, prove_equals. cbn. repeat split. }
  destruct Hsh as (Hd & Hn & Hm & Hv & _).
  assert (Hwf0 : pwf s0).
  { eapply prun_pwf; [|exact Erun]. apply pwf_new. }
  assert (Hwf : pwf s) by (rewrite Ess; eapply pwf_same_wires; [..|exact Hwf0]; reflexivity).
  destruct (prove_inv _ _ _ _ _ Hwf0 Eprove) as (s2' & E2' & HG & HH & _).
  assert (E2 : forall cs, prover_create_randomized_constraints W (hp_state1 W (p_with_constraints cs s0) G H) =
     Done (Ok (p_with_transcript (r1cs_1phase_domain_sep (p_transcript (hp_state1 W s0 G H)))
        (p_with_pending None (hp_state1 W (p_with_constraints cs s0) G H))))).
  { intros cs. unfold prover_create_randomized_constraints.
    replace (p_deferred (p_with_pending None (hp_state1 W (p_with_constraints cs s0) G H))) with (p_deferred s0) by reflexivity.
    rewrite Hd. reflexivity. }
  assert (En2 : length (p_aL s2') = 2%nat).
  { replace s0 with (p_with_constraints (p_constraints s0) s0) in E2' by (destruct s0; reflexivity).
    rewrite E2 in E2'. injection E2' as <-. exact Hn. }
  rewrite En2 in HG, HH.
  destruct (prove_char W s G H _ Hwf (eq_ind_r (fun s => prover_create_randomized_constraints W (hp_state1 W s G H) = _) (E2 _) Ess))
    as (pf & tp & us & Epf & Efp & EL & ER & Ech & _ & _).
  { cbn. rewrite Hn. exact HG. }
  { cbn. rewrite Hn. exact HH. }
  { cbn. rewrite Hn, Hm. repeat constructor; intros w c [E|[E|[]]]; injection E as <- <-; simpl; auto. }
  destruct (round_trip W W' g h G H t eq _ _ tt s pf tp (sim_equals g h v b [c1; c2]) Es Epf)
    as (u & vs & s2 & vs2 & Evr & HR & _ & E2s & _ & _ & HG2 & HH2 & _ & EL2 & ER2 & Etp & Hver).
  subst u.
  assert (Es2 : s2 = p_with_transcript (r1cs_1phase_domain_sep (p_transcript (hp_state1 W s0 G H)))
        (p_with_pending None (hp_state1 W (p_with_constraints (map (equals (VCommitted 0)) [c1; c2]) s0) G H))).
  { rewrite Ess in E2s. rewrite E2 in E2s. injection E2s as <-. reflexivity. }
  assert (Efp0 : first_phase_transcript pf0 1 (p_transcript s0) = p_transcript (hp_state1 W s0 G H)).
  { destruct (prove_first_points _ _ _ _ _ _ Hwf0 Hd Eprove) as (Q1 & Q2 & Q3 & _).
    unfold first_phase_transcript, hp_state1. cbn [p_with_transcript p_transcript]. rewrite Q1, Q2, Q3, Hm. reflexivity. }
  exists s, pf, tp, vs. split; [exact Es|]. split; [exact Epf|]. split; [exact Evr|]. split.
  - rewrite Efp0. cbn zeta. intros Hy Hus.
    assert (En : length (p_aL s2) = 2%nat) by (rewrite Es2; exact Hn).
    assert (Et : p_transcript s2 = r1cs_1phase_domain_sep (p_transcript (hp_state1 W s0 G H))) by (rewrite Es2; reflexivity).
    assert (Ecs : p_constraints s2 = map (equals (VCommitted 0)) [c1; c2]) by (rewrite Es2; reflexivity).
    rewrite En, Et, Ecs in Hver. change (next_power_of_two 2) with 2%nat in Hver. change (Nat.log2_up 2) with 1%nat in Hver.
    rewrite Hver; [|lia|left; lia|exact Hy|exact Hus].
    assert (Hzz : c_z (protocol_challenges (r1cs_1phase_domain_sep (p_transcript (hp_state1 W s0 G H))) pf) = z).
    { unfold z. rewrite Efp0.
      assert (Hd' : p_deferred s = []) by (rewrite Ess; exact Hd).
      destruct (prove_challenges_log _ _ _ _ _ _ Hwf Hd' Epf) as (_ & Q).
      destruct (prove_challenges_log _ _ _ _ _ _ Hwf0 Hd Eprove) as (_ & Q0).
      rewrite Q0. rewrite Ess in Q. exact Q. }
    rewrite Hzz.
    assert (Hzs : zsum (prover_assignment s2) (map (equals (VCommitted 0)) [c1; c2]) z = 0).
    { unfold zsum, prover_assignment. cbn [map length seq nth fsum fold_right]. unfold equals. cbn [lc_value var_value assignment_of as_committed].
      assert (Ev2 : p_v s2 = [v]) by (rewrite Es2; exact Hv). rewrite Ev2. cbn [nth fpow].
      unfold c2. cbn [fsum fold_right]. field. exact Hz. }
    rewrite Hzs.
    replace (- (_ * (_ * _) * 0)) with (0 : F) by ring. rewrite g1_mul_zero, g1_eqb_refl. reflexivity.
  - intros Hne Hz1. assert (Hc : c1 <> c2).
    { unfold c2. intros E. apply Hz1. assert (Q : (v - c1) * (1 + z) = 0).
      { apply (f_equal (fun a => (a - v) * z)) in E.
        assert (E' : (c1 - v) * z = v - c1) by (rewrite E; field; exact Hz).
        transitivity ((v - c1) - (c1 - v) * z); [ring|rewrite E'; ring]. }
      apply F_mul_integral in Q as [Q|Q].
      - exfalso. apply Hne. symmetry. apply F_sub_zero. exact Q.
      - apply F_sub_zero. rewrite <- Q. ring. }
    split; [exact Hc|]. intros a [E1 E3]. apply Hc. unfold equals in E1, E3. cbn [lc_value var_value] in E1, E3.
    apply F_sub_zero. transitivity ((1 * as_committed a 0 + (- c2 * 1 + 0)) - (1 * as_committed a 0 + (- c1 * 1 + 0))); [ring|].
    rewrite E1, E3. ring.
Qed.
End FrozenHeart.
