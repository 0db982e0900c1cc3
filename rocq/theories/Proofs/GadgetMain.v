(** The statements about gadgets used in Props/GadgetProps.v. *)
From Coq Require Import ZArith String List Lia Bool Ring Field Arith.
From Verif.Base Require Import Outcome Fp Params Algebra.
From Verif.Model Require Import Transcript LinComb Prog VectorPoly IPP Prover Verifier Gadgets.
From Verif.Spec Require Import R1CS Sim Session Protocol Verdict Gadget Cheats.
From Verif.Proofs Require Import IPPProofs LinCombProofs RunProofs SyncMore GadgetTools GadgetBasic GadgetComplete GadgetPrograms GadgetEnd.
Import ListNotations.

Section Main.
Context {P : Params} {OK : ParamsOk P}.
Local Open Scope fe_scope.
Add Field FFgm : (Fp_field_theory modulus modulus_prime).

(** *** Sessions exist *)
Lemma committed_session (g h : G1) (t : transcript) (l : list (F * F)) : exists ps vs vars,
  session false ps vs /\ p_pending ps = None /\ Forall2 (has_value ps) vars (map fst l).
Proof.
  set (W := World (fun _ => 0) (fun _ => [])).
  assert (Hb : both W W false (length l * 0) (length l * 0)
     (p_fold (fun acc '(v, b) => pbind (cs_commit (v, b)) (fun '(c, w) => PRet (acc ++ [w]))) l [])
     (p_fold (fun acc c => pbind (cs_commit c) (fun w => PRet (acc ++ [w]))) (map (fun '(v, b) => commit g h v b) l) [])
     (prover_new g h t) (verifier_new t)
     (fun acc acc' ps => acc = acc' /\ Forall2 (has_value ps) acc (map fst (firstn (length l) l)))).
  { apply (both_fold W W false 0 0 _ _ _ _ (prover_new g h t) (verifier_new t) _ _
      (fun j acc acc' ps => acc = acc' /\ Forall2 (has_value ps) acc (map fst (firstn j l)))).
    - rewrite map_length. reflexivity.
    - intros j [v b] c st st' ps vs E E' Hg [<- Hf].
      assert (Ec : c = commit (p_g ps) (p_h ps) v b).
      { rewrite nth_error_map, E in E'. injection E' as <-. apply (commit_grew _ _ _ _ _ _ Hg). }
      apply b_commit; [exact Ec|]. intros ps' vs' w Hg' Hw. apply both_ret. split; [reflexivity|].
      rewrite (firstn_S_nth l j (v, b)) by (apply nth_error_Some; congruence). rewrite map_app.
      apply Forall2_app; [eapply forall2_grew; eassumption|]. cbn. rewrite (nth_error_nth _ _ _ E).
      constructor; [exact Hw|constructor].
    - intros _. split; [reflexivity|constructor]. }
  destruct Hb as (a & ps & b & vs & Ep & Ev & Hg & Hh & Hs & Hd & Eab & Hf); [intros x []|apply sync_base_new|].
  exists ps, vs, a. split; [|split].
  - split; [econstructor; exact Ep|]. split; [apply sync_same; exact Hs|exact Hh].
  - rewrite (gr_pending _ _ _ _ Hg). reflexivity.
  - rewrite firstn_all in Hf. exact Hf.
Qed.

(** *** C25, C26: exact circuits *)
Lemma satisfies_snoc s n cs c : satisfies s n (cs ++ [c]) <-> satisfies s n cs /\ lc_value s c = 0.
Proof.
  unfold satisfies. split.
  - intros [H1 H2]. split; [split; [exact H1|]|].
    + intros l Hl. apply H2. apply in_or_app. auto.
    + apply H2. apply in_or_app. right. left. reflexivity.
  - intros [[H1 H2] H3]. split; [exact H1|]. intros l Hl. apply in_app_or in Hl as [Hl|[<-|[]]]; auto.
Qed.

Lemma satisfies_gate s n cs : satisfies s (S n) cs <-> satisfies s n cs /\ gate_ok s n.
Proof.
  unfold satisfies. split.
  - intros [H1 H2]. split; [split; [|exact H2]|]; intros; apply H1; lia.
  - intros [[H1 H2] H3]. split; [|exact H2]. intros i Hi. destruct (Nat.eq_dec i n) as [-> | Hne]; [exact H3|apply H1; lia].
Qed.

Lemma bit_exact W ph q vs : exists vs', vrun W ph (bit_gadget q) vs = Done (Ok tt, vs') /\
  forall s, satisfies s (v_num_vars vs) (v_constraints vs) ->
    let x := var_value s (q_var q) in
    let n := v_num_vars vs in
    satisfies s (v_num_vars vs') (v_constraints vs') <->
    (x = 0 \/ x = 1) /\ as_left s n = 1 - x /\ as_right s n = x /\ as_out s n = 0.
Proof.
  eexists. split; [reflexivity|]. intros s Hs x n. cbn [v_constraints v_num_vars verifier_constrain v_with_constraints v_with_num_vars].
  change (v_num_vars (snd (verifier_allocate_multiplier vs))) with (S (v_num_vars vs)).
  rewrite !satisfies_snoc, satisfies_gate. fold n. unfold gate_ok.
  rewrite !lc_value_var_add, lc_value_var_sub, lc_value_of_var, lc_value_of_fe. cbn [lc_value var_value]. fold x. split.
  - intros [[[[_ Hg] H1] H2] H3].
    assert (Ex : as_right s n = x).
    { transitivity (as_right s n + (- (1) * x + 0) + x); [ring|rewrite H1; ring]. }
    rewrite Ex in *. assert (El : as_left s n = 1 - x).
    { transitivity (as_left s n + (x - 1) + (1 - x)); [ring|rewrite H3; ring]. }
    split; [|auto]. rewrite El, H2 in Hg. apply F_mul_integral in Hg as [E|E]; [right|left; exact E].
    symmetry. apply F_sub_zero. exact E.
  - intros (Hx & -> & -> & ->). split; [split; [split; [split; [exact Hs|]|]|]|].
    + destruct Hx as [-> | ->]; ring.
    + ring.
    + reflexivity.
    + ring.
Qed.

Lemma nonzero_exact W ph x xi vs : exists vs', vrun W ph (is_nonzero_gadget x xi) vs = Done (Ok tt, vs') /\
  forall s, satisfies s (v_num_vars vs) (v_constraints vs) ->
    let a := var_value s x in
    let b := var_value s xi in
    let n := v_num_vars vs in
    satisfies s (v_num_vars vs') (v_constraints vs') <->
    a * b = 1 /\
    as_left s n = a /\ as_right s n = 0 /\ as_out s n = 0 /\
    as_left s (S n) = a /\ as_right s (S n) = b /\ as_out s (S n) = 1.
Proof.
  eexists. split; [reflexivity|]. intros s Hs a b n. cbn -[satisfies var_sub_lc lc_sub lc_of_fe lc_of_var lc_value].
  rewrite ?satisfies_snoc, ?satisfies_gate. fold n. unfold gate_ok.
  rewrite ?lc_value_app, ?lc_value_var_sub, ?lc_value_sub, ?lc_value_of_var, ?lc_value_of_fe. cbn [lc_value var_value].
  fold a b. split.
  - intros H.
    repeat match type of H with _ /\ _ => let H2 := fresh "H" in destruct H as [H H2] end.
    assert (E1 : as_left s n = a) by (transitivity (a - (a + (- (1) * as_left s n + 0))); [ring|rewrite H5; ring]).
    assert (E2 : as_right s n = 0) by (transitivity (1 - 1 - (1 - 1 + (- (1) * as_right s n + 0))); [ring|rewrite H4; ring]).
    assert (E3 : as_left s (S n) = a) by (transitivity (a - (a + (- (1) * as_left s (S n) + 0))); [ring|rewrite H2; ring]).
    assert (E4 : as_right s (S n) = b) by (transitivity (b - (1 * b + (- (1) * as_right s (S n) + 0))); [ring|rewrite H1; ring]).
    apply F_sub_zero in H0. rewrite E3, E4, H0 in H6. auto 10.
  - intros (Hab & -> & -> & -> & -> & -> & ->). rewrite Hab. repeat split; try ring; apply Hs.
Qed.

(** *** C27 *)
Lemma positive_forces W ph q n vs :
  forces W ph (positive_no_gadget q n) vs (fun s _ => exists z, (0 <= z < 2 ^ Z.of_nat n)%Z /\ var_value s (q_var q) = fe_of z).
Proof.
  apply vspec_forces. intros s. eapply vspec_conseq; [apply positive_sound|]. intros r s' H b E. exact (proj2 (H b E)).
Qed.

Lemma positive_forces_range W ph q n vs : (2 ^ Z.of_nat n <= modulus)%Z ->
  forces W ph (positive_no_gadget q n) vs (fun s _ => (fval (var_value s (q_var q)) < 2 ^ Z.of_nat n)%Z).
Proof.
  intros Hn b vs' s E Hs. destruct (positive_forces W ph q n vs b vs' s E Hs) as (z & Hz & ->).
  rewrite fe_of_small by lia. lia.
Qed.

(** *** C28 *)
Lemma bound_arith lower upper n (x : F) za zb :
  (0 <= lower)%Z -> (0 <= upper < modulus)%Z -> (lower + 2 ^ (Z.of_nat n + 1) <= modulus)%Z ->
  (0 <= za < 2 ^ Z.of_nat n)%Z -> (0 <= zb < 2 ^ Z.of_nat n)%Z -> x = fe_of (lower + za) -> x = fe_of (upper - zb) ->
  (lower <= fval x <= upper)%Z /\ (fval x - lower < 2 ^ Z.of_nat n)%Z /\ (upper - fval x < 2 ^ Z.of_nat n)%Z.
Proof.
  intros Hl Hu Hn Hza Hzb E1 E2. rewrite Z.pow_add_r in Hn by lia. change (2 ^ 1)%Z with 2%Z in Hn.
  assert (F1 : fval x = (lower + za)%Z) by (rewrite E1; apply fe_of_small; lia).
  destruct (Z_lt_le_dec (upper - zb) 0) as [Hneg|Hpos].
  - exfalso. assert (F2 : fval x = (upper - zb + modulus)%Z).
    { rewrite E2. unfold fe_of. rewrite fval_of_Z. symmetry. apply (Z.mod_unique _ _ (-1)); lia. }
    lia.
  - assert (F2 : fval x = (upper - zb)%Z) by (rewrite E2; apply fe_of_small; lia). lia.
Qed.

Lemma bound_check_forces W ph checks v a b lower upper n vs :
  (0 <= lower)%Z -> (0 <= upper < modulus)%Z -> (lower + 2 ^ (Z.of_nat n + 1) <= modulus)%Z ->
  forces W ph (bound_check_gadget checks v a b upper lower n) vs (fun s _ =>
    let x := fval (var_value s (q_var v)) in
    (lower <= x <= upper)%Z /\ (x - lower < 2 ^ Z.of_nat n)%Z /\ (upper - x < 2 ^ Z.of_nat n)%Z).
Proof.
  intros Hl Hu Hn. apply vspec_forces. intros s. eapply vspec_conseq; [apply bound_check_sound|]. intros r s' H c E.
  destruct (H c E) as (_ & za & zb & Hza & Hzb & E1 & E2). exact (bound_arith lower upper n _ za zb Hl Hu Hn Hza Hzb E1 E2).
Qed.

Lemma bounded_num_forces W checks lower upper n comms vs :
  (0 <= lower)%Z -> (0 <= upper < modulus)%Z -> (lower + 2 ^ (Z.of_nat n + 1) <= modulus)%Z ->
  forces W false (verify_bounded_num checks lower upper n comms) vs (fun s _ =>
    let x := fval (as_committed s (length (v_V vs))) in
    (lower <= x <= upper)%Z /\ (x - lower < 2 ^ Z.of_nat n)%Z /\ (upper - x < 2 ^ Z.of_nat n)%Z).
Proof.
  intros Hl Hu Hn. apply vspec_forces. intros s. eapply vspec_conseq; [apply bounded_num_sound|]. intros r s' H c E.
  destruct (H c E) as (za & zb & Hza & Hzb & E1 & E2). exact (bound_arith lower upper n _ za zb Hl Hu Hn Hza Hzb E1 E2).
Qed.

Lemma bounded_num_underflow W val randomness lower upper n s :
  randomness <> None -> (val < lower \/ upper < val)%Z ->
  prun W false (prove_bounded_num true val randomness lower upper n true) s = Panic.
Proof.
  intros Hr Hv. unfold prove_bounded_num. destruct randomness as [r|]; [|contradiction]. cbn [check_for_randomness_or_rng ptry pbind].
  unfold u64_sub. destruct (Z.ltb_spec val lower); [reflexivity|]. cbn [p_lift pbind].
  destruct (Z.ltb_spec upper val); [reflexivity|]. exfalso; lia.
Qed.

(** *** C29 *)
Lemma vector_sum_exact W ph vector sum vs : exists vs', vrun W ph (vector_sum_constraints vector sum) vs = Done (Ok tt, vs') /\
  forall s, satisfies s (v_num_vars vs) (v_constraints vs) ->
    (satisfies s (v_num_vars vs') (v_constraints vs') <-> fsum (map (var_value s) vector) = fe_of sum).
Proof.
  eexists. split; [reflexivity|]. intros s Hs. cbn -[satisfies lc_value].
  rewrite satisfies_snoc. cbn [lc_value]. rewrite lc_value_ones. cbn [var_value]. split.
  - intros [_ E]. transitivity (- fe_of sum * 1 + fsum (map (var_value s) vector) + fe_of sum); [ring|rewrite E; ring].
  - intros E. split; [exact Hs|]. rewrite E. ring.
Qed.

Lemma set_membership_forces W ph v ds set vs :
  forces W ph (set_membership_gadget v ds set) vs (fun s _ => In (var_value s (q_var v)) set /\
    forall i, (i < length set)%nat -> exists d, nth_error ds i = Some d /\
      var_value s (q_var d) = nth i set 0 - var_value s (q_var v)).
Proof. apply vspec_forces. intros s. eapply vspec_conseq; [apply set_membership_sound|]. intros r s' H b E. apply (H b E). Qed.

Lemma verify_set_membership_forces W set comms vs :
  forces W false (verify_set_membership set comms) vs (fun s _ => In (as_committed s (length (v_V vs))) set).
Proof. apply vspec_forces. intros s. eapply vspec_conseq; [apply verify_set_membership_sound|]. intros r s' H b E. exact (H b E). Qed.

(** *** C30 *)
Lemma verify_alt_forces W set comms vs :
  forces W false (verify_set_membership_alt set comms) vs (fun s _ =>
    let bits := map (fun i => as_committed s (length (v_V vs) + i)) (seq 0 (length set)) in
    Forall (fun b => b = 0 \/ b = 1) bits /\ fsum bits = 1 /\
    (as_committed s (length (v_V vs) + length set) = 0 \/
     exists it, In it set /\ as_committed s (length (v_V vs) + length set) = fe_of it)).
Proof. apply vspec_forces. intros s. eapply vspec_conseq; [apply verify_set_membership_alt_sound|]. intros r s' H b E. exact (H b E). Qed.

(** *** C31 *)
Lemma non_membership_forces W ph v ds dis set vs :
  forces W ph (set_non_membership_gadget v ds dis set) vs (fun s _ => ~ In (var_value s (q_var v)) set /\
    forall i, (i < length set)%nat -> exists d di, nth_error ds i = Some d /\ nth_error dis i = Some di /\
      var_value s (q_var d) = nth i set 0 - var_value s (q_var v) /\ var_value s (q_var d) * var_value s (q_var di) = 1).
Proof. apply vspec_forces. intros s. eapply vspec_conseq; [apply non_membership_sound|]. intros r s' H b E. apply (H b E). Qed.

Lemma verify_non_membership_forces W set comms vs :
  forces W false (verify_set_non_membership set comms) vs (fun s _ => ~ In (as_committed s (length (v_V vs))) set).
Proof. apply vspec_forces. intros s. eapply vspec_conseq; [apply verify_non_membership_sound|]. intros r s' H b E. exact (H b E). Qed.

Lemma verify_non_zero_forces W comms vs :
  forces W false (verify_non_zero_val comms) vs (fun s _ => as_committed s (length (v_V vs)) <> 0).
Proof.
  apply vspec_forces. intros s. eapply vspec_conseq; [apply non_zero_val_sound|]. intros r s' H b E H0.
  specialize (H b E). cbn [var_value] in H. rewrite H0 in H. apply F_one_neq_zero. rewrite <- H. ring.
Qed.

(** *** C32 *)
Lemma verify_hamming_forces W new count comms vs :
  forces W false (verify_hamming_distance new count comms) vs (fun _ _ => exists k,
    (0 <= k <= Z.of_nat (length new))%Z /\ fe_of count = fe_of k).
Proof. apply vspec_forces. intros s. eapply vspec_conseq; [apply verify_hamming_sound|]. intros r s' H b E. exact (H b E). Qed.

Lemma differs_count (xs new : list F) : length xs = length new ->
  fsum (map (fun '(x, y) => differs x y) (combine xs new)) =
  fe_of (Z.of_nat (length (filter (fun '(x, y) => negb (feqb x y)) (combine xs new)))).
Proof.
  intros _. induction (combine xs new) as [|[x y] t IH]; [reflexivity|]. cbn [map fsum filter]. rewrite IH. unfold differs.
  destruct (feqb x y); cbn [negb length]; [ring|]. rewrite Nat2Z.inj_succ, <- Z.add_1_l, fe_of_add. reflexivity.
Qed.

Lemma fsum_nonzero_bits k n : (k <= n)%nat ->
  fsum (map nonzero_bit (repeat (1 : F) k ++ repeat 0 (n - k))) = fe_of (Z.of_nat k).
Proof.
  intros _. rewrite map_app, fsum_app.
  assert (E1 : nonzero_bit 1 = 1).
  { unfold nonzero_bit. destruct (feqb_spec modulus (1 : F) 0) as [E|E]; [destruct (F_one_neq_zero E)|reflexivity]. }
  assert (E0 : nonzero_bit 0 = 0).
  { unfold nonzero_bit. destruct (feqb_spec modulus (0 : F) 0) as [E|E]; [reflexivity|contradiction]. }
  assert (Z0 : forall m, fsum (map nonzero_bit (repeat 0 m)) = 0).
  { induction m as [|m IH]; [reflexivity|]. cbn [repeat map fsum]. rewrite IH, E0. ring. }
  assert (Z1 : fsum (map nonzero_bit (repeat 1 k)) = fe_of (Z.of_nat k)).
  { induction k as [|k IH]; [reflexivity|]. cbn [repeat map fsum].
    rewrite E1, Nat2Z.inj_succ, <- Z.add_1_l, fe_of_add, IH. reflexivity. }
  rewrite Z0, Z1. ring.
Qed.

(** *** C43 *)
Lemma gen_proof_error {A} W label g h G H (pp : pprog (result A)) e s :
  prun W false pp (prover_new g h (transcript_new label)) = Done (Err e, s) -> gen_proof W label g h G H pp = Done (Err e).
Proof. intros E. unfold gen_proof. rewrite E. reflexivity. Qed.
Lemma verify_proof_error W label g h G H proof vp e s :
  vrun W false vp (verifier_new (transcript_new label)) = Done (Err e, s) -> verify_proof W label g h G H proof vp = Done (Err e).
Proof. intros E. unfold verify_proof. rewrite E. reflexivity. Qed.
Lemma verify_proof_accepts W label g h G H proof vp :
  verify_proof W label g h G H proof vp = Done (Ok tt) <->
  exists b vs, vrun W false vp (verifier_new (transcript_new label)) = Done (Ok b, vs) /\
    exists r, verify W vs proof g h G H = Done (Ok r).
Proof.
  unfold verify_proof. destruct (vrun W false vp (verifier_new (transcript_new label))) as [[[b|e] vs]|].
  - split.
    + destruct (verify W vs proof g h G H) as [[r|e]|] eqn:Ev; intros E; try discriminate E. exists b, vs. split; [reflexivity|]. eauto.
    + intros (b' & vs' & E & r & Ev). injection E as <- <-. rewrite Ev. reflexivity.
  - split; [discriminate|]. intros (b' & vs' & E & _). discriminate E.
  - split; [discriminate|]. intros (b' & vs' & E & _). discriminate E.
Qed.

Lemma both_proves W W' label g h G H pp vp (good : list G1 -> Prop) k r comms :
  both W W' false k r pp (vp comms) (prover_new g h (transcript_new label)) (verifier_new (transcript_new label))
    (fun a b _ => a = Ok comms /\ b = Ok tt) ->
  enough_generators k G H -> good comms -> proves W W' label g h G H pp vp good.
Proof.
  intros Hb Hn Hgood. destruct (both_end_to_end W W' label g h G H pp (vp comms) k r comms Hb Hn) as (proof & E & Hv).
  exists proof, comms. auto.
Qed.

Lemma bounded_num_proves W W' label g h G H checks val randomness rng lower upper n :
  randomness <> None \/ rng = true -> (lower <= val <= upper)%Z ->
  (val - lower < 2 ^ Z.of_nat n)%Z -> (upper - val < 2 ^ Z.of_nat n)%Z -> enough_generators (n + n) G H ->
  proves W W' label g h G H (prove_bounded_num checks val randomness lower upper n rng) (verify_bounded_num checks lower upper n)
    (fun comms => nth_error comms 0 = Some (commit g h (fe_of val) (blinding W randomness 0))).
Proof.
  intros Hr Hv Ha Hb Hn. eapply both_proves; [apply both_bounded_num; eassumption|exact Hn|reflexivity].
Qed.

Lemma non_zero_proves W W' label g h G H value randomness rng :
  randomness <> None \/ rng = true -> value <> 0 -> enough_generators 2 G H ->
  proves W W' label g h G H (prove_non_zero_val value randomness rng) verify_non_zero_val
    (fun comms => nth_error comms 0 = Some (commit g h value (blinding W randomness 0))).
Proof. intros Hr Hv Hn. eapply both_proves; [apply both_non_zero_val; eassumption|exact Hn|reflexivity]. Qed.

Lemma set_membership_proves W W' label g h G H value randomness set rng :
  randomness <> None \/ rng = true -> In value set -> enough_generators (length set) G H ->
  proves W W' label g h G H (prove_set_membership value randomness set rng) (verify_set_membership set)
    (fun comms => nth_error comms 0 = Some (commit g h value (blinding W randomness 0))).
Proof. intros Hr Hv Hn. eapply both_proves; [apply both_set_membership; eassumption|exact Hn|reflexivity]. Qed.

Lemma set_membership_alt_proves W W' label g h G H value randomness set rng :
  randomness <> None \/ rng = true -> count_occ Z.eq_dec set value = 1%nat -> enough_generators (3 * length set) G H ->
  proves W W' label g h G H (prove_set_membership_alt value randomness set rng) (verify_set_membership_alt set)
    (fun comms => nth_error comms (length set) = Some (commit g h (fe_of value) (blinding W randomness (length set)))).
Proof.
  intros Hr Hv Hn. eapply both_proves; [apply both_set_membership_alt; eassumption|exact Hn|].
  cbv beta zeta. rewrite nth_error_app2; unfold alt_bit_comms; rewrite !map_length, seq_length, ?map_length; [|lia].
  rewrite Nat.sub_diag. reflexivity.
Qed.

Lemma set_membership_alt_zero W W' label g h G H set r :
  set <> [] -> enough_generators (3 * length set) G H ->
  exists pp, proves W W' label g h G H pp (verify_set_membership_alt set)
    (fun comms => nth_error comms (length set) = Some (commit g h 0 r)).
Proof.
  intros Hne Hn. exists (cheat_set_membership_alt set r).
  eapply both_proves; [apply both_cheat_alt; exact Hne|exact Hn|].
  cbv beta zeta. destruct set as [|y t]; [contradiction|]. cbn [tl].
  rewrite nth_error_app2; unfold alt_bit_comms; rewrite map_length, seq_length; cbn [length]; rewrite map_length; [|lia].
  rewrite Nat.sub_diag. reflexivity.
Qed.

Lemma non_membership_proves W W' label g h G H value randomness set rng :
  randomness <> None \/ rng = true -> ~ In value set -> enough_generators (2 * length set) G H ->
  proves W W' label g h G H (prove_set_non_membership value randomness set rng) (verify_set_non_membership set)
    (fun comms => nth_error comms 0 = Some (commit g h value (blinding W randomness 0))).
Proof. intros Hr Hv Hn. eapply both_proves; [apply both_non_membership; eassumption|exact Hn|reflexivity]. Qed.

(** commitments to the elements of a vector with the first values drawn *)
Lemma hamming_proves W W' label g h G H original new :
  length original = length new -> enough_generators (2 * length new) G H ->
  let count := Z.of_nat (length (filter (fun '(x, y) => negb (feqb x y)) (combine original new))) in
  proves W W' label g h G H (prove_hamming_distance original new count) (verify_hamming_distance new count)
    (fun comms => comms = map (fun i => commit g h (nth i original 0) (w_random W i)) (seq 0 (length original))).
Proof.
  intros HL Hn count. eapply both_proves; [apply both_hamming; [exact HL|reflexivity|]|exact Hn|].
  - apply differs_count. exact HL.
  - reflexivity.
Qed.

Lemma hamming_cheat W W' label g h G H original new k :
  length original = length new -> (k <= length new)%nat -> enough_generators (2 * length new) G H ->
  exists pp, proves W W' label g h G H pp (verify_hamming_distance new (Z.of_nat k))
    (fun comms => comms = map (fun i => commit g h (nth i original 0) (w_random W i)) (seq 0 (length original))).
Proof.
  intros HL Hk Hn. exists (cheat_hamming_distance original (repeat 1 k ++ repeat 0 (length new - k)) (Z.of_nat k)).
  eapply both_proves; [apply both_cheat_hamming; [exact HL| |reflexivity|]|exact Hn|].
  - rewrite app_length, !repeat_length. lia.
  - apply fsum_nonzero_bits. exact Hk.
  - reflexivity.
Qed.

Lemma bounded_num_small_field W W' label g h G H checks (x r : F) lower upper n :
  (lower <= upper)%Z -> (modulus <= 2 ^ Z.of_nat n)%Z -> enough_generators (n + n) G H ->
  exists pp, proves W W' label g h G H pp (verify_bounded_num checks lower upper n)
    (fun comms => nth_error comms 0 = Some (commit g h x r)).
Proof.
  intros Hz Hm Hn. exists (cheat_bounded_num checks x r lower upper n).
  eapply both_proves; [apply both_cheat_bounded; assumption|exact Hn|reflexivity].
Qed.

(** *** C32: a pending multiplier *)
Lemma hamming_pending W ph original new count vs i :
  v_pending vs = Some i -> length original = length new -> new <> [] ->
  vrun W ph (hamming_distance_gadget original new count) vs = Panic.
Proof.
  intros Hp HL Hne. unfold hamming_distance_gadget. rewrite (proj2 (Nat.eqb_eq _ _) HL). cbn [negb].
  destruct new as [|y t]; [contradiction|]. destruct original as [|q qs]; [discriminate|].
  cbn [length seq p_try_fold]. unfold ptry at 1 2. cbn [pbind index nth_error p_lift cs_evaluate vrun ptry option_map cs_allocate_single].
  unfold index. cbn [nth_error p_lift of_option pbind vrun]. unfold verifier_allocate_single at 1, verifier_allocate. rewrite Hp. reflexivity.
Qed.
End Main.
