(** Properties C25-C32, and the parts of C42 and C43 about the gadgets that do
    not hash.  Vocabulary: Spec/R1CS.v, Spec/Session.v, Spec/Gadget.v. *)
From Coq Require Import ZArith String List Lia Bool.
From Verif.Base Require Import Outcome Fp Params Algebra Instances.
From Verif.Model Require Import Transcript LinComb Prog VectorPoly IPP Prover Verifier Gadgets.
From Verif.Spec Require Import R1CS Session Protocol Verdict Gadget Cheats.
From Verif.Proofs Require Import GadgetTools GadgetComplete GadgetMain.
From Verif.Props Require Import Demo.
Import ListNotations.

Section Props.
Context {P : Params} {OK : ParamsOk P}.
Local Open Scope fe_scope.

(** ** C25 bit_gadget *)
Theorem C25_bit_gadget_exact W ph q vs : exists vs', vrun W ph (bit_gadget q) vs = Done (Ok tt, vs') /\
  forall s, satisfies s (v_num_vars vs) (v_constraints vs) ->
    let x := var_value s (q_var q) in
    let n := v_num_vars vs in
    satisfies s (v_num_vars vs') (v_constraints vs') <->
    (x = 0 \/ x = 1) /\ as_left s n = 1 - x /\ as_right s n = x /\ as_out s n = 0.
Proof. exact (bit_exact W ph q vs). Qed.

Theorem C25_bit_gadget_honest W W' ph ps vs v x o : session ph ps vs -> has_value ps v x -> x = 0 \/ x = 1 ->
  completes W W' ph (bit_gadget (Quantity v (Some x))) (bit_gadget (Quantity v o)) 1 ps vs (Ok tt) (Ok tt).
Proof. intros Hs Hv Hx. exact (both_completes W W' ph 1 0 _ _ ps vs _ _ Hs (bit_both W W' ph v x o ps vs Hv Hx)). Qed.

(** ** C26 is_nonzero_gadget *)
Theorem C26_is_nonzero_gadget_exact W ph x xi vs : exists vs', vrun W ph (is_nonzero_gadget x xi) vs = Done (Ok tt, vs') /\
  forall s, satisfies s (v_num_vars vs) (v_constraints vs) ->
    let a := var_value s x in
    let b := var_value s xi in
    let n := v_num_vars vs in
    satisfies s (v_num_vars vs') (v_constraints vs') <->
    a * b = 1 /\
    as_left s n = a /\ as_right s n = 0 /\ as_out s n = 0 /\
    as_left s (S n) = a /\ as_right s (S n) = b /\ as_out s (S n) = 1.
Proof. exact (nonzero_exact W ph x xi vs). Qed.

Theorem C26_is_nonzero_gadget_honest W W' ph ps vs x xi a :
  session ph ps vs -> has_value ps x a -> has_value ps xi (finv a) -> a <> 0 ->
  completes W W' ph (is_nonzero_gadget x xi) (is_nonzero_gadget x xi) 2 ps vs (Ok tt) (Ok tt).
Proof. intros Hs Hx Hi Ha. exact (both_completes W W' ph 2 0 _ _ ps vs _ _ Hs (nonzero_both W W' ph x xi a ps vs Hx Hi Ha)). Qed.

Theorem C26_verify_non_zero_val W comms vs :
  forces W false (verify_non_zero_val comms) vs (fun s _ => as_committed s (length (v_V vs)) <> 0).
Proof. exact (verify_non_zero_forces W comms vs). Qed.

(** ** C27 positive_no_gadget *)
Theorem C27_positive_no_gadget W ph q n vs :
  forces W ph (positive_no_gadget q n) vs (fun s _ => exists z, (0 <= z < 2 ^ Z.of_nat n)%Z /\ var_value s (q_var q) = fe_of z).
Proof. exact (positive_forces W ph q n vs). Qed.

Theorem C27_positive_no_gadget_canonical W ph q n vs : (2 ^ Z.of_nat n <= modulus)%Z ->
  forces W ph (positive_no_gadget q n) vs (fun s _ => (fval (var_value s (q_var q)) < 2 ^ Z.of_nat n)%Z).
Proof. exact (positive_forces_range W ph q n vs). Qed.

Theorem C27_positive_no_gadget_honest W W' ph ps vs v q n o :
  session ph ps vs -> has_value ps v q -> (fval q < 2 ^ Z.of_nat n)%Z ->
  completes W W' ph (positive_no_gadget (Quantity v (Some q)) n) (positive_no_gadget (Quantity v o) n) n ps vs (Ok tt) (Ok tt).
Proof. intros Hs Hv Hq. exact (both_completes W W' ph n 0 _ _ ps vs _ _ Hs (positive_both W W' ph v q n o ps vs Hv Hq)). Qed.

(** ** C28 Bound check *)
Theorem C28_bound_check_gadget W ph checks v a b lower upper n vs :
  (0 <= lower)%Z -> (0 <= upper < modulus)%Z -> (lower + 2 ^ (Z.of_nat n + 1) <= modulus)%Z ->
  forces W ph (bound_check_gadget checks v a b upper lower n) vs (fun s _ =>
    let x := fval (var_value s (q_var v)) in
    (lower <= x <= upper)%Z /\ (x - lower < 2 ^ Z.of_nat n)%Z /\ (upper - x < 2 ^ Z.of_nat n)%Z).
Proof. exact (bound_check_forces W ph checks v a b lower upper n vs). Qed.

Theorem C28_verify_bounded_num W checks lower upper n comms vs :
  (0 <= lower)%Z -> (0 <= upper < modulus)%Z -> (lower + 2 ^ (Z.of_nat n + 1) <= modulus)%Z ->
  forces W false (verify_bounded_num checks lower upper n comms) vs (fun s _ =>
    let x := fval (as_committed s (length (v_V vs))) in
    (lower <= x <= upper)%Z /\ (x - lower < 2 ^ Z.of_nat n)%Z /\ (upper - x < 2 ^ Z.of_nat n)%Z).
Proof. exact (bounded_num_forces W checks lower upper n comms vs). Qed.

Theorem C28_bounded_num_complete W W' label g h G H checks val randomness rng lower upper n :
  randomness <> None \/ rng = true -> (lower <= val <= upper)%Z ->
  (val - lower < 2 ^ Z.of_nat n)%Z -> (upper - val < 2 ^ Z.of_nat n)%Z -> enough_generators (n + n) G H ->
  proves W W' label g h G H (prove_bounded_num checks val randomness lower upper n rng) (verify_bounded_num checks lower upper n)
    (fun comms => nth_error comms 0 = Some (commit g h (fe_of val) (blinding W randomness 0))).
Proof. exact (bounded_num_proves W W' label g h G H checks val randomness rng lower upper n). Qed.

(** without the size condition every value is provable *)
Theorem C28_size_condition_needed W W' label g h G H checks (x r : F) lower upper n :
  (lower <= upper)%Z -> (modulus <= 2 ^ Z.of_nat n)%Z -> enough_generators (n + n) G H ->
  exists pp, proves W W' label g h G H pp (verify_bounded_num checks lower upper n)
    (fun comms => nth_error comms 0 = Some (commit g h x r)).
Proof. exact (bounded_num_small_field W W' label g h G H checks x r lower upper n). Qed.

Theorem C28_out_of_range_panics W val randomness lower upper n s :
  randomness <> None -> (val < lower \/ upper < val)%Z ->
  prun W false (prove_bounded_num true val randomness lower upper n true) s = Panic.
Proof. exact (bounded_num_underflow W val randomness lower upper n s). Qed.

(** ** C29 vector_sum_constraints and set membership *)
Theorem C29_vector_sum_exact W ph vector sum vs : exists vs', vrun W ph (vector_sum_constraints vector sum) vs = Done (Ok tt, vs') /\
  forall s, satisfies s (v_num_vars vs) (v_constraints vs) ->
    (satisfies s (v_num_vars vs') (v_constraints vs') <-> fsum (map (var_value s) vector) = fe_of sum).
Proof. exact (vector_sum_exact W ph vector sum vs). Qed.

Theorem C29_set_membership_gadget W ph v ds set vs :
  forces W ph (set_membership_gadget v ds set) vs (fun s _ => In (var_value s (q_var v)) set /\
    forall i, (i < length set)%nat -> exists d, nth_error ds i = Some d /\
      var_value s (q_var d) = nth i set 0 - var_value s (q_var v)).
Proof. exact (set_membership_forces W ph v ds set vs). Qed.

Theorem C29_set_membership_gadget_honest W W' ph ps vs v x set ds ds' o o' :
  session ph ps vs -> has_value ps v x -> map q_var ds = map q_var ds' ->
  Forall2 (has_value ps) (map q_var ds) (map (fun y => y - x) set) -> In x set ->
  completes W W' ph (set_membership_gadget (Quantity v o) ds set) (set_membership_gadget (Quantity v o') ds' set)
    (length set) ps vs (Ok tt) (Ok tt).
Proof.
  intros Hs Hv Hd Hf Hi.
  exact (both_completes W W' ph _ 0 _ _ ps vs _ _ Hs (set_membership_both W W' ph v x set ds ds' o o' ps vs Hv Hd Hf Hi)).
Qed.

Theorem C29_verify_set_membership W set comms vs :
  forces W false (verify_set_membership set comms) vs (fun s _ => In (as_committed s (length (v_V vs))) set).
Proof. exact (verify_set_membership_forces W set comms vs). Qed.

(** ** C30 Alternative set membership *)
Theorem C30_verify_set_membership_alt W set comms vs :
  forces W false (verify_set_membership_alt set comms) vs (fun s _ =>
    let bits := map (fun i => as_committed s (length (v_V vs) + i)) (seq 0 (length set)) in
    Forall (fun b => b = 0 \/ b = 1) bits /\ fsum bits = 1 /\
    (as_committed s (length (v_V vs) + length set) = 0 \/
     exists it, In it set /\ as_committed s (length (v_V vs) + length set) = fe_of it)).
Proof. exact (verify_alt_forces W set comms vs). Qed.

(** zero is provable for every non-empty set *)
Theorem C30_zero_provable W W' label g h G H set r :
  set <> [] -> enough_generators (3 * length set) G H ->
  exists pp, proves W W' label g h G H pp (verify_set_membership_alt set)
    (fun comms => nth_error comms (length set) = Some (commit g h 0 r)).
Proof. exact (set_membership_alt_zero W W' label g h G H set r). Qed.

Theorem C30_set_membership_alt_complete W W' label g h G H value randomness set rng :
  randomness <> None \/ rng = true -> count_occ Z.eq_dec set value = 1%nat -> enough_generators (3 * length set) G H ->
  proves W W' label g h G H (prove_set_membership_alt value randomness set rng) (verify_set_membership_alt set)
    (fun comms => nth_error comms (length set) = Some (commit g h (fe_of value) (blinding W randomness (length set)))).
Proof. exact (set_membership_alt_proves W W' label g h G H value randomness set rng). Qed.

(** ** C31 Set non-membership *)
Theorem C31_set_non_membership_gadget W ph v ds dis set vs :
  forces W ph (set_non_membership_gadget v ds dis set) vs (fun s _ => ~ In (var_value s (q_var v)) set /\
    forall i, (i < length set)%nat -> exists d di, nth_error ds i = Some d /\ nth_error dis i = Some di /\
      var_value s (q_var d) = nth i set 0 - var_value s (q_var v) /\ var_value s (q_var d) * var_value s (q_var di) = 1).
Proof. exact (non_membership_forces W ph v ds dis set vs). Qed.

Theorem C31_set_non_membership_gadget_honest W W' ph ps vs v x set ds dis ds' dis' o o' :
  session ph ps vs -> has_value ps v x -> map q_var ds = map q_var ds' -> map q_var dis = map q_var dis' ->
  Forall2 (has_value ps) (map q_var ds) (map (fun y => y - x) set) ->
  Forall2 (has_value ps) (map q_var dis) (map (fun y => finv (y - x)) set) -> ~ In x set ->
  completes W W' ph (set_non_membership_gadget (Quantity v o) ds dis set) (set_non_membership_gadget (Quantity v o') ds' dis' set)
    (2 * length set) ps vs (Ok tt) (Ok tt).
Proof.
  intros Hs Hv Hd Hd' Hf Hf' Hi.
  exact (both_completes W W' ph _ 0 _ _ ps vs _ _ Hs
    (non_membership_both W W' ph v x set ds dis ds' dis' o o' ps vs Hv Hd Hd' Hf Hf' Hi)).
Qed.

Theorem C31_verify_set_non_membership W set comms vs :
  forces W false (verify_set_non_membership set comms) vs (fun s _ => ~ In (as_committed s (length (v_V vs))) set).
Proof. exact (verify_non_membership_forces W set comms vs). Qed.

(** ** C32 Hamming distance *)
Theorem C32_hamming_complete W W' label g h G H original new :
  length original = length new -> enough_generators (2 * length new) G H ->
  let count := Z.of_nat (length (filter (fun '(x, y) => negb (feqb x y)) (combine original new))) in
  proves W W' label g h G H (prove_hamming_distance original new count) (verify_hamming_distance new count)
    (fun comms => comms = map (fun i => commit g h (nth i original 0) (w_random W i)) (seq 0 (length original))).
Proof. exact (hamming_proves W W' label g h G H original new). Qed.

(** for the same commitments every distance up to the length is provable *)
Theorem C32_any_count_provable W W' label g h G H original new k :
  length original = length new -> (k <= length new)%nat -> enough_generators (2 * length new) G H ->
  exists pp, proves W W' label g h G H pp (verify_hamming_distance new (Z.of_nat k))
    (fun comms => comms = map (fun i => commit g h (nth i original 0) (w_random W i)) (seq 0 (length original))).
Proof. exact (hamming_cheat W W' label g h G H original new k). Qed.

Theorem C32_count_bounded W new count comms vs :
  forces W false (verify_hamming_distance new count comms) vs (fun _ _ => exists k,
    (0 <= k <= Z.of_nat (length new))%Z /\ fe_of count = fe_of k).
Proof. exact (verify_hamming_forces W new count comms vs). Qed.

Theorem C32_pending_multiplier_panics W ph original new count vs i :
  v_pending vs = Some i -> length original = length new -> new <> [] ->
  vrun W ph (hamming_distance_gadget original new count) vs = Panic.
Proof. exact (hamming_pending W ph original new count vs i). Qed.

(** ** C42 Randomness policy *)
Theorem C42_no_randomness_bounded_num W checks val lower upper n s :
  prun W false (prove_bounded_num checks val None lower upper n false) s =
  Done (Err (GadgetError "Since randomness is None, provide"), s).
Proof. exact eq_refl. Qed.
Theorem C42_no_randomness_non_zero_val W value s :
  prun W false (prove_non_zero_val value None false) s = Done (Err (GadgetError "Since randomness is None, provide"), s).
Proof. exact eq_refl. Qed.
Theorem C42_no_randomness_set_membership W value set s :
  prun W false (prove_set_membership value None set false) s = Done (Err (GadgetError "Since randomness is None, provide"), s).
Proof. exact eq_refl. Qed.
Theorem C42_no_randomness_set_membership_alt W value set s :
  prun W false (prove_set_membership_alt value None set false) s = Done (Err (GadgetError "Since randomness is None, provide"), s).
Proof. exact eq_refl. Qed.
Theorem C42_no_randomness_set_non_membership W value set s :
  prun W false (prove_set_non_membership value None set false) s = Done (Err (GadgetError "Since randomness is None, provide"), s).
Proof. exact eq_refl. Qed.

(** these and all other errors of the proving programs are what the caller gets *)
Theorem C42_error_returned {A} W label g h G H (pp : pprog (result A)) e s :
  prun W false pp (prover_new g h (transcript_new label)) = Done (Err e, s) -> gen_proof W label g h G H pp = Done (Err e).
Proof. exact (gen_proof_error W label g h G H pp e s). Qed.

(** ** C43 End-to-end gadget proofs verify (see also C28, C30, C32) *)
Theorem C43_verify_error_returned W label g h G H proof vp e s :
  vrun W false vp (verifier_new (transcript_new label)) = Done (Err e, s) -> verify_proof W label g h G H proof vp = Done (Err e).
Proof. exact (verify_proof_error W label g h G H proof vp e s). Qed.

(** A complete verification accepts exactly when building the circuit succeeds
    and the verifier accepts the proof for that circuit. *)
Theorem C43_accepts_exactly W label g h G H proof vp :
  verify_proof W label g h G H proof vp = Done (Ok tt) <->
  exists b vs, vrun W false vp (verifier_new (transcript_new label)) = Done (Ok b, vs) /\
    exists r, verify W vs proof g h G H = Done (Ok r).
Proof. exact (verify_proof_accepts W label g h G H proof vp). Qed.
Theorem C43_non_zero_val W W' label g h G H value randomness rng :
  randomness <> None \/ rng = true -> value <> 0 -> enough_generators 2 G H ->
  proves W W' label g h G H (prove_non_zero_val value randomness rng) verify_non_zero_val
    (fun comms => nth_error comms 0 = Some (commit g h value (blinding W randomness 0))).
Proof. exact (non_zero_proves W W' label g h G H value randomness rng). Qed.

Theorem C43_set_membership W W' label g h G H value randomness set rng :
  randomness <> None \/ rng = true -> In value set -> enough_generators (length set) G H ->
  proves W W' label g h G H (prove_set_membership value randomness set rng) (verify_set_membership set)
    (fun comms => nth_error comms 0 = Some (commit g h value (blinding W randomness 0))).
Proof. exact (set_membership_proves W W' label g h G H value randomness set rng). Qed.

Theorem C43_set_non_membership W W' label g h G H value randomness set rng :
  randomness <> None \/ rng = true -> ~ In value set -> enough_generators (2 * length set) G H ->
  proves W W' label g h G H (prove_set_non_membership value randomness set rng) (verify_set_non_membership set)
    (fun comms => nth_error comms 0 = Some (commit g h value (blinding W randomness 0))).
Proof. exact (non_membership_proves W W' label g h G H value randomness set rng). Qed.
End Props.

Print Assumptions C25_bit_gadget_exact.
Print Assumptions C25_bit_gadget_honest.
Print Assumptions C26_is_nonzero_gadget_exact.
Print Assumptions C26_is_nonzero_gadget_honest.
Print Assumptions C26_verify_non_zero_val.
Print Assumptions C27_positive_no_gadget.
Print Assumptions C27_positive_no_gadget_canonical.
Print Assumptions C27_positive_no_gadget_honest.
Print Assumptions C28_bound_check_gadget.
Print Assumptions C28_verify_bounded_num.
Print Assumptions C28_bounded_num_complete.
Print Assumptions C28_size_condition_needed.
Print Assumptions C28_out_of_range_panics.
Print Assumptions C29_vector_sum_exact.
Print Assumptions C29_set_membership_gadget.
Print Assumptions C29_set_membership_gadget_honest.
Print Assumptions C29_verify_set_membership.
Print Assumptions C30_verify_set_membership_alt.
Print Assumptions C30_zero_provable.
Print Assumptions C30_set_membership_alt_complete.
Print Assumptions C31_set_non_membership_gadget.
Print Assumptions C31_set_non_membership_gadget_honest.
Print Assumptions C31_verify_set_non_membership.
Print Assumptions C32_hamming_complete.
Print Assumptions C32_any_count_provable.
Print Assumptions C32_count_bounded.
Print Assumptions C32_pending_multiplier_panics.
Print Assumptions C42_no_randomness_bounded_num.
Print Assumptions C42_no_randomness_non_zero_val.
Print Assumptions C42_no_randomness_set_membership.
Print Assumptions C42_no_randomness_set_membership_alt.
Print Assumptions C42_no_randomness_set_non_membership.
Print Assumptions C42_error_returned.
Print Assumptions C43_verify_error_returned.
Print Assumptions C43_accepts_exactly.
Print Assumptions C43_non_zero_val.
Print Assumptions C43_set_membership.
Print Assumptions C43_set_non_membership.

(** ** Concrete cases, over the toy backend *)
Section Examples.
#[local] Existing Instance toyP.
#[local] Existing Instance toyP_ok.
Local Open Scope fe_scope.

Definition ex_G : list G1 := map (fun n => fe (Z.of_nat (31 * n + 2))) (seq 0 64).
Definition ex_H : list G1 := map (fun n => fe (Z.of_nat (37 * n + 5))) (seq 0 64).

(** proving with [pp] and verifying with [vp]: the result of the verification *)
Definition roundtrip (pp : pprog (result (list G1))) (vp : list G1 -> vprog (result unit)) : outcome (result unit) :=
  match gen_proof demoW [1%Z] demo_g demo_h ex_G ex_H pp with
  | Done (Ok (proof, comms)) => verify_proof demoW' [1%Z] demo_g demo_h ex_G ex_H proof (vp comms)
  | Done (Err e) => Done (Err e)
  | Panic => Panic
  end.
(** the commitments made by [pp] *)
Definition comms_of (pp : pprog (result (list G1))) : list G1 :=
  match gen_proof demoW [1%Z] demo_g demo_h ex_G ex_H pp with Done (Ok (_, comms)) => comms | _ => [] end.

Example C25_C31_sessions : exists ps vs vars,
  session false ps vs /\ p_pending ps = None /\ Forall2 (has_value ps) vars [fe 1; fe 6; finv (fe 6); fe 6 - fe 4; fe 4 - fe 4; finv (fe 3 - fe 4)].
Proof.
  exact (committed_session demo_g demo_h [] [(fe 1, fe 2); (fe 6, fe 3); (finv (fe 6), fe 4); (fe 6 - fe 4, fe 5); (fe 4 - fe 4, fe 5); (finv (fe 3 - fe 4), fe 7)]).
Qed.

Example C28_example : enough_generators (3 + 3) ex_G ex_H /\
  (2 + 2 ^ (Z.of_nat 3 + 1) <= modulus)%Z /\
  roundtrip (prove_bounded_num true 5 (Some (fe 9)) 2 9 3 false) (verify_bounded_num true 2 9 3) = Done (Ok tt).
Proof.
  split; [|split].
  - repeat split; [vm_compute; lia|vm_compute; lia|vm_compute; lia|left; lia].
  - vm_compute. discriminate.
  - vm_compute. reflexivity.
Qed.
Example C29_example : roundtrip (prove_set_membership (fe 5) None [fe 3; fe 5; fe 8] true) (verify_set_membership [fe 3; fe 5; fe 8]) = Done (Ok tt).
Proof. vm_compute. reflexivity. Qed.
Example C29_empty : is_done (roundtrip (prove_set_membership (fe 5) None [] true) (verify_set_membership [])) = false.
Proof. vm_compute. reflexivity. Qed.
Example C30_example : roundtrip (prove_set_membership_alt 5 None [3; 5; 8]%Z true) (verify_set_membership_alt [3; 5; 8]%Z) = Done (Ok tt).
Proof. vm_compute. reflexivity. Qed.
Example C31_example : roundtrip (prove_set_non_membership (fe 5) None [fe 3; fe 8] true) (verify_set_non_membership [fe 3; fe 8]) = Done (Ok tt).
Proof. vm_compute. reflexivity. Qed.
Example C32_example : roundtrip (prove_hamming_distance [fe 1; fe 2; fe 3] [fe 1; fe 7; fe 3] 1) (verify_hamming_distance [fe 1; fe 7; fe 3] 1) = Done (Ok tt).
Proof. vm_compute. reflexivity. Qed.
Example C43_example : roundtrip (prove_non_zero_val (fe 5) (Some (fe 4)) false) verify_non_zero_val = Done (Ok tt).
Proof. vm_compute. reflexivity. Qed.

(** the circuits reject wrong witnesses *)
Example C25_C31_rejections :
  is_done (roundtrip (prove_non_zero_val (fe 0) (Some (fe 4)) false) verify_non_zero_val) = false /\
  is_done (roundtrip (prove_set_membership (fe 4) None [fe 3; fe 5; fe 8] true) (verify_set_membership [fe 3; fe 5; fe 8])) = false /\
  is_done (roundtrip (prove_set_non_membership (fe 8) None [fe 3; fe 8] true) (verify_set_non_membership [fe 3; fe 8])) = false /\
  is_done (roundtrip (prove_bounded_num true 17 (Some (fe 9)) 2 25 3 false) (verify_bounded_num true 2 25 3)) = false.
Proof. repeat split; vm_compute; reflexivity. Qed.
End Examples.

(** ** Refuted readings *)

(** C28 without the size condition: 5000 is proved to lie between 5 and 7 *)
Theorem C28_no_size_condition_refuted :
  let pp := @cheat_bounded_num toyP true (fe 5000) (fe 9) 5 7 13 in
  roundtrip pp (@verify_bounded_num toyP true 5 7 13) = Done (Ok tt) /\
  nth_error (comms_of pp) 0 = Some (@commit toyP demo_g demo_h (fe 5000) (fe 9)) /\ ~ (5 <= fval (fe 5000) <= 7)%Z.
Proof. split; [vm_compute; reflexivity|split; [vm_compute; reflexivity|vm_compute; intros [_ X]; apply X; reflexivity]]. Qed.

(** C30: a proof that 0 is in {3, 5} is accepted *)
Theorem C30_only_members_refuted :
  let pp := @cheat_set_membership_alt toyP [3; 5]%Z (fe 9) in
  roundtrip pp (@verify_set_membership_alt toyP [3; 5]%Z) = Done (Ok tt) /\
  nth_error (comms_of pp) 2 = Some (@commit toyP demo_g demo_h (fe 0) (fe 9)) /\ ~ In (fe 0) [fe 3; fe 5].
Proof.
  split; [vm_compute; reflexivity|split; [vm_compute; reflexivity|]].
  intros [E|[E|[]]]; apply (f_equal (@fval _)) in E; vm_compute in E; discriminate E.
Qed.

(** C30: the honest proof for a set that lists the value twice is rejected *)
Theorem C30_all_members_refuted :
  In 3%Z [3; 3]%Z /\
  roundtrip (@prove_set_membership_alt toyP 3 (Some (fe 9)) [3; 3]%Z true) (@verify_set_membership_alt toyP [3; 3]%Z) = Done (Err VerificationError).
Proof. split; [left; reflexivity|vm_compute; reflexivity]. Qed.

(** C32: vectors that agree everywhere are proved to differ in two places *)
Theorem C32_soundness_refuted :
  let v := [fe 1; fe 2; fe 3] in
  let pp := @cheat_hamming_distance toyP v [fe 1; fe 1; fe 0] 2 in
  roundtrip pp (@verify_hamming_distance toyP v 2) = Done (Ok tt) /\
  comms_of pp = comms_of (@prove_hamming_distance toyP v v 0) /\ comms_of pp <> [].
Proof. split; [vm_compute; reflexivity|split; [vm_compute; reflexivity|vm_compute; discriminate]]. Qed.

Print Assumptions C28_no_size_condition_refuted.
Print Assumptions C30_only_members_refuted.
Print Assumptions C30_all_members_refuted.
Print Assumptions C32_soundness_refuted.
