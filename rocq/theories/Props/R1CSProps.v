(** Properties C17-C24: the constraint-system protocol.
    Vocabulary: Spec/R1CS.v, Spec/Sim.v, Spec/Session.v, Spec/Protocol.v,
    Spec/Verdict.v, Spec/Log.v, Spec/Frame.v. *)
From Coq Require Import ZArith String List Lia Bool.
From Verif.Base Require Import Outcome Fp Params Algebra Instances.
From Verif.Model Require Import Transcript LinComb Prog VectorPoly IPP Prover Verifier.
From Verif.Spec Require Import R1CS Sim Session Protocol Verdict Log Frame.
From Verif.Proofs Require Import R1CSMain VerdictProofs LogProofs.
From Verif.Props Require Import Demo.
Import ListNotations.

Section Props.
Context {P : Params} {OK : ParamsOk P}.
Local Open Scope fe_scope.

(** ** C17 R1CS completeness *)
Theorem C17_completeness W W' g h t {A B} (R : A -> B -> Prop) pp vp G H a s s2 :
  sim g h R pp vp ->
  prun W false pp (prover_new g h t) = Done (a, s) ->
  prover_create_randomized_constraints W (hp_state1 W s G H) = Done (Ok s2) ->
  let n := length (p_aL s2) in
  (next_power_of_two n <= length G)%nat -> (next_power_of_two n <= length H)%nat ->
  Forall (lc_in_range n (length (p_v s2))) (p_constraints s2) ->
  satisfies (prover_assignment s2) n (p_constraints s2) ->
  (Nat.log2_up n < 32)%nat -> (1 < n)%nat \/ batch_invert_empty_panics = false ->
  exists proof tp b vs,
    prove W s G H = Done (Ok (proof, tp)) /\
    vrun W' false vp (verifier_new t) = Done (b, vs) /\ R a b /\
    v_V vs = zipw (commit g h) (p_v s) (p_v_blinding s) /\
    let c := protocol_challenges (p_transcript s2) proof in
    (c_y c <> 0 -> all_nonzero (round_challenges n c proof) ->
     verify W' vs proof g h G H = Done (Ok tp)).
Proof. exact (completeness W W' g h t R pp vp G H a s s2). Qed.

(** ** C18 Unsatisfied witnesses are rejected except on bad challenges *)
Theorem C18_unsatisfied_rejected W W' g h t {A B} (R : A -> B -> Prop) pp vp G H a s s2 proof tp b vs vs2 t' :
  g <> g1_id ->
  sim g h R pp vp ->
  prun W false pp (prover_new g h t) = Done (a, s) ->
  prover_create_randomized_constraints W (hp_state1 W s G H) = Done (Ok s2) ->
  prove W s G H = Done (Ok (proof, tp)) ->
  vrun W' false vp (verifier_new t) = Done (b, vs) ->
  v_second W' proof vs vs2 ->
  let n := length (p_aL s2) in
  let c := protocol_challenges (p_transcript s2) proof in
  (1 < n)%nat \/ batch_invert_empty_panics = false ->
  c_y c <> 0 -> all_nonzero (round_challenges n c proof) ->
  verify W' vs proof g h G H = Done (Ok t') ->
  w_random W' (v_nrand vs2) = 0 \/ c_x c = 0 \/
  zsum (prover_assignment s2) (p_constraints s2) (c_z c) = 0.
Proof. exact (soundness_of_honest W W' g h t R pp vp G H a s s2 proof tp b vs vs2 t'). Qed.

(** ** C19 Batched final check equals the two protocol equations *)
Theorem C19_batching W s s2 proof g h G H :
  v_second W proof s s2 -> proof_fits s2 proof G H ->
  let accepts r := exists t, verify (with_random W (v_nrand s2) r) s proof g h G H = Done (Ok t) in
  (equation_ipp s s2 proof g h G H /\ equation_t s2 proof g h <-> forall r, accepts r) /\
  (~ (equation_ipp s s2 proof g h G H /\ equation_t s2 proof g h) ->
   forall r r', accepts r -> accepts r' -> r = r').
Proof. exact (batching W s s2 proof g h G H). Qed.

(** Every proof that is accepted has the shape required above. *)
Theorem C19_accepted_fits W s proof g h G H t :
  verify W s proof g h G H = Done (Ok t) ->
  exists s2, v_second W proof s s2 /\
    let N := next_power_of_two (v_num_vars s2) in
    let Ls := ipp_L (proof_ipp proof) in
    let Rs := ipp_R (proof_ipp proof) in
    (N <= length G)%nat /\ (N <= length H)%nat /\
    Forall (lc_in_range (v_num_vars s2) (length (v_V s2))) (v_constraints s2) /\
    length Ls = length Rs /\ (length Ls < 32)%nat /\ N = (2 ^ length Ls)%nat /\
    t = snd (ipp_challenges Ls Rs (innerproduct_domain_sep N (c_t (protocol_challenges (v_transcript s2) proof)))).
Proof. exact (verify_inv W s proof g h G H t). Qed.

(** ** C20 Transcript synchrony *)
Theorem C20_synchrony W W' g h t {A B} (R : A -> B -> Prop) pp vp G H a s proof tp :
  sim g h R pp vp ->
  prun W false pp (prover_new g h t) = Done (a, s) ->
  prove W s G H = Done (Ok (proof, tp)) ->
  exists b vs s2 vs2,
    vrun W' false vp (verifier_new t) = Done (b, vs) /\
    prover_create_randomized_constraints W (hp_state1 W s G H) = Done (Ok s2) /\
    v_second W' proof vs vs2 /\
    p_transcript s = v_transcript vs /\
    p_transcript (hp_state1 W s G H) = v_transcript (v_absorb proof vs) /\
    p_transcript s2 = v_transcript vs2 /\
    tp = snd (ipp_challenges (ipp_L (proof_ipp proof)) (ipp_R (proof_ipp proof))
           (innerproduct_domain_sep (next_power_of_two (v_num_vars vs2)) (c_t (protocol_challenges (v_transcript vs2) proof)))) /\
    forall t', verify W' vs proof g h G H = Done (Ok t') -> t' = tp.
Proof. exact (synchrony W W' g h t R pp vp G H a s proof tp). Qed.

(** ** C21 The transcript binds proof elements and commitments *)
(** The challenges of a session are functions of the transcript at fixed points. *)
Theorem C21_challenge_points t pf :
  let c := protocol_challenges t pf in
  c_y c = challenge_value "y" (at_y t pf) /\ c_z c = challenge_value "z" (at_z t pf) /\
  c_u c = challenge_value "u" (at_u t pf) /\ c_x c = challenge_value "x" (at_x t pf) /\
  c_w c = challenge_value "w" (at_w t pf) /\
  forall n j L R, nth_error (combine (ipp_L (proof_ipp pf)) (ipp_R (proof_ipp pf))) j = Some (L, R) ->
    nth_error (round_challenges n c pf) j =
    Some (challenge_value "u" (at_round (next_power_of_two n)
      (firstn j (combine (ipp_L (proof_ipp pf)) (ipp_R (proof_ipp pf)))) L R t pf)).
Proof.
  pose proof (challenges_log t pf) as (H1 & H2 & H3 & H4 & H5 & _).
  exact (conj H1 (conj H2 (conj H3 (conj H4 (conj H5 (fun n j L R => round_challenge_log n t pf j L R)))))).
Qed.

(** At those points, equal transcripts imply equal commitments and equal proof
    elements so far. *)
Theorem C21_binding {EO : EncodingOk P} W W' {A A'} (m : vprog A) (m' : vprog A') t0 a a' s s' s2 s2' pf pf' :
  vrun W false m (verifier_new t0) = Done (a, s) ->
  vrun W' false m' (verifier_new t0) = Done (a', s') ->
  v_second W pf s s2 -> v_second W' pf' s' s2' ->
  let t := v_transcript s2 in
  let t' := v_transcript s2' in
  (at_y t pf = at_y t' pf' -> v_V s = v_V s' /\ same_first pf pf') /\
  (at_u t pf = at_u t' pf' -> v_V s = v_V s' /\ same_first pf pf' /\ same_second pf pf') /\
  (at_w t pf = at_w t' pf' -> v_V s = v_V s' /\ same_first pf pf' /\ same_second pf pf' /\ same_third pf pf') /\
  (forall N N' rs rs' L L' R R', at_round N rs L R t pf = at_round N' rs' L' R' t' pf' ->
     v_V s = v_V s' /\ same_first pf pf' /\ same_second pf pf' /\ same_third pf pf' /\ rs = rs' /\ L = L' /\ R = R').
Proof.
  intros E E' E2 E2'.
  exact (conj (bind_y W W' m m' t0 a a' s s' s2 s2' pf pf' E E' E2 E2')
        (conj (bind_u W W' m m' t0 a a' s s' s2 s2' pf pf' E E' E2 E2')
        (conj (bind_w W W' m m' t0 a a' s s' s2 s2' pf pf' E E' E2 E2')
              (bind_round W W' m m' t0 a a' s s' s2 s2' pf pf' E E' E2 E2')))).
Qed.

(** ** C22 The transcript does not bind public constants *)
(** Replacing the constraints by arbitrary other ones changes neither [y] nor [z]. *)
Theorem C22_challenges_ignore_constraints W s cs G H pf tp pf' tp' :
  p_reachable false s -> p_deferred s = [] ->
  prove W s G H = Done (Ok (pf, tp)) ->
  prove W (p_with_constraints cs s) G H = Done (Ok (pf', tp')) ->
  let t0 := r1cs_1phase_domain_sep (first_phase_transcript pf (length (p_v s)) (p_transcript s)) in
  let t0' := r1cs_1phase_domain_sep (first_phase_transcript pf' (length (p_v s)) (p_transcript s)) in
  c_y (protocol_challenges t0 pf) = c_y (protocol_challenges t0' pf') /\
  c_z (protocol_challenges t0 pf) = c_z (protocol_challenges t0' pf').
Proof. exact (yz_ignore_constraints W s cs G H pf tp pf' tp'). Qed.

(** A prover who picks the second constant after seeing [z] convinces the
    verifier that one committed value equals two different constants. *)
Theorem C22_forgery W W' g h t v b G H s0 pf0 tp0 c1 :
  prun W false (prove_equals v b []) (prover_new g h t) = Done (tt, s0) ->
  prove W s0 G H = Done (Ok (pf0, tp0)) ->
  let t0 := r1cs_1phase_domain_sep (first_phase_transcript pf0 1 (p_transcript s0)) in
  let z := c_z (protocol_challenges t0 pf0) in
  z <> 0 -> z <> - (1) -> c1 <> v ->
  let c2 := v + (v - c1) / z in
  (forall a, ~ (lc_value a (equals (VCommitted 0) c1) = 0 /\ lc_value a (equals (VCommitted 0) c2) = 0)) /\
  exists s pf tp vs,
    prun W false (prove_equals v b [c1; c2]) (prover_new g h t) = Done (tt, s) /\
    prove W s G H = Done (Ok (pf, tp)) /\
    vrun W' false (verify_equals (commit g h v b) [c1; c2]) (verifier_new t) = Done (tt, vs) /\
    (let c := protocol_challenges t0 pf in
     c_y c <> 0 -> all_nonzero (round_challenges 2 c pf) ->
     verify W' vs pf g h G H = Done (Ok tp)).
Proof. exact (frozen_heart' W W' g h t v b G H s0 pf0 tp0 c1). Qed.

(** ** C23 Generator shortage *)
Theorem C23_prove_generators W g h t {A} (m : pprog A) a s G H :
  prun W false m (prover_new g h t) = Done (a, s) ->
  let n1 := length (p_aL s) in
  ((length G < n1)%nat -> prove W s G H = Done (Err InvalidGeneratorsLength)) /\
  ((n1 <= length G)%nat -> (length H < n1)%nat -> prove W s G H = Panic) /\
  ((n1 <= length G)%nat -> (n1 <= length H)%nat -> forall s2,
    prover_create_randomized_constraints W (hp_state1 W s G H) = Done (Ok s2) ->
    let N := next_power_of_two (length (p_aL s2)) in
    ((length G < N)%nat -> prove W s G H = Done (Err InvalidGeneratorsLength)) /\
    (forall r, prove W s G H = Done (Ok r) -> (N <= length G)%nat /\ (N <= length H)%nat)).
Proof. exact (prove_generators W g h t m a s G H). Qed.

Theorem C23_verify_generators W s s2 proof g h G H :
  v_second W proof s s2 ->
  let N := next_power_of_two (v_num_vars s2) in
  ((length G < N)%nat -> verify W s proof g h G H = Done (Err InvalidGeneratorsLength)) /\
  ((length H < N)%nat -> forall t, verify W s proof g h G H <> Done (Ok t)) /\
  ((N <= length G)%nat -> (length H < N)%nat ->
   Forall (lc_in_range (v_num_vars s2) (length (v_V s2))) (v_constraints s2) ->
   (length (ipp_L (proof_ipp proof)) < 32)%nat -> N = (2 ^ length (ipp_L (proof_ipp proof)))%nat ->
   verify W s proof g h G H = Panic).
Proof. exact (verify_generators W s s2 proof g h G H). Qed.

(** ** C24 Verification on adversarial proofs *)
Theorem C24_total_when_lengths_agree W s s2 proof g h G H :
  v_second W proof s s2 ->
  (next_power_of_two (v_num_vars s2) <= length H)%nat ->
  Forall (lc_in_range (v_num_vars s2) (length (v_V s2))) (v_constraints s2) ->
  (1 < v_num_vars s2)%nat \/ batch_invert_empty_panics = false ->
  length (ipp_L (proof_ipp proof)) = length (ipp_R (proof_ipp proof)) ->
  (exists t, verify W s proof g h G H = Done (Ok t)) \/
  exists e, verify W s proof g h G H = Done (Err e) /\ (e = VerificationError \/ e = InvalidGeneratorsLength).
Proof. exact (verify_never_panics W s s2 proof g h G H). Qed.

Theorem C24_panics_on_length_mismatch W s s2 proof g h G H :
  v_second W proof s s2 ->
  (next_power_of_two (v_num_vars s2) <= length G)%nat -> (next_power_of_two (v_num_vars s2) <= length H)%nat ->
  Forall (lc_in_range (v_num_vars s2) (length (v_V s2))) (v_constraints s2) ->
  length (ipp_L (proof_ipp proof)) <> length (ipp_R (proof_ipp proof)) ->
  (length (ipp_L (proof_ipp proof)) < 32)%nat ->
  next_power_of_two (v_num_vars s2) = (2 ^ length (ipp_L (proof_ipp proof)))%nat ->
  verify W s proof g h G H = Panic.
Proof. exact (verify_panics_on_mismatch W s s2 proof g h G H). Qed.

Theorem C24_wrong_number_of_rounds W s s2 proof g h G H :
  v_second W proof s s2 ->
  (next_power_of_two (v_num_vars s2) <= length G)%nat ->
  Forall (lc_in_range (v_num_vars s2) (length (v_V s2))) (v_constraints s2) ->
  (32 <= length (ipp_L (proof_ipp proof)))%nat \/
  next_power_of_two (v_num_vars s2) <> (2 ^ length (ipp_L (proof_ipp proof)))%nat ->
  verify W s proof g h G H = Done (Err VerificationError).
Proof. exact (verify_wrong_rounds W s s2 proof g h G H). Qed.

Theorem C24_verify_ipp_panics n t Gf Hf Pt Q G H a b Ls Rs :
  (32 <= length Ls)%nat \/ n <> (2 ^ length Ls)%nat -> verify_ipp n t Gf Hf Pt Q G H a b Ls Rs = Panic.
Proof. exact (verify_ipp_panics n t Gf Hf Pt Q G H a b Ls Rs). Qed.
End Props.

Print Assumptions C17_completeness.
Print Assumptions C18_unsatisfied_rejected.
Print Assumptions C19_batching.
Print Assumptions C19_accepted_fits.
Print Assumptions C20_synchrony.
Print Assumptions C21_challenge_points.
Print Assumptions C21_binding.
Print Assumptions C22_challenges_ignore_constraints.
Print Assumptions C22_forgery.
Print Assumptions C23_prove_generators.
Print Assumptions C23_verify_generators.
Print Assumptions C24_total_when_lengths_agree.
Print Assumptions C24_panics_on_length_mismatch.
Print Assumptions C24_wrong_number_of_rounds.
Print Assumptions C24_verify_ipp_panics.

(** * Concrete cases *)
Section Examples.
#[local] Existing Instance toyP.
#[local] Existing Instance toyP_ok.
#[local] Existing Instance toyP_enc.
Local Open Scope fe_scope.

Definition nonzero_b (u : F) : bool := negb (feqb u 0).
Lemma nonzero_all us : forallb nonzero_b us = true -> all_nonzero us.
Proof.
  intros H. apply Forall_forall. intros u Hu E. rewrite forallb_forall in H. specialize (H u Hu).
  unfold nonzero_b in H. rewrite E in H. vm_compute in H. discriminate H.
Qed.
Lemma nonzero_one u : nonzero_b u = true -> u <> 0.
Proof. intros H E. rewrite E in H. vm_compute in H. discriminate H. Qed.

(** decision procedures, for computing *)
Definition in_range_b (n m : nat) (v : var) : bool :=
  match v with VCommitted i => Nat.ltb i m | VLeft i | VRight i | VOut i => Nat.ltb i n | VOne => true end.
Lemma in_range_all n m cs : forallb (forallb (fun t => in_range_b n m (fst t))) cs = true -> Forall (lc_in_range n m) cs.
Proof.
  intros H. apply Forall_forall. intros l Hl v c Hv. rewrite forallb_forall in H. specialize (H l Hl).
  rewrite forallb_forall in H. specialize (H _ Hv). cbn in H. destruct v; cbn in *; try apply Nat.ltb_lt in H; auto.
Qed.
Definition gate_ok_b (a : assignment) i := feqb (as_left a i * as_right a i) (as_out a i).
Lemma feqb_true (x y : F) : feqb x y = true -> x = y.
Proof. destruct (feqb_spec _ x y); [auto|discriminate]. Qed.
Lemma satisfies_b a n cs : forallb (gate_ok_b a) (seq 0 n) = true -> forallb (fun l => feqb (lc_value a l) 0) cs = true -> satisfies a n cs.
Proof.
  intros H1 H2. rewrite forallb_forall in H1, H2. split.
  - intros i Hi. specialize (H1 i ltac:(apply in_seq; lia)). unfold gate_ok_b in H1. apply feqb_true in H1.
    unfold gate_ok. auto.
  - intros l Hl. apply feqb_true. apply H2; exact Hl.
Qed.

Opaque demo_s demo_s2 demo_vs demo_vs2 demo_proof demo_result.

(** Two-phase circuit with 3 multipliers (padded to 4) and 8 constraints. *)
Example C17_example :
  sim demo_g demo_h eq demo_pp demo_vp /\
  prun demoW false demo_pp (prover_new demo_g demo_h []) = Done (Ok tt, demo_s) /\
  prover_create_randomized_constraints demoW (hp_state1 demoW demo_s demo_G demo_H) = Done (Ok demo_s2) /\
  length (p_aL demo_s2) = 3%nat /\ length (p_constraints demo_s2) = 8%nat /\ length demo_G = 8%nat /\ length demo_H = 8%nat /\
  Forall (lc_in_range 3 (length (p_v demo_s2))) (p_constraints demo_s2) /\
  satisfies (prover_assignment demo_s2) 3 (p_constraints demo_s2) /\
  (let c := protocol_challenges (p_transcript demo_s2) demo_proof in
   c_y c <> 0 /\ all_nonzero (round_challenges 3 c demo_proof)) /\
  prove demoW demo_s demo_G demo_H = Done (Ok (demo_proof, snd demo_result)) /\
  is_done (verify demoW' demo_vs demo_proof demo_g demo_h demo_G demo_H) = true.
Proof.
  split; [apply demo_sim|]. split; [apply demo_run|]. split; [apply demo_second|].
  do 4 (split; [vm_compute; reflexivity|]).
  split; [apply in_range_all; vm_compute; reflexivity|].
  split; [apply satisfies_b; vm_compute; reflexivity|].
  split; [split; [apply nonzero_one; vm_compute; reflexivity|apply nonzero_all; vm_compute; reflexivity]|].
  split; [apply demo_prove_ok|vm_compute; reflexivity].
Qed.

(** The same circuit with the false claim 6 * 7 = 43: the proof is produced and rejected. *)
Definition bad_s := match prun demoW false (demo_prove (fe 6) (fe 7) (fe 43)) (prover_new demo_g demo_h []) with
  | Done (_, s) => s | Panic => prover_new demo_g demo_h [] end.
Definition bad_proof := match prove demoW bad_s demo_G demo_H with Done (Ok (p, _)) => p | _ => demo_proof end.
Definition bad_vs := match vrun demoW' false (demo_verify (demo_V 6 11) (demo_V 7 12) (demo_V 43 13)) (verifier_new []) with
  | Done (_, s) => s | Panic => verifier_new [] end.
Example C18_example :
  is_done (prove demoW bad_s demo_G demo_H) = true /\
  match verify demoW' bad_vs bad_proof demo_g demo_h demo_G demo_H with Done (Err VerificationError) => true | _ => false end = true.
Proof. split; vm_compute; reflexivity. Qed.

Example C19_example : v_second demoW' demo_proof demo_vs demo_vs2 /\ proof_fits demo_vs2 demo_proof demo_G demo_H.
Proof.
  split; [apply demo_vsecond|]. constructor.
  - apply Nat.leb_le. vm_compute. reflexivity.
  - apply Nat.leb_le. vm_compute. reflexivity.
  - apply in_range_all. vm_compute. reflexivity.
  - vm_compute. reflexivity.
  - apply Nat.ltb_lt. vm_compute. reflexivity.
  - vm_compute. reflexivity.
  - right. reflexivity.
Qed.

Example C21_example :
  vrun demoW' false demo_vp (verifier_new []) = Done (Ok tt, demo_vs) /\ v_second demoW' demo_proof demo_vs demo_vs2 /\
  length (at_w (v_transcript demo_vs2) demo_proof) = 25%nat.
Proof. split; [apply demo_vrun|]. split; [apply demo_vsecond|]. vm_compute. reflexivity. Qed.

(** ** C22, concretely: an accepted proof of a contradiction *)
Definition fh_s0 := match prun demoW false (prove_equals (fe 9) (fe 4) []) (prover_new demo_g demo_h []) with
  | Done (_, s) => s | Panic => prover_new demo_g demo_h [] end.
Definition fh_pf0 := match prove demoW fh_s0 demo_G demo_H with Done (Ok (p, _)) => p | _ => demo_proof end.
Definition fh_z := c_z (protocol_challenges (r1cs_1phase_domain_sep (first_phase_transcript fh_pf0 1 (p_transcript fh_s0))) fh_pf0).
Definition fh_c1 := fe 100.
Definition fh_c2 := fe 9 + (fe 9 - fh_c1) / fh_z.
Definition fh_s := match prun demoW false (prove_equals (fe 9) (fe 4) [fh_c1; fh_c2]) (prover_new demo_g demo_h []) with
  | Done (_, s) => s | Panic => prover_new demo_g demo_h [] end.
Definition fh_pf := match prove demoW fh_s demo_G demo_H with Done (Ok (p, _)) => p | _ => demo_proof end.
Definition fh_vs := match vrun demoW' false (verify_equals (commit demo_g demo_h (fe 9) (fe 4)) [fh_c1; fh_c2]) (verifier_new []) with
  | Done (_, s) => s | Panic => verifier_new [] end.
Lemma fh_vrun : vrun demoW' false (verify_equals (commit demo_g demo_h (fe 9) (fe 4)) [fh_c1; fh_c2]) (verifier_new []) = Done (tt, fh_vs).
Proof. reflexivity. Qed.
Lemma fh_accepted : is_done (verify demoW' fh_vs fh_pf demo_g demo_h demo_G demo_H) = true.
Proof. vm_compute. reflexivity. Qed.
Lemma fh_different : feqb fh_c1 fh_c2 = false.
Proof. vm_compute. reflexivity. Qed.
End Examples.

(** A verifier accepts that one committed value equals two different constants. *)
Theorem C22_statement_bound_refuted :
  exists (P : Params) (OK : ParamsOk P) (EO : EncodingOk P) (W : world) (g h V : G1) (G H : list G1) (c1 c2 : F) (vs : verifier) (proof : r1cs_proof) (t : transcript),
    c1 <> c2 /\
    vrun W false (verify_equals V [c1; c2]) (verifier_new []) = Done (tt, vs) /\
    verify W vs proof g h G H = Done (Ok t) /\
    forall a, ~ (lc_value a (equals (VCommitted 0) c1) = fzero _ /\ lc_value a (equals (VCommitted 0) c2) = fzero _).
Proof.
  exists toyP, toyP_ok, toyP_enc, demoW', demo_g, demo_h, (@commit toyP demo_g demo_h (fe 9) (fe 4)), demo_G, demo_H, fh_c1, fh_c2, fh_vs, fh_pf.
  pose proof fh_accepted as Ha.
  destruct (verify demoW' fh_vs fh_pf demo_g demo_h demo_G demo_H) as [[t|]|] eqn:E; [|discriminate Ha|discriminate Ha].
  exists t. assert (Hc : fh_c1 <> fh_c2).
  { intros X. pose proof fh_different as D. rewrite <- X in D. vm_compute in D. discriminate D. }
  split; [exact Hc|]. split; [exact fh_vrun|]. split; [reflexivity|].
  intros a. exact (equals_functional (OK := toyP_ok) a (VCommitted 0) fh_c1 fh_c2 Hc).
Qed.
Print Assumptions C22_statement_bound_refuted.

(** ** C24, concretely: dropping one element of R makes the verifier panic *)
Definition drop_R (pf : @r1cs_proof toyP) : @r1cs_proof toyP :=
  R1CSProof (A_I1 pf) (A_O1 pf) (S1 pf) (A_I2 pf) (A_O2 pf) (S2 pf) (T_1 pf) (T_3 pf) (T_4 pf) (T_5 pf) (T_6 pf)
    (t_x pf) (t_x_blinding pf) (e_blinding pf)
    (IPPProof (ipp_L (proof_ipp pf)) (tl (ipp_R (proof_ipp pf))) (ipp_a (proof_ipp pf)) (ipp_b (proof_ipp pf))).
Lemma drop_R_second W pf s s2 : @v_second toyP W pf s s2 -> @v_second toyP W (drop_R pf) s s2.
Proof. unfold v_second. replace (v_absorb (drop_R pf) s) with (v_absorb pf s) by (destruct pf; reflexivity). auto. Qed.
Theorem C24_verify_total_refuted :
  exists (P : Params) (OK : ParamsOk P) (W : world) (vp : vprog (result unit)) (vs : verifier) (proof : r1cs_proof) (g h : G1) (G H : list G1),
    vrun W false vp (verifier_new []) = Done (Ok tt, vs) /\
    (exists vs2, v_second W proof vs vs2 /\ (next_power_of_two (v_num_vars vs2) <= length G)%nat /\
       (next_power_of_two (v_num_vars vs2) <= length H)%nat) /\
    verify W vs proof g h G H = Panic.
Proof.
  exists toyP, toyP_ok, demoW', demo_vp, demo_vs, (drop_R demo_proof), demo_g, demo_h, demo_G, demo_H.
  split; [exact demo_vrun|]. split; [|vm_compute; reflexivity].
  exists demo_vs2. split; [apply drop_R_second; exact demo_vsecond|]. split; apply Nat.leb_le; vm_compute; reflexivity.
Qed.
Print Assumptions C24_verify_total_refuted.
