(** The verifier's verdict on paper: the state in which the second phase starts,
    proofs of the right shape, and the two equations of the protocol. *)
From Coq Require Import ZArith String List.
From Verif.Base Require Import Outcome Fp Params Algebra.
From Verif.Model Require Import Transcript LinComb Prog IPP Prover Verifier.
From Verif.Spec Require Import R1CS Protocol.
Import ListNotations.

Section Verdict.
Context {P : Params}.
Local Open Scope fe_scope.

(** the verifier [s] after absorbing the first-phase elements of a proof *)
Definition v_absorb (proof : r1cs_proof) (s : verifier) : verifier :=
  v_with_transcript (first_phase_transcript proof (length (v_V s)) (v_transcript s)) s.

(** The second phase of [s], given [proof], succeeds and leads to [s2]. *)
Definition v_second (W : world) (proof : r1cs_proof) (s s2 : verifier) : Prop :=
  verifier_create_randomized_constraints W (v_absorb proof s) = Done (Ok s2).

(** [s2] holds the complete circuit.  The constraints mention existing
    variables only, there are enough generators, and the inner-product argument
    has the right number of rounds. *)
Record proof_fits (s2 : verifier) (proof : r1cs_proof) (G H : list G1) : Prop := {
  fits_G : (next_power_of_two (v_num_vars s2) <= length G)%nat;
  fits_H : (next_power_of_two (v_num_vars s2) <= length H)%nat;
  fits_range : Forall (lc_in_range (v_num_vars s2) (length (v_V s2))) (v_constraints s2);
  fits_LR : length (ipp_L (proof_ipp proof)) = length (ipp_R (proof_ipp proof));
  fits_32 : (length (ipp_L (proof_ipp proof)) < 32)%nat;
  fits_rounds : next_power_of_two (v_num_vars s2) = (2 ^ length (ipp_L (proof_ipp proof)))%nat;
  fits_empty : (1 < v_num_vars s2)%nat \/ batch_invert_empty_panics = false
}.

(** Equation 1: the claimed value of the polynomial [t] at [x]. *)
Definition equation_t (s2 : verifier) (proof : r1cs_proof) (g h : G1) : Prop :=
  let c := protocol_challenges (v_transcript s2) proof in
  t_equation proof g h (v_V s2) (v_num_vars s2) (v_constraints s2) (c_y c) (c_z c) (c_x c).

(** Equation 2: the inner-product argument for the commitment to [l(x)], [r(x)]
    is accepted. [s] is the verifier after the first phase. *)
Definition equation_ipp (s s2 : verifier) (proof : r1cs_proof) (g h : G1) (G H : list G1) : Prop :=
  let n1 := v_num_vars s in
  let n := v_num_vars s2 in
  let N := next_power_of_two n in
  let c := protocol_challenges (v_transcript s2) proof in
  exists t',
    verify_ipp N (c_t c)
      (map (phase_factor n1 (c_u c)) (seq 0 N))
      (map (fun i => fpow (finv (c_y c)) i * phase_factor n1 (c_u c) i) (seq 0 N))
      (ipp_point proof g h G H n1 n N (v_constraints s2) (c_y c) (c_z c) (c_u c) (c_x c) (c_w c))
      (g1_mul (c_w c) g) (firstn N G) (firstn N H)
      (ipp_a (proof_ipp proof)) (ipp_b (proof_ipp proof)) (ipp_L (proof_ipp proof)) (ipp_R (proof_ipp proof))
    = Done (Ok tt, t').

Definition all_nonzero (us : list F) : Prop := Forall (fun u => u <> 0) us.

(** The round challenges of the inner-product argument in [proof]; [n] is the
    number of multipliers, [c] the challenges drawn before. *)
Definition round_challenges (n : nat) (c : challenges) (proof : r1cs_proof) : list F :=
  fst (ipp_challenges (ipp_L (proof_ipp proof)) (ipp_R (proof_ipp proof))
        (innerproduct_domain_sep (next_power_of_two n) (c_t c))).

(** The environment [W], except that the random value number [k] is [r]. *)
Definition with_random (W : world) (k : nat) (r : F) : world :=
  World (fun i => if Nat.eqb i k then r else w_random W i) (w_order W).
End Verdict.
