(** Two answers to the same challenges: the coefficients that they yield. *)
From Coq Require Import ZArith String List.
From Verif.Base Require Import Outcome Fp Params Algebra.
From Verif.Model Require Import Transcript LinComb Prog IPP Prover Verifier.
From Verif.Spec Require Import R1CS Protocol IPPSpec Verdict.
Import ListNotations.

Section Unique.
Context {P : Params}.
Local Open Scope fe_scope.

(** The last scalars of the inner-product argument, [a], [b] and [a'], [b'], with round
    challenges [us] and factors [Gf], [Hf]: coefficients of [G] and of [H], and of [Q]. *)
Definition difference_G (n : nat) (us Gf : list F) (a a' : F) : list F :=
  map (fun i => (a - a') * (s_entry us i * nth i Gf 0)) (seq 0 n).
Definition difference_H (n : nat) (us Hf : list F) (b b' : F) : list F :=
  map (fun i => (b - b') * (s_entry us (n - 1 - i) * nth i Hf 0)) (seq 0 n).
Definition difference_Q (a b a' b' : F) : F := a * b - a' * b'.

(** a proof with other last scalars *)
Definition with_last (a b : F) (pf : r1cs_proof) : r1cs_proof :=
  R1CSProof (A_I1 pf) (A_O1 pf) (S1 pf) (A_I2 pf) (A_O2 pf) (S2 pf) (T_1 pf) (T_3 pf) (T_4 pf) (T_5 pf) (T_6 pf)
    (t_x pf) (t_x_blinding pf) (e_blinding pf) (IPPProof (ipp_L (proof_ipp pf)) (ipp_R (proof_ipp pf)) a b).

(** Two proofs that differ in their last scalars, the second has [a'], [b']: coefficients of
    [g], [G] and [H].  [s] is the verifier after the first phase, [s2] after the second. *)
Definition last_difference (s s2 : verifier) (pf : r1cs_proof) (a' b' : F) : list F :=
  let n := v_num_vars s2 in
  let N := next_power_of_two n in
  let c := protocol_challenges (v_transcript s2) pf in
  let us := round_challenges n c pf in
  let a := ipp_a (proof_ipp pf) in
  let b := ipp_b (proof_ipp pf) in
  (c_w c * difference_Q a b a' b') ::
  difference_G N us (map (phase_factor (v_num_vars s) (c_u c)) (seq 0 N)) a a' ++
  difference_H N us (map (fun i => fpow (finv (c_y c)) i * phase_factor (v_num_vars s) (c_u c) i) (seq 0 N)) b b'.

(** the points of two proofs are the same, up to the challenge [x] *)
Definition same_points (pf pf' : r1cs_proof) : Prop :=
  A_I1 pf = A_I1 pf' /\ A_O1 pf = A_O1 pf' /\ S1 pf = S1 pf' /\ A_I2 pf = A_I2 pf' /\ A_O2 pf = A_O2 pf' /\ S2 pf = S2 pf' /\
  T_1 pf = T_1 pf' /\ T_3 pf = T_3 pf' /\ T_4 pf = T_4 pf' /\ T_5 pf = T_5 pf' /\ T_6 pf = T_6 pf'.
End Unique.
