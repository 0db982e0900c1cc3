(** The R1CS protocol on paper: order of the Fiat-Shamir challenges, and the two
    equations a verifier has to check.

    A circuit with [n] gates padded to [N], [n1] of them from the first phase.
    Sums over vectors are written with functions from indices to scalars. *)
From Coq Require Import ZArith String List.
From Verif.Base Require Import Outcome Fp Params Algebra.
From Verif.Model Require Import Transcript LinComb IPP Prover.
From Verif.Spec Require Import R1CS.
Import ListNotations.

Section Protocol.
Context {P : Params}.
Local Open Scope fe_scope.

(** the sum over the constraints [q] (counted from 0) of [z^(q+1)] times the
    coefficient of [v] in constraint [q] *)
Definition weight (cs : list lc) (z : F) (v : var) : F :=
  fsum (map (fun q => fpow z (S q) * coeff v (nth q cs [])) (seq 0 (length cs))).

(** the sum over the constraints [q] of [z^(q+1)] times the value of constraint [q] *)
Definition zsum (s : assignment) (cs : list lc) (z : F) : F :=
  fsum (map (fun q => fpow z (S q) * lc_value s (nth q cs [])) (seq 0 (length cs))).

(** [sum_{i<n} f i] *)
Definition sum_n (n : nat) (f : nat -> F) : F := fsum (map f (seq 0 n)).
(** [sum_{i<n} (f i) * G_i] *)
Definition gsum_n (n : nat) (f : nat -> F) (G : list G1) : G1 :=
  gsum (map (fun i => g1_mul (f i) (nth i G g1_id)) (seq 0 n)).

(** *** What the honest prover publishes in the first phase.
    The next values of the prover's randomness are the blindings of A_I1, A_O1
    and S1, then s_L1, then s_R1. *)
Section FirstPhase.
Context (W : world) (s : prover) (G H : list G1).
Let n1 := length (p_aL s).
Let c0 := p_nrand s.
Definition hp_AI1 : G1 := g1_add (g1_add (msm (p_aL s) (firstn n1 G)) (msm (p_aR s) (firstn n1 H)))
  (g1_mul (w_random W c0) (p_h s)).
Definition hp_AO1 : G1 := g1_add (msm (p_aO s) (firstn n1 G)) (g1_mul (w_random W (c0 + 1)) (p_h s)).
Definition hp_S1 : G1 := g1_add (g1_add (msm (randoms W (c0 + 3) n1) (firstn n1 G))
   (msm (randoms W (c0 + 3 + n1) n1) (firstn n1 H))) (g1_mul (w_random W (c0 + 2)) (p_h s)).

(** the prover's state when the second phase starts: the number of commitments
    and the three points have been absorbed *)
Definition hp_state1 : prover :=
  p_with_transcript (commit_point "S1" hp_S1 (commit_point "A_O1" hp_AO1 (commit_point "A_I1" hp_AI1
     (append_u64 "m" (Z.of_nat (length (p_v s))) (p_transcript s)))))
   (p_with_nrand (c0 + 3 + n1 + n1) (p_with_transcript (append_u64 "m" (Z.of_nat (length (p_v s))) (p_transcript s)) s)).
End FirstPhase.

(** the verifier's transcript at the same point *)
Definition first_phase_transcript (proof : r1cs_proof) (m : nat) (t : transcript) : transcript :=
  commit_point "S1" (S1 proof) (commit_point "A_O1" (A_O1 proof) (commit_point "A_I1" (A_I1 proof)
    (append_u64 "m" (Z.of_nat m) t))).

(** The challenges, drawn from the transcript [t] reached after the second phase. *)
Record challenges : Type := Challenges {
  c_y : F; c_z : F; c_u : F; c_x : F; c_w : F;
  c_t : transcript   (* where the inner-product argument starts *)
}.

Definition protocol_challenges (t : transcript) (pf : r1cs_proof) : challenges :=
  let t := commit_point "S2" (S2 pf) (commit_point "A_O2" (A_O2 pf)
             (commit_point "A_I2" (A_I2 pf) t)) in
  let y := challenge_value "y" t in
  let t := t ++ [TChallenge "y" modbytes] in
  let z := challenge_value "z" t in
  let t := t ++ [TChallenge "z" modbytes] in
  let t := commit_point "T_6" (T_6 pf) (commit_point "T_5" (T_5 pf)
             (commit_point "T_4" (T_4 pf) (commit_point "T_3" (T_3 pf)
             (commit_point "T_1" (T_1 pf) t)))) in
  let u := challenge_value "u" t in
  let t := t ++ [TChallenge "u" modbytes] in
  let x := challenge_value "x" t in
  let t := t ++ [TChallenge "x" modbytes] in
  let t := commit_scalar "e_blinding" (e_blinding pf)
             (commit_scalar "t_x_blinding" (t_x_blinding pf)
             (commit_scalar "t_x" (t_x pf) t)) in
  let w := challenge_value "w" t in
  let t := t ++ [TChallenge "w" modbytes] in
  Challenges y z u x w t.

(** first-phase generators are used as they are, the others scaled by [u] *)
Definition phase_factor (n1 : nat) (u : F) (i : nat) : F := if Nat.ltb i n1 then 1 else u.

(** the public constant [delta(y,z)] *)
Definition delta (n : nat) (cs : list lc) (y z : F) : F :=
  sum_n n (fun i => fpow (finv y) i * weight cs z (VRight i) * weight cs z (VLeft i)).

(** Equation 1: the committed polynomial [t] evaluates to the claimed value. *)
Definition t_equation (pf : r1cs_proof) (g h : G1) (V : list G1) (n : nat) (cs : list lc) (y z x : F) : Prop :=
  g1_add (g1_mul (t_x pf) g) (g1_mul (t_x_blinding pf) h) =
  g1_add (g1_mul (fpow x 2 * (delta n cs y z - weight cs z VOne)) g)
  (g1_add (g1_mul (fpow x 2) (gsum_n (length V) (fun j => - weight cs z (VCommitted j)) V))
  (g1_add (g1_mul x (T_1 pf))
  (g1_add (g1_mul (fpow x 3) (T_3 pf))
  (g1_add (g1_mul (fpow x 4) (T_4 pf))
  (g1_add (g1_mul (fpow x 5) (T_5 pf)) (g1_mul (fpow x 6) (T_6 pf))))))).

(** weights are zero on padding gates *)
Definition padded (n : nat) (f : nat -> F) (i : nat) : F := if Nat.ltb i n then f i else 0.

(** Equation 2 says that the inner-product argument holds for this point: the
    commitment to the vectors [l(x)], [r(x)] and their inner product. *)
Definition ipp_point (pf : r1cs_proof) (g h : G1) (G H : list G1) (n1 n N : nat) (cs : list lc)
    (y z u x w : F) : G1 :=
  let wL := padded n (fun i => weight cs z (VLeft i)) in
  let wR := padded n (fun i => weight cs z (VRight i)) in
  let wO := padded n (fun i => weight cs z (VOut i)) in
  g1_add (g1_mul x (g1_add (A_I1 pf) (g1_mul u (A_I2 pf))))
  (g1_add (g1_mul (fpow x 2) (g1_add (A_O1 pf) (g1_mul u (A_O2 pf))))
  (g1_add (g1_mul (fpow x 3) (g1_add (S1 pf) (g1_mul u (S2 pf))))
  (g1_add (g1_mul (- e_blinding pf) h)
  (g1_add (g1_mul (t_x pf * w) g)
  (g1_add (gsum_n N (fun i => phase_factor n1 u i * (x * (fpow (finv y) i * wR i))) G)
          (gsum_n N (fun i => phase_factor n1 u i * (fpow (finv y) i * (x * wL i + wO i) - 1)) H)))))).

End Protocol.
