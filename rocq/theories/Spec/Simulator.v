(** The simulator on paper: it writes down proofs for a circuit without knowing a
    witness, because it is told the challenges [y z u x] in advance.

    A circuit with [n] gates, [n1] of them from the first phase, linear
    constraints [cs] and commitments [V]; [N] is [n] rounded up to a power of two. *)
From Coq Require Import ZArith String List.
From Verif.Base Require Import Outcome Fp Params Algebra.
From Verif.Model Require Import Transcript LinComb Prog IPP Prover Verifier.
From Verif.Spec Require Import R1CS Protocol.
Import ListNotations.

Section Simulator.
Context {P : Params}.
Local Open Scope fe_scope.

(** The random scalars of the simulator. Its points are random multiples of the
    blinding generator; [k_l] and [k_r] are the vectors [l(x)] and [r(x)]. *)
Record coins : Type := Coins {
  k_AI1 : F; k_AO1 : F; k_AI2 : F; k_AO2 : F; k_S2 : F;
  k_T3 : F; k_T4 : F; k_T5 : F; k_T6 : F;
  k_txb : F; k_e : F;
  k_l : list F; k_r : list F
}.

(** How the coins are read off a random tape: the scalars, then those of the
    second phase if there is one, then the two vectors. *)
Definition read_coins (n1 n : nat) (tape : list F) : coins :=
  let two := Nat.ltb n1 n in
  let at_ j := nth j tape 0 in
  let d := if two then 11%nat else 8%nat in
  {| k_AI1 := at_ 0%nat; k_AO1 := at_ 1%nat;
     k_T3 := at_ 2%nat; k_T4 := at_ 3%nat; k_T5 := at_ 4%nat; k_T6 := at_ 5%nat;
     k_txb := at_ 6%nat; k_e := at_ 7%nat;
     k_AI2 := if two then at_ 8%nat else 0;
     k_AO2 := if two then at_ 9%nat else 0;
     k_S2 := if two then at_ 10%nat else 0;
     k_l := firstn n (skipn d tape);
     k_r := firstn n (skipn (d + n) tape) |}.

Definition minus (a b : G1) : G1 := g1_add a (g1_neg b).

Section Simulate.
Context (g h : G1) (G H V : list G1) (n1 n : nat) (cs : list lc) (y z u x : F) (co : coins).
Let N := next_power_of_two n.

(** the vectors of the inner-product argument, padded *)
Definition sim_l (i : nat) : F := padded n (fun i => nth i (k_l co) 0) i.
Definition sim_r (i : nat) : F := if Nat.ltb i n then nth i (k_r co) 0 else - fpow y i.
Definition sim_tx : F := sum_n n (fun i => sim_l i * sim_r i).

(** Everything but [T_1], [S1] and the inner-product argument. *)
Definition sim_draft : r1cs_proof :=
  {| A_I1 := g1_mul (k_AI1 co) h; A_O1 := g1_mul (k_AO1 co) h; S1 := g1_id;
     A_I2 := g1_mul (k_AI2 co) h; A_O2 := g1_mul (k_AO2 co) h; S2 := g1_mul (k_S2 co) h;
     T_1 := g1_id; T_3 := g1_mul (k_T3 co) h; T_4 := g1_mul (k_T4 co) h;
     T_5 := g1_mul (k_T5 co) h; T_6 := g1_mul (k_T6 co) h;
     t_x := sim_tx; t_x_blinding := k_txb co; e_blinding := k_e co;
     proof_ipp := IPPProof [] [] 0 0 |}.

(** [T_1] is chosen such that Equation 1 holds. *)
Definition sim_T1 : G1 :=
  g1_mul (finv x) (minus
    (g1_add (g1_mul sim_tx g) (g1_mul (k_txb co) h))
    (g1_add (g1_mul (fpow x 2 * (delta n cs y z - weight cs z VOne)) g)
    (g1_add (g1_mul (fpow x 2) (gsum_n (length V) (fun j => - weight cs z (VCommitted j)) V))
    (g1_add (g1_mul (fpow x 3) (T_3 sim_draft))
    (g1_add (g1_mul (fpow x 4) (T_4 sim_draft))
    (g1_add (g1_mul (fpow x 5) (T_5 sim_draft)) (g1_mul (fpow x 6) (T_6 sim_draft)))))))).

(** [S1] is chosen such that the point of Equation 2 is the commitment to the
    two vectors (the terms with [w] on both sides are equal and left out). *)
Definition sim_S1 : G1 :=
  g1_mul (finv (fpow x 3)) (minus
    (g1_add (gsum_n N (fun i => phase_factor n1 u i * sim_l i) G)
            (gsum_n N (fun i => fpow (finv y) i * phase_factor n1 u i * sim_r i) H))
    (ipp_point sim_draft g h G H n1 n N cs y z u x 0)).

Definition sim_proof (ipp : ipp_proof) : r1cs_proof :=
  {| A_I1 := A_I1 sim_draft; A_O1 := A_O1 sim_draft; S1 := sim_S1;
     A_I2 := A_I2 sim_draft; A_O2 := A_O2 sim_draft; S2 := S2 sim_draft;
     T_1 := sim_T1; T_3 := T_3 sim_draft; T_4 := T_4 sim_draft; T_5 := T_5 sim_draft; T_6 := T_6 sim_draft;
     t_x := sim_tx; t_x_blinding := k_txb co; e_blinding := k_e co; proof_ipp := ipp |}.

(** The simulator. [t] is the transcript at the end of the second phase; [w] and
    the challenges of the inner-product argument are drawn as usual. *)
Definition simulate (t : transcript) : outcome (r1cs_proof * transcript) :=
  let c := protocol_challenges t (sim_proof (IPPProof [] [] 0 0)) in
  obind (create_ipp (c_t c) (g1_mul (c_w c) g)
           (map (phase_factor n1 u) (seq 0 N)) (map (fun i => fpow (finv y) i * phase_factor n1 u i) (seq 0 N))
           (firstn N G) (firstn N H) (map sim_l (seq 0 N)) (map sim_r (seq 0 N)))
    (fun '(ipp, t') => Done (sim_proof ipp, t')).
End Simulate.

(** With this tape the simulator writes down the proof [pf] (and leaves the
    transcript [tp]), if the challenges it is told are those that belong to
    [pf]. [vs] is the verifier after the first phase, [vs2] after the second. *)
Definition simulates (g h : G1) (vs vs2 : verifier) (G H : list G1) (pf : r1cs_proof) (tp : transcript) (tape : list F) : Prop :=
  let n1 := v_num_vars vs in
  let n := v_num_vars vs2 in
  let c := protocol_challenges (v_transcript vs2) pf in
  simulate g h G H (v_V vs2) n1 n (v_constraints vs2) (c_y c) (c_z c) (c_u c) (c_x c) (read_coins n1 n tape)
    (v_transcript vs2) = Done (pf, tp).
End Simulator.
