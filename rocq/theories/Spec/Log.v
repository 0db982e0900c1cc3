(** The transcript at the moments a verifier draws its challenges.
    [t] is the transcript reached at the end of the second phase. *)
From Coq Require Import ZArith String List.
From Verif.Base Require Import Outcome Fp Params Algebra.
From Verif.Model Require Import Transcript LinComb IPP Prover.
Import ListNotations.

Section Log.
Context {P : Params}.

Definition at_y (t : transcript) (pf : r1cs_proof) : transcript :=
  t ++ [TMessage "A_I2" (g1_bytes (A_I2 pf)); TMessage "A_O2" (g1_bytes (A_O2 pf)); TMessage "S2" (g1_bytes (S2 pf))].
Definition at_z (t : transcript) (pf : r1cs_proof) : transcript := at_y t pf ++ [TChallenge "y" modbytes].
Definition at_u (t : transcript) (pf : r1cs_proof) : transcript :=
  at_z t pf ++ [TChallenge "z" modbytes; TMessage "T_1" (g1_bytes (T_1 pf)); TMessage "T_3" (g1_bytes (T_3 pf));
    TMessage "T_4" (g1_bytes (T_4 pf)); TMessage "T_5" (g1_bytes (T_5 pf)); TMessage "T_6" (g1_bytes (T_6 pf))].
Definition at_x (t : transcript) (pf : r1cs_proof) : transcript := at_u t pf ++ [TChallenge "u" modbytes].
Definition at_w (t : transcript) (pf : r1cs_proof) : transcript :=
  at_x t pf ++ [TChallenge "x" modbytes; TMessage "t_x" (fe_bytes (t_x pf));
    TMessage "t_x_blinding" (fe_bytes (t_x_blinding pf)); TMessage "e_blinding" (fe_bytes (e_blinding pf))].

(** the rounds of the inner-product argument *)
Definition round_log (LR : G1 * G1) : transcript :=
  [TMessage "L" (g1_bytes (fst LR)); TMessage "R" (g1_bytes (snd LR)); TChallenge "u" modbytes].
Definition after_rounds (N : nat) (rounds : list (G1 * G1)) (t : transcript) (pf : r1cs_proof) : transcript :=
  at_w t pf ++ [TChallenge "w" modbytes; TMessage "dom-sep" (bytes_of_string "ipp v1");
    TMessage "n" (le_bytes 8 (Z.of_nat N))] ++ flat_map round_log rounds.
(** the challenge of the round with messages [L], [R] *)
Definition at_round (N : nat) (rounds : list (G1 * G1)) (L R : G1) (t : transcript) (pf : r1cs_proof) : transcript :=
  after_rounds N rounds t pf ++ [TMessage "L" (g1_bytes L); TMessage "R" (g1_bytes R)].

(** proof elements of the first flow (sent before [y]), and so on *)
Definition same_first (pf pf' : r1cs_proof) : Prop :=
  A_I1 pf = A_I1 pf' /\ A_O1 pf = A_O1 pf' /\ S1 pf = S1 pf' /\
  A_I2 pf = A_I2 pf' /\ A_O2 pf = A_O2 pf' /\ S2 pf = S2 pf'.
Definition same_second (pf pf' : r1cs_proof) : Prop :=
  T_1 pf = T_1 pf' /\ T_3 pf = T_3 pf' /\ T_4 pf = T_4 pf' /\ T_5 pf = T_5 pf' /\ T_6 pf = T_6 pf'.
Definition same_third (pf pf' : r1cs_proof) : Prop :=
  t_x pf = t_x pf' /\ t_x_blinding pf = t_x_blinding pf' /\ e_blinding pf = e_blinding pf'.
End Log.
