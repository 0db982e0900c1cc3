(** Challenges as the code derives them.

    merlin returns a string of MODBYTES bytes, and [FieldElement::from] reduces the
    integer that they denote modulo the group order.  So some challenges are a little more
    likely than others, and zero is one of them.  Here the possible answers of a random
    oracle are a list in which a challenge may occur several times. *)
From Coq Require Import ZArith List.
From Verif.Base Require Import Outcome Fp Params.
Import ListNotations.

Section Challenges.
Context {P : Params}.
Local Open Scope fe_scope.

(** how often [x] occurs in [C] *)
Definition times (C : list F) (x : F) : nat := count_occ (Fp_eq_dec modulus) C x.
(** no challenge occurs more than [mu] times *)
Definition repeats (mu : nat) (C : list F) : Prop := forall x, (times C x <= mu)%nat.

(** the number of strings of MODBYTES bytes *)
Definition byte_strings : Z := (256 ^ Z.of_nat modbytes)%Z.
(** the challenges that result from them, one for each (src/transcript.rs 55-60) *)
Definition code_challenges : list F := map (fun i => of_Z modulus (Z.of_nat i)) (seq 0 (Z.to_nat byte_strings)).
End Challenges.
