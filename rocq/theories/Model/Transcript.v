(** src/transcript.rs: the labelled transcript protocol.

    merlin is a dependency; its state is modelled as the log of the operations
    performed ([transcript]), and the bytes it squeezes as an arbitrary function
    [xof] of that log.  [challenge_bytes] is itself logged, because in merlin
    it changes the state. *)
From Coq Require Import ZArith String List.
From Verif.Base Require Import Outcome Fp Params.
Import ListNotations.
Local Open Scope string_scope.
Local Open Scope list_scope.

(** [u64::to_le_bytes]; [k] bytes, little endian. *)
Fixpoint le_bytes (k : nat) (n : Z) : list Z :=
  match k with
  | O => []
  | S k' => (n mod 256)%Z :: le_bytes k' (n / 256)%Z
  end.

Section Transcript.
Context {P : Params}.

(** merlin [Transcript::new(label)] *)
Definition transcript_new (label : list Z) : transcript := [TMessage "dom-sep" label].

(** merlin [append_message] *)
Definition append_message (label : string) (msg : list Z) (t : transcript) : transcript :=
  t ++ [TMessage label msg].

(** merlin [append_u64] *)
Definition append_u64 (label : string) (n : Z) (t : transcript) : transcript :=
  append_message label (le_bytes 8 n) t.

(** src/transcript.rs 30-33 *)
Definition innerproduct_domain_sep (n : nat) (t : transcript) : transcript :=
  append_message "n" (le_bytes 8 (Z.of_nat n))
    (append_message "dom-sep" (bytes_of_string "ipp v1") t).

(** src/transcript.rs 35-37 *)
Definition r1cs_domain_sep (t : transcript) : transcript :=
  append_message "dom-sep" (bytes_of_string "r1cs v1") t.

(** src/transcript.rs 39-41 *)
Definition r1cs_1phase_domain_sep (t : transcript) : transcript :=
  append_message "dom-sep" (bytes_of_string "r1cs-1phase") t.

(** src/transcript.rs 43-45 *)
Definition r1cs_2phase_domain_sep (t : transcript) : transcript :=
  append_message "dom-sep" (bytes_of_string "r1cs-2phase") t.

(** src/transcript.rs 47-49 *)
Definition commit_scalar (label : string) (s : F) (t : transcript) : transcript :=
  append_message label (fe_bytes s) t.

(** src/transcript.rs 51-53 *)
Definition commit_point (label : string) (p : G1) (t : transcript) : transcript :=
  append_message label (g1_bytes p) t.

(** src/transcript.rs 55-60; [FieldElement::from(&[u8; MODBYTES])] reduces the
    big-endian integer modulo the curve order *)
Definition challenge_value (label : string) (t : transcript) : F :=
  of_Z modulus (xof t label modbytes).
Definition challenge_scalar (label : string) (t : transcript) : F * transcript :=
  (challenge_value label t, t ++ [TChallenge label modbytes]).

End Transcript.
