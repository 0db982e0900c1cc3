(** The arithmetic and cryptographic backend, as parameters.

    [Params] collects the operations that bulletproofs-amcl imports from
    amcl_wrapper (field, group G1, hashing) and merlin (transcript).
    [ParamsOk] states what is assumed of them; it is an explicit hypothesis of
    every theorem that needs it.  No axiom is involved: concrete instances
    satisfying [ParamsOk] are built in [Instances.v]. *)
From Coq Require Import ZArith Znumtheory String List Bool Ascii.
From Verif.Base Require Import Outcome Fp.
Import ListNotations.

(** Merlin transcripts: the log of the operations performed so far. *)
Inductive tevent : Type :=
| TMessage (label : string) (msg : list Z)        (* append_message / append_u64 *)
| TChallenge (label : string) (nbytes : nat).     (* challenge_bytes *)

Definition transcript : Type := list tevent.

Class Params : Type := {
  (** order of the group G1, [CurveOrder] *)
  modulus : Z;
  (** [amcl_wrapper::constants::MODBYTES] *)
  modbytes : nat;
  (** group elements *)
  G1 : Type;
  g1_id : G1;
  g1_add : G1 -> G1 -> G1;
  g1_neg : G1 -> G1;
  g1_mul : Fp modulus -> G1 -> G1;
  g1_eqb : G1 -> G1 -> bool;
  (** [to_bytes] *)
  g1_bytes : G1 -> list Z;
  fe_bytes : Fp modulus -> list Z;
  (** [G1::from_msg_hash], [FieldElement::from_msg_hash], [G1::generator] *)
  g1_from_msg_hash : list Z -> G1;
  fe_from_msg_hash : list Z -> Fp modulus;
  g1_generator : G1;
  (** merlin's [challenge_bytes], read as an integer: an arbitrary function of
      everything absorbed so far (random oracle) *)
  xof : transcript -> string -> nat -> Z;
  (** amcl's SHAKE256 output, as bytes, used by the randomizer *)
  shake256 : list Z -> nat -> list Z;
  (** whether [FieldElement::batch_invert(&[])] panics.  The dependency is not
      part of /repo; theorems cover both behaviours. *)
  batch_invert_empty_panics : bool
}.

Notation F := (Fp (@modulus _)).

Declare Scope fe_scope.
Delimit Scope fe_scope with fe.
Bind Scope fe_scope with Fp.
Notation "0" := (fzero _) : fe_scope.
Notation "1" := (fone _) : fe_scope.
Infix "+" := fadd : fe_scope.
Infix "-" := fsub : fe_scope.
Infix "*" := fmul : fe_scope.
Infix "/" := fdiv : fe_scope.
Notation "- x" := (fopp x) : fe_scope.

(** What is assumed of the backend: a prime order and an [F]-vector space with
    decidable equality. *)
Class ParamsOk (P : Params) : Prop := {
  modulus_prime : prime modulus;
  g1_add_assoc : forall a b c, g1_add a (g1_add b c) = g1_add (g1_add a b) c;
  g1_add_comm : forall a b, g1_add a b = g1_add b a;
  g1_add_id : forall a, g1_add g1_id a = a;
  g1_add_neg : forall a, g1_add (g1_neg a) a = g1_id;
  g1_mul_one : forall a, g1_mul (fone modulus) a = a;
  g1_mul_mul : forall x y a, g1_mul x (g1_mul y a) = g1_mul (fmul x y) a;
  g1_mul_add_l : forall x y a, g1_mul (fadd x y) a = g1_add (g1_mul x a) (g1_mul y a);
  g1_mul_add_r : forall x a b, g1_mul x (g1_add a b) = g1_add (g1_mul x a) (g1_mul x b);
  g1_eqb_spec : forall a b, g1_eqb a b = true <-> a = b
}.

(** Injectivity of the encodings; only needed by the binding theorems and by
    the hash database (whose keys are encodings). *)
Class EncodingOk (P : Params) : Prop := {
  g1_bytes_inj : forall a b, g1_bytes a = g1_bytes b -> a = b;
  fe_bytes_inj : forall a b, fe_bytes a = fe_bytes b -> a = b
}.

(** [b"..."] *)
Definition bytes_of_string (s : string) : list Z :=
  map (fun c => Z.of_N (N_of_ascii c)) (list_ascii_of_string s).
