(** src/r1cs/gadgets/helper_constraints/poseidon.rs 24-112: [PoseidonParams::new]. *)
From Coq Require Import ZArith String Ascii List Bool.
From Verif.Base Require Import Outcome Fp Params Algebra.
From Verif.Model Require Import LinComb Hash PoseidonConstants PoseidonConstantsBn254 PoseidonConstantsSecp256k1 PoseidonConstantsEd25519.
Import ListNotations.

(** Cargo.toml 22-27: the features, of which one is chosen at compile time;
    [Bls381] is the default *)
Inductive curve : Type := Bls381 | Bn254 | Secp256k1 | Ed25519.

(** poseidon_constants.rs: the constants [ROUND_CONSTS_W_*] and [MDS_ENTRIES_W_*]
    under [#[cfg(feature = ..)]]. There are no tables of [Secp256k1] for the widths
    3 and 9, so that the crate does not compile with this feature; the model only
    gives up when such a table is used. *)
Definition ROUND_CONSTS_OF (c : curve) (width : nat) : option (list string) :=
  match c, width with
  | Bls381, 3 => Some ROUND_CONSTS_W_3
  | Bls381, 5 => Some ROUND_CONSTS_W_5
  | Bls381, 9 => Some ROUND_CONSTS_W_9
  | Bn254, 3 => Some BN254_ROUND_CONSTS_W_3
  | Bn254, 5 => Some BN254_ROUND_CONSTS_W_5
  | Bn254, 9 => Some BN254_ROUND_CONSTS_W_9
  | Secp256k1, 5 => Some SECP256K1_ROUND_CONSTS_W_5
  | Ed25519, 3 => Some ED25519_ROUND_CONSTS_W_3
  | Ed25519, 5 => Some ED25519_ROUND_CONSTS_W_5
  | Ed25519, 9 => Some ED25519_ROUND_CONSTS_W_9
  | _, _ => None
  end%nat.
Definition MDS_ENTRIES_OF (c : curve) (width : nat) : option (list (list string)) :=
  match c, width with
  | Bls381, 3 => Some MDS_ENTRIES_W_3
  | Bls381, 5 => Some MDS_ENTRIES_W_5
  | Bls381, 9 => Some MDS_ENTRIES_W_9
  | Bn254, 3 => Some BN254_MDS_ENTRIES_W_3
  | Bn254, 5 => Some BN254_MDS_ENTRIES_W_5
  | Bn254, 9 => Some BN254_MDS_ENTRIES_W_9
  | Secp256k1, 5 => Some SECP256K1_MDS_ENTRIES_W_5
  | Ed25519, 3 => Some ED25519_MDS_ENTRIES_W_3
  | Ed25519, 5 => Some ED25519_MDS_ENTRIES_W_5
  | Ed25519, 9 => Some ED25519_MDS_ENTRIES_W_9
  | _, _ => None
  end%nat.

Section PoseidonNew.
Context {P : Params}.
Local Open Scope outcome_scope.

Definition hex_digit (c : ascii) : option Z :=
  let n := Z.of_N (N_of_ascii c) in
  if (48 <=? n)%Z && (n <=? 57)%Z then Some (n - 48)%Z
  else if (97 <=? n)%Z && (n <=? 102)%Z then Some (n - 87)%Z
  else if (65 <=? n)%Z && (n <=? 70)%Z then Some (n - 55)%Z
  else None.

Fixpoint hex_value (s : string) (acc : Z) : option Z :=
  match s with
  | EmptyString => Some acc
  | String c s => match hex_digit c with Some d => hex_value s (16 * acc + d)%Z | None => None end
  end.

(** [FieldElement::from_hex(..).unwrap()] of amcl_wrapper, which is not part of /repo:
    hexadecimal digits, the most significant first, reduced modulo the order; a
    panic when some character is not a digit or the number needs more than
    [MODBYTES] bytes *)
Definition from_hex (s : string) : outcome F :=
  assertb (Nat.leb (String.length s) (2 * modbytes)) ;;;
  n <- of_option (hex_value s 0) ;;
  Done (of_Z modulus n).

(** [c.replace_range(..2, "")]: the first two characters are removed; a panic
    when there are not as many *)
Definition remove_prefix (s : string) : outcome string :=
  match s with
  | String _ (String _ s) => Done s
  | _ => Panic
  end.

(** poseidon.rs 64-66 and 104-106 *)
Definition parse_constant (s : string) : outcome F :=
  c <- remove_prefix s ;;
  from_hex c.

(** poseidon.rs 47-70; the arms of [match width] are in [ROUND_CONSTS_OF] *)
Definition gen_round_keys (c : curve) (width total_rounds : nat) : outcome (list F) :=
  let cap := (total_rounds * width)%nat in
  ROUND_CONSTS <- of_option (ROUND_CONSTS_OF c width) ;;
  assertb (negb (Nat.ltb (List.length ROUND_CONSTS) cap)) ;;;
  mapM (fun i =>
      s <- index ROUND_CONSTS i ;;
      parse_constant s)
    (seq 0 cap).

(** poseidon.rs 72-111; the matrix [mds] of zeros is filled element by element,
    rendered as the construction of its rows *)
Definition gen_MDS_matrix (c : curve) (width : nat) : outcome (list (list F)) :=
  MDS_ENTRIES <- of_option (MDS_ENTRIES_OF c width) ;;
  assertb (Nat.eqb (List.length MDS_ENTRIES) width) ;;;
  mapM (fun i =>
      row <- index MDS_ENTRIES i ;;
      assertb (Nat.eqb (List.length row) width) ;;;
      mapM (fun j =>
          s <- index row j ;;
          parse_constant s)
        (seq 0 width))
    (seq 0 width).

(** poseidon.rs 25-45 *)
Definition PoseidonParams_new (c : curve) (width full_rounds_beginning full_rounds_end partial_rounds : nat)
  : outcome poseidon_params :=
  assertb (Nat.eqb width 3 || Nat.eqb width 5 || Nat.eqb width 9) ;;;
  let total_rounds := (full_rounds_beginning + partial_rounds + full_rounds_end)%nat in
  round_keys <- gen_round_keys c width total_rounds ;;
  matrix_2 <- gen_MDS_matrix c width ;;
  Done (PoseidonParams width full_rounds_beginning full_rounds_end partial_rounds round_keys matrix_2).
End PoseidonNew.
