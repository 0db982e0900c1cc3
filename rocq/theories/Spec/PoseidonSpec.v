(** The Poseidon parameters of the crate, the MDS property, and when an S-box is a
    permutation. *)
From Coq Require Import ZArith String List HexString.
From Verif.Base Require Import Outcome Fp Params Algebra.
From Verif.Model Require Import Hash PoseidonConstants PoseidonConstantsBn254 PoseidonConstantsSecp256k1 PoseidonConstantsEd25519 PoseidonNew.
From Verif.Spec Require Import HashSpec.
Import ListNotations.

(** the order of the groups of BLS12-381, the default curve *)
Definition bls381_order : Z := 0x73eda753299d7d483339d80809a1d80553bda402fffe5bfeffffffff00000001.

(** the order of the curve called "alt_bn128" or "bn256" *)
Definition bn128_order : Z := 0x30644e72e131a029b85045b68181585d2833e84879b9709143e1f593f0000001.
(** the order of the curve BN254 of amcl, which is another one *)
Definition amcl_bn254_order : Z := 0x2523648240000001ba344d8000000007ff9f800000000010a10000000000000d.
Definition secp256k1_order : Z := 0xfffffffffffffffffffffffffffffffebaaedce6af48a03bbfd25e8cd0364141.
Definition ed25519_order : Z := 0x1000000000000000000000000000000014def9dea2f79cd65812631a5cf5d3ed.

(** the orders that the tables of constants are made for *)
Definition table_order (c : curve) : Z :=
  match c with
  | Bls381 => bls381_order
  | Bn254 => bn128_order
  | Secp256k1 => secp256k1_order
  | Ed25519 => ed25519_order
  end.

(** the widths that there are tables for *)
Definition known_width (c : curve) (width : nat) : Prop :=
  (width = 3 /\ c <> Secp256k1 \/ width = 5 \/ width = 9 /\ c <> Secp256k1)%nat.

(** the widths and numbers of rounds that the tables suffice for *)
Definition supported (c : curve) (width rounds : nat) : Prop :=
  (width = 3 /\ c <> Secp256k1 /\ rounds <= 63 \/ width = 5 /\ rounds <= 64 \/ width = 9 /\ c <> Secp256k1 /\ rounds <= 65)%nat.

Definition round_consts (c : curve) (width : nat) : list string :=
  let choose a b d := if Nat.eqb width 3 then a else if Nat.eqb width 5 then b else d in
  match c with
  | Bls381 => choose ROUND_CONSTS_W_3 ROUND_CONSTS_W_5 ROUND_CONSTS_W_9
  | Bn254 => choose BN254_ROUND_CONSTS_W_3 BN254_ROUND_CONSTS_W_5 BN254_ROUND_CONSTS_W_9
  | Secp256k1 => SECP256K1_ROUND_CONSTS_W_5
  | Ed25519 => choose ED25519_ROUND_CONSTS_W_3 ED25519_ROUND_CONSTS_W_5 ED25519_ROUND_CONSTS_W_9
  end.
Definition mds_entries (c : curve) (width : nat) : list (list string) :=
  let choose a b d := if Nat.eqb width 3 then a else if Nat.eqb width 5 then b else d in
  match c with
  | Bls381 => choose MDS_ENTRIES_W_3 MDS_ENTRIES_W_5 MDS_ENTRIES_W_9
  | Bn254 => choose BN254_MDS_ENTRIES_W_3 BN254_MDS_ENTRIES_W_5 BN254_MDS_ENTRIES_W_9
  | Secp256k1 => SECP256K1_MDS_ENTRIES_W_5
  | Ed25519 => choose ED25519_MDS_ENTRIES_W_3 ED25519_MDS_ENTRIES_W_5 ED25519_MDS_ENTRIES_W_9
  end.

Section PoseidonSpec.
Context {P : Params}.
Local Open Scope fe_scope.

(** the element with hexadecimal representation "0x..." *)
Definition constant (s : string) : F := of_Z modulus (HexString.to_Z s).

(** the number of elements that are not 0 *)
Definition weight (x : list F) : nat := length (filter (fun a => negb (feqb a 0)) x).

(** "maximum distance separable": a change of the input and the change of the
    output it causes have together more than [t] elements that are not 0 *)
Definition mds (t : nat) (m : list (list F)) : Prop :=
  forall x, length x = t -> (0 < weight x)%nat -> (t < weight x + weight (vec_mat t x m))%nat.

(** exponents that are invertible modulo the order minus one *)
Definition sbox_invertible (sbox : sbox_type) : Prop :=
  match sbox with
  | Cube => Z.gcd 3 (modulus - 1) = 1%Z
  | Quint => Z.gcd 5 (modulus - 1) = 1%Z
  | Inverse => True
  end.
End PoseidonSpec.
