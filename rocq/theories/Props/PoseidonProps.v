(** Properties C49 and C50.
    Vocabulary: Spec/HashSpec.v, Spec/PoseidonSpec.v; the tables: Model/PoseidonConstants.v. *)
From Coq Require Import ZArith String List Lia Bool HexString.
From Verif.Base Require Import Outcome Fp Params Algebra Instances.
From Verif.Model Require Import Gadgets Hash PoseidonConstants PoseidonNew.
From Verif.Spec Require Import HashSpec PoseidonSpec.
From Verif.Proofs Require Import Pocklington PoseidonMain PoseidonBijection PoseidonBn254 CurvePrimes.
Import ListNotations.

Section Props.
Context {P : Params} {OK : ParamsOk P}.
Local Open Scope fe_scope.

(** ** C49 Poseidon parameters *)
Theorem C49_new_panics c w fb fe pr : (32 <= modbytes)%nat ->
  PoseidonParams_new c w fb fe pr = Panic <-> ~ supported c w (fb + pr + fe).
Proof. exact (fun H => new_panic H c w fb fe pr). Qed.

Theorem C49_new_value c w fb fe pr p : (32 <= modbytes)%nat -> PoseidonParams_new c w fb fe pr = Done p ->
  supported c w (fb + pr + fe) /\
  width p = w /\ full_rounds_beginning p = fb /\ full_rounds_end p = fe /\ partial_rounds p = pr /\
  round_keys p = map constant (firstn ((fb + pr + fe) * w) (round_consts c w)) /\
  MDS_matrix p = map (map constant) (mds_entries c w) /\
  params_ok p.
Proof. exact (fun H => new_done H c w fb fe pr p). Qed.

(** on BLS12-381 no constant of the tables is reduced *)
Theorem C49_constants_reduced c s : modulus = table_order c ->
  (exists w, known_width c w /\ (In s (round_consts c w) \/ exists row, In row (mds_entries c w) /\ In s row)) ->
  fval (constant s) = HexString.to_Z s.
Proof. exact (constants_reduced c s). Qed.

(** the matrix is the Cauchy matrix of the inverses of [w + i + j] *)
Theorem C49_matrix_is_cauchy c w fb fe pr p i j : (32 <= modbytes)%nat -> modulus = table_order c ->
  PoseidonParams_new c w fb fe pr = Done p -> (i < w)%nat -> (j < w)%nat ->
  nth i (nth j (MDS_matrix p) []) 0 * of_Z modulus (Z.of_nat (w + i + j)) = 1.
Proof. exact (fun H1 H2 => new_entry H1 c H2 w fb fe pr p i j). Qed.

Theorem C49_matrix_is_mds c w fb fe pr p : (32 <= modbytes)%nat -> modulus = table_order c ->
  PoseidonParams_new c w fb fe pr = Done p -> mds (width p) (MDS_matrix p).
Proof. exact (fun H1 H2 => new_mds H1 c H2 w fb fe pr p). Qed.

(** ** C50 The Poseidon permutation *)
Theorem C50_permutation_bijective p sbox : params_ok p -> mds (width p) (MDS_matrix p) -> sbox_invertible sbox ->
  forall y, length y = width p -> exists! x, Poseidon_permutation p sbox x = Done y.
Proof. exact (permutation_bijective p sbox). Qed.

Theorem C50_crate_permutation_bijective c w fb fe pr p sbox : (32 <= modbytes)%nat -> modulus = table_order c ->
  PoseidonParams_new c w fb fe pr = Done p -> sbox = Quint \/ sbox = Inverse ->
  forall y, length y = w -> exists! x, Poseidon_permutation p sbox x = Done y.
Proof. exact (fun H1 H2 => new_bijective H1 c H2 w fb fe pr p sbox). Qed.

(** With the cube S-box it is not one, and almost every input of the hashes has a
    second preimage. *)
Theorem C50_cube_permutation_not_injective c w fb fe pr p : (32 <= modbytes)%nat -> modulus = table_order c ->
  PoseidonParams_new c w fb fe pr = Done p -> (0 < fb)%nat ->
  exists x y z, x <> y /\ Poseidon_permutation p Cube x = Done z /\ Poseidon_permutation p Cube y = Done z.
Proof. exact (fun H1 H2 => new_cube_not_injective H1 c H2 w fb fe pr p). Qed.

Theorem C50_cube_hash_2_second_preimage c fb fe pr p x y : (32 <= modbytes)%nat -> modulus = table_order c ->
  PoseidonParams_new c 3 fb fe pr = Done p -> (0 < fb)%nat ->
  x + nth 1 (round_keys p) 0 <> 0 \/ y + nth 2 (round_keys p) 0 <> 0 ->
  exists x' y', (x', y') <> (x, y) /\ Poseidon_hash_2 p Cube x' y' = Poseidon_hash_2 p Cube x y.
Proof. exact (fun H1 H2 => new_cube_collision_2 H1 c H2 fb fe pr p x y). Qed.

Theorem C50_cube_hash_4_second_preimage c fb fe pr p i xs : (32 <= modbytes)%nat -> modulus = table_order c ->
  PoseidonParams_new c 5 fb fe pr = Done p -> (0 < fb)%nat -> length xs = 4%nat ->
  (i < 4)%nat -> nth i xs 0 + nth (S i) (round_keys p) 0 <> 0 ->
  exists ys, ys <> xs /\ Poseidon_hash_4 p Cube ys = Poseidon_hash_4 p Cube xs.
Proof. exact (fun H1 H2 => new_cube_collision_4 H1 c H2 fb fe pr p i xs). Qed.

Theorem C50_cube_hash_8_second_preimage c fb fe pr p i xs : (32 <= modbytes)%nat -> modulus = table_order c ->
  PoseidonParams_new c 9 fb fe pr = Done p -> (0 < fb)%nat -> length xs = 8%nat ->
  (i < 8)%nat -> nth i xs 0 + nth (S i) (round_keys p) 0 <> 0 ->
  exists ys, ys <> xs /\ Poseidon_hash_8 p Cube ys = Poseidon_hash_8 p Cube xs.
Proof. exact (fun H1 H2 => new_cube_collision_8 H1 c H2 fb fe pr p i xs). Qed.
(** The feature bn254 selects another curve than the one its tables are made for:
    then the matrix is another one and constants exceed the order, but the
    permutation still is one. *)
Theorem C49_bn254_matrix_not_cauchy w fb fe pr p : (32 <= modbytes)%nat -> modulus = amcl_bn254_order ->
  PoseidonParams_new Bn254 w fb fe pr = Done p ->
  nth 0 (nth 0 (MDS_matrix p) []) 0 * of_Z modulus (Z.of_nat w) <> 1.
Proof. exact (fun H1 H2 => new_bn254_not_cauchy H1 H2 w fb fe pr p). Qed.

Theorem C49_bn254_constants_not_reduced w : modulus = amcl_bn254_order -> known_width Bn254 w ->
  exists s, In s (round_consts Bn254 w) /\ fval (constant s) <> HexString.to_Z s.
Proof. exact (fun H => bn254_not_reduced H w). Qed.

Theorem C50_bn254_permutation_bijective w fb fe pr p sbox : (32 <= modbytes)%nat -> modulus = amcl_bn254_order ->
  PoseidonParams_new Bn254 w fb fe pr = Done p -> sbox = Quint \/ sbox = Inverse ->
  forall y, length y = w -> exists! x, Poseidon_permutation p sbox x = Done y.
Proof. exact (fun H1 H2 => bn254_bijective H1 H2 w fb fe pr p sbox). Qed.
End Props.

(** ** Instances: the field of BLS12-381 *)
Definition bls : Params := toy bls381_order false.
Lemma bls_ok : ParamsOk bls.
Proof. exact (toy_ok bls381_order false bls381_prime). Qed.
#[local] Existing Instance bls.
#[local] Existing Instance bls_ok.

(** the parameters the tests of the crate use *)
Example bls_bytes : (32 <= modbytes)%nat /\ modulus = bls381_order.
Proof. split; [apply Nat.leb_le; vm_compute; reflexivity|reflexivity]. Qed.
Example bls_params : exists p, PoseidonParams_new Bls381 5 4 4 55 = Done p.
Proof.
  destruct (PoseidonParams_new Bls381 5 4 4 55) as [p|] eqn:E; [exists p; reflexivity|].
  apply C49_new_panics in E; [|apply bls_bytes]. exfalso. apply E. right. left. cbn. lia.
Qed.
Example bls_panics : PoseidonParams_new Bls381 4 4 4 55 = Panic /\ PoseidonParams_new Bls381 3 4 4 56 = Panic.
Proof.
  split; apply C49_new_panics; try apply bls_bytes; unfold supported; lia.
Qed.
Definition hash_of (sbox : sbox_type) (x y : F) : option Z :=
  match PoseidonParams_new Bls381 3 2 2 3 with
  | Done p => match Poseidon_hash_2 p sbox x y with Done r => Some (fval r) | Panic => None end
  | Panic => None
  end.
(** a concrete collision with the cube S-box, and none there with the quint S-box *)
Definition first_key : Z := match PoseidonParams_new Bls381 3 2 2 3 with Done p => fval (nth 1 (round_keys p) (fe_of 0)) | Panic => 0%Z end.
Definition root_of_one : F := fe_of (228988810152649578064853576960394133503)%Z.
Definition other : F := fsub (fmul root_of_one (fadd (fe_of 5) (fe_of first_key))) (fe_of first_key).
Example cube_collides : feqb other (fe_of 5) = false /\ hash_of Cube other (fe_of 6) = hash_of Cube (fe_of 5) (fe_of 6) /\
  hash_of Cube (fe_of 5) (fe_of 6) <> None /\ hash_of Quint other (fe_of 6) <> hash_of Quint (fe_of 5) (fe_of 6).
Proof. vm_compute. repeat split; discriminate. Qed.

(** *** The fields of the other features *)
Definition field_of (q : Z) : Params := toy q false.
Example other_fields :
  (forall c, ParamsOk (field_of (table_order c)) /\ modulus (Params := field_of (table_order c)) = table_order c /\
             (32 <= modbytes (Params := field_of (table_order c)))%nat) /\
  ParamsOk (field_of amcl_bn254_order) /\ modulus (Params := field_of amcl_bn254_order) = amcl_bn254_order /\
  (32 <= modbytes (Params := field_of amcl_bn254_order))%nat.
Proof.
  split; [intros c; split; [|split]|split; [|split]].
  - apply toy_ok. destruct c; [exact bls381_prime|exact bn128_order_prime|exact secp256k1_order_prime|exact ed25519_order_prime].
  - reflexivity.
  - apply Nat.leb_le. reflexivity.
  - apply toy_ok. exact amcl_bn254_order_prime.
  - reflexivity.
  - apply Nat.leb_le. reflexivity.
Qed.
Example other_params c : exists p, PoseidonParams_new (P := field_of (table_order c)) c 5 4 4 55 = Done p.
Proof.
  destruct (PoseidonParams_new (P := field_of (table_order c)) c 5 4 4 55) as [p|] eqn:E; [exists p; reflexivity|].
  apply C49_new_panics in E; [|apply other_fields]. exfalso. apply E. right. left. split; [reflexivity|lia].
Qed.
Example amcl_bn254_params : exists p, PoseidonParams_new (P := field_of amcl_bn254_order) Bn254 9 4 4 55 = Done p.
Proof.
  destruct (PoseidonParams_new (P := field_of amcl_bn254_order) Bn254 9 4 4 55) as [p|] eqn:E; [exists p; reflexivity|].
  apply C49_new_panics in E; [|apply other_fields]. exfalso. apply E. right. right. split; [reflexivity|split; [discriminate|lia]].
Qed.
Example secp256k1_no_tables : PoseidonParams_new (P := field_of secp256k1_order) Secp256k1 3 4 4 55 = Panic.
Proof. apply C49_new_panics; [apply (other_fields)|]. unfold supported. intros [(_ & H & _)|[[H _]|[H _]]]; [exact (H eq_refl)|discriminate|discriminate]. Qed.

Print Assumptions C49_new_panics.
Print Assumptions C49_new_value.
Print Assumptions C49_constants_reduced.
Print Assumptions C49_matrix_is_cauchy.
Print Assumptions C49_matrix_is_mds.
Print Assumptions C50_permutation_bijective.
Print Assumptions C50_crate_permutation_bijective.
Print Assumptions C50_cube_permutation_not_injective.
Print Assumptions C50_cube_hash_2_second_preimage.
Print Assumptions C50_cube_hash_4_second_preimage.
Print Assumptions C50_cube_hash_8_second_preimage.
Print Assumptions C49_bn254_matrix_not_cauchy.
Print Assumptions C49_bn254_constants_not_reduced.
Print Assumptions C50_bn254_permutation_bijective.
Print Assumptions bls_ok.
