(** What MiMC and Poseidon compute, as plain functions on lists. *)
From Coq Require Import ZArith List Arith.
From Verif.Base Require Import Outcome Fp Params Algebra.
From Verif.Model Require Import Transcript LinComb Prog Prover Gadgets Hash.
From Verif.Spec Require Import R1CS.
Import ListNotations.

Section HashSpec.
Context {P : Params}.
Local Open Scope fe_scope.

(** a Feistel network whose round function is the cube of the sum with a constant *)
Fixpoint mimc_value (constants : list F) (xl xr : F) : F :=
  match constants with
  | [] => xl
  | c :: t => mimc_value t ((xl + c) * (xl + c) * (xl + c) + xr) xl
  end.

(** [x] to the power 3, 5 or -1 *)
Definition sbox_value (sbox : sbox_type) (x : F) : F :=
  match sbox with
  | Cube => x * x * x
  | Quint => x * x * x * x * x
  | Inverse => finv x
  end.

Definition vadd (a b : list F) : list F := map (fun '(x, y) => x + y) (combine a b).

(** the column [i] of a matrix, and the product of a row vector and a matrix *)
Definition column (m : list (list F)) (i : nat) : list F := map (fun row => nth i row 0) m.
Definition dot (a b : list F) : F := fsum (map (fun '(x, y) => x * y) (combine a b)).
Definition vec_mat (t : nat) (a : list F) (m : list (list F)) : list F :=
  map (fun i => dot a (column m i)) (seq 0 t).

(** replace the last element [x] by [f x] *)
Fixpoint map_last (f : F -> F) (l : list F) : list F :=
  match l with
  | [] => []
  | [x] => [f x]
  | x :: t => x :: map_last f t
  end.

(** the keys of round [r] *)
Definition keys_of_round (p : poseidon_params) (r : nat) : list F :=
  firstn (width p) (skipn (r * width p) (round_keys p)).

(** a full round adds the keys, applies the S-box to every element and multiplies
    by the matrix; a partial round applies the S-box to the last element only *)
Definition full_value (p : poseidon_params) (sbox : sbox_type) (state : list F) (r : nat) : list F :=
  vec_mat (width p) (map (sbox_value sbox) (vadd state (keys_of_round p r))) (MDS_matrix p).
Definition partial_value (p : poseidon_params) (sbox : sbox_type) (state : list F) (r : nat) : list F :=
  vec_mat (width p) (map_last (sbox_value sbox) (vadd state (keys_of_round p r))) (MDS_matrix p).

(** full rounds, partial rounds, full rounds *)
Definition permutation_value (p : poseidon_params) (sbox : sbox_type) (input : list F) : list F :=
  let a := full_rounds_beginning p in
  let b := partial_rounds p in
  let c := full_rounds_end p in
  fold_left (full_value p sbox) (seq (a + b) c)
    (fold_left (partial_value p sbox) (seq a b)
      (fold_left (full_value p sbox) (seq 0 a) input)).

(** enough keys for every round and a square matrix, as [PoseidonParams::new] returns *)
Record params_ok (p : poseidon_params) : Prop := {
  pk_width : (0 < width p)%nat;
  pk_keys : ((full_rounds_beginning p + partial_rounds p + full_rounds_end p) * width p <= length (round_keys p))%nat;
  pk_rows : length (MDS_matrix p) = width p;
  pk_cols : Forall (fun row => length row = width p) (MDS_matrix p)
}.

(** the hash: the second element of the permutation of the input preceded by 0 *)
Definition hash_value (p : poseidon_params) (sbox : sbox_type) (input : list F) : F :=
  nth 1 (permutation_value p sbox (0 :: input)) 0.
End HashSpec.

(** *** Commitments *)
Section Commitments.
Context {P : Params}.
Local Open Scope fe_scope.

(** the blindings used for [n] commitments when [randomness] was passed: those
    values, or the first [n] values drawn from the generator *)
Definition blindings (W : world) (randomness : option (list F)) (n : nat) : list F :=
  match randomness with Some rands => rands | None => map (w_random W) (seq 0 n) end.

(** [n] blindings were passed, or a generator *)
Definition blindings_given (randomness : option (list F)) (rng : bool) (n : nat) : Prop :=
  match randomness with Some rands => length rands = n | None => rng = true end.

Definition commit_all (g h : G1) (xs rs : list F) : list G1 := map (fun '(x, r) => commit g h x r) (combine xs rs).

(** the values of the [n] committed variables that follow the first [start] *)
Definition committed (s : assignment) (start n : nat) : list F := map (as_committed s) (seq start n).
End Commitments.
