(** src/utils/hash_db.rs, src/utils/mod.rs and the sparse Merkle trees of
    src/r1cs/gadgets/helper_constraints/sparse_merkle_tree_{4,8}_ary.rs (below
    [t4.rs] and [t8.rs]). *)
From Coq Require Import ZArith String List Bool.
From Verif.Base Require Import Outcome Fp Params Algebra.
From Verif.Model Require Import Transcript IPP Hash.
Import ListNotations.
Local Open Scope outcome_scope.

(** *** The hash database *)
Section Db.
Context {T : Type}.

Fixpoint bytes_eqb (a b : list Z) : bool :=
  match a, b with
  | [], [] => true
  | x :: a', y :: b' => Z.eqb x y && bytes_eqb a' b'
  | _, _ => false
  end.

(** hash_db.rs 10-13; the [HashMap] is an association list without duplicate keys *)
Definition hash_db : Type := list (list Z * T).

(** hash_db.rs 31-34 *)
Definition db_new : hash_db := [].

(** hash_db.rs 16-18 *)
Fixpoint db_insert (hash : list Z) (value : T) (db : hash_db) : hash_db :=
  match db with
  | [] => [(hash, value)]
  | (k, v) :: t => if bytes_eqb k hash then (k, value) :: t else (k, v) :: db_insert hash value t
  end.

(** hash_db.rs 20-27 *)
Fixpoint db_get (db : hash_db) (hash : list Z) : result T :=
  match db with
  | [] => Err (HashNotFoundInDB hash)
  | (k, v) :: t => if bytes_eqb k hash then Ok v else db_get t hash
  end.
End Db.

(** *** Digits *)

(** helper_constraints/mod.rs 37-41; [trailing_zeros] of a power of two is its logarithm *)
Definition get_bit_count (num_digits base : nat) : outcome nat :=
  assertb (is_power_of_two base) ;;;
  Done (num_digits * Nat.log2 base).

(** helper_constraints/mod.rs 25-34 *)
Definition get_byte_size (num_digits base : nat) : outcome nat :=
  num_bits <- get_bit_count num_digits base ;;
  Done (num_bits / 8 + (if Nat.eqb (num_bits mod 8) 0 then 0 else 1)).

Section Tree.
Context {P : Params}.
Local Open Scope fe_scope.

(** t4.rs 34-40 and t8.rs 36-42: the loops, least significant digit first;
    [lastbits(k)] and [fshr(k)] are remainder and quotient by [2^k].  The first
    loop stops early when the number becomes zero, the second adds zeros. *)
Fixpoint repr_digits (base : nat) (num_digits : nat) (s : Z) : list nat :=
  match num_digits with
  | O => []
  | S k => if Z.eqb s 0 then repeat O (S k)
           else Z.to_nat (s mod Z.of_nat base)%Z :: repr_digits base k (s / Z.of_nat base)%Z
  end.

(** t4.rs 21-43 ([base] 4) and t8.rs 23-45 ([base] 8) *)
Definition get_base_repr (base : nat) (scalar : F) (num_digits : nat) : outcome (list nat) :=
  byte_size <- get_byte_size num_digits base ;;
  assertb (Nat.leb byte_size modbytes) ;;;
  Done (rev (repr_digits base num_digits (fval scalar))).

Definition get_base_4_repr := get_base_repr 4.
Definition get_base_8_repr := get_base_repr 8.

(** [Vec::insert] and [Vec::pop] *)
Definition vec_insert {A} (i : nat) (x : A) (l : list A) : outcome (list A) :=
  if Nat.leb i (length l) then Done (firstn i l ++ x :: skipn i l) else Panic.
Definition vec_pop {A} (l : list A) : outcome (list A * A) :=
  match rev l with
  | [] => Panic
  | x :: t => Done (rev t, x)
  end.

(** *** Trees.  t4.rs and t8.rs contain the same code up to the arity and the hash
    function, which are parameters here: [arity] 4 with [Poseidon_hash_4] and
    [arity] 8 with [Poseidon_hash_8].  Arrays of field elements are lists. *)
Section Generic.
Context (arity : nat) (hash : list F -> outcome F).

(** t4.rs 47-52, t8.rs 49-54 *)
Record merkle_tree : Type := MerkleTree { depth : nat; root : F }.

(** t4.rs 198-200, t8.rs 213-216 *)
Definition leaf_index_to_path (idx : F) (d : nat) : outcome (list nat) := get_base_repr arity idx d.

(** t4.rs 202-208, t8.rs 218-224 *)
Definition update_db_with_key_val (key : F) (val : list F) (db : hash_db) : hash_db :=
  db_insert (fe_bytes key) val db.

(** t4.rs 55-88, t8.rs 57-93 *)
Definition tree_new (d : nat) (db : hash_db) : outcome (merkle_tree * hash_db) :=
  '(empty_tree_hashes, db) <- foldM (fun '(empty_tree_hashes, db) i =>
      prev <- index empty_tree_hashes (i - 1) ;;
      let input := repeat prev arity in
      new <- hash input ;;
      Done (empty_tree_hashes ++ [new], db_insert (fe_bytes new) input db))
    (seq 1 d) ([0], db) ;;
  r <- index empty_tree_hashes d ;;
  Done (MerkleTree d r, db).

(** t4.rs 147-158, t8.rs 153-161: the children other than the one at [d] *)
Definition proof_node (d : nat) (children : list F) : list F :=
  map snd (filter (fun '(i, _) => negb (Nat.eqb i d)) (combine (seq 0 (length children)) children)).

(** t4.rs 141-161, t8.rs 149-175 *)
Fixpoint tree_get_loop (path : list nat) (cur_node : F) (db : hash_db) : outcome (result (F * list (list F))) :=
  match path with
  | [] => Done (Ok (cur_node, []))
  | d :: path =>
      children <-? Done (db_get db (fe_bytes cur_node)) ;;
      cur_node <- index children d ;;
      r <-? tree_get_loop path cur_node db ;;
      let '(v, proof_vec) := r in
      Done (Ok (v, proof_node d children :: proof_vec))
  end.

(** t4.rs 128-171, t8.rs 136-186.  [proof] is the mutable argument; its new value
    is returned with the result. *)
Definition tree_get (t : merkle_tree) (idx : F) (proof : option (list (list F))) (db : hash_db)
  : outcome (result F * option (list (list F))) :=
  path <- leaf_index_to_path idx (depth t) ;;
  r <- tree_get_loop path (root t) db ;;
  match r with
  | Err e => Done (Err e, proof)
  | Ok (v, proof_vec) => Done (Ok v, option_map (fun p => p ++ proof_vec) proof)
  end.

(** t4.rs 106-121, t8.rs 110-129: one iteration *)
Definition update_step (st : list (list F) * F * hash_db) (d : nat) : outcome (list (list F) * F * hash_db) :=
  let '(sidenodes, cur_val, db) := st in
  '(sidenodes, side_elem) <- vec_pop sidenodes ;;
  side_elem <- vec_insert d cur_val side_elem ;;
  assertb (Nat.eqb (length side_elem) arity) ;;;
  h <- hash side_elem ;;
  Done (sidenodes, h, update_db_with_key_val h side_elem db).

(** t4.rs 89-126, t8.rs 95-134 *)
Definition tree_update (t : merkle_tree) (idx val : F) (db : hash_db) : outcome (result F * merkle_tree * hash_db) :=
  '(r, sidenodes) <- tree_get t idx (Some []) db ;;
  match r with
  | Err e => Done (Err e, t, db)
  | Ok _ =>
      sidenodes <- of_option sidenodes ;;
      path <- leaf_index_to_path idx (depth t) ;;
      '(_, cur_val, db) <- foldM update_step (rev path) (sidenodes, val, db) ;;
      Done (Ok cur_val, MerkleTree (depth t) cur_val, db)
  end.

(** t4.rs 173-196, t8.rs 188-211.  [feqb] is [==]. *)
Definition tree_verify_proof (t : merkle_tree) (idx val : F) (proof : list (list F)) (r : option F) : outcome bool :=
  path <- leaf_index_to_path idx (depth t) ;;
  cur_val <- foldM (fun cur_val '(i, d) =>
      p <- index proof (depth t - 1 - i) ;;
      p <- vec_insert d cur_val p ;;
      hash p)
    (combine (seq 0 (length path)) (rev path)) val ;;
  Done (match r with
        | Some r => feqb cur_val r
        | None => feqb cur_val (root t)
        end).
End Generic.

(** *** The two trees; the S-box is [Quint] (t4.rs 73, 118, 188; t8.rs 79, 126, 203) *)
Section Instances.
Context (hash_params : poseidon_params).
Definition hash_4 (l : list F) : outcome F := Poseidon_hash_4 hash_params Quint l.
Definition hash_8 (l : list F) : outcome F := Poseidon_hash_8 hash_params Quint l.
Definition tree_4_new := tree_new 4 hash_4.
Definition tree_4_update := tree_update 4 hash_4.
Definition tree_4_get := tree_get 4.
Definition tree_4_verify_proof := tree_verify_proof 4 hash_4.
Definition tree_8_new := tree_new 8 hash_8.
Definition tree_8_update := tree_update 8 hash_8.
Definition tree_8_get := tree_get 8.
Definition tree_8_verify_proof := tree_verify_proof 8 hash_8.
End Instances.

(** *** src/utils/mod.rs *)

(** [usize::to_string] *)
Definition decimal_bytes (n : nat) : list Z := bytes_of_string (decimal n).

(** src/utils/mod.rs 16-23 *)
Definition get_generators (prefix : list Z) (n : nat) : list G1 :=
  map (fun i => g1_from_msg_hash (prefix ++ decimal_bytes i)) (seq 1 n).

(** src/utils/mod.rs 25-39; also returns the new [state] *)
Definition gen_challenges (input : list G1) (state : list Z) (n : nat) : outcome (list F * list Z) :=
  let state := state ++ flat_map g1_bytes input in
  foldM (fun '(r, state) (_ : nat) =>
      l <- of_option (last (map Some r) None) ;;
      let state := state ++ g1_bytes (g1_mul l g1_generator) in
      Done (r ++ [fe_from_msg_hash state], state))
    (seq 1 (n - 1)) ([fe_from_msg_hash state], state).
End Tree.
