(** What a sparse Merkle tree is: a map from leaf positions to values, and the
    hashes computed from it. *)
From Coq Require Import ZArith List Bool.
From Verif.Base Require Import Outcome Fp Params Algebra.
From Verif.Model Require Import Merkle.
Import ListNotations.

(** the last value inserted under a key in a list of insertions *)
Fixpoint last_inserted {T} (ins : list (list Z * T)) (key : list Z) : option T :=
  match ins with
  | [] => None
  | (k, v) :: t =>
      match last_inserted t key with
      | Some v' => Some v'
      | None => if list_eq_dec Z.eq_dec k key then Some v else None
      end
  end.

(** a database after some insertions *)
Definition inserted {T} (ins : list (list Z * T)) : @hash_db T :=
  fold_left (fun db '(k, v) => db_insert k v db) ins db_new.

(** the number with digits [ds], most significant first *)
Definition number (base : nat) (ds : list nat) : Z :=
  fold_left (fun n d => (n * Z.of_nat base + Z.of_nat d)%Z) ds 0%Z.

Section MerkleSpec.
Context {P : Params}.
Local Open Scope fe_scope.
Context (arity : nat) (H : list F -> F).
Local Notation A := (Z.of_nat arity).

(** values at the leaves *)
Definition contents : Type := Z -> F.
Definition no_contents : contents := fun _ => 0.
Definition put (m : contents) (i : Z) (v : F) : contents := fun j => if Z.eqb j i then v else m j.

(** the node at height [k] and position [i] is the hash of its [arity] children *)
Fixpoint node (m : contents) (k : nat) (i : Z) : F :=
  match k with
  | O => m i
  | S k => H (map (fun c => node m k (A * i + Z.of_nat c)%Z) (seq 0 arity))
  end.

(** the children, at height [k], of the node at height [S k] and position [i] *)
Definition children (m : contents) (k : nat) (i : Z) : list F :=
  map (fun c => node m k (A * i + Z.of_nat c)%Z) (seq 0 arity).

(** the leaf an index denotes in a tree of depth [d] *)
Definition leaf (d : nat) (idx : F) : Z := (fval idx mod A ^ Z.of_nat d)%Z.

(** the contents after updates, the last update first *)
Fixpoint after (d : nat) (us : list (F * F)) : contents :=
  match us with
  | [] => no_contents
  | (idx, v) :: us => put (after d us) (leaf d idx) v
  end.

(** some list of the first updates was the whole history at some time *)
Definition moment (us past : list (F * F)) : Prop := exists later, us = later ++ past.

(** at no moment of the history did two nodes of the tree have different children
    but the same hash *)
Definition collision_free (d : nat) (us : list (F * F)) : Prop :=
  forall past k k' i i',
    moment us past ->
    (k < d)%nat -> (k' < d)%nat ->
    (0 <= i < A ^ Z.of_nat (d - S k))%Z -> (0 <= i' < A ^ Z.of_nat (d - S k'))%Z ->
    let t := children (after d past) k i in
    let t' := children (after d past) k' i' in
    H t = H t' -> t = t'.

(** two different lists with the same hash *)
Definition collision (t t' : list F) : Prop := t <> t' /\ H t = H t'.

(** a list without its element at [c] *)
Definition without {T} (c : nat) (l : list T) : list T := firstn c l ++ skipn (S c) l.

(** the digit of position [i] at height [k], and the siblings of the nodes on the path to
    the leaf [i], from the root's children down to the leaf's siblings *)
Definition digit (i : Z) (k : nat) : nat := Z.to_nat (i / A ^ Z.of_nat k mod A).
Definition ancestor (i : Z) (k : nat) : Z := (i / A ^ Z.of_nat k)%Z.
Definition siblings (m : contents) (d : nat) (i : Z) : list (list F) :=
  map (fun k => without (digit i k) (children m k (ancestor i (S k)))) (rev (seq 0 d)).

(** the lists hashed on the way from the leaf up, each made of the previous hash
    and a list of siblings, [proof] given from the leaf up *)
Fixpoint climb (i : Z) (k : nat) (v : F) (proof : list (list F)) : list (list F) :=
  match proof with
  | [] => []
  | s :: proof =>
      let t := firstn (digit i k) s ++ v :: skipn (digit i k) s in
      t :: climb i (S k) (H t) proof
  end.

(** the last hash of that way, [proof] given from the root down *)
Definition climbed (i : Z) (v : F) (proof : list (list F)) : F :=
  last (map H (climb i 0 v (rev proof))) v.
End MerkleSpec.

(** *** A tree used as the code uses it: created over a database, then updated *)
Section History.
Context {P : Params}.
Local Notation tree_db := (@hash_db (list F)).
Context (new : nat -> tree_db -> outcome (merkle_tree * tree_db))
        (update : merkle_tree -> F -> F -> tree_db -> outcome (result F * merkle_tree * tree_db)).

(** [history d db0 us t db]: a tree of depth [d] was created over [db0], the
    updates [us] (the last first) were all called, and [t] and [db] are the result *)
Inductive history (d : nat) (db0 : tree_db) : list (F * F) -> merkle_tree -> tree_db -> Prop :=
| h_new : forall t db, new d db0 = Done (t, db) -> history d db0 [] t db
| h_update : forall us t db idx v r t' db',
    history d db0 us t db -> update t idx v db = Done (r, t', db') ->
    history d db0 ((idx, v) :: us) t' db'.
End History.
