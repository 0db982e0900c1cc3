(** * C36-C40: the hash database, digits, sparse Merkle trees

    Vocabulary: [last_inserted], [inserted], [number], [contents], [put], [node],
    [children], [leaf], [after], [collision_free], [collision], [siblings],
    [climb], [history] (Spec/MerkleSpec.v), [hash_value], [params_ok]
    (Spec/HashSpec.v). *)
From Coq Require Import ZArith List Bool Lia Arith.
From Verif.Base Require Import Outcome Fp Params Algebra Instances.
From Verif.Model Require Import Transcript LinComb Prog Prover Gadgets Hash Merkle.
From Verif.Spec Require Import HashSpec MerkleSpec.
From Verif.Proofs Require Import HashTools MerkleTools MerkleTree MerkleBind MerkleMain.
From Verif.Props Require Import Demo GadgetProps HashProps.
Import ListNotations.

Section Props.
Context {P : Params} {OK : ParamsOk P}.
Local Open Scope fe_scope.

(** ** C36.  After any insertions, [get] returns the last value inserted under the key,
    or the error that carries the key. *)
Theorem C36_hash_db {T} (ins : list (list Z * T)) (key : list Z) :
  db_get (inserted ins) key
  = match last_inserted ins key with Some v => Ok v | None => Err (HashNotFoundInDB key) end.
Proof. exact (db_semantics ins key). Qed.

(** ** C37.  The digits of an index, and the panic when there are too many. *)
Theorem C37_base_4 (x : F) n ds : get_base_4_repr x n = Done ds ->
  length ds = n /\ Forall (fun d => (d < 4)%nat) ds /\ number 4 ds = (fval x mod 4 ^ Z.of_nat n)%Z.
Proof. exact (repr_correct 2 ltac:(lia) x n ds). Qed.
Theorem C37_base_8 (x : F) n ds : get_base_8_repr x n = Done ds ->
  length ds = n /\ Forall (fun d => (d < 8)%nat) ds /\ number 8 ds = (fval x mod 8 ^ Z.of_nat n)%Z.
Proof. exact (repr_correct 3 ltac:(lia) x n ds). Qed.
Theorem C37_base_4_panics (x : F) n : get_base_4_repr x n = Panic <-> (8 * modbytes < n * 2)%nat.
Proof. exact (repr_panics 2 ltac:(lia) x n). Qed.
Theorem C37_base_8_panics (x : F) n : get_base_8_repr x n = Panic <-> (8 * modbytes < n * 3)%nat.
Proof. exact (repr_panics 3 ltac:(lia) x n). Qed.

(** the byte size is the least that holds all numbers with that many digits *)
Theorem C37_byte_size n k b : get_byte_size n (2 ^ k) = Done b ->
  ((2 ^ Z.of_nat k) ^ Z.of_nat n <= 256 ^ Z.of_nat b)%Z /\
  (forall b', ((2 ^ Z.of_nat k) ^ Z.of_nat n <= 256 ^ Z.of_nat b')%Z -> (b <= b')%nat).
Proof. exact (byte_size_least n k b). Qed.
Theorem C37_byte_size_done n k : exists b, get_byte_size n (2 ^ k) = Done b.
Proof. exact (ex_intro _ _ (byte_size_done n k)). Qed.

Context {ENC : EncodingOk P}.

(** ** The 4-ary tree *)
Section Tree4.
Context (p : poseidon_params) (Hp : params_ok p) (Hw : width p = 5%nat).
Local Notation Hash := (hash_value p Quint).
Local Notation history := (history (tree_4_new p) (tree_4_update p)).

Let Hhash : forall l, length l = 4%nat -> hash_4 p l = Done (Hash l).
Proof. exact (fun l => hash_4_native p Quint l Hp Hw). Qed.

(** C38.  Without collisions, every history of updates is possible, the root is the
    root of the contents, and [get] returns the value last written to the leaf that
    the index denotes (0 if none) and appends the siblings on the path *)
Theorem C38_tree_4 d db0 us : (d * 2 <= 8 * modbytes)%nat -> collision_free 4 Hash d us ->
  (exists t db, history d db0 us t db) /\
  forall t db, history d db0 us t db ->
    depth t = d /\ root t = node 4 Hash (after 4 d us) d 0 /\
    (forall idx proof, tree_4_get t idx proof db
      = Done (Ok (after 4 d us (leaf 4 d idx)),
              option_map (fun l => l ++ siblings 4 Hash (after 4 d us) d (leaf 4 d idx)) proof)) /\
    (forall idx v, exists t' db', tree_4_update p t idx v db = Done (Ok (root t'), t', db')).
Proof. exact (tree_as_map 2 ltac:(lia) (hash_4 p) Hash Hhash d db0 us). Qed.

(** C39.  Whatever the history, even with collisions, a proof obtained from [get] verifies *)
Theorem C39_get_verifies_4 d db0 us t db idx v proof0 proof : (d * 2 <= 8 * modbytes)%nat ->
  (forall k c, db_get db0 k = Ok c -> k = fe_bytes (Hash c) /\ length c = 4%nat) ->
  history d db0 us t db ->
  tree_4_get t idx (Some proof0) db = Done (Ok v, proof) ->
  exists proof', proof = Some (proof0 ++ proof') /\ length proof' = d /\
    tree_4_verify_proof p t idx v proof' None = Done true.
Proof. exact (tree_proofs_verify 2 ltac:(lia) (hash_4 p) Hash Hhash d db0 us t db idx v proof0 proof). Qed.

(** two accepted proofs for one index and root are equal, or a collision is among the
    lists hashed by the two verifications *)
Theorem C39_proofs_bind_4 t idx v v' proof proof' r : (depth t * 2 <= 8 * modbytes)%nat ->
  Forall (fun s => length s = 3%nat) proof -> Forall (fun s => length s = 3%nat) proof' ->
  length proof = depth t -> length proof' = depth t ->
  tree_4_verify_proof p t idx v proof r = Done true ->
  tree_4_verify_proof p t idx v' proof' r = Done true ->
  (v = v' /\ proof = proof') \/
  (exists c c', In (c, c') (combine (climb 4 Hash (leaf 4 (depth t) idx) 0 v (rev proof))
                                    (climb 4 Hash (leaf 4 (depth t) idx) 0 v' (rev proof'))) /\ collision Hash c c').
Proof. exact (tree_proofs_bind 2 ltac:(lia) (hash_4 p) Hash Hhash t idx v v' proof proof' r). Qed.

(** a proof accepted against the root of some contents shows the value in these
    contents, or a collision with a node of their tree *)
Theorem C39_proofs_contents_4 t m idx v proof r : (depth t * 2 <= 8 * modbytes)%nat ->
  Forall (fun s => length s = 3%nat) proof -> length proof = depth t ->
  tree_4_verify_proof p t idx v proof r = Done true ->
  match r with Some r => r | None => root t end = node 4 Hash m (depth t) 0 ->
  let i := leaf 4 (depth t) idx in
  (v = m i /\ proof = siblings 4 Hash m (depth t) i) \/
  (exists c k, nth_error (climb 4 Hash i 0 v (rev proof)) k = Some c /\ (k < depth t)%nat /\
    collision Hash c (children 4 Hash m k (ancestor 4 i (S k)))).
Proof. exact (tree_proofs_contents 2 ltac:(lia) (hash_4 p) Hash Hhash t m idx v proof r). Qed.

(** a proof with too few nodes makes [verify_proof] panic *)
Theorem C39_short_proof_panics_4 t idx v proof r : (depth t * 2 <= 8 * modbytes)%nat -> (length proof < depth t)%nat ->
  tree_4_verify_proof p t idx v proof r = Panic.
Proof. exact (tree_short_proof 2 ltac:(lia) (hash_4 p) t idx v proof r). Qed.

(** C40.  Two trees with equal roots answer alike, or a collision is between nodes at
    the same place of the two trees *)
Theorem C40_equal_roots_4 d db0 us t db db0' us' t' db' : (d * 2 <= 8 * modbytes)%nat ->
  history d db0 us t db -> history d db0' us' t' db' ->
  collision_free 4 Hash d us -> collision_free 4 Hash d us' ->
  root t = root t' ->
  (forall idx proof, tree_4_get t idx proof db = tree_4_get t' idx proof db') \/
  (exists k i, (k < d)%nat /\ (0 <= i < 4 ^ Z.of_nat (d - S k))%Z /\
     collision Hash (children 4 Hash (after 4 d us) k i) (children 4 Hash (after 4 d us') k i)).
Proof. exact (tree_roots 2 ltac:(lia) (hash_4 p) Hash Hhash d db0 us t db db0' us' t' db'). Qed.
End Tree4.

(** ** The 8-ary tree *)
Section Tree8.
Context (p : poseidon_params) (Hp : params_ok p) (Hw : width p = 9%nat).
Local Notation Hash := (hash_value p Quint).
Local Notation history := (history (tree_8_new p) (tree_8_update p)).

Let Hhash : forall l, length l = 8%nat -> hash_8 p l = Done (Hash l).
Proof. exact (fun l => hash_8_native p Quint l Hp Hw). Qed.

(** C38.  Without collisions, every history of updates is possible, the root is the
    root of the contents, and [get] returns the value last written to the leaf that
    the index denotes (0 if none) and appends the siblings on the path *)
Theorem C38_tree_8 d db0 us : (d * 3 <= 8 * modbytes)%nat -> collision_free 8 Hash d us ->
  (exists t db, history d db0 us t db) /\
  forall t db, history d db0 us t db ->
    depth t = d /\ root t = node 8 Hash (after 8 d us) d 0 /\
    (forall idx proof, tree_8_get t idx proof db
      = Done (Ok (after 8 d us (leaf 8 d idx)),
              option_map (fun l => l ++ siblings 8 Hash (after 8 d us) d (leaf 8 d idx)) proof)) /\
    (forall idx v, exists t' db', tree_8_update p t idx v db = Done (Ok (root t'), t', db')).
Proof. exact (tree_as_map 3 ltac:(lia) (hash_8 p) Hash Hhash d db0 us). Qed.

(** C39.  Whatever the history, even with collisions, a proof obtained from [get] verifies *)
Theorem C39_get_verifies_8 d db0 us t db idx v proof0 proof : (d * 3 <= 8 * modbytes)%nat ->
  (forall k c, db_get db0 k = Ok c -> k = fe_bytes (Hash c) /\ length c = 8%nat) ->
  history d db0 us t db ->
  tree_8_get t idx (Some proof0) db = Done (Ok v, proof) ->
  exists proof', proof = Some (proof0 ++ proof') /\ length proof' = d /\
    tree_8_verify_proof p t idx v proof' None = Done true.
Proof. exact (tree_proofs_verify 3 ltac:(lia) (hash_8 p) Hash Hhash d db0 us t db idx v proof0 proof). Qed.

(** two accepted proofs for one index and root are equal, or a collision is among the
    lists hashed by the two verifications *)
Theorem C39_proofs_bind_8 t idx v v' proof proof' r : (depth t * 3 <= 8 * modbytes)%nat ->
  Forall (fun s => length s = 7%nat) proof -> Forall (fun s => length s = 7%nat) proof' ->
  length proof = depth t -> length proof' = depth t ->
  tree_8_verify_proof p t idx v proof r = Done true ->
  tree_8_verify_proof p t idx v' proof' r = Done true ->
  (v = v' /\ proof = proof') \/
  (exists c c', In (c, c') (combine (climb 8 Hash (leaf 8 (depth t) idx) 0 v (rev proof))
                                    (climb 8 Hash (leaf 8 (depth t) idx) 0 v' (rev proof'))) /\ collision Hash c c').
Proof. exact (tree_proofs_bind 3 ltac:(lia) (hash_8 p) Hash Hhash t idx v v' proof proof' r). Qed.

(** a proof accepted against the root of some contents shows the value in these
    contents, or a collision with a node of their tree *)
Theorem C39_proofs_contents_8 t m idx v proof r : (depth t * 3 <= 8 * modbytes)%nat ->
  Forall (fun s => length s = 7%nat) proof -> length proof = depth t ->
  tree_8_verify_proof p t idx v proof r = Done true ->
  match r with Some r => r | None => root t end = node 8 Hash m (depth t) 0 ->
  let i := leaf 8 (depth t) idx in
  (v = m i /\ proof = siblings 8 Hash m (depth t) i) \/
  (exists c k, nth_error (climb 8 Hash i 0 v (rev proof)) k = Some c /\ (k < depth t)%nat /\
    collision Hash c (children 8 Hash m k (ancestor 8 i (S k)))).
Proof. exact (tree_proofs_contents 3 ltac:(lia) (hash_8 p) Hash Hhash t m idx v proof r). Qed.

(** a proof with too few nodes makes [verify_proof] panic *)
Theorem C39_short_proof_panics_8 t idx v proof r : (depth t * 3 <= 8 * modbytes)%nat -> (length proof < depth t)%nat ->
  tree_8_verify_proof p t idx v proof r = Panic.
Proof. exact (tree_short_proof 3 ltac:(lia) (hash_8 p) t idx v proof r). Qed.

(** C40.  Two trees with equal roots answer alike, or a collision is between nodes at
    the same place of the two trees *)
Theorem C40_equal_roots_8 d db0 us t db db0' us' t' db' : (d * 3 <= 8 * modbytes)%nat ->
  history d db0 us t db -> history d db0' us' t' db' ->
  collision_free 8 Hash d us -> collision_free 8 Hash d us' ->
  root t = root t' ->
  (forall idx proof, tree_8_get t idx proof db = tree_8_get t' idx proof db') \/
  (exists k i, (k < d)%nat /\ (0 <= i < 8 ^ Z.of_nat (d - S k))%Z /\
     collision Hash (children 8 Hash (after 8 d us) k i) (children 8 Hash (after 8 d us') k i)).
Proof. exact (tree_roots 3 ltac:(lia) (hash_8 p) Hash Hhash d db0 us t db db0' us' t' db'). Qed.
End Tree8.
End Props.

Print Assumptions C36_hash_db.
Print Assumptions C37_base_4.
Print Assumptions C37_base_8.
Print Assumptions C37_base_4_panics.
Print Assumptions C37_base_8_panics.
Print Assumptions C37_byte_size.
Print Assumptions C37_byte_size_done.
Print Assumptions C38_tree_4.
Print Assumptions C39_get_verifies_4.
Print Assumptions C39_proofs_bind_4.
Print Assumptions C39_proofs_contents_4.
Print Assumptions C39_short_proof_panics_4.
Print Assumptions C40_equal_roots_4.
Print Assumptions C38_tree_8.
Print Assumptions C39_get_verifies_8.
Print Assumptions C39_proofs_bind_8.
Print Assumptions C39_proofs_contents_8.
Print Assumptions C39_short_proof_panics_8.
Print Assumptions C40_equal_roots_8.

(** ** Concrete cases *)
Section Examples.
#[local] Existing Instance toyP.
#[local] Existing Instance toyP_ok.
#[local] Existing Instance toyP_enc.
Local Open Scope fe_scope.

Example C36_example :
  let k1 := [1; 2]%Z in let k2 := [1]%Z in
  let ins := [(k1, 5%Z); (k2, 6%Z); (k1, 7%Z)] in
  db_get (inserted ins) k1 = Ok 7%Z /\ db_get (inserted ins) k2 = Ok 6%Z /\
  db_get (inserted ins) [2]%Z = Err (HashNotFoundInDB [2]%Z).
Proof. repeat split; reflexivity. Qed.

Example C37_example : get_base_4_repr (fe 27) 4 = Done [0; 1; 2; 3]%nat /\ get_base_8_repr (fe 83) 3 = Done [1; 2; 3]%nat /\
  get_base_8_repr (fe 83) 2 = Done [2; 3]%nat /\ get_byte_size 5 4 = Done 2%nat /\ get_base_4_repr (fe 1) 193 = Panic.
Proof. repeat split; vm_compute; reflexivity. Qed.

(** a history with an overwritten leaf and an index beyond the number of leaves *)
Definition toy_updates : list (F * F) := [(fe 3, fe 30); (fe 17, fe 11); (fe 3, fe 9); (fe 14, fe 5)].

Example C38_collision_free_4 : collision_free 4 (hash_value toy5 Quint) 2 toy_updates.
Proof. apply history_ok_spec. vm_compute. reflexivity. Qed.
Example C38_collision_free_8 : collision_free 8 (hash_value toy9 Quint) 2 [(fe 3, fe 30); (fe 67, fe 11)].
Proof. apply history_ok_spec. vm_compute. reflexivity. Qed.

Definition toy_tree : outcome (merkle_tree * hash_db) :=
  fold_right (fun '(idx, v) st => obind st (fun '(t, db) =>
      obind (tree_4_update toy5 t idx v db) (fun '(_, t, db) => Done (t, db))))
    (tree_4_new toy5 2 db_new) toy_updates.

Definition toy_get (idx : Z) : outcome (result F) :=
  obind toy_tree (fun '(t, db) => obind (tree_4_get t (fe idx) None db) (fun '(v, _) => Done v)).

Definition toy_get_verify (idx : Z) : outcome (bool * bool) :=
  obind toy_tree (fun '(t, db) => obind (tree_4_get t (fe idx) (Some []) db) (fun '(v, proof) =>
    obind (unwrap_result v) (fun v => obind (of_option proof) (fun proof =>
    obind (tree_4_verify_proof toy5 t (fe idx) v proof None) (fun ok =>
    obind (tree_4_verify_proof toy5 t (fe idx) (v + 1) proof None) (fun bad => Done (ok, bad))))))).

Example C38_example : toy_get 3 = Done (Ok (fe 30)) /\ toy_get 1 = Done (Ok (fe 11)) /\ toy_get 14 = Done (Ok (fe 5)) /\
  toy_get 2 = Done (Ok (fe 0)) /\ toy_get 19 = Done (Ok (fe 30)).
Proof. repeat split; vm_compute; reflexivity. Qed.

Example C39_example : toy_get_verify 3 = Done (true, false) /\ toy_get_verify 2 = Done (true, false).
Proof. repeat split; vm_compute; reflexivity. Qed.

Example C39_start : forall k c, db_get db_new k = Ok c -> k = fe_bytes (hash_value toy5 Quint c) /\ length c = 4%nat.
Proof. intros k c E. discriminate E. Qed.
End Examples.
