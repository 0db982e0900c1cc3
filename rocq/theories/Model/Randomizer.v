(** src/r1cs/gadgets/randomizer.rs (below [rz.rs]). *)
From Coq Require Import ZArith String List Bool.
From Verif.Base Require Import Outcome Fp Params Algebra.
From Verif.Model Require Import Transcript LinComb Prog Prover Verifier Gadgets Hash Merkle MerkleGadget.
Import ListNotations.

Section Randomizer.
Context {P : Params}.
Local Open Scope fe_scope.

(** rz.rs 35-37 *)
Definition randomize (x : F) : F := fe_from_msg_hash (fe_bytes x).

(** *** The choice of the indices *)
Section Choice.
Local Open Scope outcome_scope.

(** [HashSet::insert]; a [HashSet] is a list without duplicates *)
Definition set_insert (x : F) (s : list F) : list F :=
  if existsb (feqb x) s then s else s ++ [x].

(** [FieldElement::from_bytes] is amcl_wrapper's: [from_bytes] is any function, and never
    fails on [MODBYTES] bytes. *)
Context (from_bytes : list Z -> F).

(** the loop rz.rs 55-63.  [fuel] bounds the number of iterations; the length of [target]
    is enough, as every iteration removes [MODBYTES] > 0 bytes.  [rmod] by zero does not
    terminate, rendered by a panic. *)
Fixpoint indices_loop (fuel : nat) (target : list Z) (data_size_as_big : Z) (count_modified : nat) (indices : list F)
  : outcome (list F) :=
  match fuel with
  | O => Done indices
  | S fuel =>
      if Nat.ltb (length indices) count_modified && Nat.leb modbytes (length target)
      then
        assertb (negb (Z.eqb data_size_as_big 0)) ;;;
        let n := (fval (from_bytes (firstn modbytes target)) mod data_size_as_big)%Z in
        indices_loop fuel (skipn modbytes target) data_size_as_big count_modified (set_insert (fe_of n) indices)
      else Done indices
  end.

(** rz.rs 40-65 *)
Definition get_indices_to_modify (nonce : F) (data_size : Z) (count_modified : nat) : outcome (list F) :=
  let target := shake256 (fe_bytes nonce) (2 * count_modified * modbytes) in
  indices_loop (length target) target (fval (fe_of data_size)) count_modified [].

(** [HashMap::insert] and lookup of the map [modified_indices] *)
Definition fmap_insert (k v : F) (m : list (F * F)) : list (F * F) :=
  (k, v) :: filter (fun '(k', _) => negb (feqb k k')) m.
Definition fmap_get (m : list (F * F)) (k : F) : option F :=
  option_map snd (find (fun '(k', _) => feqb k k') m).

(** rz.rs 67-84.  [limb_bits] is the number of bits of the limb [w[0]] of amcl's [BIG].  The
    order in which a [HashSet] is iterated is unspecified: [indices] is a list without
    duplicates in any order. *)
Definition get_randomized_data (limb_bits : nat) (original_data : list F) (indices : list F)
  : outcome (list (F * F) * list F) :=
  foldM (fun '(modified_indices, new_data) _i =>
      let i := Z.to_nat (fval _i mod 2 ^ Z.of_nat limb_bits)%Z in
      x <- index new_data i ;;
      new_data' <- set_nth new_data i (randomize x) ;;
      Done (fmap_insert _i x modified_indices, new_data'))
    indices ([], original_data).
End Choice.

(** *** The gadget *)

(** the map [new_tree_modified_nodes] from paths to linear combinations: an association
    list whose first entry for a key counts *)
Definition path_eqb (a b : list nat) : bool := if list_eq_dec Nat.eq_dec a b then true else false.
Definition node_map : Type := list (list nat * lc).
Definition map_insert (k : list nat) (v : lc) (m : node_map) : node_map := (k, v) :: m.
Fixpoint map_get (m : node_map) (k : list nat) : option lc :=
  match m with
  | [] => None
  | (k', v) :: t => if path_eqb k' k then Some v else map_get t k
  end.

(** rz.rs 142-150: the children of the node at [prefix] *)
Definition insert_children (prefix : list nat) (children : list F) (nodes : node_map) : node_map :=
  fold_left (fun nodes '(k, c) =>
      let key := prefix ++ [k] in
      match map_get nodes key with
      | Some _ => nodes
      | None => map_insert key (lc_of_fe c) nodes
      end)
    (combine (seq 0 (length children)) children) nodes.

Section Pure.
Local Open Scope outcome_scope.

(** one iteration of the loop rz.rs 139-152 *)
Definition collect_step (new_db : hash_db) (st : node_map * F * list nat) (pos : nat) : outcome (node_map * F * list nat) :=
  let '(nodes, cur_node, cur_prefix) := st in
  children <- unwrap_result (db_get new_db (fe_bytes cur_node)) ;;
  cur_node <- index children pos ;;
  Done (insert_children cur_prefix children nodes, cur_node, cur_prefix ++ [pos]).

(** rz.rs 136-152 *)
Definition collect_path (new_root : F) (new_db : hash_db) (path_for_get : list nat) (nodes : node_map) : outcome node_map :=
  '(nodes, _, _) <- foldM (collect_step new_db) path_for_get (nodes, new_root, []) ;;
  Done nodes.

(** rz.rs 166-172 *)
Definition nodes_at_level (nodes : node_map) (path : list nat) (j : nat) : outcome (list lc) :=
  foldM (fun acc k =>
      p <- index path j ;;
      if Nat.eqb p k then Done acc
      else
        key <- set_nth path j k ;;
        l <- of_option (map_get nodes key) ;;
        Done (acc ++ [l]))
    (seq 0 4) [].

(** [Vec::remove] *)
Definition vec_remove {A} (i : nat) (l : list A) : outcome (list A) :=
  if Nat.ltb i (length l) then Done (firstn i l ++ skipn (S i) l) else Panic.
End Pure.

Local Open Scope prog_scope.
Section Generic.
Context {CA CR : Type}.
Local Notation pg := (prog CA CR).
Context (poseidon_params : poseidon_params) (sbox : sbox_type).

(** one iteration of the loop rz.rs 117-131 *)
Definition presence_step (statics : list lc) (st : list var * lc) (pos : nat) : pg (result (list var * lc)) :=
  let '(orig_vals_proof, cur_hash) := st in
  '(orig_vals_proof, p2) <- pop_node orig_vals_proof ;;
  '(orig_vals_proof, p1) <- pop_node orig_vals_proof ;;
  '(orig_vals_proof, p0) <- pop_node orig_vals_proof ;;
  proof <- p_lift (vec_insert pos cur_hash [p0; p1; p2]) ;;
  cur_hash <-? Poseidon_hash_4_constraints poseidon_params sbox proof statics ;;
  PRet (Ok (orig_vals_proof, cur_hash)).

(** one iteration of the loop rz.rs 106-153.  [orig_vals_proofs[i]] is consumed in
    iteration [i] only, so the vectors are not threaded through the loop. *)
Definition read_step (depth : nat) (orig_root : var) (new_root : F) (new_db : hash_db) (indices : list F)
  (orig_vals : list var) (orig_vals_proofs : list (list var)) (statics : list lc) (nodes : node_map) (i : nat)
  : pg (result node_map) :=
  idx <- p_lift (index indices i) ;;
  orig_vals_proof <- p_lift (index orig_vals_proofs i) ;;
  path_for_get <- p_lift (leaf_index_to_path 4 idx depth) ;;
  orig_val <- p_lift (index orig_vals i) ;;
  '(_, cur_hash) <-? p_try_fold (presence_step statics) (rev path_for_get) (orig_vals_proof, lc_of_var orig_val) ;;
  cs_constrain (lc_sub cur_hash (lc_of_var orig_root)) ;;;
  nodes <- p_lift (collect_path new_root new_db path_for_get nodes) ;;
  PRet (Ok nodes).

(** one iteration of the loop rz.rs 165-190 *)
Definition write_level (depth : nat) (statics : list lc) (st : node_map * lc * list nat) (j : nat)
  : pg (result (node_map * lc * list nat)) :=
  let '(nodes, orig_val_lc, path) := st in
  nodes_at_level_j <- p_lift (nodes_at_level nodes path j) ;;
  p <- p_lift (index path j) ;;
  nodes_at_level_j <- p_lift (vec_insert p orig_val_lc nodes_at_level_j) ;;
  let nodes := if Nat.eqb j (depth - 1) then map_insert path orig_val_lc nodes else nodes in
  orig_val_lc <-? Poseidon_hash_4_constraints poseidon_params sbox nodes_at_level_j statics ;;
  path <- p_lift (vec_remove j path) ;;
  PRet (Ok (map_insert path orig_val_lc nodes, orig_val_lc, path)).

(** one iteration of the loop rz.rs 156-191 *)
Definition write_step (depth : nat) (indices : list F) (orig_vals : list var) (statics : list lc) (nodes : node_map) (i : nat)
  : pg (result node_map) :=
  idx <- p_lift (index indices i) ;;
  orig_val <- p_lift (index orig_vals i) ;;
  path <- p_lift (leaf_index_to_path 4 idx depth) ;;
  '(nodes, _, _) <-? p_try_fold (write_level depth statics) (rev (seq 0 depth)) (nodes, lc_of_var orig_val, path) ;;
  PRet (Ok nodes).

(** rz.rs 87-197 *)
Definition randomizer_gadget (tree_depth : nat) (orig_root : var) (new_tree : merkle_tree) (new_db : hash_db)
  (indices : list F) (orig_vals : list var) (orig_vals_proofs : list (list var)) (statics : list var) : pg (result unit) :=
  p_lift (assertb (Nat.eqb (depth new_tree) tree_depth)) ;;;
  p_lift (assertb (Nat.eqb (length indices) (length orig_vals))) ;;;
  let statics := map (fun s => lc_of_var s) statics in
  let nodes := map_insert [] (lc_of_fe (root new_tree)) [] in
  nodes <-? p_try_fold (read_step tree_depth orig_root (root new_tree) new_db indices orig_vals orig_vals_proofs statics)
      (seq 0 (length indices)) nodes ;;
  nodes <-? p_try_fold (write_step tree_depth indices orig_vals statics) (seq 0 (length indices)) nodes ;;
  r <- p_lift (of_option (map_get nodes [])) ;;
  cs_constrain (lc_sub r (lc_of_var orig_root)) ;;;
  PRet (Ok tt).
End Generic.

(** one iteration of the loop rz.rs 229-251: the value of the leaf and the Merkle proof are
    read in the original tree and committed to *)
Definition commit_original (orig_tree : merkle_tree) (orig_db : hash_db) (modified_indices orig_vals : list F)
  (st : list G1 * list var * list (list var)) (i : nat) : pprog (result (list G1 * list var * list (list var))) :=
  let '(comms, orig_val_vars, proof_vars) := st in
  idx <- p_lift (index modified_indices i) ;;
  '(r, merkle_proof) <- p_lift (tree_4_get orig_tree idx (Some []) orig_db) ;;
  v <-? PRet r ;;
  v' <- p_lift (index orig_vals i) ;;
  p_lift (assertb (feqb v v')) ;;;
  blinding <- p_random ;;
  '(com_orig_val, var_orig_val) <- cs_commit (v, blinding) ;;
  merkle_proof_vec <- p_lift (of_option merkle_proof) ;;
  '(comms, ps) <- commit_proof merkle_proof_vec (comms ++ [com_orig_val]) ;;
  PRet (Ok (comms, orig_val_vars ++ [var_orig_val], proof_vars ++ [ps])).

(** rz.rs 201-269; [gen_proof_for_randomizer] is [unwrap_prove] of [gen_proof]
    (Model/Gadgets.v) applied to this program.  [println!] is left out. *)
Definition prove_randomizer (orig_tree : merkle_tree) (orig_db : hash_db) (new_tree : merkle_tree) (new_db : hash_db)
  (modified_indices orig_vals : list F) (tree_depth : nat) (hash_params : poseidon_params) (sbox : sbox_type)
  : pprog (result (list G1)) :=
  blinding <- p_random ;;
  '(com_orig_root, var_orig_root) <- cs_commit (root orig_tree, blinding) ;;
  '(comms, orig_val_vars, proof_vars) <-? p_try_fold (commit_original orig_tree orig_db modified_indices orig_vals)
      (seq 0 (length modified_indices)) ([com_orig_root], [], []) ;;
  statics <- allocate_statics_for_prover 1 ;;
  randomizer_gadget hash_params sbox tree_depth var_orig_root new_tree new_db modified_indices orig_val_vars proof_vars
    statics ;;?
  PRet (Ok comms).

(** [n] times [verifier.commit(commitments.remove(0))] *)
Definition commit_first (n : nat) (commitments : list G1) : vprog (list G1 * list var) :=
  p_fold (fun '(commitments, ps) (_ : nat) =>
      '(c, commitments) <- remove0 commitments ;;
      v <- cs_commit c ;;
      PRet (commitments, ps ++ [v]))
    (seq 0 n) (commitments, []).

(** rz.rs 284-334; [verify_proof_for_randomizer] is [verify_proof] (Model/Gadgets.v)
    applied to this program *)
Definition verify_randomizer (new_tree : merkle_tree) (new_db : hash_db) (modified_indices : list F) (tree_depth : nat)
  (hash_params : poseidon_params) (sbox : sbox_type) (g h : G1) (commitments : list G1) : vprog (result unit) :=
  '(c, commitments) <- remove0 commitments ;;
  var_orig_root <- cs_commit c ;;
  '(_, orig_val_vars, proof_vars) <- p_fold (fun '(commitments, orig_val_vars, proof_vars) (_ : nat) =>
      '(c, commitments) <- remove0 commitments ;;
      var_orig_val <- cs_commit c ;;
      '(commitments, ps) <- commit_first (tree_depth * 3) commitments ;;
      PRet (commitments, orig_val_vars ++ [var_orig_val], proof_vars ++ [ps]))
    (seq 0 (length modified_indices)) (commitments, [], []) ;;
  statics <- allocate_statics_for_verifier 1 g h ;;
  randomizer_gadget hash_params sbox tree_depth var_orig_root new_tree new_db modified_indices orig_val_vars proof_vars
    statics ;;?
  PRet (Ok tt).
End Randomizer.
