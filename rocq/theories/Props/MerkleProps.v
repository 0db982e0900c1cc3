(** * C41, and the parts of C42 and C43 about Merkle membership

    Vocabulary: [opens] (Spec/OpeningSpec.v), [node], [siblings], [children],
    [collision], [climbed] (Spec/MerkleSpec.v), [hash_value], [committed],
    [commit_all] (Spec/HashSpec.v), [forces], [completes], [proves] (Spec/Gadget.v). *)
From Coq Require Import ZArith String List Bool Lia Arith.
From Verif.Base Require Import Outcome Fp Params Algebra Instances.
From Verif.Model Require Import Transcript LinComb Prog VectorPoly IPP Prover Verifier Gadgets Hash Merkle MerkleGadget.
From Verif.Spec Require Import R1CS Session Protocol Verdict Gadget HashSpec MerkleSpec OpeningSpec.
From Verif.Proofs Require Import GadgetTools GadgetMain HashTools HashComplete MerkleSound MerkleComplete MerkleOpen.
From Verif.Props Require Import Demo GadgetProps HashProps TreeProps.
Import ListNotations.

Section Props.
Context {P : Params} {OK : ParamsOk P}.
Local Open Scope fe_scope.

(** ** C41.  What the gadgets force: the index is made of base-4 (base-8) digits, and
    hashing upwards along these digits from the leaf gives the root.  For the 4-ary
    tree the number of levels is rounded up to a multiple of 4 (whole bytes). *)
Theorem C41_merkle_4_gadget p sbox W ph depth root leaf idx nodes zero vs : params_ok p -> sbox <> Inverse ->
  forces W ph (vanilla_merkle_merkle_tree_4_verif_gadget p sbox depth root leaf (Quantity idx None) nodes [zero]) vs (fun s _ =>
    var_value s zero = 0 ->
    opens 4 (hash_value p sbox) (4 * ((depth * 2 + 7) / 8)) root (var_value s leaf) (var_value s idx) (map (var_value s) nodes)).
Proof. exact (merkle_4_forces p sbox W ph depth root leaf idx nodes zero vs). Qed.
Theorem C41_merkle_8_gadget p sbox W ph depth root leaf idx nodes zero vs : params_ok p -> sbox <> Inverse ->
  forces W ph (vanilla_merkle_merkle_tree_8_verif_gadget p sbox depth root leaf (Quantity idx None) nodes zero) vs (fun s _ =>
    var_value s zero = 0 ->
    opens 8 (hash_value p sbox) depth root (var_value s leaf) (var_value s idx) (map (var_value s) nodes)).
Proof. exact (merkle_8_forces p sbox W ph depth root leaf idx nodes zero vs). Qed.

(** the verifying functions: the first commitment is to the leaf, the second to the
    index, the others to the proof nodes; the last one, to 0, is made by the verifier *)
Theorem C41_verify_leaf_4 p sbox W root depth g h comms vs : params_ok p -> sbox <> Inverse ->
  let n := length (v_V vs) in let k := length comms in
  forces W false (verify_leaf_inclusion_4_ary_merkle_tree root depth p sbox g h comms) vs (fun s _ =>
    as_committed s (n + k) = 0 ->
    opens 4 (hash_value p sbox) (4 * ((depth * 2 + 7) / 8)) root (as_committed s n) (as_committed s (n + 1)) (committed s (n + 2) (k - 2))).
Proof. exact (fun H1 H2 => verify_leaf_4_forces W p sbox H1 H2 root depth g h comms vs). Qed.
Theorem C41_verify_leaf_8 p sbox W root depth g h comms vs : params_ok p -> sbox <> Inverse ->
  let n := length (v_V vs) in let k := length comms in
  forces W false (verify_leaf_inclusion_8_ary_merkle_tree root depth p sbox g h comms) vs (fun s _ =>
    as_committed s (n + k) = 0 ->
    opens 8 (hash_value p sbox) depth root (as_committed s n) (as_committed s (n + 1)) (committed s (n + 2) (k - 2))).
Proof. exact (fun H1 H2 => verify_leaf_8_forces W p sbox H1 H2 root depth g h comms vs). Qed.
Theorem C41_verifier_commits_4 p sbox W root depth g h comms vs b vs' :
  vrun W false (verify_leaf_inclusion_4_ary_merkle_tree root depth p sbox g h comms) vs = Done (b, vs') ->
  v_V vs' = v_V vs ++ comms ++ [commit g h 0 0] /\ (2 <= length comms)%nat.
Proof. exact (verify_leaf_4_commits W p sbox root depth g h comms vs b vs'). Qed.
Theorem C41_verifier_commits_8 p sbox W root depth g h comms vs b vs' :
  vrun W false (verify_leaf_inclusion_8_ary_merkle_tree root depth p sbox g h comms) vs = Done (b, vs') ->
  v_V vs' = v_V vs ++ comms ++ [commit g h 0 0] /\ (2 <= length comms)%nat.
Proof. exact (verify_leaf_8_commits W p sbox root depth g h comms vs b vs'). Qed.

(** an opening, with the right number of nodes, of the root of some contents shows
    a value of these contents and the siblings on its path, or a collision with a node
    of their tree *)
Theorem C41_opening_contents_4 H levels d m v idx nodes :
  opens 4 H levels (node 4 H m d 0) v idx nodes -> (d <= levels)%nat -> length nodes = (3 * d)%nat ->
  exists i, (0 <= i < 4 ^ Z.of_nat d)%Z /\ idx = fe_of i /\
    ((v = m i /\ nodes = concat (siblings 4 H m d i)) \/
     (exists c k, (k < d)%nat /\ collision H c (children 4 H m k (ancestor 4 i (S k))))).
Proof. exact (opens_contents 2 ltac:(lia) H levels d m v idx nodes). Qed.
Theorem C41_opening_contents_8 H levels d m v idx nodes :
  opens 8 H levels (node 8 H m d 0) v idx nodes -> (d <= levels)%nat -> length nodes = (7 * d)%nat ->
  exists i, (0 <= i < 8 ^ Z.of_nat d)%Z /\ idx = fe_of i /\
    ((v = m i /\ nodes = concat (siblings 8 H m d i)) \/
     (exists c k, (k < d)%nat /\ collision H c (children 8 H m k (ancestor 8 i (S k))))).
Proof. exact (opens_contents 3 ltac:(lia) H levels d m v idx nodes). Qed.
(** when the tree has no more leaves than the field has elements, the leaf is the one
    at the committed index, which is below the number of leaves *)
Theorem C41_opening_exact_4 H levels d m v idx nodes :
  opens 4 H levels (node 4 H m d 0) v idx nodes -> (d <= levels)%nat -> length nodes = (3 * d)%nat ->
  (4 ^ Z.of_nat d <= modulus)%Z ->
  (fval idx < 4 ^ Z.of_nat d)%Z /\
  ((v = m (fval idx) /\ nodes = concat (siblings 4 H m d (fval idx))) \/ exists c c', collision H c c').
Proof. exact (opens_contents_exact 2 ltac:(lia) H levels d m v idx nodes). Qed.
Theorem C41_opening_exact_8 H levels d m v idx nodes :
  opens 8 H levels (node 8 H m d 0) v idx nodes -> (d <= levels)%nat -> length nodes = (7 * d)%nat ->
  (8 ^ Z.of_nat d <= modulus)%Z ->
  (fval idx < 8 ^ Z.of_nat d)%Z /\
  ((v = m (fval idx) /\ nodes = concat (siblings 8 H m d (fval idx))) \/ exists c c', collision H c c').
Proof. exact (opens_contents_exact 3 ltac:(lia) H levels d m v idx nodes). Qed.

(** honest runs of the gadgets *)
Theorem C41_merkle_4_gadget_honest p sbox W W' ph depth leaf vi idx root v nodes zero proof ps vs :
  params_ok p -> sbox <> Inverse -> width p = 5%nat -> session ph ps vs ->
  Forall (fun s => length s = 3%nat) proof -> (length proof <= depth)%nat -> (depth * 2 <= 8 * modbytes)%nat ->
  (fval idx < 4 ^ Z.of_nat (length proof))%Z -> root = climbed 4 (hash_value p sbox) (fval idx) v proof ->
  has_value ps leaf v -> has_value ps vi idx -> has_value ps zero 0 -> Forall2 (has_value ps) nodes (concat proof) ->
  completes W W' ph
    (vanilla_merkle_merkle_tree_4_verif_gadget p sbox depth root leaf (Quantity vi (Some idx)) nodes [zero])
    (vanilla_merkle_merkle_tree_4_verif_gadget p sbox depth root leaf (Quantity vi None) nodes [zero])
    (length proof * (13 + permutation_cost p sbox)) ps vs (Ok tt) (Ok tt).
Proof. exact (merkle_4_completes p sbox W W' ph depth leaf vi idx root v nodes zero proof ps vs). Qed.
Theorem C41_merkle_8_gadget_honest p sbox W W' ph depth leaf vi idx root v nodes zero proof ps vs :
  params_ok p -> sbox <> Inverse -> width p = 9%nat -> session ph ps vs ->
  Forall (fun s => length s = 7%nat) proof -> (length proof <= depth)%nat -> (depth * 3 <= 8 * modbytes)%nat ->
  (fval idx < 8 ^ Z.of_nat (length proof))%Z -> root = climbed 8 (hash_value p sbox) (fval idx) v proof ->
  has_value ps leaf v -> has_value ps vi idx -> has_value ps zero 0 -> Forall2 (has_value ps) nodes (concat proof) ->
  completes W W' ph
    (vanilla_merkle_merkle_tree_8_verif_gadget p sbox depth root leaf (Quantity vi (Some idx)) nodes zero)
    (vanilla_merkle_merkle_tree_8_verif_gadget p sbox depth root leaf (Quantity vi None) nodes zero)
    (length proof * (34 + permutation_cost p sbox)) ps vs (Ok tt) (Ok tt).
Proof. exact (merkle_8_completes p sbox W W' ph depth leaf vi idx root v nodes zero proof ps vs). Qed.

(** Fewer nodes than levels are accepted: a value at any height of the tree, even the
    root itself, can be passed off as a leaf. *)
Theorem C41_inner_node_provable_4 p sbox W W' label g h G H x idx randomness rng proof depth :
  params_ok p -> sbox <> Inverse -> width p = 5%nat -> blindings_given randomness rng 2 ->
  Forall (fun s => length s = 3%nat) proof -> (length proof <= depth)%nat -> (depth * 2 <= 8 * modbytes)%nat ->
  (fval idx < 4 ^ Z.of_nat (length proof))%Z -> enough_generators (length proof * (13 + permutation_cost p sbox)) G H ->
  let root := climbed 4 (hash_value p sbox) (fval idx) x proof in
  proves W W' label g h G H (prove_leaf_inclusion_4_ary_merkle_tree x idx randomness proof root depth p sbox rng)
    (verify_leaf_inclusion_4_ary_merkle_tree root depth p sbox g h)
    (fun comms => firstn 2 comms = commit_all g h [x; idx] (blindings W randomness 2) /\ length comms = (2 + length (concat proof))%nat).
Proof. exact (fun H1 H2 => leaf_4_proves p sbox H1 H2 W W' label g h G H x idx randomness rng proof depth). Qed.
Theorem C41_inner_node_provable_8 p sbox W W' label g h G H x idx randomness rng proof depth :
  params_ok p -> sbox <> Inverse -> width p = 9%nat -> blindings_given randomness rng 2 ->
  Forall (fun s => length s = 7%nat) proof -> (length proof <= depth)%nat -> (depth * 3 <= 8 * modbytes)%nat ->
  (fval idx < 8 ^ Z.of_nat (length proof))%Z -> enough_generators (length proof * (34 + permutation_cost p sbox)) G H ->
  let root := climbed 8 (hash_value p sbox) (fval idx) x proof in
  proves W W' label g h G H (prove_leaf_inclusion_8_ary_merkle_tree x idx randomness proof root depth p sbox rng)
    (verify_leaf_inclusion_8_ary_merkle_tree root depth p sbox g h)
    (fun comms => firstn 2 comms = commit_all g h [x; idx] (blindings W randomness 2) /\ length comms = (2 + length (concat proof))%nat).
Proof. exact (fun H1 H2 => leaf_8_proves p sbox H1 H2 W W' label g h G H x idx randomness rng proof depth). Qed.

(** ** C42.  Randomness policy *)
Theorem C42_no_randomness_leaf_inclusion W leaf idx proof root depth p sbox s :
  prun W false (prove_leaf_inclusion_4_ary_merkle_tree leaf idx None proof root depth p sbox false) s
    = Done (Err (GadgetError "Since randomness is None, provide"), s) /\
  prun W false (prove_leaf_inclusion_8_ary_merkle_tree leaf idx None proof root depth p sbox false) s
    = Done (Err (GadgetError "Since randomness is None, provide"), s).
Proof. exact (leaf_no_randomness W leaf idx proof root depth p sbox s). Qed.
Theorem C42_wrong_number_leaf_inclusion W leaf idx rands proof root depth p sbox rng s : length rands <> 2%nat ->
  prun W false (prove_leaf_inclusion_4_ary_merkle_tree leaf idx (Some rands) proof root depth p sbox rng) s
    = Done (Err (GadgetError "Provided randomness should have size 2"), s) /\
  prun W false (prove_leaf_inclusion_8_ary_merkle_tree leaf idx (Some rands) proof root depth p sbox rng) s
    = Done (Err (GadgetError "Provided randomness should have size 2"), s).
Proof. exact (leaf_wrong_number W leaf idx rands proof root depth p sbox rng s). Qed.

(** ** C43.  A membership proof for a value of the contents [m] is accepted; the first
    two commitments, to the value and the index, use the blindings given *)
Theorem C43_leaf_inclusion_4 p sbox W W' label g h G H m d idx randomness rng : params_ok p -> sbox <> Inverse ->
  width p = 5%nat -> blindings_given randomness rng 2 -> (d * 2 <= 8 * modbytes)%nat ->
  (fval idx < 4 ^ Z.of_nat d)%Z -> enough_generators (d * (13 + permutation_cost p sbox)) G H ->
  let root := node 4 (hash_value p sbox) m d 0 in
  proves W W' label g h G H
    (prove_leaf_inclusion_4_ary_merkle_tree (m (fval idx)) idx randomness (siblings 4 (hash_value p sbox) m d (fval idx)) root d p sbox rng)
    (verify_leaf_inclusion_4_ary_merkle_tree root d p sbox g h)
    (fun comms => firstn 2 comms = commit_all g h [m (fval idx); idx] (blindings W randomness 2) /\ length comms = (2 + 3 * d)%nat).
Proof. exact (fun H1 H2 => tree_leaf_4_proves p sbox H1 H2 W W' label g h G H m d idx randomness rng). Qed.
Theorem C43_leaf_inclusion_8 p sbox W W' label g h G H m d idx randomness rng : params_ok p -> sbox <> Inverse ->
  width p = 9%nat -> blindings_given randomness rng 2 -> (d * 3 <= 8 * modbytes)%nat ->
  (fval idx < 8 ^ Z.of_nat d)%Z -> enough_generators (d * (34 + permutation_cost p sbox)) G H ->
  let root := node 8 (hash_value p sbox) m d 0 in
  proves W W' label g h G H
    (prove_leaf_inclusion_8_ary_merkle_tree (m (fval idx)) idx randomness (siblings 8 (hash_value p sbox) m d (fval idx)) root d p sbox rng)
    (verify_leaf_inclusion_8_ary_merkle_tree root d p sbox g h)
    (fun comms => firstn 2 comms = commit_all g h [m (fval idx); idx] (blindings W randomness 2) /\ length comms = (2 + 7 * d)%nat).
Proof. exact (fun H1 H2 => tree_leaf_8_proves p sbox H1 H2 W W' label g h G H m d idx randomness rng). Qed.
End Props.

Print Assumptions C41_merkle_4_gadget.
Print Assumptions C41_merkle_8_gadget.
Print Assumptions C41_verify_leaf_4.
Print Assumptions C41_verify_leaf_8.
Print Assumptions C41_verifier_commits_4.
Print Assumptions C41_verifier_commits_8.
Print Assumptions C41_opening_contents_4.
Print Assumptions C41_opening_contents_8.
Print Assumptions C41_opening_exact_4.
Print Assumptions C41_opening_exact_8.
Print Assumptions C41_merkle_4_gadget_honest.
Print Assumptions C41_merkle_8_gadget_honest.
Print Assumptions C41_inner_node_provable_4.
Print Assumptions C41_inner_node_provable_8.
Print Assumptions C42_no_randomness_leaf_inclusion.
Print Assumptions C42_wrong_number_leaf_inclusion.
Print Assumptions C43_leaf_inclusion_4.
Print Assumptions C43_leaf_inclusion_8.

(** ** Concrete cases, over the toy backend *)
Section Examples.
#[local] Existing Instance toyP.
#[local] Existing Instance toyP_ok.
Local Open Scope fe_scope.

Definition toy_m : contents := put (put no_contents 3 (fe 30)) 14 (fe 5).
Definition toy_leaf_4 (d : nat) (v : Z) (idx : Z) : outcome (result unit) :=
  let H := hash_value toy5 Cube in
  let root := node 4 H toy_m d 0 in
  roundtrip (prove_leaf_inclusion_4_ary_merkle_tree (fe v) (fe idx) None (siblings 4 H toy_m d idx) root d toy5 Cube true)
    (verify_leaf_inclusion_4_ary_merkle_tree root d toy5 Cube demo_g demo_h).
Definition toy_leaf_8 (v : Z) (idx : Z) : outcome (result unit) :=
  let H := hash_value toy9 Cube in
  let root := node 8 H toy_m 1 0 in
  roundtrip (prove_leaf_inclusion_8_ary_merkle_tree (fe v) (fe idx) (Some [fe 8; fe 9]) (siblings 8 H toy_m 1 idx) root 1 toy9 Cube false)
    (verify_leaf_inclusion_8_ary_merkle_tree root 1 toy9 Cube demo_g demo_h).

Example C41_example_4 : toy_leaf_4 2 5 14 = Done (Ok tt) /\ toy_leaf_4 1 31 3 = Done (Err VerificationError).
Proof. repeat split; vm_compute; reflexivity. Qed.
Example C41_example_8 : toy_leaf_8 30 3 = Done (Ok tt).
Proof. vm_compute; reflexivity. Qed.
Example C43_leaf_generators : enough_generators (2 * (13 + permutation_cost toy5 Cube)) ex_G ex_H /\
  enough_generators (1 * (34 + permutation_cost toy9 Cube)) ex_G ex_H.
Proof. repeat split; try (vm_compute; lia); left; vm_compute; lia. Qed.
Example C41_opening : let H := hash_value toy5 Cube in
  opens 4 H 4 (node 4 H toy_m 2 0) (fe 5) (fe 14) (concat (siblings 4 H toy_m 2 14)) /\
  length (concat (siblings 4 H toy_m 2 14)) = 6%nat /\ (4 ^ 2 <= modulus)%Z.
Proof.
  split; [|split; [reflexivity|vm_compute; discriminate]].
  exists [], (siblings 4 (hash_value toy5 Cube) toy_m 2 14), 14%Z. split; [reflexivity|].
  split; [repeat constructor|]. split; [cbn; lia|]. split; [left; reflexivity|]. split; [cbn; lia|]. split; [reflexivity|].
  apply Fp_ext. vm_compute. reflexivity.
Qed.
End Examples.

(** ** Refuted: the verifying functions do not check the number of proof nodes *)
Theorem C41_depth_check_refuted :
  let H := @hash_value toyP toy5 Cube in
  let root := @node toyP 4 H toy_m 2 0 in
  let pp := @prove_leaf_inclusion_4_ary_merkle_tree toyP root (fe 0) None [] root 2 toy5 Cube true in
  roundtrip pp (@verify_leaf_inclusion_4_ary_merkle_tree toyP root 2 toy5 Cube demo_g demo_h) = Done (Ok tt) /\
  length (comms_of pp) = 2%nat /\ root <> toy_m 0%Z.
Proof.
  split; [vm_compute; reflexivity|split; [vm_compute; reflexivity|]].
  intros E; apply (f_equal (@fval _)) in E; vm_compute in E; discriminate E.
Qed.
Print Assumptions C41_depth_check_refuted.
