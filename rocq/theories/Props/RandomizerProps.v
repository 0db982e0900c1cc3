(** * C46, and the part of C43 about the randomizer

    Vocabulary: [opens_at], [written_back], [same_but_at] (Spec/RandomizerSpec.v),
    [node], [children], [leaf], [after], [siblings], [climbed], [collision],
    [collision_free], [history] (Spec/MerkleSpec.v), [hash_value], [committed],
    [commit_all] (Spec/HashSpec.v), [forces], [completes], [proves] (Spec/Gadget.v).

    The trees are the 4-ary trees of the code, whose hash is Poseidon with the quintic
    S-box, built by [new] and [update] calls without hash collisions. *)
From Coq Require Import ZArith String List Bool Lia Arith.
From Verif.Base Require Import Outcome Fp Params Algebra Instances.
From Verif.Model Require Import Transcript LinComb Prog VectorPoly IPP Prover Verifier Gadgets Hash Merkle MerkleGadget Randomizer.
From Verif.Spec Require Import R1CS Session Protocol Verdict Gadget HashSpec MerkleSpec OpeningSpec RandomizerSpec.
From Verif.Proofs Require Import GadgetTools HashTools HashComplete MerkleMain RandomizerSound RandomizerComplete RandomizerMain.
From Verif.Props Require Import Demo GadgetProps HashProps TreeProps MerkleProps.
Import ListNotations.

Section Props.
Context {P : Params} {OK : ParamsOk P} {ENC : EncodingOk P}.
Local Open Scope fe_scope.
Context (p : poseidon_params) (Hp : params_ok p) (Hw : width p = 5%nat).
Local Notation Hash := (hash_value p Quint).
Local Notation history := (history (tree_4_new p) (tree_4_update p)).
Context (d : nat) (Hd : (d * 2 <= 8 * modbytes)%nat).

(** ** C46.  What the gadget forces: every value opens the original root at its index, and
    the original root is the root of the modified tree's contents after the values are
    written at the indices *)
Theorem C46_gadget W ph db0 us new_tree new_db root indices vals proofs zero vs :
  history d db0 us new_tree new_db -> collision_free 4 Hash d us ->
  forces W ph (randomizer_gadget p Quint d root new_tree new_db indices vals proofs [zero]) vs (fun s _ =>
    var_value s zero = 0 ->
    let values := map (var_value s) vals in
    length indices = length vals /\
    (forall k, (k < length indices)%nat ->
       opens_at Hash d (var_value s root) (nth k indices 0) (nth k values 0) (map (var_value s) (nth k proofs []))) /\
    var_value s root = node 4 Hash (after 4 d (written_back indices values us)) d 0).
Proof. exact (gadget_forces p Hp Hw d Hd W ph db0 us new_tree new_db root indices vals proofs zero vs). Qed.

(** the verifying function: the first commitment is to the original root, then each index
    has a block of one commitment to the value and [3 * d] to the proof nodes; the last
    commitment, to 0, is made by the verifier *)
Theorem C46_verify W db0 us new_tree new_db indices g h comms vs :
  history d db0 us new_tree new_db -> collision_free 4 Hash d us ->
  let n := length (v_V vs) in let block := S (d * 3) in
  forces W false (verify_randomizer new_tree new_db indices d p Quint g h comms) vs (fun s _ =>
    as_committed s (n + 1 + length indices * block) = 0 ->
    let root := as_committed s n in
    let values := map (fun k => as_committed s (n + 1 + k * block)%nat) (seq 0 (length indices)) in
    (forall k, (k < length indices)%nat ->
       opens_at Hash d root (nth k indices 0) (nth k values 0) (committed s (n + 1 + k * block + 1) (d * 3))) /\
    root = node 4 Hash (after 4 d (written_back indices values us)) d 0).
Proof. exact (verify_forces p Hp Hw d Hd W db0 us new_tree new_db indices g h comms vs). Qed.
Theorem C46_verifier_commits W sbox new_tree new_db indices g h comms vs b vs' :
  vrun W false (verify_randomizer new_tree new_db indices d p sbox g h comms) vs = Done (b, vs') ->
  let k := (1 + length indices * S (d * 3))%nat in
  v_V vs' = v_V vs ++ firstn k comms ++ [commit g h 0 0] /\ (k <= length comms)%nat.
Proof. exact (verify_randomizer_commits W p sbox new_tree new_db indices d g h comms vs b vs'). Qed.

(** if the original root is the root of the contents [m0], this means that the values are
    those of [m0] at the indices and that the modified tree holds the values of [m0] at
    all other leaves, or a collision with a node of the tree of [m0] *)
Theorem C46_original_contents (m0 : contents) us indices values nodes : length values = length indices ->
  (forall k, (k < length indices)%nat -> opens_at Hash d (node 4 Hash m0 d 0) (nth k indices 0) (nth k values 0) (nth k nodes [])) ->
  node 4 Hash m0 d 0 = node 4 Hash (after 4 d (written_back indices values us)) d 0 ->
  ((forall k, (k < length indices)%nat -> nth k values 0 = m0 (leaf 4 d (nth k indices 0))) /\ same_but_at d indices m0 (after 4 d us)) \/
  (exists c k i, (k < d)%nat /\ (0 <= i < 4 ^ Z.of_nat (d - S k))%Z /\ collision Hash c (children 4 Hash m0 k i)).
Proof. exact (original_contents p d m0 us indices values nodes). Qed.

(** honest runs *)
Theorem C46_gadget_honest W W' ph db0 us new_tree new_db root zero r indices values vals openings proofs ps vs : (0 < d)%nat ->
  history d db0 us new_tree new_db -> collision_free 4 Hash d us -> session ph ps vs ->
  length values = length indices -> length openings = length indices ->
  (forall k, (k < length indices)%nat -> length (nth k openings []) = d /\ Forall (fun s => length s = 3%nat) (nth k openings []) /\
     climbed 4 Hash (leaf 4 d (nth k indices 0)) (nth k values 0) (nth k openings []) = r) ->
  node 4 Hash (after 4 d (written_back indices values us)) d 0 = r ->
  has_value ps root r -> has_value ps zero 0 -> Forall2 (has_value ps) vals values ->
  Forall2 (Forall2 (has_value ps)) proofs (map (fun o => concat o) openings) ->
  completes W W' ph (randomizer_gadget p Quint d root new_tree new_db indices vals proofs [zero])
    (randomizer_gadget p Quint d root new_tree new_db indices vals proofs [zero])
    (length indices * (2 * d * permutation_cost p Quint)) ps vs (Ok tt) (Ok tt).
Proof.
  exact (fun Hd0 => gadget_completes p Hp Hw d Hd Hd0 W W' ph db0 us new_tree new_db root zero r indices values vals openings proofs ps vs).
Qed.

(** ** C43.  A proof about two trees that differ at most at the indices is accepted.  It
    commits to the original root, to the original values and to their Merkle proofs. *)
Theorem C43_randomizer W W' label g h G H db0 us orig_tree orig_db db0' us' new_tree new_db indices : (0 < d)%nat ->
  history d db0 us orig_tree orig_db -> collision_free 4 Hash d us ->
  history d db0' us' new_tree new_db -> collision_free 4 Hash d us' ->
  same_but_at d indices (after 4 d us) (after 4 d us') ->
  enough_generators (length indices * (2 * d * permutation_cost p Quint)) G H ->
  let original := map (fun idx => after 4 d us (leaf 4 d idx)) indices in
  proves W W' label g h G H (prove_randomizer orig_tree orig_db new_tree new_db indices original d p Quint)
    (verify_randomizer new_tree new_db indices d p Quint g h)
    (fun comms => exists blindings, length blindings = length comms /\
       comms = commit_all g h (root orig_tree :: flat_map (fun idx => after 4 d us (leaf 4 d idx) ::
                                 concat (siblings 4 Hash (after 4 d us) d (leaf 4 d idx))) indices) blindings).
Proof.
  exact (fun Hd0 => randomizer_proves p Hp Hw d Hd Hd0 W W' label g h G H db0 us orig_tree orig_db db0' us' new_tree new_db indices).
Qed.
(** in particular when the new tree comes from the original one by writing any values at the indices *)
Theorem C43_randomizer_written W W' label g h G H db0 us orig_tree orig_db db0' new_tree new_db indices values : (0 < d)%nat ->
  length values = length indices ->
  history d db0 us orig_tree orig_db -> collision_free 4 Hash d us ->
  history d db0' (written_back indices values us) new_tree new_db -> collision_free 4 Hash d (written_back indices values us) ->
  enough_generators (length indices * (2 * d * permutation_cost p Quint)) G H ->
  let original := map (fun idx => after 4 d us (leaf 4 d idx)) indices in
  proves W W' label g h G H (prove_randomizer orig_tree orig_db new_tree new_db indices original d p Quint)
    (verify_randomizer new_tree new_db indices d p Quint g h)
    (fun comms => exists blindings, length blindings = length comms /\
       comms = commit_all g h (root orig_tree :: flat_map (fun idx => after 4 d us (leaf 4 d idx) ::
                                 concat (siblings 4 Hash (after 4 d us) d (leaf 4 d idx))) indices) blindings).
Proof.
  exact (fun Hd0 Hl H1 H2 H3 H4 => randomizer_proves p Hp Hw d Hd Hd0 W W' label g h G H db0 us orig_tree orig_db db0' _ new_tree new_db indices
    H1 H2 H3 H4 (written_same d indices values us Hl)).
Qed.
End Props.

Print Assumptions C46_gadget.
Print Assumptions C46_verify.
Print Assumptions C46_verifier_commits.
Print Assumptions C46_original_contents.
Print Assumptions C46_gadget_honest.
Print Assumptions C43_randomizer.
Print Assumptions C43_randomizer_written.

(** ** Concrete cases, over the toy backend *)
Section Examples.
#[local] Existing Instance toyP.
#[local] Existing Instance toyP_ok.
#[local] Existing Instance toyP_enc.
Local Open Scope fe_scope.

Definition toy_build (d : nat) (us : list (F * F)) : outcome (merkle_tree * hash_db) :=
  fold_right (fun '(idx, v) st => obind st (fun '(t, db) =>
      obind (tree_4_update toy5 t idx v db) (fun '(_, t, db) => Done (t, db))))
    (tree_4_new toy5 d db_new) us.

(** a depth-1 tree; the new tree differs at leaf 2 (first: as claimed; second: also at leaf 1) *)
Definition toy_randomizer (us us' : list (F * F)) (indices values : list F) : outcome (result unit) :=
  obind (toy_build 1 us) (fun '(t, db) => obind (toy_build 1 us') (fun '(t', db') =>
    roundtrip (prove_randomizer t db t' db' indices values 1 toy5 Quint)
      (verify_randomizer t' db' indices 1 toy5 Quint demo_g demo_h))).

Example C43_randomizer_example :
  toy_randomizer [(fe 1, fe 30); (fe 2, fe 7)] [(fe 2, fe 8); (fe 1, fe 30); (fe 2, fe 7)] [fe 2] [fe 7] = Done (Ok tt).
Proof. vm_compute; reflexivity. Qed.
Example C46_example :
  toy_randomizer [(fe 1, fe 30); (fe 2, fe 7)] [(fe 2, fe 8); (fe 1, fe 31); (fe 2, fe 7)] [fe 2] [fe 7] = Done (Err VerificationError).
Proof. vm_compute; reflexivity. Qed.
Example C43_randomizer_generators : enough_generators (length [fe 2] * (2 * 1 * permutation_cost toy5 Quint)) ex_G ex_H.
Proof. repeat split; try (vm_compute; lia); left; vm_compute; lia. Qed.

(** the hypotheses: a depth-2 tree with two leaves overwritten *)
Definition toy_changes : list (F * F) := written_back [fe 3; fe 17] [fe 44; fe 45] toy_updates.
Example C46_collision_free : collision_free 4 (hash_value toy5 Quint) 2 toy_changes.
Proof. apply history_ok_spec. vm_compute. reflexivity. Qed.
Example C46_history : exists t db, history (tree_4_new toy5) (tree_4_update toy5) 2 db_new toy_changes t db.
Proof.
  refine (proj1 (C38_tree_4 toy5 _ eq_refl 2 db_new toy_changes _ C46_collision_free)); [|vm_compute; lia].
  apply C34_params_ok.
Qed.
(** the contents agree except at leaves 3 and 1, and really differ there *)
Example C46_same_but_at : same_but_at 2 [fe 3; fe 17] (after 4 2 toy_updates) (after 4 2 toy_changes) /\
  after 4 2 toy_updates 3%Z <> after 4 2 toy_changes 3%Z /\ after 4 2 toy_updates 1%Z <> after 4 2 toy_changes 1%Z.
Proof.
  split; [apply (written_same 2 [fe 3; fe 17] [fe 44; fe 45]); reflexivity|].
  split; intros E; apply (f_equal (@fval _)) in E; vm_compute in E; discriminate E.
Qed.
Example C46_opens_at : let m := after 4 2 toy_updates in let H := hash_value toy5 Quint in
  opens_at H 2 (node 4 H m 2 0) (fe 17) (fe 11) (concat (siblings 4 H m 2 1)).
Proof.
  exists [], (siblings 4 (hash_value toy5 Quint) (after 4 2 toy_updates) 2 1). split; [reflexivity|]. split; [reflexivity|].
  split; [repeat constructor|]. apply Fp_ext. vm_compute. reflexivity.
Qed.
(** the prover's run for these two trees: all constraints are satisfied, 144 multipliers *)
Example C46_honest_run :
  obind (toy_build 2 toy_updates) (fun '(t, db) => obind (toy_build 2 toy_changes) (fun '(t', db') =>
    obind (prun demoW false (prove_randomizer t db t' db' [fe 3; fe 17] [fe 30; fe 11] 2 toy5 Quint) (prover_new demo_g demo_h []))
      (fun '(r, s) => Done (match r with Ok comms => length comms | Err _ => O end, length (p_aL s),
         forallb (fun l => feqb (lc_value (prover_assignment s) l) 0) (p_constraints s)))))
  = Done (15%nat, 144%nat, true).
Proof. vm_compute. reflexivity. Qed.
End Examples.
