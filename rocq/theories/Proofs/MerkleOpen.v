(** The Merkle membership gadgets: openings and tree contents, end-to-end proofs. *)
From Coq Require Import ZArith String List Lia Bool Ring Field Arith.
From Verif.Base Require Import Outcome Fp Params Algebra.
From Verif.Model Require Import Transcript LinComb Prog VectorPoly IPP Prover Verifier Gadgets Hash Merkle MerkleGadget.
From Verif.Spec Require Import R1CS Sim Session Protocol Verdict Gadget HashSpec MerkleSpec OpeningSpec.
From Verif.Proofs Require Import IPPProofs LinCombProofs RunProofs GadgetTools GadgetBasic GadgetComplete GadgetPrograms GadgetMain
  HashTools HashSound HashComplete HashPrograms HashMain MerkleTools MerkleTree MerkleBind MerkleMain MerkleSound MerkleComplete.
Import ListNotations.

Section Open.
Context {P : Params} {OK : ParamsOk P}.
Local Open Scope fe_scope.

Lemma concat_len {T} (ls : list (list T)) n : Forall (fun s => length s = n) ls -> length (concat ls) = (n * length ls)%nat.
Proof. induction 1 as [|l ls Hl Hr IH]; cbn [concat length]; [lia|]. rewrite app_length, Hl, IH. lia. Qed.

(** an opening with as many nodes as a tree of depth [d] has on a path uses them all *)
Lemma opens_full bits (Hbits : (0 < bits)%nat) H levels d root v idx nodes :
  opens (2 ^ bits) H levels root v idx nodes -> (d <= levels)%nat -> length nodes = ((2 ^ bits - 1) * d)%nat ->
  exists proof i, nodes = concat proof /\ Forall (fun s => length s = (2 ^ bits - 1)%nat) proof /\ length proof = d /\
    (0 <= i < Z.of_nat (2 ^ bits) ^ Z.of_nat d)%Z /\ idx = fe_of i /\ climbed (2 ^ bits) H i v proof = root.
Proof.
  intros (rest & proof & i & En & Ht & Hl & Hr & Hi & Ex & Er) Hd Hn. pose proof (concat_len _ _ Ht) as Hc.
  assert (Ha : (1 < 2 ^ bits)%nat) by (apply Nat.pow_gt_1; lia).
  rewrite En, app_length, Hc in Hn.
  assert (El : length proof = d).
  { destruct Hr as [-> |Hr]; [cbn [length] in Hn; nia|]. nia. }
  assert (Erest : rest = []) by (destruct rest; [reflexivity|cbn [length] in Hn; nia]).
  subst rest. exists proof, i. rewrite El in Hi. auto 7.
Qed.

Lemma opens_contents bits (Hbits : (0 < bits)%nat) H levels d m v idx nodes :
  opens (2 ^ bits) H levels (node (2 ^ bits) H m d 0) v idx nodes -> (d <= levels)%nat -> length nodes = ((2 ^ bits - 1) * d)%nat ->
  exists i, (0 <= i < Z.of_nat (2 ^ bits) ^ Z.of_nat d)%Z /\ idx = fe_of i /\
    ((v = m i /\ nodes = concat (siblings (2 ^ bits) H m d i)) \/
     (exists c k, (k < d)%nat /\ collision H c (children (2 ^ bits) H m k (ancestor (2 ^ bits) i (S k))))).
Proof.
  intros Ho Hd Hn. destruct (opens_full bits Hbits _ _ _ _ _ _ _ Ho Hd Hn) as (proof & i & -> & Ht & Hl & Hi & Ex & Er).
  exists i. split; [exact Hi|]. split; [exact Ex|].
  destruct (climbed_contents bits Hbits H m d i v proof Hi Ht Hl Er) as [[E1 E2]|(c & k & _ & Hk & Hc)].
  - left. split; [exact E1|]. rewrite <- E2. reflexivity.
  - right. exists c, k. auto.
Qed.

(** the position is the committed index itself when there are no more leaves than field elements *)
Lemma opens_contents_exact bits (Hbits : (0 < bits)%nat) H levels d m v idx nodes :
  opens (2 ^ bits) H levels (node (2 ^ bits) H m d 0) v idx nodes -> (d <= levels)%nat -> length nodes = ((2 ^ bits - 1) * d)%nat ->
  (Z.of_nat (2 ^ bits) ^ Z.of_nat d <= modulus)%Z ->
  (fval idx < Z.of_nat (2 ^ bits) ^ Z.of_nat d)%Z /\
  ((v = m (fval idx) /\ nodes = concat (siblings (2 ^ bits) H m d (fval idx))) \/ exists c c', collision H c c').
Proof.
  intros Ho Hd Hn Hm. destruct (opens_contents bits Hbits _ _ _ _ _ _ _ Ho Hd Hn) as (i & Hi & -> & Hc).
  assert (Ei : fval (fe_of i) = i) by (apply Z.mod_small; lia). rewrite Ei. split; [lia|].
  destruct Hc as [Hc|(c & k & _ & Hc)]; [left; exact Hc|right; eauto].
Qed.

(** *** Gadgets *)
Lemma merkle_4_forces p sbox W ph depth root leaf vi nodes zero vs : params_ok p -> sbox <> Inverse ->
  forces W ph (vanilla_merkle_merkle_tree_4_verif_gadget p sbox depth root leaf (Quantity vi None) nodes [zero]) vs (fun s _ =>
    var_value s zero = 0 ->
    opens 4 (hash_value p sbox) (4 * ((depth * 2 + 7) / 8)) root (var_value s leaf) (var_value s vi) (map (var_value s) nodes)).
Proof.
  intros Hp Hs b vs' s E Hsat Hz.
  exact (merkle_4_sound W ph s p sbox Hp Hs depth root leaf (Quantity vi None) nodes zero vs eq_refl Hz (Ok b) vs' E Hsat b eq_refl).
Qed.
Lemma merkle_8_forces p sbox W ph depth root leaf vi nodes zero vs : params_ok p -> sbox <> Inverse ->
  forces W ph (vanilla_merkle_merkle_tree_8_verif_gadget p sbox depth root leaf (Quantity vi None) nodes zero) vs (fun s _ =>
    var_value s zero = 0 ->
    opens 8 (hash_value p sbox) depth root (var_value s leaf) (var_value s vi) (map (var_value s) nodes)).
Proof.
  intros Hp Hs b vs' s E Hsat Hz.
  exact (merkle_8_sound W ph s p sbox Hp Hs depth root leaf (Quantity vi None) nodes zero vs eq_refl Hz (Ok b) vs' E Hsat b eq_refl).
Qed.

Lemma merkle_4_completes p sbox W W' ph depth leaf vi idx root v nodes zero proof ps vs :
  params_ok p -> sbox <> Inverse -> width p = 5%nat -> session ph ps vs ->
  Forall (fun s => length s = 3%nat) proof -> (length proof <= depth)%nat -> (depth * 2 <= 8 * modbytes)%nat ->
  (fval idx < 4 ^ Z.of_nat (length proof))%Z -> root = climbed 4 (hash_value p sbox) (fval idx) v proof ->
  has_value ps leaf v -> has_value ps vi idx -> has_value ps zero 0 -> Forall2 (has_value ps) nodes (concat proof) ->
  completes W W' ph
    (vanilla_merkle_merkle_tree_4_verif_gadget p sbox depth root leaf (Quantity vi (Some idx)) nodes [zero])
    (vanilla_merkle_merkle_tree_4_verif_gadget p sbox depth root leaf (Quantity vi None) nodes [zero])
    (length proof * (13 + permutation_cost p sbox)) ps vs (Ok tt) (Ok tt).
Proof.
  intros Hp Hs Hw Hy. intros. eapply both_completes; [exact Hy|].
  eapply (merkle_4_both W W' ph p sbox Hp Hs); try eassumption; reflexivity.
Qed.
Lemma merkle_8_completes p sbox W W' ph depth leaf vi idx root v nodes zero proof ps vs :
  params_ok p -> sbox <> Inverse -> width p = 9%nat -> session ph ps vs ->
  Forall (fun s => length s = 7%nat) proof -> (length proof <= depth)%nat -> (depth * 3 <= 8 * modbytes)%nat ->
  (fval idx < 8 ^ Z.of_nat (length proof))%Z -> root = climbed 8 (hash_value p sbox) (fval idx) v proof ->
  has_value ps leaf v -> has_value ps vi idx -> has_value ps zero 0 -> Forall2 (has_value ps) nodes (concat proof) ->
  completes W W' ph
    (vanilla_merkle_merkle_tree_8_verif_gadget p sbox depth root leaf (Quantity vi (Some idx)) nodes zero)
    (vanilla_merkle_merkle_tree_8_verif_gadget p sbox depth root leaf (Quantity vi None) nodes zero)
    (length proof * (34 + permutation_cost p sbox)) ps vs (Ok tt) (Ok tt).
Proof.
  intros Hp Hs Hw Hy. intros. eapply both_completes; [exact Hy|].
  eapply (merkle_8_both W W' ph p sbox Hp Hs); try eassumption; reflexivity.
Qed.

(** *** End to end *)
Section Proves.
Context (p : poseidon_params) (sbox : sbox_type) (Hp : params_ok p) (Hsbox : sbox <> Inverse).

Lemma leaf_4_proves W W' label g h G H leaf idx randomness rng proof depth :
  width p = 5%nat -> blindings_given randomness rng 2 ->
  Forall (fun s => length s = 3%nat) proof -> (length proof <= depth)%nat -> (depth * 2 <= 8 * modbytes)%nat ->
  (fval idx < 4 ^ Z.of_nat (length proof))%Z -> enough_generators (length proof * (13 + permutation_cost p sbox)) G H ->
  let root := climbed 4 (hash_value p sbox) (fval idx) leaf proof in
  proves W W' label g h G H (prove_leaf_inclusion_4_ary_merkle_tree leaf idx randomness proof root depth p sbox rng)
    (verify_leaf_inclusion_4_ary_merkle_tree root depth p sbox g h)
    (fun comms => firstn 2 comms = commit_all g h [leaf; idx] (blindings W randomness 2) /\ length comms = (2 + length (concat proof))%nat).
Proof.
  intros Hw Hb Ht Hd Hm Hi Hg root.
  eapply (both_proves W W' label g h G H _ (verify_leaf_inclusion_4_ary_merkle_tree root depth p sbox g h));
    [apply (both_leaf_inclusion_4 W W' p sbox leaf idx randomness rng proof root depth (prover_new g h (transcript_new label))
              (verifier_new (transcript_new label)) Hp Hsbox Hw Hb Ht Hd Hm Hi eq_refl)|exact Hg|].
  pose proof (rands_length W randomness rng O 2 Hb) as Hr. cbn [p_nrand prover_new].
  change (blindings W randomness 2) with (rands_of W randomness 0 2). unfold opening_blindings.
  destruct (list_2 _ Hr) as (r1 & r2 & ->). cbn [app commit_all combine map firstn length p_g p_h prover_new]. split; [reflexivity|].
  rewrite map_length, combine_length, map_length, seq_length. lia.
Qed.
Lemma leaf_8_proves W W' label g h G H leaf idx randomness rng proof depth :
  width p = 9%nat -> blindings_given randomness rng 2 ->
  Forall (fun s => length s = 7%nat) proof -> (length proof <= depth)%nat -> (depth * 3 <= 8 * modbytes)%nat ->
  (fval idx < 8 ^ Z.of_nat (length proof))%Z -> enough_generators (length proof * (34 + permutation_cost p sbox)) G H ->
  let root := climbed 8 (hash_value p sbox) (fval idx) leaf proof in
  proves W W' label g h G H (prove_leaf_inclusion_8_ary_merkle_tree leaf idx randomness proof root depth p sbox rng)
    (verify_leaf_inclusion_8_ary_merkle_tree root depth p sbox g h)
    (fun comms => firstn 2 comms = commit_all g h [leaf; idx] (blindings W randomness 2) /\ length comms = (2 + length (concat proof))%nat).
Proof.
  intros Hw Hb Ht Hd Hm Hi Hg root.
  eapply (both_proves W W' label g h G H _ (verify_leaf_inclusion_8_ary_merkle_tree root depth p sbox g h));
    [apply (both_leaf_inclusion_8 W W' p sbox leaf idx randomness rng proof root depth (prover_new g h (transcript_new label))
              (verifier_new (transcript_new label)) Hp Hsbox Hw Hb Ht Hd Hm Hi eq_refl)|exact Hg|].
  pose proof (rands_length W randomness rng O 2 Hb) as Hr. cbn [p_nrand prover_new].
  change (blindings W randomness 2) with (rands_of W randomness 0 2). unfold opening_blindings.
  destruct (list_2 _ Hr) as (r1 & r2 & ->). cbn [app commit_all combine map firstn length p_g p_h prover_new]. split; [reflexivity|].
  rewrite map_length, combine_length, map_length, seq_length. lia.
Qed.

(** a membership proof obtained from a tree *)
Lemma siblings_3 arity H bits (m : contents) d i : arity = (2 ^ bits)%nat -> (0 < bits)%nat ->
  Forall (fun s => length s = (arity - 1)%nat) (siblings arity H m d i) /\ length (siblings arity H m d i) = d.
Proof.
  intros -> Hb. split; [apply (siblings_typed bits Hb)|apply siblings_length].
Qed.

Lemma tree_leaf_4_proves W W' label g h G H m d idx randomness rng :
  width p = 5%nat -> blindings_given randomness rng 2 -> (d * 2 <= 8 * modbytes)%nat ->
  (fval idx < 4 ^ Z.of_nat d)%Z -> enough_generators (d * (13 + permutation_cost p sbox)) G H ->
  let root := node 4 (hash_value p sbox) m d 0 in
  proves W W' label g h G H
    (prove_leaf_inclusion_4_ary_merkle_tree (m (fval idx)) idx randomness (siblings 4 (hash_value p sbox) m d (fval idx)) root d p sbox rng)
    (verify_leaf_inclusion_4_ary_merkle_tree root d p sbox g h)
    (fun comms => firstn 2 comms = commit_all g h [m (fval idx); idx] (blindings W randomness 2) /\ length comms = (2 + 3 * d)%nat).
Proof.
  intros Hw Hb Hm Hi Hg root. destruct (siblings_3 4 (hash_value p sbox) 2 m d (fval idx) eq_refl ltac:(lia)) as [Ht Hl].
  assert (Er : root = climbed 4 (hash_value p sbox) (fval idx) (m (fval idx)) (siblings 4 (hash_value p sbox) m d (fval idx))).
  { symmetry. apply (siblings_climbed 2 ltac:(lia)). pose proof (fval_range modulus modulus_prime idx). cbn [Nat.pow Nat.mul Nat.add Z.of_nat Pos.of_succ_nat Pos.succ]. lia. }
  rewrite Er.
  replace (2 + 3 * d)%nat with (2 + length (concat (siblings 4 (hash_value p sbox) m d (fval idx))))%nat by (rewrite (concat_len _ 3), Hl; [reflexivity|exact Ht]).
  apply leaf_4_proves; rewrite ?Hl; auto.
Qed.
Lemma tree_leaf_8_proves W W' label g h G H m d idx randomness rng :
  width p = 9%nat -> blindings_given randomness rng 2 -> (d * 3 <= 8 * modbytes)%nat ->
  (fval idx < 8 ^ Z.of_nat d)%Z -> enough_generators (d * (34 + permutation_cost p sbox)) G H ->
  let root := node 8 (hash_value p sbox) m d 0 in
  proves W W' label g h G H
    (prove_leaf_inclusion_8_ary_merkle_tree (m (fval idx)) idx randomness (siblings 8 (hash_value p sbox) m d (fval idx)) root d p sbox rng)
    (verify_leaf_inclusion_8_ary_merkle_tree root d p sbox g h)
    (fun comms => firstn 2 comms = commit_all g h [m (fval idx); idx] (blindings W randomness 2) /\ length comms = (2 + 7 * d)%nat).
Proof.
  intros Hw Hb Hm Hi Hg root. destruct (siblings_3 8 (hash_value p sbox) 3 m d (fval idx) eq_refl ltac:(lia)) as [Ht Hl].
  assert (Er : root = climbed 8 (hash_value p sbox) (fval idx) (m (fval idx)) (siblings 8 (hash_value p sbox) m d (fval idx))).
  { symmetry. apply (siblings_climbed 3 ltac:(lia)). pose proof (fval_range modulus modulus_prime idx). cbn [Nat.pow Nat.mul Nat.add Z.of_nat Pos.of_succ_nat Pos.succ]. lia. }
  rewrite Er.
  replace (2 + 7 * d)%nat with (2 + length (concat (siblings 8 (hash_value p sbox) m d (fval idx))))%nat by (rewrite (concat_len _ 7), Hl; [reflexivity|exact Ht]).
  apply leaf_8_proves; rewrite ?Hl; auto.
Qed.
End Proves.

(** *** Errors *)
Lemma leaf_no_randomness W leaf idx proof root depth p sbox s :
  prun W false (prove_leaf_inclusion_4_ary_merkle_tree leaf idx None proof root depth p sbox false) s
    = Done (Err (GadgetError "Since randomness is None, provide"), s) /\
  prun W false (prove_leaf_inclusion_8_ary_merkle_tree leaf idx None proof root depth p sbox false) s
    = Done (Err (GadgetError "Since randomness is None, provide"), s).
Proof. split; reflexivity. Qed.
Lemma leaf_wrong_number W leaf idx rands proof root depth p sbox rng s : length rands <> 2%nat ->
  prun W false (prove_leaf_inclusion_4_ary_merkle_tree leaf idx (Some rands) proof root depth p sbox rng) s
    = Done (Err (GadgetError "Provided randomness should have size 2"), s) /\
  prun W false (prove_leaf_inclusion_8_ary_merkle_tree leaf idx (Some rands) proof root depth p sbox rng) s
    = Done (Err (GadgetError "Provided randomness should have size 2"), s).
Proof.
  intros Hl. unfold prove_leaf_inclusion_4_ary_merkle_tree, prove_leaf_inclusion_8_ary_merkle_tree, commit_leaf_and_index.
  apply Nat.eqb_neq in Hl. destruct rng; cbn [check_for_randomness_or_rng_vec randomness_or_rng_vec ptry pbind]; rewrite Hl; split; reflexivity.
Qed.
End Open.
