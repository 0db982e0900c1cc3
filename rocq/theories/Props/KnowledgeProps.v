(** C52: knowledge soundness of the verifying functions.

    Vocabulary: [knowledge], [answers], [enough_challenges] (Spec/Knowledge.v),
    [opens] (Spec/OpeningSpec.v), [opens_at], [written_back] (Spec/RandomizerSpec.v),
    [node], [after], [history], [collision_free], [climbed], [siblings]
    (Spec/MerkleSpec.v), [hash_value], [mimc_value], [commit_all], [blindings]
    (Spec/HashSpec.v). *)
From Coq Require Import ZArith String List Bool Lia Arith.
From Verif.Base Require Import Outcome Fp Params Algebra Instances.
From Verif.Model Require Import Transcript LinComb Prog IPP Prover Verifier Gadgets Hash Merkle MerkleGadget Randomizer.
From Verif.Spec Require Import R1CS Protocol Gadget IPPSpec R1CSTree R1CSExtractor HashSpec MerkleSpec OpeningSpec RandomizerSpec Knowledge.
From Verif.Proofs Require Import KnowledgeMain AnswerMain TreeCheck MerkleMain.
From Verif.Props Require Import Demo GadgetProps HashProps TreeProps MerkleProps RandomizerProps.
Import ListNotations.

Section Props.
Context {P : Params} {OK : ParamsOk P}.
Local Open Scope fe_scope.
Context (W : world) (t0 : transcript) (g h : G1).

(** ** C52.  Whoever can make a verifier accept knows secrets that the gadget allows *)
(** [verify_non_zero_val]: the first commitment is opened to a value other than 0 *)
Theorem C52_non_zero comms :
  knowledge W t0 (verify_non_zero_val comms) g h (firstn 2 comms) [] (fun v => nth 0 v 0 <> 0).
Proof. exact (non_zero_knowledge W t0 g h comms). Qed.

(** [verify_bounded_num]: to a value within the bounds (under the size condition of C28) *)
Theorem C52_bounded checks lower upper n comms :
  (0 <= lower)%Z -> (0 <= upper < modulus)%Z -> (lower + 2 ^ (Z.of_nat n + 1) <= modulus)%Z ->
  knowledge W t0 (verify_bounded_num checks lower upper n comms) g h (firstn 3 comms) []
    (fun v => (lower <= fval (nth 0 v 0%fe) <= upper)%Z).
Proof. exact (bounded_knowledge W t0 g h checks lower upper n comms). Qed.

(** [verify_set_membership]: to an element of the set *)
Theorem C52_set_membership set comms : set <> [] ->
  knowledge W t0 (verify_set_membership set comms) g h (firstn (1 + length set) comms) [] (fun v => In (nth 0 v 0) set).
Proof. exact (set_membership_knowledge W t0 g h set comms). Qed.

(** [verify_set_non_membership]: to something else *)
Theorem C52_set_non_membership set comms : set <> [] ->
  knowledge W t0 (verify_set_non_membership set comms) g h (firstn (1 + 2 * length set) comms) [] (fun v => ~ In (nth 0 v 0) set).
Proof. exact (set_non_membership_knowledge W t0 g h set comms). Qed.

(** [verify_set_membership_alt]: to bits of which one is set, and an element or 0 (see C30) *)
Theorem C52_set_membership_alt set comms :
  knowledge W t0 (verify_set_membership_alt set comms) g h (firstn (length set + 1) comms) [] (fun v =>
    Forall (fun b => b = 0 \/ b = 1) (firstn (length set) v) /\ fsum (firstn (length set) v) = 1 /\
    (nth (length set) v 0 = 0 \/ exists it, In it set /\ nth (length set) v 0 = fe_of it)).
Proof. exact (set_membership_alt_knowledge W t0 g h set comms). Qed.

(** [verify_mimc_preimage]: to a preimage *)
Theorem C52_mimc image constants n comms : (0 < n)%nat ->
  knowledge W t0 (verify_mimc_preimage image constants n comms) g h (firstn 2 comms) [] (fun v =>
    (n <= length constants)%nat /\ mimc_value (firstn n constants) (nth 0 v 0) (nth 1 v 0) = image).
Proof. exact (mimc_knowledge W t0 g h image constants n comms). Qed.

Section Poseidon.
Context (p : poseidon_params) (sbox : sbox_type) (Hp : params_ok p) (Hsbox : sbox <> Inverse) (Hf : (0 < full_rounds_beginning p)%nat).
(** [verify_Poseidon_2], [_4], [_8]: to a preimage.  The last commitment is the
    verifier's own one to 0. *)
Theorem C52_Poseidon_2 output comms :
  knowledge W t0 (verify_Poseidon_2 output p sbox g h comms) g h (firstn 2 comms ++ [commit g h 0 0]) [2%nat]
    (fun v => hash_value p sbox (firstn 2 v) = output).
Proof. exact (Poseidon_2_knowledge W t0 g h p sbox Hp Hsbox Hf output comms). Qed.
Theorem C52_Poseidon_4 output comms :
  knowledge W t0 (verify_Poseidon_4 output p sbox g h comms) g h (firstn 4 comms ++ [commit g h 0 0]) [4%nat]
    (fun v => hash_value p sbox (firstn 4 v) = output).
Proof. exact (Poseidon_4_knowledge W t0 g h p sbox Hp Hsbox Hf output comms). Qed.
Theorem C52_Poseidon_8 output comms :
  knowledge W t0 (verify_Poseidon_8 output p sbox g h comms) g h (firstn 8 comms ++ [commit g h 0 0]) [8%nat]
    (fun v => hash_value p sbox (firstn 8 v) = output).
Proof. exact (Poseidon_8_knowledge W t0 g h p sbox Hp Hsbox Hf output comms). Qed.

(** [verify_leaf_inclusion_*]: to a leaf, an index and nodes that open the root *)
Theorem C52_leaf_4 root depth comms : (2 < length comms)%nat -> (length comms <= 2 + 3 * (4 * ((depth * 2 + 7) / 8)))%nat ->
  knowledge W t0 (verify_leaf_inclusion_4_ary_merkle_tree root depth p sbox g h comms) g h (comms ++ [commit g h 0 0]) [length comms]
    (fun v => opens 4 (hash_value p sbox) (4 * ((depth * 2 + 7) / 8)) root (nth 0 v 0) (nth 1 v 0)
      (skipn 2 (firstn (length comms) v))).
Proof. exact (leaf_4_knowledge W t0 g h p sbox Hp Hsbox Hf root depth comms). Qed.
Theorem C52_leaf_8 root depth comms : (2 < length comms)%nat -> (length comms <= 2 + 7 * depth)%nat ->
  knowledge W t0 (verify_leaf_inclusion_8_ary_merkle_tree root depth p sbox g h comms) g h (comms ++ [commit g h 0 0]) [length comms]
    (fun v => opens 8 (hash_value p sbox) depth root (nth 0 v 0) (nth 1 v 0) (skipn 2 (firstn (length comms) v))).
Proof. exact (leaf_8_knowledge W t0 g h p sbox Hp Hsbox Hf root depth comms). Qed.
End Poseidon.

(** [verify_randomizer]: to the original root, and for every index to a value and nodes that
    open this root there; writing the values back in the modified tree gives this root *)
Theorem C52_randomizer {ENC : EncodingOk P} p depth db0 us new_tree new_db indices comms :
  params_ok p -> (width p = 5)%nat -> (0 < full_rounds_beginning p)%nat -> (0 < full_rounds_end p)%nat ->
  (depth * 2 <= 8 * modbytes)%nat -> (0 < depth)%nat -> indices <> [] ->
  history (tree_4_new p) (tree_4_update p) depth db0 us new_tree new_db -> collision_free 4 (hash_value p Quint) depth us ->
  let block := S (depth * 3) in
  let k := (1 + length indices * block)%nat in
  knowledge W t0 (verify_randomizer new_tree new_db indices depth p Quint g h comms) g h (firstn k comms ++ [commit g h 0 0]) [k]
    (fun v =>
      let root := nth 0 v 0 in
      let values := map (fun i => nth (1 + i * block) v 0) (seq 0 (length indices)) in
      (forall i, (i < length indices)%nat ->
         opens_at (hash_value p Quint) depth root (nth i indices 0) (nth i values 0) (firstn (depth * 3) (skipn (1 + i * block + 1) v))) /\
      root = node 4 (hash_value p Quint) (after 4 depth (written_back indices values us)) depth 0).
Proof.
  exact (fun Hp Hw Hf => randomizer_knowledge W t0 g h p Hp Hf depth db0 us new_tree new_db indices comms Hw).
Qed.
End Props.

(** ** The honest prover's side: for all secrets that the gadget allows there are accepted
    trees, so the theorems above are about something *)
Section Answers.
Context {P : Params} {OK : ParamsOk P}.
Local Open Scope fe_scope.
Context (W W' : world) (label : list Z) (g h : G1).
Theorem C52_bounded_answers checks val randomness rng lower upper n :
  randomness <> None \/ rng = true -> (lower <= val <= upper)%Z ->
  (val - lower < 2 ^ Z.of_nat n)%Z -> (upper - val < 2 ^ Z.of_nat n)%Z ->
  answers W W' label g h (prove_bounded_num checks val randomness lower upper n rng) (verify_bounded_num checks lower upper n)
    (fun comms => nth_error comms 0 = Some (commit g h (fe_of val) (blinding W randomness 0))).
Proof. exact (bounded_num_answers W W' label g h checks val randomness rng lower upper n). Qed.
Theorem C52_non_zero_answers value randomness rng :
  randomness <> None \/ rng = true -> value <> 0 ->
  answers W W' label g h (prove_non_zero_val value randomness rng) verify_non_zero_val
    (fun comms => nth_error comms 0 = Some (commit g h value (blinding W randomness 0))).
Proof. exact (non_zero_answers W W' label g h value randomness rng). Qed.
Theorem C52_set_membership_answers value randomness set rng :
  randomness <> None \/ rng = true -> In value set ->
  answers W W' label g h (prove_set_membership value randomness set rng) (verify_set_membership set)
    (fun comms => nth_error comms 0 = Some (commit g h value (blinding W randomness 0))).
Proof. exact (set_membership_answers W W' label g h value randomness set rng). Qed.
Theorem C52_set_membership_alt_answers value randomness set rng :
  randomness <> None \/ rng = true -> count_occ Z.eq_dec set value = 1%nat ->
  answers W W' label g h (prove_set_membership_alt value randomness set rng) (verify_set_membership_alt set)
    (fun comms => nth_error comms (length set) = Some (commit g h (fe_of value) (blinding W randomness (length set)))).
Proof. exact (set_membership_alt_answers W W' label g h value randomness set rng). Qed.
Theorem C52_set_non_membership_answers value randomness set rng :
  randomness <> None \/ rng = true -> ~ In value set ->
  answers W W' label g h (prove_set_non_membership value randomness set rng) (verify_set_non_membership set)
    (fun comms => nth_error comms 0 = Some (commit g h value (blinding W randomness 0))).
Proof. exact (non_membership_answers W W' label g h value randomness set rng). Qed.
Theorem C52_mimc_answers x y randomness rng constants n :
  blindings_given randomness rng 2 -> (n <= length constants)%nat ->
  let image := mimc_value (firstn n constants) x y in
  answers W W' label g h (prove_mimc_preimage [x; y] randomness image constants n rng)
    (verify_mimc_preimage image constants n) (fun comms => comms = commit_all g h [x; y] (blindings W randomness 2)).
Proof. exact (mimc_answers W W' label g h x y randomness rng constants n). Qed.
Context (p : poseidon_params) (sbox : sbox_type) (Hp : params_ok p) (Hsbox : sbox <> Inverse).
Theorem C52_Poseidon_2_answers x y randomness rng :
  width p = 3%nat -> blindings_given randomness rng 2 ->
  let output := hash_value p sbox [x; y] in
  answers W W' label g h (prove_Poseidon_2 [x; y] randomness output p sbox rng)
    (verify_Poseidon_2 output p sbox g h) (fun comms => comms = commit_all g h [x; y] (blindings W randomness 2)).
Proof. exact (hash_2_answers W W' label g h p sbox Hp Hsbox x y randomness rng). Qed.
Theorem C52_Poseidon_4_answers xs randomness rng :
  width p = 5%nat -> length xs = 4%nat -> blindings_given randomness rng 4 ->
  let output := hash_value p sbox xs in
  answers W W' label g h (prove_Poseidon_4 xs randomness output p sbox rng)
    (verify_Poseidon_4 output p sbox g h) (fun comms => comms = commit_all g h xs (blindings W randomness 4)).
Proof. exact (hash_4_answers W W' label g h p sbox Hp Hsbox xs randomness rng). Qed.
Theorem C52_Poseidon_8_answers xs randomness rng :
  width p = 9%nat -> length xs = 8%nat -> blindings_given randomness rng 8 ->
  let output := hash_value p sbox xs in
  answers W W' label g h (prove_Poseidon_8 xs randomness output p sbox rng)
    (verify_Poseidon_8 output p sbox g h) (fun comms => comms = commit_all g h xs (blindings W randomness 8)).
Proof. exact (hash_8_answers W W' label g h p sbox Hp Hsbox xs randomness rng). Qed.
Theorem C52_leaf_4_answers leaf idx randomness rng proof depth :
  width p = 5%nat -> blindings_given randomness rng 2 ->
  Forall (fun s => length s = 3%nat) proof -> (length proof <= depth)%nat -> (depth * 2 <= 8 * modbytes)%nat ->
  (fval idx < 4 ^ Z.of_nat (length proof))%Z ->
  let root := climbed 4 (hash_value p sbox) (fval idx) leaf proof in
  answers W W' label g h (prove_leaf_inclusion_4_ary_merkle_tree leaf idx randomness proof root depth p sbox rng)
    (verify_leaf_inclusion_4_ary_merkle_tree root depth p sbox g h)
    (fun comms => firstn 2 comms = commit_all g h [leaf; idx] (blindings W randomness 2) /\ length comms = (2 + length (concat proof))%nat).
Proof. exact (leaf_4_answers W W' label g h p sbox Hp Hsbox leaf idx randomness rng proof depth). Qed.
Theorem C52_leaf_8_answers leaf idx randomness rng proof depth :
  width p = 9%nat -> blindings_given randomness rng 2 ->
  Forall (fun s => length s = 7%nat) proof -> (length proof <= depth)%nat -> (depth * 3 <= 8 * modbytes)%nat ->
  (fval idx < 8 ^ Z.of_nat (length proof))%Z ->
  let root := climbed 8 (hash_value p sbox) (fval idx) leaf proof in
  answers W W' label g h (prove_leaf_inclusion_8_ary_merkle_tree leaf idx randomness proof root depth p sbox rng)
    (verify_leaf_inclusion_8_ary_merkle_tree root depth p sbox g h)
    (fun comms => firstn 2 comms = commit_all g h [leaf; idx] (blindings W randomness 2) /\ length comms = (2 + length (concat proof))%nat).
Proof. exact (leaf_8_answers W W' label g h p sbox Hp Hsbox leaf idx randomness rng proof depth). Qed.
Context {ENC : EncodingOk P}.
Theorem C52_randomizer_answers d db0 us t db db0' us' t' db' indices :
  width p = 5%nat -> (d * 2 <= 8 * modbytes)%nat -> (0 < d)%nat ->
  let Hash := hash_value p Quint in
  let history := history (tree_4_new p) (tree_4_update p) in
  history d db0 us t db -> collision_free 4 Hash d us -> history d db0' us' t' db' -> collision_free 4 Hash d us' ->
  same_but_at d indices (after 4 d us) (after 4 d us') ->
  let original := map (fun idx => after 4 d us (leaf 4 d idx)) indices in
  answers W W' label g h (prove_randomizer t db t' db' indices original d p Quint)
    (verify_randomizer t' db' indices d p Quint g h)
    (fun comms => exists blindings, length blindings = length comms /\
       comms = commit_all g h (root t :: flat_map (fun idx => after 4 d us (leaf 4 d idx) ::
                                 concat (siblings 4 Hash (after 4 d us) d (leaf 4 d idx))) indices) blindings).
Proof. exact (randomizer_answers W W' label g h p Hp d db0 us t db db0' us' t' db' indices). Qed.
End Answers.

Print Assumptions C52_non_zero.
Print Assumptions C52_bounded.
Print Assumptions C52_set_membership.
Print Assumptions C52_set_non_membership.
Print Assumptions C52_set_membership_alt.
Print Assumptions C52_mimc.
Print Assumptions C52_Poseidon_2.
Print Assumptions C52_Poseidon_4.
Print Assumptions C52_Poseidon_8.
Print Assumptions C52_leaf_4.
Print Assumptions C52_leaf_8.
Print Assumptions C52_randomizer.
Print Assumptions C52_bounded_answers.
Print Assumptions C52_non_zero_answers.
Print Assumptions C52_set_membership_answers.
Print Assumptions C52_set_membership_alt_answers.
Print Assumptions C52_set_non_membership_answers.
Print Assumptions C52_mimc_answers.
Print Assumptions C52_Poseidon_2_answers.
Print Assumptions C52_Poseidon_4_answers.
Print Assumptions C52_Poseidon_8_answers.
Print Assumptions C52_leaf_4_answers.
Print Assumptions C52_leaf_8_answers.
Print Assumptions C52_randomizer_answers.

(** ** Concrete cases, over the toy backend *)
Section Examples.
#[local] Existing Instance toyP.
#[local] Existing Instance toyP_ok.
#[local] Existing Instance toyP_enc.
Local Open Scope fe_scope.

(** challenges for a circuit with up to four multipliers and up to nine constraints; one more
    challenge [z] for every further constraint, one more [y] for every multiplier *)
Example C52_challenges : enough_challenges 2 9 (map fe [7; 8; 9; 10]%Z) (map fe [30; 31; 32; 33; 34; 35; 36; 37; 38; 39]%Z)
  (map fe [41; 42; 43; 44; 45]%Z) (map fe [51; 52; 53; 54; 55; 56; 57]%Z) (map fe [61; 62]%Z) (map fe [1; 2; 3; 4]%Z).
Proof.
  split; [repeat split|]. split; [repeat split; apply nodup_b_ok; vm_compute; reflexivity|].
  apply (forallb_Forall nz_b); [exact nz_b_ok|vm_compute; reflexivity].
Qed.

(** [verify_non_zero_val] for a commitment to 5, [verify_bounded_num] for 12 between 10 and 20,
    [verify_set_membership] for 3 in the set of 3 and 4: the circuits exist and there are
    accepted trees for them *)
Example C52_small :
  answers demoW demoW' [] demo_g demo_h (prove_non_zero_val (fe 5) None true) verify_non_zero_val
    (fun comms => nth_error comms 0 = Some (commit demo_g demo_h (fe 5) (blinding demoW None 0))) /\
  answers demoW demoW' [] demo_g demo_h (prove_bounded_num true 12 None 10 20 4 true) (verify_bounded_num true 10 20 4)
    (fun comms => nth_error comms 0 = Some (commit demo_g demo_h (fe_of 12) (blinding demoW None 0))) /\
  answers demoW demoW' [] demo_g demo_h (prove_set_membership (fe 3) None [fe 3; fe 4] true) (verify_set_membership [fe 3; fe 4])
    (fun comms => nth_error comms 0 = Some (commit demo_g demo_h (fe 3) (blinding demoW None 0))).
Proof.
  split; [|split].
  - apply C52_non_zero_answers; [right; reflexivity|]. apply nz_b_ok. reflexivity.
  - apply C52_bounded_answers; [right; reflexivity|lia|cbn; lia|cbn; lia].
  - apply C52_set_membership_answers; [right; reflexivity|left; reflexivity].
Qed.
(** the size condition of [C52_bounded] *)
Example C52_bounded_sizes : (0 <= 10)%Z /\ (0 <= 20 < modulus)%Z /\ (10 + 2 ^ (Z.of_nat 4 + 1) <= modulus)%Z.
Proof. repeat split; vm_compute; discriminate. Qed.

(** the randomizer for two trees of depth 2 that differ at leaves 3 and 1 (17 and 1 are
    the same leaf) *)
Example C52_randomizer_case : exists t db t' db',
  history (tree_4_new toy5) (tree_4_update toy5) 2 db_new toy_changes t' db' /\
  collision_free 4 (hash_value toy5 Quint) 2 toy_changes /\
  answers demoW demoW' [] demo_g demo_h
    (prove_randomizer t db t' db' [fe 3; fe 17] (map (fun idx => after 4 2 toy_updates (leaf 4 2 idx)) [fe 3; fe 17]) 2 toy5 Quint)
    (verify_randomizer t' db' [fe 3; fe 17] 2 toy5 Quint demo_g demo_h) (fun _ => True).
Proof.
  assert (Hc : collision_free 4 (hash_value toy5 Quint) 2 toy_updates) by (apply history_ok_spec; vm_compute; reflexivity).
  assert (Hp : params_ok toy5) by apply C34_params_ok.
  assert (H2 : (2 * 2 <= 8 * modbytes)%nat) by (vm_compute; lia).
  destruct (proj1 (C38_tree_4 toy5 Hp eq_refl 2 db_new toy_updates H2 Hc)) as (t & db & Hh).
  destruct C46_history as (t' & db' & Hh').
  exists t, db, t', db'. split; [exact Hh'|]. split; [exact C46_collision_free|].
  destruct (C52_randomizer_answers demoW demoW' [] demo_g demo_h toy5 Hp 2 db_new toy_updates t db db_new toy_changes t' db' [fe 3; fe 17]
    eq_refl H2 ltac:(lia) Hh Hc Hh' C46_collision_free (proj1 C46_same_but_at)) as (comms & ps & vs & E1 & (bs & Hl & Hg) & E2 & Ht).
  exists comms, ps, vs. split; [exact E1|]. split; [exact I|]. split; [exact E2|exact Ht].
Qed.
End Examples.
