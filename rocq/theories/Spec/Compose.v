(** Several gadgets in one proof, as in tests/multiple_constraint_systems.rs 25-92 and
    94-172: the proving functions are called one after the other on one prover, then
    [prove]; the verifying functions, each on its own commitments, on one verifier,
    then [verify]. *)
From Coq Require Import ZArith String List.
From Verif.Base Require Import Outcome Fp Params Algebra.
From Verif.Model Require Import Transcript LinComb Prog IPP Prover Verifier Gadgets Hash Merkle MerkleGadget Randomizer.
From Verif.Spec Require Import R1CS Gadget HashSpec MerkleSpec OpeningSpec RandomizerSpec.
Import ListNotations.

Section Compose.
Context {P : Params}.
Local Notation tree_db := (@hash_db (list F)).
Local Open Scope fe_scope.

(** *** What can be shown: the verifying functions with their public arguments *)
Inductive statement :=
| NonZero
| Bounded (lower upper : Z) (n : nat)
| Member (set : list F)
| MemberAlt (set : list Z)
| NotMember (set : list F)
| Hamming (new : list F) (count : Z)
| Mimc (image : F) (constants : list F) (n : nat)
| Hash2 (p : poseidon_params) (sbox : sbox_type) (output : F)
| Hash4 (p : poseidon_params) (sbox : sbox_type) (output : F)
| Hash8 (p : poseidon_params) (sbox : sbox_type) (output : F)
| Leaf4 (p : poseidon_params) (sbox : sbox_type) (root : F) (depth : nat)
| Leaf8 (p : poseidon_params) (sbox : sbox_type) (root : F) (depth : nat)
| Randomized (p : poseidon_params) (depth : nat) (us : list (F * F)) (t : merkle_tree) (db : tree_db) (indices : list F)
    (** [us] is the history of the modified tree [t]; the verifying function does not use it *).

Section Verifier.
Context (checks : bool) (g h : G1).
Definition verifies (st : statement) : list G1 -> vprog (result unit) :=
  match st with
  | NonZero => verify_non_zero_val
  | Bounded lower upper n => verify_bounded_num checks lower upper n
  | Member set => verify_set_membership set
  | MemberAlt set => verify_set_membership_alt set
  | NotMember set => verify_set_non_membership set
  | Hamming new count => verify_hamming_distance new count
  | Mimc image constants n => verify_mimc_preimage image constants n
  | Hash2 p sbox output => verify_Poseidon_2 output p sbox g h
  | Hash4 p sbox output => verify_Poseidon_4 output p sbox g h
  | Hash8 p sbox output => verify_Poseidon_8 output p sbox g h
  | Leaf4 p sbox root depth => verify_leaf_inclusion_4_ary_merkle_tree root depth p sbox g h
  | Leaf8 p sbox root depth => verify_leaf_inclusion_8_ary_merkle_tree root depth p sbox g h
  | Randomized p depth _ t db indices => verify_randomizer t db indices depth p Quint g h
  end.
(** one after the other; the first error is returned *)
Fixpoint verify_all (l : list (statement * list G1)) : vprog (result unit) :=
  match l with
  | [] => PRet (Ok tt)
  | (st, comms) :: l => ptry (verifies st comms) (fun _ => verify_all l)
  end.
End Verifier.

(** The commitments of [comms] that the verifying function uses, and the number of
    commitments to 0 it then makes itself. *)
Definition received (st : statement) (comms : list G1) : list G1 :=
  match st with
  | NonZero => firstn 2 comms
  | Bounded _ _ _ => firstn 3 comms
  | Member set => firstn (1 + length set) comms
  | MemberAlt set => firstn (length set + 1) comms
  | NotMember set => firstn (1 + 2 * length set) comms
  | Mimc _ _ _ => firstn 2 comms
  | Hash2 _ _ _ => firstn 2 comms
  | Hash4 _ _ _ => firstn 4 comms
  | Hash8 _ _ _ => firstn 8 comms
  | Randomized _ depth _ _ _ indices => firstn (1 + length indices * S (depth * 3)) comms
  | Hamming _ _ | Leaf4 _ _ _ _ | Leaf8 _ _ _ _ => comms
  end.
Definition own (st : statement) : nat :=
  match st with
  | Hash2 _ _ _ | Hash4 _ _ _ | Hash8 _ _ _ | Leaf4 _ _ _ _ | Leaf8 _ _ _ _ | Randomized _ _ _ _ _ _ => 1
  | _ => 0
  end%nat.
(** all commitments of a circuit, and the positions of the verifier's own *)
Definition all_commitments (g h : G1) (l : list (statement * list G1)) : list G1 :=
  flat_map (fun '(st, comms) => received st comms ++ repeat (commit g h 0 0) (own st)) l.
Fixpoint own_positions (start : nat) (l : list (statement * list G1)) : list nat :=
  match l with
  | [] => []
  | (st, comms) :: l =>
      let k := length (received st comms) in
      seq (start + k) (own st) ++ own_positions (start + k + own st) l
  end.

(** *** What the values [v] in the received commitments then satisfy *)
Definition shows (st : statement) (v : list F) : Prop :=
  match st with
  | NonZero => nth 0 v 0 <> 0
  | Bounded lower upper _ => (lower <= fval (nth 0 v 0%fe) <= upper)%Z
  | Member set => In (nth 0 v 0) set
  | MemberAlt set =>
      Forall (fun b => b = 0 \/ b = 1) (firstn (length set) v) /\ fsum (firstn (length set) v) = 1 /\
      (nth (length set) v 0 = 0 \/ exists it, In it set /\ nth (length set) v 0 = fe_of it)
  | NotMember set => ~ In (nth 0 v 0) set
  | Hamming _ _ => True
  | Mimc image constants n => (n <= length constants)%nat /\ mimc_value (firstn n constants) (nth 0 v 0) (nth 1 v 0) = image
  | Hash2 p sbox output | Hash4 p sbox output | Hash8 p sbox output => hash_value p sbox v = output
  | Leaf4 p sbox root depth => opens 4 (hash_value p sbox) (4 * ((depth * 2 + 7) / 8)) root (nth 0 v 0) (nth 1 v 0) (skipn 2 v)
  | Leaf8 p sbox root depth => opens 8 (hash_value p sbox) depth root (nth 0 v 0) (nth 1 v 0) (skipn 2 v)
  | Randomized p depth us _ _ indices =>
      let block := S (depth * 3) in
      let root := nth 0 v 0 in
      let values := map (fun i => nth (1 + i * block) v 0) (seq 0 (length indices)) in
      (forall i, (i < length indices)%nat ->
         opens_at (hash_value p Quint) depth root (nth i indices 0) (nth i values 0) (firstn (depth * 3) (skipn (1 + i * block + 1) v))) /\
      root = node 4 (hash_value p Quint) (after 4 depth (written_back indices values us)) depth 0
  end.
(** each statement of its own part of the values *)
Fixpoint all_show (l : list (statement * list G1)) (v : list F) : Prop :=
  match l with
  | [] => v = []
  | (st, comms) :: l =>
      let k := length (received st comms) in
      shows st (firstn k v) /\ all_show l (skipn (k + own st) v)
  end.

(** the conditions under which a verifying function shows what it should (C28, C35, C41,
    C46); the Hamming distance shows nothing (C32) *)
Definition sound_statement (st : statement) (comms : list G1) : Prop :=
  let hash p sbox := params_ok p /\ sbox <> Inverse /\ (0 < full_rounds_beginning p)%nat in
  match st with
  | NonZero | MemberAlt _ => True
  | Bounded lower upper n => (0 <= lower)%Z /\ (0 <= upper < modulus)%Z /\ (lower + 2 ^ (Z.of_nat n + 1) <= modulus)%Z
  | Member set | NotMember set => set <> []
  | Hamming _ _ => False
  | Mimc _ _ n => (0 < n)%nat
  | Hash2 p sbox _ | Hash4 p sbox _ | Hash8 p sbox _ => hash p sbox
  | Leaf4 p sbox _ depth => hash p sbox /\ (2 < length comms <= 2 + 3 * (4 * ((depth * 2 + 7) / 8)))%nat
  | Leaf8 p sbox _ depth => hash p sbox /\ (2 < length comms <= 2 + 7 * depth)%nat
  | Randomized p depth us t db indices =>
      hash p Quint /\ width p = 5%nat /\ (0 < full_rounds_end p)%nat /\
      (depth * 2 <= 8 * modbytes)%nat /\ (0 < depth)%nat /\ indices <> [] /\
      (exists db0, history (tree_4_new p) (tree_4_update p) depth db0 us t db) /\ collision_free 4 (hash_value p Quint) depth us
  end.

(** *** What can be proved: the proving functions with their arguments *)
Inductive call :=
| PNonZero (x : F) (randomness : option F) (rng : bool)
| PBounded (x : Z) (randomness : option F) (lower upper : Z) (n : nat) (rng : bool)
| PMember (x : F) (randomness : option F) (set : list F) (rng : bool)
| PMemberAlt (x : Z) (randomness : option F) (set : list Z) (rng : bool)
| PNotMember (x : F) (randomness : option F) (set : list F) (rng : bool)
| PHamming (original new : list F) (count : Z)
| PMimc (xs : list F) (randomness : option (list F)) (image : F) (constants : list F) (n : nat) (rng : bool)
| PHash2 (xs : list F) (randomness : option (list F)) (output : F) (p : poseidon_params) (sbox : sbox_type) (rng : bool)
| PHash4 (xs : list F) (randomness : option (list F)) (output : F) (p : poseidon_params) (sbox : sbox_type) (rng : bool)
| PHash8 (xs : list F) (randomness : option (list F)) (output : F) (p : poseidon_params) (sbox : sbox_type) (rng : bool)
| PLeaf4 (x idx : F) (randomness : option (list F)) (proof : list (list F)) (root : F) (depth : nat) (p : poseidon_params) (sbox : sbox_type) (rng : bool)
| PLeaf8 (x idx : F) (randomness : option (list F)) (proof : list (list F)) (root : F) (depth : nat) (p : poseidon_params) (sbox : sbox_type) (rng : bool)
| PRandomized (us : list (F * F)) (t : merkle_tree) (db : tree_db) (us' : list (F * F)) (t' : merkle_tree) (db' : tree_db)
    (indices values : list F) (depth : nat) (p : poseidon_params)
    (** the histories [us] and [us'] of the two trees are not used by the proving function *).

Definition calls (checks : bool) (c : call) : pprog (result (list G1)) :=
  match c with
  | PNonZero x r rng => prove_non_zero_val x r rng
  | PBounded x r lower upper n rng => prove_bounded_num checks x r lower upper n rng
  | PMember x r set rng => prove_set_membership x r set rng
  | PMemberAlt x r set rng => prove_set_membership_alt x r set rng
  | PNotMember x r set rng => prove_set_non_membership x r set rng
  | PHamming xs new count => prove_hamming_distance xs new count
  | PMimc xs r image constants n rng => prove_mimc_preimage xs r image constants n rng
  | PHash2 xs r output p sbox rng => prove_Poseidon_2 xs r output p sbox rng
  | PHash4 xs r output p sbox rng => prove_Poseidon_4 xs r output p sbox rng
  | PHash8 xs r output p sbox rng => prove_Poseidon_8 xs r output p sbox rng
  | PLeaf4 x idx r proof root depth p sbox rng => prove_leaf_inclusion_4_ary_merkle_tree x idx r proof root depth p sbox rng
  | PLeaf8 x idx r proof root depth p sbox rng => prove_leaf_inclusion_8_ary_merkle_tree x idx r proof root depth p sbox rng
  | PRandomized _ t db _ t' db' indices values depth p => prove_randomizer t db t' db' indices values depth p Quint
  end.
(** one after the other; the results are the lists of commitments *)
Fixpoint prove_all (checks : bool) (l : list call) : pprog (result (list (list G1))) :=
  match l with
  | [] => PRet (Ok [])
  | c :: l => ptry (calls checks c) (fun comms => ptry (prove_all checks l) (fun rest => PRet (Ok (comms :: rest))))
  end.

Definition statement_of (c : call) : statement :=
  match c with
  | PNonZero _ _ _ => NonZero
  | PBounded _ _ lower upper n _ => Bounded lower upper n
  | PMember _ _ set _ => Member set
  | PMemberAlt _ _ set _ => MemberAlt set
  | PNotMember _ _ set _ => NotMember set
  | PHamming _ new count => Hamming new count
  | PMimc _ _ image constants n _ => Mimc image constants n
  | PHash2 _ _ output p sbox _ => Hash2 p sbox output
  | PHash4 _ _ output p sbox _ => Hash4 p sbox output
  | PHash8 _ _ output p sbox _ => Hash8 p sbox output
  | PLeaf4 _ _ _ _ root depth p sbox _ => Leaf4 p sbox root depth
  | PLeaf8 _ _ _ _ root depth p sbox _ => Leaf8 p sbox root depth
  | PRandomized _ _ _ us' t' db' indices _ depth p => Randomized p depth us' t' db' indices
  end.

(** the secret is as it should be, and randomness or a generator was passed *)
Definition honest_call (c : call) : Prop :=
  match c with
  | PNonZero x r rng => (r <> None \/ rng = true) /\ x <> 0
  | PBounded x r lower upper n rng =>
      (r <> None \/ rng = true) /\ (lower <= x <= upper)%Z /\ (x - lower < 2 ^ Z.of_nat n)%Z /\ (upper - x < 2 ^ Z.of_nat n)%Z
  | PMember x r set rng => (r <> None \/ rng = true) /\ In x set
  | PMemberAlt x r set rng => (r <> None \/ rng = true) /\ count_occ Z.eq_dec set x = 1%nat
  | PNotMember x r set rng => (r <> None \/ rng = true) /\ ~ In x set
  | PHamming xs new count =>
      length xs = length new /\ count = Z.of_nat (length (filter (fun '(x, y) => negb (feqb x y)) (combine xs new)))
  | PMimc xs r image constants n rng =>
      blindings_given r rng 2 /\ length xs = 2%nat /\ (n <= length constants)%nat /\
      mimc_value (firstn n constants) (nth 0 xs 0) (nth 1 xs 0) = image
  | PHash2 xs r output p sbox rng =>
      blindings_given r rng 2 /\ length xs = 2%nat /\ hash_value p sbox xs = output /\
      params_ok p /\ sbox <> Inverse /\ width p = 3%nat
  | PHash4 xs r output p sbox rng =>
      blindings_given r rng 4 /\ length xs = 4%nat /\ hash_value p sbox xs = output /\
      params_ok p /\ sbox <> Inverse /\ width p = 5%nat
  | PHash8 xs r output p sbox rng =>
      blindings_given r rng 8 /\ length xs = 8%nat /\ hash_value p sbox xs = output /\
      params_ok p /\ sbox <> Inverse /\ width p = 9%nat
  | PLeaf4 x idx r proof root depth p sbox rng =>
      blindings_given r rng 2 /\ Forall (fun s => length s = 3%nat) proof /\ (length proof <= depth)%nat /\
      (depth * 2 <= 8 * modbytes)%nat /\ (fval idx < 4 ^ Z.of_nat (length proof))%Z /\
      climbed 4 (hash_value p sbox) (fval idx) x proof = root /\ params_ok p /\ sbox <> Inverse /\ width p = 5%nat
  | PLeaf8 x idx r proof root depth p sbox rng =>
      blindings_given r rng 2 /\ Forall (fun s => length s = 7%nat) proof /\ (length proof <= depth)%nat /\
      (depth * 3 <= 8 * modbytes)%nat /\ (fval idx < 8 ^ Z.of_nat (length proof))%Z /\
      climbed 8 (hash_value p sbox) (fval idx) x proof = root /\ params_ok p /\ sbox <> Inverse /\ width p = 9%nat
  | PRandomized us t db us' t' db' indices values depth p =>
      let history := history (tree_4_new p) (tree_4_update p) in
      params_ok p /\ width p = 5%nat /\ (depth * 2 <= 8 * modbytes)%nat /\ (0 < depth)%nat /\
      (exists db0, history depth db0 us t db) /\ collision_free 4 (hash_value p Quint) depth us /\
      (exists db0, history depth db0 us' t' db') /\ collision_free 4 (hash_value p Quint) depth us' /\
      same_but_at depth indices (after 4 depth us) (after 4 depth us') /\
      values = map (fun idx => after 4 depth us (leaf 4 depth idx)) indices
  end.

(** The commitments contain the secret in its place, with the randomness that was passed. *)
Definition secret (c : call) (v : list F) : Prop :=
  match c with
  | PNonZero x _ _ | PMember x _ _ _ | PNotMember x _ _ _ => nth_error v 0 = Some x
  | PBounded x _ _ _ _ _ => nth_error v 0 = Some (fe_of x)
  | PMemberAlt x _ set _ => nth_error v (length set) = Some (fe_of x)
  | PHamming xs _ _ => v = xs
  | PMimc xs _ _ _ _ _ | PHash2 xs _ _ _ _ _ | PHash4 xs _ _ _ _ _ | PHash8 xs _ _ _ _ _ => v = xs
  | PLeaf4 x idx _ proof _ _ _ _ _ | PLeaf8 x idx _ proof _ _ _ _ _ => v = x :: idx :: concat proof
  | PRandomized us t _ _ _ _ indices _ depth p =>
      v = Merkle.root t :: flat_map (fun idx => after 4 depth us (leaf 4 depth idx) ::
            concat (siblings 4 (hash_value p Quint) (after 4 depth us) depth (leaf 4 depth idx))) indices
  end.
Definition passed (c : call) (rs : list F) : Prop :=
  match c with
  | PNonZero _ r _ | PBounded _ r _ _ _ _ | PMember _ r _ _ | PNotMember _ r _ _ => forall x, r = Some x -> nth_error rs 0 = Some x
  | PMemberAlt _ r set _ => forall x, r = Some x -> nth_error rs (length set) = Some x
  | PMimc _ r _ _ _ _ | PHash2 _ r _ _ _ _ | PHash4 _ r _ _ _ _ | PHash8 _ r _ _ _ _
  | PLeaf4 _ _ r _ _ _ _ _ _ | PLeaf8 _ _ r _ _ _ _ _ _ => forall l, r = Some l -> firstn (length l) rs = l
  | PHamming _ _ _ | PRandomized _ _ _ _ _ _ _ _ _ _ => True
  end.
Definition good_commitments (g h : G1) (c : call) (comms : list G1) : Prop :=
  exists v rs, length rs = length v /\ comms = commit_all g h v rs /\ secret c v /\ passed c rs.
End Compose.
