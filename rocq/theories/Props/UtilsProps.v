(** * C44, C45, C47: generator derivation, index selection, chained challenges *)
From Coq Require Import ZArith String List Bool Lia Arith Permutation DecimalString.
From Verif.Base Require Import Outcome Fp Params Algebra Instances.
From Verif.Model Require Import Transcript Gadgets Hash Merkle Randomizer.
From Verif.Proofs Require Import Utils.
From Verif.Props Require Import Demo GadgetProps.
Import ListNotations.

Section Props.
Context {P : Params} {OK : ParamsOk P}.
Local Open Scope fe_scope.

(** the decimal writing of a number *)
Local Notation written i := (bytes_of_string (NilZero.string_of_uint (Nat.to_uint i))).

(** ** C44.  The generators are the hashes of the prefix followed by 1, 2, ..., n *)
Theorem C44_generators prefix n : length (get_generators prefix n) = n /\
  forall i, (i < n)%nat -> nth_error (get_generators prefix n) i = Some (g1_from_msg_hash (prefix ++ written (S i))).
Proof. exact (generators_nth prefix n). Qed.
(** which are pairwise different strings *)
Theorem C44_different_strings prefix n : exists strings,
  get_generators prefix n = map g1_from_msg_hash strings /\ NoDup strings /\
  forall s, In s strings <-> exists i, (1 <= i <= n)%nat /\ s = prefix ++ written i.
Proof. exact (generators_strings prefix n). Qed.
(** so the generators are pairwise different unless two of these strings have the same hash *)
Theorem C44_different_generators prefix n :
  (forall i j, (1 <= i <= n)%nat -> (1 <= j <= n)%nat ->
     g1_from_msg_hash (prefix ++ written i) = g1_from_msg_hash (prefix ++ written j) -> prefix ++ written i = prefix ++ written j) ->
  NoDup (get_generators prefix n).
Proof. exact (generators_distinct prefix n). Qed.
(** a longer list of generators extends a shorter one *)
Theorem C44_prefix prefix n k : firstn n (get_generators prefix (n + k)) = get_generators prefix n.
Proof. exact (generators_prefix prefix n k). Qed.
(** different prefixes of the same length never hash the same string *)
Theorem C44_same_length_prefixes (prefix prefix' : list Z) i j : length prefix = length prefix' -> prefix <> prefix' ->
  prefix ++ written i <> prefix' ++ written j.
Proof. exact (same_length_prefixes prefix prefix' (written i) (written j)). Qed.
(** but with the prefixes "G" and "G1" they do: the two lists share a generator *)
Theorem C44_prefixes_share_generators :
  nth_error (get_generators (bytes_of_string "G") 11) 10 = nth_error (get_generators (bytes_of_string "G1") 1) 0 /\
  nth_error (get_generators (bytes_of_string "G1") 1) 0 <> None.
Proof. exact generators_shared. Qed.

(** ** C45.  The indices are below the size, without duplicates and not too many *)
Theorem C45_indices from_bytes nonce size count : (0 < size < modulus)%Z ->
  exists indices, get_indices_to_modify from_bytes nonce size count = Done indices /\
    NoDup indices /\ (length indices <= count)%nat /\ (forall x, In x indices -> (0 <= fval x < size)%Z).
Proof. exact (indices_done from_bytes nonce size count). Qed.
(** they are the values of the first [k] blocks of the stream obtained from the nonce, modulo
    the size, for some [k]; if there are fewer than asked for, the stream is used up *)
Theorem C45_drawn from_bytes nonce size count indices : (0 < size < modulus)%Z -> (0 < modbytes)%nat ->
  get_indices_to_modify from_bytes nonce size count = Done indices ->
  let stream := shake256 (fe_bytes nonce) (2 * count * modbytes) in
  exists k, (k * modbytes <= length stream)%nat /\
    (forall x, In x indices <-> exists j, (j < k)%nat /\
       x = fe_of (fval (from_bytes (firstn modbytes (skipn (j * modbytes) stream))) mod size)) /\
    (length indices = count \/ (length indices < count /\ length stream < S k * modbytes)%nat).
Proof. exact (indices_drawn from_bytes nonce size count indices). Qed.
(** exactly the selected positions change, to the hash of the old value; the old values are
    returned under their indices.  (The machine word has at least as many values as there are data.) *)
Theorem C45_randomized limb data indices : (Z.of_nat (length data) <= 2 ^ Z.of_nat limb)%Z ->
  NoDup indices -> (forall x, In x indices -> (fval x < Z.of_nat (length data))%Z) ->
  exists mods new, get_randomized_data limb data indices = Done (mods, new) /\
  length new = length data /\
  (forall x, In x indices -> nth (Z.to_nat (fval x)) new 0 = fe_from_msg_hash (fe_bytes (nth (Z.to_nat (fval x)) data 0))) /\
  (forall j, (j < length data)%nat -> (forall x, In x indices -> Z.to_nat (fval x) <> j) -> nth j new 0 = nth j data 0) /\
  (forall x v, In (x, v) mods <-> In x indices /\ v = nth (Z.to_nat (fval x)) data 0) /\ NoDup (map fst mods).
Proof. exact (randomized_exactly limb data indices). Qed.
(** in whatever order the set of indices is enumerated *)
Theorem C45_any_order limb data indices indices' : (Z.of_nat (length data) <= 2 ^ Z.of_nat limb)%Z ->
  NoDup indices -> (forall x, In x indices -> (fval x < Z.of_nat (length data))%Z) -> Permutation indices indices' ->
  exists mods mods' new, get_randomized_data limb data indices = Done (mods, new) /\
    get_randomized_data limb data indices' = Done (mods', new) /\ Permutation mods mods'.
Proof. exact (randomized_any_order limb data indices indices'). Qed.

(** ** C47.  Every challenge is the hash of the state, the input points and the previous
    challenges times the generator; at least one is returned, even if [n] is 0 *)
Theorem C47_challenges input state n : exists cs,
  let point_bytes cs := flat_map (fun c => g1_bytes (g1_mul c g1_generator)) cs in
  gen_challenges input state n = Done (cs, state ++ flat_map g1_bytes input ++ point_bytes (removelast cs)) /\
  length cs = Nat.max 1 n /\
  forall i, (i < length cs)%nat ->
    nth i cs 0 = fe_from_msg_hash (state ++ flat_map g1_bytes input ++ point_bytes (firstn i cs)).
Proof. exact (challenges_chain input state n). Qed.
(** asking for more challenges does not change the first ones *)
Theorem C47_prefix input state n k cs cs' st st' : (0 < n)%nat ->
  gen_challenges input state n = Done (cs, st) -> gen_challenges input state (n + k) = Done (cs', st') -> firstn n cs' = cs.
Proof. exact (challenges_prefix input state n k cs cs' st st'). Qed.
End Props.

Print Assumptions C44_generators.
Print Assumptions C44_different_strings.
Print Assumptions C44_different_generators.
Print Assumptions C44_prefix.
Print Assumptions C44_same_length_prefixes.
Print Assumptions C44_prefixes_share_generators.
Print Assumptions C45_indices.
Print Assumptions C45_drawn.
Print Assumptions C45_randomized.
Print Assumptions C45_any_order.
Print Assumptions C47_challenges.
Print Assumptions C47_prefix.

(** ** Concrete cases, over the toy backend *)
Section Examples.
#[local] Existing Instance toyP.
#[local] Existing Instance toyP_ok.
Local Open Scope fe_scope.

Fixpoint nodupb (l : list F) : bool :=
  match l with [] => true | x :: l => negb (existsb (feqb x) l) && nodupb l end.

Example C44_example : get_generators (bytes_of_string "G") 12 <> [] /\ nodupb (get_generators (bytes_of_string "G") 40) = true /\
  (forall i j, (1 <= i <= 3)%nat -> (1 <= j <= 3)%nat ->
     let s n := bytes_of_string "G" ++ bytes_of_string (NilZero.string_of_uint (Nat.to_uint n)) in
     g1_from_msg_hash (s i) = g1_from_msg_hash (s j) -> s i = s j).
Proof.
  split; [discriminate|]. split; [vm_compute; reflexivity|].
  intros i j Hi Hj. assert (Hi' : i = 1%nat \/ i = 2%nat \/ i = 3%nat) by lia. assert (Hj' : j = 1%nat \/ j = 2%nat \/ j = 3%nat) by lia.
  destruct Hi' as [->|[->| ->]], Hj' as [->|[->| ->]]; cbv zeta; intros E; try reflexivity;
    apply (f_equal (@fval _)) in E; vm_compute in E; discriminate E.
Qed.

Definition toy_from_bytes (l : list Z) : F := fe (fold_left (fun a b => a * 256 + b)%Z l 0%Z).
(** three indices below 5; with 9 asked for, only the 5 that exist are found *)
Example C45_example :
  match get_indices_to_modify toy_from_bytes (fe 77) 5 3 with Done l => (length l, nodupb l) | Panic => (O, false) end = (3%nat, true) /\
  match get_indices_to_modify toy_from_bytes (fe 77) 2 4 with Done l => (length l, nodupb l) | Panic => (O, false) end = (2%nat, true) /\
  get_indices_to_modify toy_from_bytes (fe 77) 0 4 = Panic.
Proof. repeat split; vm_compute; reflexivity. Qed.
Example C45_randomized_example :
  match get_randomized_data 2 [fe 10; fe 11; fe 12] [fe 2; fe 0] with
  | Done (mods, new) => (map (fun '(i, v) => (fval i, fval v)) mods, feqb (nth 1 new (fe 0)) (fe 11), map (fun x => feqb x (fe 10) || feqb x (fe 12)) new)
  | Panic => ([], false, [])
  end = ([(0, 10); (2, 12)]%Z, true, [false; false; false]).
Proof. vm_compute. reflexivity. Qed.
(** beyond the machine word the wrong position is changed *)
Example C45_limb_needed :
  match get_randomized_data 1 [fe 10; fe 11; fe 12] [fe 2] with Done (_, new) => map (feqb (fe 10)) new | Panic => [] end = [false; false; false] /\
  match get_randomized_data 2 [fe 10; fe 11; fe 12] [fe 2] with Done (_, new) => map (feqb (fe 10)) new | Panic => [] end = [true; false; false].
Proof. split; vm_compute; reflexivity. Qed.
Example C47_example :
  match gen_challenges [demo_g; demo_h] [1; 2]%Z 3 with Done (cs, st) => (length cs, nodupb cs) | Panic => (O, false) end = (3%nat, true) /\
  match gen_challenges [demo_g; demo_h] [1; 2]%Z 0 with Done (cs, st) => length cs | Panic => O end = 1%nat.
Proof. split; vm_compute; reflexivity. Qed.
End Examples.
