(** When a verifying function panics, when it returns an error and when it makes its
    circuit, on paper: by the public arguments and the number of commitments alone. *)
From Coq Require Import ZArith String List Arith Bool.
From Verif.Base Require Import Outcome Fp Params Algebra.
From Verif.Model Require Import Transcript LinComb Prog IPP Prover Verifier Gadgets Hash Merkle.
From Verif.Spec Require Import R1CS HashSpec MerkleSpec Compose CircuitSize.
Import ListNotations.
Local Open Scope nat_scope.

Inductive behaviour := Panics | Refuses | Ends.

Section Behaviour.
Context {P : Params}.

(** so many commitments are taken without looking whether they are there *)
Definition needed (st : statement) : nat :=
  match st with
  | NonZero => 2
  | Bounded _ _ _ => 3
  | Member set => 1 + length set
  | MemberAlt set => length set + 1
  | NotMember set => 1 + 2 * length set
  | Hamming _ _ => 0
  | Mimc _ _ _ => 2
  | Hash2 _ _ _ => 2
  | Hash4 _ _ _ => 4
  | Hash8 _ _ _ => 8
  | Leaf4 _ _ _ _ | Leaf8 _ _ _ _ => 2
  | Randomized _ depth _ _ _ indices => 1 + length indices * S (depth * 3)
  end.

(** [nodes] siblings, [arity - 1] for a level, at most [levels] levels: too few for the last
    one, which is begun *)
Definition broken_level (arity levels nodes : nat) : bool :=
  Nat.ltb (nodes / (arity - 1)) levels && negb (Nat.eqb (nodes mod (arity - 1)) 0).

(** of a verifying function called with [m] commitments *)
Definition behaves (checks : bool) (st : statement) (m : nat) : behaviour :=
  if Nat.ltb m (needed st) then Panics
  else match st with
  | Bounded lower upper _ => if checks && Z.ltb upper lower then Panics else Ends
  | Hamming new _ => if Nat.eqb m (length new) then Ends else Refuses
  | Mimc _ constants n => if Nat.ltb (length constants) n then Panics else Ends
  | Leaf4 _ _ _ depth => if broken_level 4 (4 * ((depth * 2 + 7) / 8)) (m - 2) then Panics else Ends
  | Leaf8 _ _ _ depth => if broken_level 8 depth (m - 2) then Panics else Ends
  | Randomized _ depth _ t _ _ => if Nat.eqb (Merkle.depth t) depth then Ends else Panics
  | _ => Ends
  end.

(** the database has the children of every node of a tree of depth [d] *)
Definition stored (H : list F -> F) (m : contents) (d : nat) (t : merkle_tree) (db : @hash_db (list F)) : Prop :=
  Merkle.root t = node 4 H m d 0 /\
  forall k i, k < d -> (0 <= i < 4 ^ Z.of_nat (d - S k))%Z -> db_get db (fe_bytes (H (children 4 H m k i))) = Ok (children 4 H m k i).

(** The parameters of the hash fit.  The modified tree given to the randomizer is one that
    its database has (C63_built: as the tree's functions leave it). *)
Definition fitting (st : statement) : Prop :=
  match st with
  | Hash2 p _ _ => params_ok p /\ width p = 3
  | Hash4 p _ _ | Leaf4 p _ _ _ => params_ok p /\ width p = 5
  | Hash8 p _ _ | Leaf8 p _ _ _ => params_ok p /\ width p = 9
  | Randomized p depth us t db _ => params_ok p /\ width p = 5 /\ depth * 2 <= 8 * modbytes /\ stored (hash_value p Quint) (after 4 depth us) depth t db
  | _ => True
  end.

(** A verifier on which a verifying function can be called: as [Verifier::new] makes it, and
    as every one of these functions leaves it (C63_verifying_function).  No half-used gate
    is waiting, and the constraints speak of variables that exist. *)
Definition ready (s : verifier) : Prop :=
  v_pending s = None /\ Forall (lc_in_range (v_num_vars s) (List.length (v_V s))) (v_constraints s).

(** one after the other *)
Fixpoint all_behave (checks : bool) (sts : list (statement * nat)) : behaviour :=
  match sts with
  | [] => Ends
  | (st, m) :: sts => match behaves checks st m with Ends => all_behave checks sts | b => b end
  end.

(** Of [verify] on a circuit with [n] gates, [lenG] and [lenH] generators and a proof whose
    inner-product argument has [lenL] and [lenR] points.  [empty_panics] is the unknown
    behaviour of the dependency on an empty list ([batch_invert_empty_panics]). *)
Inductive class := MustPanic | MustReturn (r : result unit) | Decides.
Definition verify_class (empty_panics : bool) (n lenG lenH lenL lenR : nat) : class :=
  let N := next_power_of_two n in
  if Nat.ltb lenG N then MustReturn (Err InvalidGeneratorsLength)
  else if Nat.leb 32 lenL || negb (Nat.eqb N (2 ^ lenL)) then MustReturn (Err VerificationError)
  else if Nat.ltb lenH N || negb (Nat.eqb lenL lenR) || (Nat.eqb lenL 0 && empty_panics) then MustPanic
  else Decides.
(** of the whole check *)
Definition check_class (checks empty_panics : bool) (sts : list statement) (ms : list nat) (lenG lenH lenL lenR : nat) : class :=
  match all_behave checks (combine sts ms) with
  | Panics => MustPanic
  | Refuses => MustReturn (Err (GadgetError "Original and new are of different lengths"))
  | Ends => verify_class empty_panics (total_of gates sts ms) lenG lenH lenL lenR
  end.
Definition in_class (o : outcome (result unit)) (k : class) : Prop :=
  match k with
  | MustPanic => o = Panic
  | MustReturn r => o = Done r
  | Decides => o = Done (Ok tt) \/ o = Done (Err VerificationError)
  end.
End Behaviour.
