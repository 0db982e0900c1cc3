(** When a proving function panics, when it returns an error and when it makes its circuit
    and its commitments, on paper: by the arguments alone. *)
From Coq Require Import ZArith String List Arith Bool.
From Verif.Base Require Import Outcome Fp Params Algebra.
From Verif.Model Require Import Transcript LinComb Prog IPP Prover Verifier Gadgets Hash Merkle.
From Verif.Spec Require Import R1CS HashSpec MerkleSpec Compose CircuitSize Behaviour.
Import ListNotations.
Local Open Scope nat_scope.
Local Notation length := List.length.

Inductive attempt := WillPanic | WillFail (e : R1CSError) | WillGo.

Section Attempt.
Context {P : Params}.

(** blindings were passed, or a generator to draw them from *)
Definition supplied {A} (randomness : option A) (rng : bool) : bool := match randomness with Some _ => true | None => rng end.
Definition no_randomness : R1CSError := GadgetError "Since randomness is None, provide".
Definition needs {A} (randomness : option A) (rng : bool) (then_ : attempt) : attempt :=
  if supplied randomness rng then then_ else WillFail no_randomness.
(** so many blindings, when [k] are drawn unless they were passed *)
Definition blindings (k : nat) (randomness : option (list F)) : nat := match randomness with Some l => length l | None => k end.

(** a function that takes [k] inputs and as many blindings *)
Definition with_inputs (k : nat) (xs : list F) (randomness : option (list F)) (rng : bool) (then_ : attempt) : attempt :=
  if negb (supplied randomness rng) then WillFail no_randomness
  else if negb (Nat.eqb (length xs) k) || negb (Nat.eqb (blindings k randomness) k)
  then WillFail (GadgetError (length_message k (length xs) (blindings k randomness)))
  else then_.
(** a proof of membership in a tree; [nodes] siblings are passed *)
Definition opens_with (arity levels nodes : nat) (randomness : option (list F)) (rng : bool) : attempt :=
  if negb (supplied randomness rng) then WillFail no_randomness
  else if negb (Nat.eqb (blindings 2 randomness) 2) then WillFail (GadgetError "Provided randomness should have size 2")
  else if broken_level arity levels nodes then WillPanic else WillGo.
(** [values] begins with the leaves of the tree with contents [m] at [indices] *)
Definition right_values (depth : nat) (m : contents) (indices values : list F) : bool :=
  forallb (fun i => match nth_error values i with Some v => feqb (m (leaf 4 depth (nth i indices 0%fe))) v | None => false end)
    (seq 0 (length indices)).

(** [checks] is true of a debug build, where arithmetic on integers is checked *)
Definition attempts (checks : bool) (c : call) : attempt :=
  match c with
  | PNonZero _ r rng | PMember _ r _ rng | PMemberAlt _ r _ rng | PNotMember _ r _ rng => needs r rng WillGo
  | PBounded x r lower upper _ rng => needs r rng (if checks && (Z.ltb x lower || Z.ltb upper x) then WillPanic else WillGo)
  | PHamming xs new _ =>
      if Nat.eqb (length xs) (length new) then WillGo else WillFail (GadgetError "Original and new are of different lengths")
  | PMimc xs r _ constants n rng => with_inputs 2 xs r rng (if Nat.ltb (length constants) n then WillPanic else WillGo)
  | PHash2 xs r _ _ _ rng => with_inputs 2 xs r rng WillGo
  | PHash4 xs r _ _ _ rng => with_inputs 4 xs r rng WillGo
  | PHash8 xs r _ _ _ rng => with_inputs 8 xs r rng WillGo
  | PLeaf4 _ _ r proof _ depth _ _ rng => opens_with 4 (4 * ((depth * 2 + 7) / 8)) (length (concat proof)) r rng
  | PLeaf8 _ _ r proof _ depth _ _ rng =>
      match opens_with 8 depth (length (concat proof)) r rng with
      | WillGo => if Nat.ltb modbytes ((depth * 3 + 7) / 8) then WillPanic else WillGo
      | a => a
      end
  | PRandomized us _ _ _ t' _ indices values depth _ =>
      if right_values depth (after 4 depth us) indices values && Nat.eqb (Merkle.depth t') depth then WillGo else WillPanic
  end.

(** so many commitments are returned *)
Definition sent (c : call) : nat :=
  match c with
  | PHamming _ new _ => length new
  | PLeaf4 _ _ _ proof _ _ _ _ _ | PLeaf8 _ _ _ proof _ _ _ _ _ => 2 + length (concat proof)
  | c => needed (statement_of c)
  end.

(** The parameters of the hash fit, and an index has a digit for every level.  The trees given
    to the randomizer are ones that their databases have (C63_built: as the tree's functions
    leave them). *)
Definition apt (c : call) : Prop :=
  match c with
  | PHash2 _ _ _ p _ _ => params_ok p /\ width p = 3
  | PHash4 _ _ _ p _ _ => params_ok p /\ width p = 5
  | PHash8 _ _ _ p _ _ => params_ok p /\ width p = 9
  | PLeaf4 _ _ _ _ _ depth p _ _ => params_ok p /\ width p = 5 /\ depth * 2 <= 8 * modbytes
  | PLeaf8 _ _ _ _ _ _ p _ _ => params_ok p /\ width p = 9
  | PRandomized us t db us' t' db' _ _ depth p =>
      params_ok p /\ width p = 5 /\ depth * 2 <= 8 * modbytes /\ Merkle.depth t = depth /\
      stored (hash_value p Quint) (after 4 depth us) depth t db /\ stored (hash_value p Quint) (after 4 depth us') depth t' db'
  | _ => True
  end.

(** A prover on which a proving function can be called: as [Prover::new] makes it, and as
    every one of these functions leaves it (C65_proving_function). *)
Record ready_prover (s : prover) : Prop := {
  rp_pending : p_pending s = None;
  rp_right : length (p_aR s) = length (p_aL s);
  rp_output : length (p_aO s) = length (p_aL s);
  rp_blindings : length (p_v_blinding s) = length (p_v s);
  rp_gates : forall i, i < length (p_aL s) -> (nth i (p_aL s) 0 * nth i (p_aR s) 0 = nth i (p_aO s) 0)%fe;
  rp_range : Forall (lc_in_range (length (p_aL s)) (length (p_v s))) (p_constraints s)
}.

(** one after the other *)
Fixpoint all_attempt (checks : bool) (l : list call) : attempt :=
  match l with
  | [] => WillGo
  | c :: l => match attempts checks c with WillGo => all_attempt checks l | a => a end
  end.
(** of [prove] on a circuit with [n] gates, and of the whole proof *)
Definition prove_attempt (n lenG lenH : nat) : attempt :=
  if Nat.ltb lenG n then WillFail InvalidGeneratorsLength
  else if Nat.ltb lenH n then WillPanic
  else if Nat.ltb lenG (next_power_of_two n) then WillFail InvalidGeneratorsLength
  else if Nat.ltb lenH (next_power_of_two n) then WillPanic
  else WillGo.
Definition gates_of (l : list call) : nat := total_of gates (map statement_of l) (map sent l).
Definition proof_attempt (checks : bool) (l : list call) (lenG lenH : nat) : attempt :=
  match all_attempt checks l with WillGo => prove_attempt (gates_of l) lenG lenH | a => a end.
End Attempt.
