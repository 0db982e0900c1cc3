(** How large a circuit a gadget makes, on paper: the numbers of multiplication gates and
    of linear constraints as functions of the public arguments and, for openings of Merkle
    trees, of the number of commitments. *)
From Coq Require Import ZArith String List Arith.
From Verif.Base Require Import Outcome Fp Params Algebra.
From Verif.Model Require Import Transcript LinComb Prog IPP Prover Verifier Gadgets Hash Merkle.
From Verif.Spec Require Import Compose.
Import ListNotations.
Local Open Scope nat_scope.

Section CircuitSize.
Context {P : Params}.

(** an S-box: gates and constraints *)
Definition sbox_gates (sbox : sbox_type) : nat := match sbox with Cube => 2 | Quint => 3 | Inverse => 3 end.
Definition sbox_rows (sbox : sbox_type) : nat := match sbox with Cube => 4 | Quint => 6 | Inverse => 7 end.

(** a permutation of the given width applies so many of them *)
Definition sboxes (p : poseidon_params) : nat :=
  width p * (full_rounds_beginning p + full_rounds_end p) + partial_rounds p.
Definition permutation_gates p sbox := sboxes p * sbox_gates sbox.
Definition permutation_rows p sbox := sboxes p * sbox_rows sbox.

(** The levels of an opening: of the [m] commitments 2 are for leaf and index, the others
    for the siblings of the levels.  The gadgets of the 4-ary tree work in whole bytes. *)
Definition levels_4 (depth m : nat) : nat := Nat.min (4 * ((depth * 2 + 7) / 8)) ((m - 2) / 3).
Definition levels_8 (depth m : nat) : nat := Nat.min depth ((m - 2) / 7).

(** [m] is the number of commitments *)
Definition gates (st : statement) (m : nat) : nat :=
  match st with
  | NonZero => 2
  | Bounded _ _ n => 2 * n
  | Member set => length set
  | MemberAlt set => 3 * length set
  | NotMember set => 2 * length set
  | Hamming new _ => 2 * length new
  | Mimc _ _ n => 2 * n
  | Hash2 p sbox _ | Hash4 p sbox _ | Hash8 p sbox _ => permutation_gates p sbox
  | Leaf4 p sbox _ depth => levels_4 depth m * (13 + permutation_gates p sbox)
  | Leaf8 p sbox _ depth => levels_8 depth m * (34 + permutation_gates p sbox)
  | Randomized p depth _ _ _ indices => length indices * (2 * depth * permutation_gates p Quint)
  end.
Definition rows (st : statement) (m : nat) : nat :=
  match st with
  | NonZero => 6
  | Bounded _ _ n => 4 * n + 5
  | Member set => 3 * length set + 1
  | MemberAlt set => 7 * length set + 2
  | NotMember set => 7 * length set
  | Hamming new _ => 3 * length new + 1
  | Mimc _ _ n => 4 * n + 1
  | Hash2 p sbox _ | Hash4 p sbox _ | Hash8 p sbox _ => permutation_rows p sbox + 1
  | Leaf4 p sbox _ depth => levels_4 depth m * (26 + permutation_rows p sbox) + 2
  | Leaf8 p sbox _ depth => levels_8 depth m * (68 + permutation_rows p sbox) + 2
  | Randomized p depth _ _ _ indices => length indices * (2 * depth * permutation_rows p Quint + 1) + 1
  end.

(** of several statements, each with its number of commitments *)
Definition total_of (f : statement -> nat -> nat) (sts : list statement) (ms : list nat) : nat :=
  list_sum (map (fun '(st, m) => f st m) (combine sts ms)).
End CircuitSize.
