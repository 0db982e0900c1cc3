(** What the randomizer shows about the original tree. *)
From Coq Require Import ZArith List.
From Verif.Base Require Import Outcome Fp Params Algebra.
From Verif.Model Require Import Merkle.
From Verif.Spec Require Import MerkleSpec.
Import ListNotations.

Section RandomizerSpec.
Context {P : Params}.
Context (H : list F -> F).

(** [opens_at d root idx v nodes]: hashing upwards from the value [v] at the leaf that
    [idx] denotes in a 4-ary tree of depth [d] with the siblings [proof] gives [root];
    [nodes] is [proof], from the root down, after a part that is not used *)
Definition opens_at (d : nat) (root idx v : F) (nodes : list F) : Prop :=
  exists rest proof,
    nodes = rest ++ concat proof /\ length proof = d /\ Forall (fun s => length s = 3%nat) proof /\
    climbed 4 H (leaf 4 d idx) v proof = root.

(** the history [us] (last update first) followed by the writing of [vals] at [indices] *)
Definition written_back (indices vals : list F) (us : list (F * F)) : list (F * F) := rev (combine indices vals) ++ us.

(** the two contents differ at most at the leaves the indices denote *)
Definition same_but_at (d : nat) (indices : list F) (m m' : contents) : Prop :=
  forall i, (0 <= i < 4 ^ Z.of_nat d)%Z -> (forall idx, In idx indices -> leaf 4 d idx <> i) -> m i = m' i.
End RandomizerSpec.
