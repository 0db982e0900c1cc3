(** What a proof of membership in a Merkle tree shows. *)
From Coq Require Import ZArith List.
From Verif.Base Require Import Outcome Fp Params Algebra.
From Verif.Model Require Import Transcript LinComb Prog Gadgets Merkle.
From Verif.Spec Require Import MerkleSpec.
Import ListNotations.

Section OpeningSpec.
Context {P : Params}.
Context (arity : nat) (H : list F -> F).

(** [opens levels root v idx nodes]: the index [idx] is the residue of a position
    [i] with as many digits as there are lists in [proof]; hashing upwards from the
    value [v] at that position with the siblings [proof] gives [root].  [nodes], the
    siblings from the root down, is [proof] after a part [rest] that is not used; that
    part is empty unless all [levels] levels were. *)
Definition opens (levels : nat) (root v idx : F) (nodes : list F) : Prop :=
  exists rest proof i,
    nodes = rest ++ concat proof /\
    Forall (fun s => length s = (arity - 1)%nat) proof /\
    (length proof <= levels)%nat /\ (rest = [] \/ length proof = levels) /\
    (0 <= i < Z.of_nat arity ^ Z.of_nat (length proof))%Z /\ idx = fe_of i /\
    climbed arity H i v proof = root.
End OpeningSpec.
