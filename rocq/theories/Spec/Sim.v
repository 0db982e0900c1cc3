(** When a proving program and a verifying program describe the same circuit.

    [sim g h R pp vp]: the two programs make the same constraint-system calls in
    the same order, up to
    - linear combinations that mention the same variables with the same total
      coefficients;
    - witness values, which only the prover supplies;
    - [evaluate_lc], which answers [Some] to the prover and [None] to the verifier;
    - commitments: where the prover commits to [v] with blinding [b], the
      verifier receives the Pedersen commitment of [v], [b];
    - [HashMap] iteration orders, which may differ arbitrarily;
    - randomness drawn by the prover.
    Results of the two programs are related by [R]. *)
From Coq Require Import ZArith String List Permutation.
From Verif.Base Require Import Outcome Fp Params Algebra.
From Verif.Model Require Import LinComb Prog Prover Verifier.
From Verif.Spec Require Import R1CS.
Import ListNotations.

Section Sim.
Context {P : Params} (g h : G1).

Inductive sim : forall {A B : Type}, (A -> B -> Prop) -> pprog A -> vprog B -> Prop :=
| sim_ret : forall A B (R : A -> B -> Prop) a b, R a b -> sim R (PRet a) (PRet b)
| sim_panic : forall A B (R : A -> B -> Prop) m, sim R PPanic m
| sim_multiply : forall A B (R : A -> B -> Prop) l r l' r' k k',
    lc_same l l' -> lc_same r r' -> (forall vs, sim R (k vs) (k' vs)) ->
    sim R (PMultiply l r k) (PMultiply l' r' k')
| sim_allocate : forall A B (R : A -> B -> Prop) x o k k',
    (forall v, sim R (k (Ok v)) (k' (Ok v))) ->
    sim R (PAllocate (Some x) k) (PAllocate o k')
| sim_allocate_multiplier : forall A B (R : A -> B -> Prop) x o k k',
    (forall vs, sim R (k (Ok vs)) (k' (Ok vs))) ->
    sim R (PAllocMultiplier (Some x) k) (PAllocMultiplier o k')
| sim_constrain : forall A B (R : A -> B -> Prop) l l' k k',
    lc_same l l' -> sim R (k tt) (k' tt) -> sim R (PConstrain l k) (PConstrain l' k')
| sim_specify : forall A B (R : A -> B -> Prop) c c' k k',
    sim eq c c' -> (forall r, sim R (k r) (k' r)) -> sim R (PSpecify c k) (PSpecify c' k')
| sim_evaluate : forall A B (R : A -> B -> Prop) l l' k k',
    (forall x, sim R (k (Some x)) (k' None)) -> sim R (PEvaluate l k) (PEvaluate l' k')
| sim_allocate_single : forall A B (R : A -> B -> Prop) x o k k',
    (forall v w, sim R (k (Ok (v, w))) (k' (Ok (v, w)))) ->
    sim R (PAllocSingle (Some x) k) (PAllocSingle o k')
| sim_challenge : forall A B (R : A -> B -> Prop) label k k',
    (forall c, sim R (k c) (k' c)) -> sim R (PChallenge label k) (PChallenge label k')
| sim_commit : forall A B (R : A -> B -> Prop) v b k k',
    (forall w, sim R (k (commit g h v b, w)) (k' w)) ->
    sim R (PCommit (v, b) k) (PCommit (commit g h v b) k')
| sim_shuffle : forall A B (R : A -> B -> Prop) l l' k k',
    (forall m m', Permutation l m -> Permutation l' m' -> sim R (k m) (k' m')) ->
    sim R (PShuffle l k) (PShuffle l' k')
| sim_random : forall A B (R : A -> B -> Prop) k m,
    (forall x, sim R (k x) m) -> sim R (PRandom k) m.

End Sim.
