(** Vocabulary for witness indistinguishability: counting the random tapes with
    which a prover outputs a given proof. *)
From Coq Require Import ZArith String List.
From Verif.Base Require Import Outcome Fp Params Algebra.
From Verif.Model Require Import Transcript LinComb Prog Prover Verifier.
Import ListNotations.

Section Indist.
Context {P : Params}.
Local Open Scope fe_scope.

(** the world in which the values drawn from position [c] on are those of the tape *)
Definition with_tape (W : world) (c : nat) (tape : list F) : world :=
  World (fun i => if (Nat.leb c i && Nat.ltb (i - c) (length tape))%bool then nth (i - c) tape 0 else w_random W i) (w_order W).

(** exactly [m] of the tapes of length [k] have the property *)
Definition number_of (k : nat) (Q : list F -> Prop) (m : nat) : Prop :=
  exists l, NoDup l /\ length l = m /\ forall tape, In tape l <-> length tape = k /\ Q tape.

(** with this tape, [prove] returns this proof (and leaves this transcript) *)
Definition yields (W : world) (s : prover) (G H : list G1) (pf : r1cs_proof) (tp : transcript) (tape : list F) : Prop :=
  prove (with_tape W (p_nrand s) tape) s G H = Done (Ok (pf, tp)).

(** a program that draws no random values (the prover's own ones apart) *)
Fixpoint no_random {CA CR A} (m : prog CA CR A) : Prop :=
  match m with
  | PRet _ | PPanic => True
  | PMultiply _ _ k => forall r, no_random (k r)
  | PAllocate _ k => forall r, no_random (k r)
  | PAllocMultiplier _ k => forall r, no_random (k r)
  | PConstrain _ k => forall r, no_random (k r)
  | PSpecify c k => no_random c /\ forall r, no_random (k r)
  | PEvaluate _ k => forall r, no_random (k r)
  | PAllocSingle _ k => forall r, no_random (k r)
  | PChallenge _ k => forall r, no_random (k r)
  | PCommit _ k => forall r, no_random (k r)
  | PShuffle _ k => forall r, no_random (k r)
  | PRandom _ => False
  end.

(** every point is a multiple of [h], and [h] is not the identity: in a group of
    prime order this holds of every [h] but the identity *)
Definition generates (h : G1) : Prop := h <> g1_id /\ forall X, exists a, X = g1_mul a h.
End Indist.
