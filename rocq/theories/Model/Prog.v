(** src/r1cs/constraint_system.rs: circuit-building programs.

    Gadgets are functions generic over [CS: ConstraintSystem]; proving and
    verifying code calls the trait methods, plus [Prover::commit] or
    [Verifier::commit].  Such code is modelled as a program in the free monad
    of those calls.  [Prover.v] and [Verifier.v] give the two interpretations.

    Simplification: a program is a tree of calls, so a call's continuation
    depends on the call's result only; Rust code that mutates local state
    between calls is rendered with that state as an argument.

    - [CA], [CR]: argument and result of [commit] ([F*F] and [G1*var] for the
      prover, [G1] and [var] for the verifier).
    - [PPanic]: an explicit panic ([unwrap] on [None], index out of bounds).
    - [PShuffle]: iteration over a [HashMap] (used by
      [LinearCombination::simplify]); the order is chosen by the environment.
    - [PRandom]: [FieldElement::random()] / [random_using_rng]. *)
From Coq Require Import ZArith String List.
From Verif.Base Require Import Outcome Fp Params.
From Verif.Model Require Import LinComb.
Import ListNotations.

Section Prog.
Context {P : Params}.

Inductive prog (CA CR A : Type) : Type :=
| PRet (a : A)
| PPanic
(* constraint_system.rs 42-46 *)
| PMultiply (left right : lc) (k : var * var * var -> prog CA CR A)
(* 58 *)
| PAllocate (assignment : option F) (k : result var -> prog CA CR A)
(* 67-70 *)
| PAllocMultiplier (assignment : option (F * F)) (k : result (var * var * var) -> prog CA CR A)
(* 76 *)
| PConstrain (l : lc) (k : unit -> prog CA CR A)
(* 97-99 *)
| PSpecify (callback : prog CA CR (result unit)) (k : result unit -> prog CA CR A)
(* 102 *)
| PEvaluate (l : lc) (k : option F -> prog CA CR A)
(* 107-110 *)
| PAllocSingle (assignment : option F) (k : result (var * option var) -> prog CA CR A)
(* 135, second phase only *)
| PChallenge (label : string) (k : F -> prog CA CR A)
(* prover.rs 119, verifier.rs 124; first phase only *)
| PCommit (a : CA) (k : CR -> prog CA CR A)
| PShuffle (l : list (var * F)) (k : list (var * F) -> prog CA CR A)
| PRandom (k : F -> prog CA CR A).

Global Arguments PRet {CA CR A} a.
Global Arguments PPanic {CA CR A}.
Global Arguments PMultiply {CA CR A} left right k.
Global Arguments PAllocate {CA CR A} assignment k.
Global Arguments PAllocMultiplier {CA CR A} assignment k.
Global Arguments PConstrain {CA CR A} l k.
Global Arguments PSpecify {CA CR A} callback k.
Global Arguments PEvaluate {CA CR A} l k.
Global Arguments PAllocSingle {CA CR A} assignment k.
Global Arguments PChallenge {CA CR A} label k.
Global Arguments PCommit {CA CR A} a k.
Global Arguments PShuffle {CA CR A} l k.
Global Arguments PRandom {CA CR A} k.

Context {CA CR : Type}.
Local Notation pg := (prog CA CR).

Fixpoint pbind {A B} (m : pg A) (f : A -> pg B) : pg B :=
  match m with
  | PRet a => f a
  | PPanic => PPanic
  | PMultiply l r k => PMultiply l r (fun x => pbind (k x) f)
  | PAllocate a k => PAllocate a (fun x => pbind (k x) f)
  | PAllocMultiplier a k => PAllocMultiplier a (fun x => pbind (k x) f)
  | PConstrain l k => PConstrain l (fun x => pbind (k x) f)
  | PSpecify c k => PSpecify c (fun x => pbind (k x) f)
  | PEvaluate l k => PEvaluate l (fun x => pbind (k x) f)
  | PAllocSingle a k => PAllocSingle a (fun x => pbind (k x) f)
  | PChallenge s k => PChallenge s (fun x => pbind (k x) f)
  | PCommit a k => PCommit a (fun x => pbind (k x) f)
  | PShuffle l k => PShuffle l (fun x => pbind (k x) f)
  | PRandom k => PRandom (fun x => pbind (k x) f)
  end.

(** the [?] operator *)
Definition ptry {A B} (m : pg (result A)) (f : A -> pg (result B)) : pg (result B) :=
  pbind m (fun r => match r with Ok a => f a | Err e => PRet (Err e) end).

(** the calls as programs *)
Definition cs_multiply (l r : lc) : pg (var * var * var) := PMultiply l r PRet.
Definition cs_allocate (a : option F) : pg (result var) := PAllocate a PRet.
Definition cs_allocate_multiplier (a : option (F * F)) : pg (result (var * var * var)) :=
  PAllocMultiplier a PRet.
Definition cs_constrain (l : lc) : pg unit := PConstrain l PRet.
Definition cs_specify (c : pg (result unit)) : pg (result unit) := PSpecify c PRet.
Definition cs_evaluate (l : lc) : pg (option F) := PEvaluate l PRet.
Definition cs_allocate_single (a : option F) : pg (result (var * option var)) :=
  PAllocSingle a PRet.
Definition cs_challenge (label : string) : pg F := PChallenge label PRet.
Definition cs_commit (a : CA) : pg CR := PCommit a PRet.
Definition p_random : pg F := PRandom PRet.

(** a computation that does not touch the constraint system but can panic *)
Definition p_lift {A} (o : outcome A) : pg A :=
  match o with
  | Done a => PRet a
  | Panic => PPanic
  end.

(** src/r1cs/linear_combination.rs 53-67 inside a program *)
Definition p_simplify (l : lc) : pg lc := PShuffle (lc_accumulate l) PRet.

(** [for] loops: over a list with loop-carried state *)
Fixpoint p_fold {A S} (f : S -> A -> pg S) (l : list A) (s : S) : pg S :=
  match l with
  | [] => PRet s
  | a :: t => pbind (f s a) (fun s' => p_fold f t s')
  end.

(** ... whose body uses [?] *)
Fixpoint p_try_fold {A S} (f : S -> A -> pg (result S)) (l : list A) (s : S) : pg (result S) :=
  match l with
  | [] => PRet (Ok s)
  | a :: t => ptry (f s a) (fun s' => p_try_fold f t s')
  end.

End Prog.

Declare Scope prog_scope.
Notation "x <- m ;; f" := (pbind m (fun x => f))
  (at level 61, m at next level, right associativity) : prog_scope.
Notation "' p <- m ;; f" := (pbind m (fun x => match x with p => f end))
  (at level 61, p pattern, m at next level, right associativity) : prog_scope.
Notation "m1 ;;; m2" := (pbind m1 (fun _ => m2))
  (at level 61, right associativity) : prog_scope.
Notation "x <-? m ;; f" := (ptry m (fun x => f))
  (at level 61, m at next level, right associativity) : prog_scope.
Notation "' p <-? m ;; f" := (ptry m (fun x => match x with p => f end))
  (at level 61, p pattern, m at next level, right associativity) : prog_scope.
Notation "m1 ;;? m2" := (ptry m1 (fun _ => m2))
  (at level 61, right associativity) : prog_scope.

Delimit Scope prog_scope with prog.
Bind Scope prog_scope with prog.
