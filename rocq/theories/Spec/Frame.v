(** A family of statements "the committed value equals every constant in a
    list", as a proving and a verifying program.  Two dummy gates are allocated
    so that the circuit has a non-trivial size. *)
From Coq Require Import List.
From Verif.Base Require Import Outcome Fp Params Algebra.
From Verif.Model Require Import LinComb Prog Prover Verifier.
Import ListNotations.
Local Open Scope prog_scope.

Section Frame.
Context {P : Params}.
Local Open Scope fe_scope.

Fixpoint constrain_all {CA CR} (cs : list lc) : prog CA CR unit :=
  match cs with
  | [] => PRet tt
  | l :: cs => (cs_constrain l ;;; constrain_all cs)%prog
  end.

(** the constraint [var = c] *)
Definition equals (v : var) (c : F) : lc := [(v, 1); (VOne, - c)].

Definition prove_equals (v b : F) (consts : list F) : pprog unit :=
  (x <- cs_commit (v, b) ;;
   cs_allocate_multiplier (Some (0, 0)) ;;; cs_allocate_multiplier (Some (0, 0)) ;;;
   constrain_all (map (equals (snd x)) consts))%prog.

Definition verify_equals (V : G1) (consts : list F) : vprog unit :=
  (x <- cs_commit V ;;
   cs_allocate_multiplier None ;;; cs_allocate_multiplier None ;;;
   constrain_all (map (equals x) consts))%prog.
End Frame.
