(** Results, panics and errors.

    Rust functions of this code base either return a value, return
    [Err(R1CSError)], or panic ([unwrap], out-of-bounds indexing, [assert!]).
    [result] is Rust's [Result<_, R1CSError>]; [outcome] adds the panic. *)
From Coq Require Import ZArith String List.
Import ListNotations.

(* src/errors.rs 5-28 *)
Inductive R1CSError : Type :=
| InvalidGeneratorsLength
| VerificationError
| FormatError
| MissingAssignment
| GadgetError (description : string)
| HashNotFoundInDB (hash : list Z).

Inductive result (A : Type) : Type :=
| Ok (a : A)
| Err (e : R1CSError).
Arguments Ok {A} a.
Arguments Err {A} e.

Inductive outcome (A : Type) : Type :=
| Done (a : A)
| Panic.
Arguments Done {A} a.
Arguments Panic {A}.

Definition obind {A B} (m : outcome A) (f : A -> outcome B) : outcome B :=
  match m with
  | Done a => f a
  | Panic => Panic
  end.

Definition of_option {A} (o : option A) : outcome A :=
  match o with
  | Some a => Done a
  | None => Panic
  end.

(** [unwrap] of a [Result]. *)
Definition unwrap_result {A} (r : result A) : outcome A :=
  match r with
  | Ok a => Done a
  | Err _ => Panic
  end.

(** [assert!(b)]: the program stops with a panic when [b] is false. *)
Definition assertb (b : bool) : outcome unit :=
  if b then Done tt else Panic.

(** The [?] operator inside functions that return [Result]. *)
Definition orbind {A B} (m : outcome (result A)) (f : A -> outcome (result B))
  : outcome (result B) :=
  match m with
  | Done (Ok a) => f a
  | Done (Err e) => Done (Err e)
  | Panic => Panic
  end.

Declare Scope outcome_scope.
Notation "x <- m ;; f" := (obind m (fun x => f))
  (at level 61, m at next level, right associativity) : outcome_scope.
Notation "' p <- m ;; f" := (obind m (fun x => match x with p => f end))
  (at level 61, p pattern, m at next level, right associativity) : outcome_scope.
Notation "m1 ;;; m2" := (obind m1 (fun _ => m2))
  (at level 61, right associativity) : outcome_scope.
Notation "x <-? m ;; f" := (orbind m (fun x => f))
  (at level 61, m at next level, right associativity) : outcome_scope.

(** [v[i]] with Rust's bounds check. *)
Definition index {A} (l : list A) (i : nat) : outcome A := of_option (nth_error l i).

(** [v[i] = a] with Rust's bounds check. *)
Fixpoint set_nth {A} (l : list A) (i : nat) (a : A) : outcome (list A) :=
  match l, i with
  | [], _ => Panic
  | _ :: t, O => Done (a :: t)
  | x :: t, S j => obind (set_nth t j a) (fun t' => Done (x :: t'))
  end.

(** A [for] loop over a list that pushes one element per iteration. *)
Fixpoint mapM {A B} (f : A -> outcome B) (l : list A) : outcome (list B) :=
  match l with
  | [] => Done []
  | a :: t => obind (f a) (fun b => obind (mapM f t) (fun bs => Done (b :: bs)))
  end.

(** A [for] loop over a list with loop-carried state. *)
Fixpoint foldM {A S} (f : S -> A -> outcome S) (l : list A) (s : S) : outcome S :=
  match l with
  | [] => Done s
  | a :: t => obind (f s a) (fun s' => foldM f t s')
  end.

Lemma mapM_ok {A B} (f : A -> outcome B) (g : A -> B) (l : list A) :
  (forall a, In a l -> f a = Done (g a)) -> mapM f l = Done (map g l).
Proof.
  induction l as [|a t IH]; intros H; simpl; [reflexivity|].
  rewrite (H a) by (left; reflexivity). simpl.
  rewrite IH by (intros; apply H; right; assumption). reflexivity.
Qed.

Lemma index_ok {A} (l : list A) (i : nat) (d : A) :
  i < length l -> index l i = Done (nth i l d).
Proof.
  intros H. unfold index. rewrite (nth_error_nth' l d H). reflexivity.
Qed.

Lemma index_out {A} (l : list A) (i : nat) :
  length l <= i -> index l i = Panic.
Proof.
  intros H. unfold index. apply nth_error_None in H. rewrite H. reflexivity.
Qed.
