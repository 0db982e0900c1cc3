(** For which numbers of elements the inner-product verification reaches its comparison. *)
From Coq Require Import List Arith.

(** [n]: the size claimed; [lG], [lH], [lGf], [lHf]: how many generators and factors; [lL], [lR]:
    how many points of either kind in the proof; [empty_panics]: what the inversion of an empty
    list does.  The last line compares the number of scalars with the number of points. *)
Definition ipp_counts (empty_panics : bool) (n lG lH lGf lHf lL lR : nat) : Prop :=
  lL < 32 /\ n = 2 ^ lL /\ lL <= lR /\ (lL = 0 -> empty_panics = false) /\
  Nat.min lG (Nat.min lGf n) + Nat.min lHf n + lL + lL = lG + lH + lL + lR.
