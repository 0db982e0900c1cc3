(** An extractor for the inner-product argument.  It is a program on scalars:
    challenges and final values of the conversations of a tree. *)
From Coq Require Import List ZArith.
From Verif.Base Require Import Outcome Fp Params Algebra.
From Verif.Spec Require Import IPPSpec.
Import ListNotations.

Section Extractor.
Context {P : Params}.
Local Open Scope fe_scope.

(** the coefficients over [G ++ H ++ [Q]] of the combination [a, b, c] over
    the generators folded with [u] *)
Definition unfold_gens (u : F) (a b : list F) (c : F) : list F :=
  (vscale (finv u) a ++ vscale u a) ++ (vscale u b ++ vscale (finv u) b) ++ [c].

Definition lin3 (c1 : F) (w1 : list F) (c2 : F) (w2 : list F) (c3 : F) (w3 : list F) : list F :=
  vadd (vscale c1 w1) (vadd (vscale c2 w2) (vscale c3 w3)).

(** Lagrange interpolation: given the values of [q0 + q1 v + q2 v^2] at three
    points [v], the coefficients [q2], [q1], [q0] *)
Definition lagr2 (v1 v2 v3 : F) (w1 w2 w3 : list F) : list F :=
  lin3 (finv ((v1 - v2) * (v1 - v3))) w1 (finv ((v2 - v1) * (v2 - v3))) w2 (finv ((v3 - v1) * (v3 - v2))) w3.
Definition lagr1 (v1 v2 v3 : F) (w1 w2 w3 : list F) : list F :=
  lin3 (- ((v2 + v3) * finv ((v1 - v2) * (v1 - v3)))) w1 (- ((v1 + v3) * finv ((v2 - v1) * (v2 - v3)))) w2
       (- ((v1 + v2) * finv ((v3 - v1) * (v3 - v2)))) w3.
Definition lagr0 (v1 v2 v3 : F) (w1 w2 w3 : list F) : list F :=
  lin3 ((v2 * v3) * finv ((v1 - v2) * (v1 - v3))) w1 ((v1 * v3) * finv ((v2 - v1) * (v2 - v3))) w2
       ((v1 * v2) * finv ((v3 - v1) * (v3 - v2))) w3.

Definition split3 (n : nat) (w : list F) : list F * list F * F :=
  (firstn n w, firstn n (skipn n w), nth (n + n) w 0).

Definition lift_relation (u : F) (x y : list F) (z : F) : extraction :=
  Relation (vscale (finv u) x ++ vscale u x) (vscale u y ++ vscale (finv u) y) z.

Definition combine4 (u1 u2 u3 u4 : F) (a1 b1 a2 b2 a3 b3 a4 b4 : list F) : extraction :=
  let v1 := u1 * u1 in let v2 := u2 * u2 in let v3 := u3 * u3 in let v4 := u4 * u4 in
  let n := (length a1 + length a1)%nat in
  (* v_i w_i opens v_i^2 L + v_i P + R *)
  let w1 := vscale v1 (unfold_gens u1 a1 b1 (ip a1 b1)) in
  let w2 := vscale v2 (unfold_gens u2 a2 b2 (ip a2 b2)) in
  let w3 := vscale v3 (unfold_gens u3 a3 b3 (ip a3 b3)) in
  let w4 := vscale v4 (unfold_gens u4 a4 b4 (ip a4 b4)) in
  let wL := lagr2 v1 v2 v3 w1 w2 w3 in
  let wP := lagr1 v1 v2 v3 w1 w2 w3 in
  let wR := lagr0 v1 v2 v3 w1 w2 w3 in
  let d := vadd (lin3 (v4 * v4) wL v4 wP 1 wR) (vscale (- (1)) w4) in
  if forallb (fun c => feqb c 0) d then
    let '(a, b, _) := split3 n wP in Opening a b
  else
    let '(x, y, z) := split3 n d in Relation x y z.

Fixpoint ipp_extract (t : scalar_tree) : extraction :=
  match t with
  | SLeaf a b => Opening [a] [b]
  | SNode u1 t1 u2 t2 u3 t3 u4 t4 =>
      match ipp_extract t1, ipp_extract t2, ipp_extract t3, ipp_extract t4 with
      | Opening a1 b1, Opening a2 b2, Opening a3 b3, Opening a4 b4 =>
          combine4 u1 u2 u3 u4 a1 b1 a2 b2 a3 b3 a4 b4
      | Relation x y z, _, _, _ => lift_relation u1 x y z
      | _, Relation x y z, _, _ => lift_relation u2 x y z
      | _, _, Relation x y z, _ => lift_relation u3 x y z
      | _, _, _, Relation x y z => lift_relation u4 x y z
      end
  end.

(** what the result has to be worth *)
Definition extraction_ok (Q Pt : G1) (G H : list G1) (e : extraction) : Prop :=
  match e with
  | Opening a b => opens Q Pt G H a b
  | Relation x y z => relation Q G H x y z
  end.
End Extractor.
