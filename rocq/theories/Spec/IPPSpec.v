(** The inner-product argument on paper: the vector [s], the recursive verifier,
    trees of conversations and what it means to open a commitment. *)
From Coq Require Import List ZArith.
From Verif.Base Require Import Outcome Fp Params Algebra.
Import ListNotations.

Section IPPSpec.
Context {P : Params}.
Local Open Scope fe_scope.

Definition product (l : list F) : F := fold_right fmul 1 l.

(** entry [i] of the vector [s]: round [j] contributes [u_j] if bit
    [k-1-j] of [i] is set and [1/u_j] otherwise *)
Definition s_entry (us : list F) (i : nat) : F :=
  product (map (fun j => if Nat.testbit i (length us - 1 - j) then nth j us 0 else finv (nth j us 0))
             (seq 0 (length us))).

(** [x * (first half) + y * (second half)] *)
Definition fold_halves (x y : F) (G : list G1) : list G1 :=
  let m := Nat.div2 (length G) in
  zipw (fun a b => g1_add (g1_mul x a) (g1_mul y b)) (firstn m G) (skipn m G).

(** The recursive verifier: it folds generators and commitment with each
    challenge, and finally checks an opening of length one. *)
Fixpoint conversation (Q Pt : G1) (G H : list G1) (us : list F) (Ls Rs : list G1) (a b : F) : Prop :=
  match us, Ls, Rs with
  | [], [], [] =>
      match G, H with
      | [g], [h] => Pt = g1_add (g1_add (g1_mul a g) (g1_mul b h)) (g1_mul (a * b) Q)
      | _, _ => False
      end
  | u :: us, L :: Ls, R :: Rs =>
      conversation Q (g1_add (g1_add (g1_mul (u * u) L) Pt) (g1_mul (finv u * finv u) R))
        (fold_halves (finv u) u G) (fold_halves u (finv u) H) us Ls Rs a b
  | _, _, _ => False
  end.

(** [P = <a,G> + <b,H> + <a,b> Q] *)
Definition opens (Q Pt : G1) (G H : list G1) (a b : list F) : Prop :=
  length a = length G /\ length b = length H /\
  Pt = g1_add (g1_add (msm a G) (msm b H)) (g1_mul (ip a b) Q).

(** a non-trivial linear relation between the generators *)
Definition relation (Q : G1) (G H : list G1) (x y : list F) (z : F) : Prop :=
  length x = length G /\ length y = length H /\
  g1_add (g1_add (msm x G) (msm y H)) (g1_mul z Q) = g1_id /\
  ((exists c, In c (x ++ y) /\ c <> 0) \/ z <> 0).

(** Conversations that share prefixes form a tree: after each [L], [R] the
    prover was rewound and answered four challenges. *)
Inductive ipp_tree : Type :=
| ILeaf (a b : F)
| INode (L R : G1) (u1 : F) (t1 : ipp_tree) (u2 : F) (t2 : ipp_tree)
        (u3 : F) (t3 : ipp_tree) (u4 : F) (t4 : ipp_tree).

(** the conversations of a tree *)
Inductive branch : ipp_tree -> list F -> list G1 -> list G1 -> F -> F -> Prop :=
| branch_leaf a b : branch (ILeaf a b) [] [] [] a b
| branch_1 L R u1 t1 u2 t2 u3 t3 u4 t4 us Ls Rs a b : branch t1 us Ls Rs a b ->
    branch (INode L R u1 t1 u2 t2 u3 t3 u4 t4) (u1 :: us) (L :: Ls) (R :: Rs) a b
| branch_2 L R u1 t1 u2 t2 u3 t3 u4 t4 us Ls Rs a b : branch t2 us Ls Rs a b ->
    branch (INode L R u1 t1 u2 t2 u3 t3 u4 t4) (u2 :: us) (L :: Ls) (R :: Rs) a b
| branch_3 L R u1 t1 u2 t2 u3 t3 u4 t4 us Ls Rs a b : branch t3 us Ls Rs a b ->
    branch (INode L R u1 t1 u2 t2 u3 t3 u4 t4) (u3 :: us) (L :: Ls) (R :: Rs) a b
| branch_4 L R u1 t1 u2 t2 u3 t3 u4 t4 us Ls Rs a b : branch t4 us Ls Rs a b ->
    branch (INode L R u1 t1 u2 t2 u3 t3 u4 t4) (u4 :: us) (L :: Ls) (R :: Rs) a b.

(** complete of depth [k], with non-zero challenges, pairwise different up to
    sign at every node *)
Fixpoint tree_wf (k : nat) (t : ipp_tree) : Prop :=
  match k, t with
  | O, ILeaf _ _ => True
  | S k, INode _ _ u1 t1 u2 t2 u3 t3 u4 t4 =>
      (u1 <> 0 /\ u2 <> 0 /\ u3 <> 0 /\ u4 <> 0) /\
      NoDup [u1 * u1; u2 * u2; u3 * u3; u4 * u4] /\
      tree_wf k t1 /\ tree_wf k t2 /\ tree_wf k t3 /\ tree_wf k t4
  | _, _ => False
  end.

Definition tree_accepts (Q Pt : G1) (G H : list G1) (t : ipp_tree) : Prop :=
  forall us Ls Rs a b, branch t us Ls Rs a b -> conversation Q Pt G H us Ls Rs a b.

(** The extractor sees the challenges and the final scalars only: no group
    element, hence no discrete logarithms. *)
Inductive scalar_tree : Type :=
| SLeaf (a b : F)
| SNode (u1 : F) (t1 : scalar_tree) (u2 : F) (t2 : scalar_tree)
        (u3 : F) (t3 : scalar_tree) (u4 : F) (t4 : scalar_tree).

Fixpoint scalars_of (t : ipp_tree) : scalar_tree :=
  match t with
  | ILeaf a b => SLeaf a b
  | INode _ _ u1 t1 u2 t2 u3 t3 u4 t4 =>
      SNode u1 (scalars_of t1) u2 (scalars_of t2) u3 (scalars_of t3) u4 (scalars_of t4)
  end.

Inductive extraction : Type :=
| Opening (a b : list F)
| Relation (x y : list F) (z : F).

End IPPSpec.
