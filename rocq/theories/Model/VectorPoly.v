(** src/utils/vector_poly.rs *)
From Coq Require Import ZArith List.
From Verif.Base Require Import Outcome Fp Params Algebra.
Import ListNotations.
Local Open Scope outcome_scope.

Section VectorPoly.
Context {P : Params}.
Local Open Scope fe_scope.

(** vector_poly.rs 8 *)
Record vec_poly1 : Type := VecPoly1 { vp1_0 : list F; vp1_1 : list F }.

(** 11-16 *)
Record vec_poly3 : Type := VecPoly3 { vp3_0 : list F; vp3_1 : list F; vp3_2 : list F; vp3_3 : list F }.

(** 19 *)
Record poly2 : Type := Poly2 { p2_0 : F; p2_1 : F; p2_2 : F }.

(** 22-29 *)
Record poly6 : Type := Poly6 { t1 : F; t2 : F; t3 : F; t4 : F; t5 : F; t6 : F }.

(** 32-34 *)
Definition vec_poly1_zero (n : nat) : vec_poly1 := VecPoly1 (zeros n) (zeros n).

(** 36-53 (Karatsuba) *)
Definition vec_poly1_inner_product (l r : vec_poly1) : outcome poly2 :=
  a <- inner_product (vp1_0 l) (vp1_0 r) ;;
  c <- inner_product (vp1_1 l) (vp1_1 r) ;;
  l0_plus_l1 <- plus_vec (vp1_0 l) (vp1_1 l) ;;
  r0_plus_r1 <- plus_vec (vp1_0 r) (vp1_1 r) ;;
  m <- inner_product l0_plus_l1 r0_plus_r1 ;;
  Done (Poly2 a (m - (a + c)) c).

(** 55-62; every [out[i]] is written once, in order *)
Definition vec_poly1_eval (p : vec_poly1) (x : F) : outcome (list F) :=
  mapM (fun i =>
    a <- index (vp1_0 p) i ;;
    b <- index (vp1_1 p) i ;;
    Done (a + b * x)) (seq 0 (length (vp1_0 p))).

(** 66-73 *)
Definition vec_poly3_zero (n : nat) : vec_poly3 := VecPoly3 (zeros n) (zeros n) (zeros n) (zeros n).

(** 79-97 *)
Definition special_inner_product (l r : vec_poly3) : outcome poly6 :=
  i10 <- inner_product (vp3_1 l) (vp3_0 r) ;;
  i11 <- inner_product (vp3_1 l) (vp3_1 r) ;;
  i20 <- inner_product (vp3_2 l) (vp3_0 r) ;;
  i21 <- inner_product (vp3_2 l) (vp3_1 r) ;;
  i30 <- inner_product (vp3_3 l) (vp3_0 r) ;;
  i13 <- inner_product (vp3_1 l) (vp3_3 r) ;;
  i31 <- inner_product (vp3_3 l) (vp3_1 r) ;;
  i23 <- inner_product (vp3_2 l) (vp3_3 r) ;;
  i33 <- inner_product (vp3_3 l) (vp3_3 r) ;;
  Done (Poly6 i10 (i11 + i20) (i21 + i30) (i13 + i31) i23 i33).

(** 99-106 *)
Definition vec_poly3_eval (p : vec_poly3) (x : F) : outcome (list F) :=
  mapM (fun i =>
    a <- index (vp3_0 p) i ;;
    b <- index (vp3_1 p) i ;;
    c <- index (vp3_2 p) i ;;
    d <- index (vp3_3 p) i ;;
    Done (a + x * (b + x * (c + x * d)))) (seq 0 (length (vp3_0 p))).

(** 109-113 *)
Definition poly2_eval (p : poly2) (x : F) : F := p2_0 p + x * (p2_1 p + x * p2_2 p).

(** 115-120 *)
Definition poly6_eval (p : poly6) (x : F) : F :=
  x * (t1 p + x * (t2 p + x * (t3 p + x * (t4 p + x * (t5 p + x * t6 p))))).

End VectorPoly.
