(** An extractor for the R1CS protocol.  It is a program on scalars.  A point is
    represented by its coefficients over [g :: h :: G ++ H]. *)
From Coq Require Import List ZArith.
From Verif.Base Require Import Outcome Fp Params Algebra.
From Verif.Model Require Import LinComb IPP.
From Verif.Spec Require Import R1CS Protocol IPPSpec Extractor R1CSTree.
Import ListNotations.

Section R1CSExtractor.
Context {P : Params}.
Local Open Scope fe_scope.

Definition ebind {A B} (e : extracted A) (f : A -> extracted B) : extracted B :=
  match e with Got a => f a | Broken c => Broken c end.
Local Notation "'let*' x := e 'in' f" := (ebind e (fun x => f)) (at level 200, x pattern, e at level 100, f at level 200).

Fixpoint emap {A B} (f : A -> extracted B) (l : list A) : extracted (list B) :=
  match l with
  | [] => Got []
  | a :: t => let* b := f a in let* bs := emap f t in Got (b :: bs)
  end.

(** *** Lagrange interpolation *)
(** coefficients of the product of all [X - c], lowest first *)
Fixpoint vanish (cs : list F) : list F :=
  match cs with
  | [] => [1]
  | c :: t => let p := vanish t in vadd (0 :: p) (vscale (- c) p ++ [0])
  end.
Fixpoint peval (p : list F) (x : F) : F :=
  match p with [] => 0 | a :: t => a + x * peval t x end.
(** the polynomial that is 1 at [x] and 0 at the other elements of [xs] *)
Definition lagrange (xs : list F) (x : F) : list F :=
  let p := vanish (filter (fun c => negb (feqb c x)) xs) in vscale (finv (peval p x)) p.
(** weights that turn the values of a polynomial at [xs] into its coefficient [k] *)
Definition interp (xs : list F) (k : nat) : list F := map (fun x => nth k (lagrange xs x) 0) xs.

Section Base.
(** the number of gates of the first phase and of all, of generators in [G] and
    [H], and of commitments; the constraints; the inverse of their matrix *)
Context (n1 n lG lH m : nat) (cs : list lc) (M : nat -> nat -> F).
Let N := next_power_of_two n.
Let D := (2 + lG + lH)%nat.

Definition combination (l : list F) (ws : list (list F)) : list F :=
  map (fun i => sum_n (length l) (fun j => nth j l 0 * nth i (nth j ws []) 0)) (seq 0 D).

(** two representations of one point: equal, or there is a relation *)
Definition same (w w' : list F) : extracted unit :=
  let d := map (fun i => nth i w 0 - nth i w' 0) (seq 0 D) in
  if forallb (fun c => feqb c 0) d then Got tt else Broken d.

(** [ws] represents the values at [xs] of a polynomial with [K] coefficients
    (points); representations of the coefficients *)
Definition fit (K : nat) (xs : list F) (ws : list (list F)) : extracted (list (list F)) :=
  let cf := map (fun k => combination (interp xs k) ws) (seq 0 K) in
  let* _ := emap (fun p => same (snd p) (combination (vandermonde (fst p) K) cf)) (combine xs ws) in
  Got cf.

Section Leaf.
Context (y z u x tx eb : F).
Let wL := padded n (fun i => weight cs z (VLeft i)).
Let wR := padded n (fun i => weight cs z (VRight i)).
Let wO := padded n (fun i => weight cs z (VOut i)).
Let f := phase_factor n1 u.
Let yi := fpow (finv y).

(** [x A_I + x^2 A_O + x^3 S], from one inner-product argument *)
Definition leaf (w : F) (t : scalar_tree) : extracted (list F) :=
  match ipp_extract t with
  | Opening a b =>
      Got ((w * (ip a b - tx)) :: eb ::
        map (padded N (fun i => f i * (nth i a 0 - x * (yi i * wR i)))) (seq 0 lG) ++
        map (padded N (fun i => f i * (yi i * (nth i b 0 - (x * wL i + wO i)) + 1))) (seq 0 lH))
  | Relation a b c =>
      Broken ((c * w) :: 0 ::
        map (padded N (fun i => f i * nth i a 0)) (seq 0 lG) ++
        map (padded N (fun i => yi i * f i * nth i b 0)) (seq 0 lH))
  end.
End Leaf.

Definition at_x (y z u : F) (xn : x_node scalar_tree) : extracted (list F) :=
  let* r1 := leaf y z u (x_chal xn) (x_tx xn) (x_eb xn) (x_w1 xn) (x_ipp1 xn) in
  let* r2 := leaf y z u (x_chal xn) (x_tx xn) (x_eb xn) (x_w2 xn) (x_ipp2 xn) in
  let* _ := same r1 r2 in
  Got r1.

(** the part of [t(x)] the prover has to account for *)
Definition t_rep (y z : F) (xn : x_node scalar_tree) : list F :=
  (x_tx xn - fpow (x_chal xn) 2 * (delta n cs y z - weight cs z VOne)) :: x_txb xn :: zeros (lG + lH).

(** [A_I], [A_O] and the combination of the commitments *)
Definition at_u (y z : F) (un : u_node scalar_tree) : extracted (list F * list F * list F) :=
  let xs := map x_chal (u_xs un) in
  let* rs := emap (at_x y z (u_chal un)) (u_xs un) in
  let* a := fit 4 xs rs in
  let* _ := same (nth 0 a []) [] in
  let* t := fit 7 xs (map (t_rep y z) (u_xs un)) in
  Got (nth 1 a [], nth 2 a [], nth 2 t []).

(** the same without [u]: [A_I1; A_I2], [A_O1; A_O2], combination of the commitments *)
Definition at_z (y : F) (zn : z_node unit scalar_tree) : extracted (list (list F) * list F) :=
  let us := map u_chal (z_us zn) in
  let* rs := emap (at_u y (z_chal zn)) (z_us zn) in
  let* ai := fit 2 us (map (fun r => fst (fst r)) rs) in
  let* ao := fit 2 us (map (fun r => snd (fst r)) rs) in
  let vv := snd (nth 0 rs ([], [], [])) in
  let* _ := emap (fun r => same (snd r) vv) rs in
  Got (ai ++ ao, vv).

(** for every [z]: the challenge, the representations of the four points, and
    that of the combination of the commitments *)
Definition at_y (yn : y_node unit scalar_tree) : extracted (list (F * (list (list F) * list F))) :=
  emap (fun zn => let* r := at_z (y_chal yn) zn in Got (z_chal zn, r)) (y_zs yn).

Definition same4 (a b : list (list F)) : extracted unit :=
  let* _ := emap (fun k => same (nth k a []) (nth k b [])) (seq 0 4) in Got tt.

Definition r1cs_extract (t : list (y_node unit scalar_tree)) : extracted witness :=
  let* rows := emap at_y t in
  let row := nth 0 rows [] in
  let A := fst (snd (nth 0 row (0, ([], [])))) in
  (* the four points have one representation *)
  let* _ := emap (fun r => emap (fun e => same4 (fst (snd e)) A) r) rows in
  (* the commitments *)
  let* U := fit (S (length cs)) (map fst row) (map (fun e => snd (snd e)) row) in
  let V := map (fun j => combination (map (fun q => - M j q) (seq 0 (length cs))) (tl U)) (seq 0 m) in
  let* _ := emap (fun r => emap (fun e =>
      same (snd (snd e)) (combination (map (fun j => - weight cs (fst e) (VCommitted j)) (seq 0 m)) V)) r) rows in
  let pick k i := if Nat.ltb i n1 then nth k A [] else nth (S k) A [] in
  Got (Witness (map (fun w => nth 0 w 0) V) (map (fun w => nth 1 w 0) V)
    (map (fun i => nth (2 + i) (pick 0%nat i) 0) (seq 0 n))
    (map (fun i => nth (2 + lG + i) (pick 0%nat i) 0) (seq 0 n))
    (map (fun i => nth (2 + i) (pick 2%nat i) 0) (seq 0 n))
    (nth 0 A []) (nth 2 A [])).

(** two witnesses for the same commitments and the same first message: the same
    committed values and first-phase points, or a relation *)
Definition compare_witnesses (a b : witness) : extracted unit :=
  let* _ := same (wit_AI1 a) (wit_AI1 b) in
  let* _ := same (wit_AO1 a) (wit_AO1 b) in
  let* _ := emap (fun j => same [nth j (wit_v a) 0; nth j (wit_blinding a) 0]
                                [nth j (wit_v b) 0; nth j (wit_blinding b) 0]) (seq 0 m) in
  Got tt.
End Base.
End R1CSExtractor.
