(** src/ipp.rs: the inner-product argument *)
From Coq Require Import ZArith String List Bool.
From Verif.Base Require Import Outcome Fp Params Algebra.
From Verif.Model Require Import Transcript.
Import ListNotations.
Local Open Scope outcome_scope.

(** Rust [usize::is_power_of_two] *)
Definition is_power_of_two (n : nat) : bool :=
  negb (Nat.eqb n 0) && Nat.eqb (2 ^ Nat.log2 n) n.

(** Rust [usize::next_power_of_two] (0 and 1 are sent to 1); the overflow panic
    for arguments above 2^63 is not modelled *)
Definition next_power_of_two (n : nat) : nat := 2 ^ Nat.log2_up n.

Section IPP.
Context {P : Params}.
Local Open Scope fe_scope.

(** ipp.rs 15-20 *)
Record ipp_proof : Type := IPPProof { ipp_L : list G1; ipp_R : list G1; ipp_a : F; ipp_b : F }.

(** amcl_wrapper [FieldElement::batch_invert] (dependency): the inverses of all
    elements, and the inverse of their product, with one inversion
    (Montgomery's trick).  If one element is zero, every output is zero. *)
Fixpoint batch_invert_go (prefix : F) (l : list F) : list F * F :=
  match l with
  | [] => ([], finv prefix)
  | a :: t => let '(invs, u) := batch_invert_go (prefix * a) t in (u * prefix :: invs, u * a)
  end.

Definition fprod (l : list F) : F := fold_right fmul 1 l.

Definition batch_invert (l : list F) : outcome (list F * F) :=
  match l with
  | [] => if batch_invert_empty_panics then Panic else Done ([], 1)
  | _ :: _ => Done (fst (batch_invert_go 1 l), finv (fprod l))
  end.

(** ipp.rs 115-130 / 181-188, the in-place updates, element by element.
    [binary_scalar_mul(self, other, a, b)] is [a*self + b*other]. *)
Definition fold_scalars (x y : F) (l r : list F) : list F :=
  zipw (fun a b => a * x + y * b) l r.
Definition fold_points (x y : F) (l r : list G1) : list G1 :=
  zipw (fun a b => g1_add (g1_mul x a) (g1_mul y b)) l r.
Definition fold_points_factors (x y : F) (fl fr : list F) (l r : list G1) : list G1 :=
  zipw (fun fg fg' => g1_add (g1_mul (x * fst fg) (snd fg)) (g1_mul (y * fst fg') (snd fg')))
    (zipw pair fl l) (zipw pair fr r).

(** One round of the loop, ipp.rs 138-194, and the rounds after it.  [n] is the
    current length; [fuel] bounds the number of rounds (the loop halves [n]
    until it is 1; [create_ipp] passes enough fuel).  Returns the collected
    [L], [R] and the final [a], [b] vectors. *)
Fixpoint ipp_loop (fuel : nat) (n : nat) (Q : G1) (a b : list F) (G H : list G1) (t : transcript)
  : outcome (list G1 * list G1 * list F * list F * transcript) :=
  if Nat.eqb n 1 then Done ([], [], a, b, t) else
  match fuel with
  | O => Panic
  | S fuel =>
    let n := Nat.div2 n in
    let a_L := firstn n a in let a_R := skipn n a in
    let b_L := firstn n b in let b_R := skipn n b in
    let G_L := firstn n G in let G_R := skipn n G in
    let H_L := firstn n H in let H_R := skipn n H in
    c_L <- inner_product a_L b_R ;;
    c_R <- inner_product a_R b_L ;;
    L <- msm_checked (a_L ++ b_R ++ [c_L]) (G_R ++ H_L ++ [Q]) ;;
    R <- msm_checked (a_R ++ b_L ++ [c_R]) (G_L ++ H_R ++ [Q]) ;;
    let t := commit_point "L" L t in
    let t := commit_point "R" R t in
    let '(u, t) := challenge_scalar "u" t in
    let u_inv := finv u in
    let a' := fold_scalars u u_inv a_L a_R in
    let b' := fold_scalars u_inv u b_L b_R in
    let G' := fold_points u_inv u G_L G_R in
    let H' := fold_points u u_inv H_L H_R in
    '(Ls, Rs, a_f, b_f, t) <- ipp_loop fuel n Q a' b' G' H' t ;;
    Done (L :: Ls, R :: Rs, a_f, b_f, t)
  end.

(** ipp.rs 35-202; also returns the transcript (an [&mut] argument in Rust) *)
Definition create_ipp (t : transcript) (Q : G1) (G_factors H_factors : list F)
    (G_vec H_vec : list G1) (a_vec b_vec : list F) : outcome (ipp_proof * transcript) :=
  let n := length G_vec in
  assertb (is_power_of_two n) ;;;
  assertb (Nat.eqb (length H_vec) n) ;;;
  assertb (Nat.eqb (length a_vec) n) ;;;
  assertb (Nat.eqb (length b_vec) n) ;;;
  assertb (Nat.eqb (length G_factors) n) ;;;
  assertb (Nat.eqb (length H_factors) n) ;;;
  let t := innerproduct_domain_sep n t in
  (* 68-136: the first round, with the factors *)
  '(Ls, Rs, a, b, t) <-
    (if Nat.eqb n 1 then Done ([], [], a_vec, b_vec, t)
     else
       let m := Nat.div2 n in
       let a_L := firstn m a_vec in let a_R := skipn m a_vec in
       let b_L := firstn m b_vec in let b_R := skipn m b_vec in
       let G_L := firstn m G_vec in let G_R := skipn m G_vec in
       let H_L := firstn m H_vec in let H_R := skipn m H_vec in
       let Gf_L := firstn m G_factors in let Gf_R := skipn m G_factors in
       let Hf_L := firstn m H_factors in let Hf_R := skipn m H_factors in
       c_L <- inner_product a_L b_R ;;
       c_R <- inner_product a_R b_L ;;
       la <- hadamard_product a_L Gf_R ;;
       lb <- hadamard_product b_R Hf_L ;;
       L <- msm_checked (la ++ lb ++ [c_L]) (G_R ++ H_L ++ [Q]) ;;
       ra <- hadamard_product a_R Gf_L ;;
       rb <- hadamard_product b_L Hf_R ;;
       R <- msm_checked (ra ++ rb ++ [c_R]) (G_L ++ H_R ++ [Q]) ;;
       let t := commit_point "L" L t in
       let t := commit_point "R" R t in
       let '(u, t) := challenge_scalar "u" t in
       let u_inv := finv u in
       let a' := fold_scalars u u_inv a_L a_R in
       let b' := fold_scalars u_inv u b_L b_R in
       let G' := fold_points_factors u_inv u Gf_L Gf_R G_L G_R in
       let H' := fold_points_factors u u_inv Hf_L Hf_R H_L H_R in
       (* 138-194 *)
       '(Ls, Rs, a_f, b_f, t) <- ipp_loop m m Q a' b' G' H' t ;;
       Done (L :: Ls, R :: Rs, a_f, b_f, t)) ;;
  a0 <- index a 0 ;;
  b0 <- index b 0 ;;
  Done (IPPProof Ls Rs a0 b0, t).

(** ipp.rs 282-288; [zip] stops at the shorter list *)
Fixpoint ipp_challenges (Ls Rs : list G1) (t : transcript) : list F * transcript :=
  match Ls, Rs with
  | L :: Ls', R :: Rs' =>
      let t := commit_point "R" R (commit_point "L" L t) in
      let '(u, t) := challenge_scalar "u" t in
      let '(us, t) := ipp_challenges Ls' Rs' t in
      (u :: us, t)
  | _, _ => ([], t)
  end.

(** ipp.rs 303-312, the inductive computation of the s values;
    [32 - 1 - (i as u32).leading_zeros()] is [log2 i] *)
Definition s_values (lg_n n : nat) (first : F) (challenges_sq : list F) : outcome (list F) :=
  foldM (fun s i =>
      let lg_i := Nat.log2 i in
      let k := 2 ^ lg_i in
      u_lg_i_sq <- index challenges_sq ((lg_n - 1) - lg_i) ;;
      s_ik <- index s (i - k) ;;
      Done (s ++ [s_ik * u_lg_i_sq]))
    (seq 1 (n - 1)) [first].

(** ipp.rs 262-315 *)
Definition verification_scalars (L_vec R_vec : list G1) (n : nat) (t : transcript)
  : outcome (result (list F * list F * list F * transcript)) :=
  let lg_n := length L_vec in
  if Nat.leb 32 lg_n then Done (Err VerificationError)
  else if negb (Nat.eqb n (2 ^ lg_n)) then Done (Err VerificationError)
  else
    let t := innerproduct_domain_sep n t in
    let '(challenges, t) := ipp_challenges L_vec R_vec t in
    '(challenges_inv, product_chal_inv) <- batch_invert challenges ;;
    let challenges_sq := map (fun c => c * c) challenges in
    let challenges_inv_sq := map (fun c => c * c) challenges_inv in
    s <- s_values lg_n n product_chal_inv challenges_sq ;;
    Done (Ok (challenges_sq, challenges_inv_sq, s, t)).

(** ipp.rs 204-260 *)
Definition verify_ipp (n : nat) (t : transcript) (G_factors H_factors : list F)
    (Pt Q : G1) (G H : list G1) (a b : F) (L_vec R_vec : list G1)
  : outcome (result unit * transcript) :=
  r <- verification_scalars L_vec R_vec n t ;;
  '(u_sq, u_inv_sq, s, t) <- unwrap_result r ;;
  let g_times_a_times_s :=
    firstn (length G) (zipw (fun g_i s_i => (a * s_i) * g_i) G_factors s) in
  let h_times_b_div_s := zipw (fun h_i s_i_inv => (b * s_i_inv) * h_i) H_factors (rev s) in
  let neg_u_sq := map fopp u_sq in
  let neg_u_inv_sq := map fopp u_inv_sq in
  expected_P <- msm_checked
    ([a * b] ++ g_times_a_times_s ++ h_times_b_div_s ++ neg_u_sq ++ neg_u_inv_sq)
    ([Q] ++ G ++ H ++ L_vec ++ R_vec) ;;
  Done (if g1_eqb expected_P Pt then Ok tt else Err VerificationError, t).

End IPP.
