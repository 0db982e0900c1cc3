(** src/r1cs/verifier.rs *)
From Coq Require Import ZArith String List Bool.
From Verif.Base Require Import Outcome Fp Params Algebra.
From Verif.Model Require Import Transcript LinComb Prog VectorPoly IPP Prover.
Import ListNotations.
Local Open Scope outcome_scope.

Section Verifier.
Context {P : Params}.
Local Open Scope fe_scope.

(** programs run by the verifier: [commit] takes the commitment and returns
    the variable *)
Definition vprog : Type -> Type := prog G1 var.

(** verifier.rs 32-52; [v_nrand], [v_norder] as for the prover *)
Record verifier : Type := Verifier {
  v_transcript : transcript;
  v_constraints : list lc;
  v_num_vars : nat;
  v_V : list G1;
  v_deferred : list (vprog (result unit));
  v_pending : option nat;
  v_nrand : nat;
  v_norder : nat
}.

(** verifier.rs 97-108 *)
Definition verifier_new (t : transcript) : verifier :=
  Verifier (r1cs_domain_sep t) [] 0 [] [] None 0 0.

(* record updates *)
Definition v_with_transcript (t : transcript) (s : verifier) : verifier :=
  Verifier t (v_constraints s) (v_num_vars s) (v_V s) (v_deferred s) (v_pending s) (v_nrand s) (v_norder s).
Definition v_with_constraints (c : list lc) (s : verifier) : verifier :=
  Verifier (v_transcript s) c (v_num_vars s) (v_V s) (v_deferred s) (v_pending s) (v_nrand s) (v_norder s).
Definition v_with_num_vars (n : nat) (s : verifier) : verifier :=
  Verifier (v_transcript s) (v_constraints s) n (v_V s) (v_deferred s) (v_pending s) (v_nrand s) (v_norder s).
Definition v_with_V (V : list G1) (s : verifier) : verifier :=
  Verifier (v_transcript s) (v_constraints s) (v_num_vars s) V (v_deferred s) (v_pending s) (v_nrand s) (v_norder s).
Definition v_with_deferred (d : list (vprog (result unit))) (s : verifier) : verifier :=
  Verifier (v_transcript s) (v_constraints s) (v_num_vars s) (v_V s) d (v_pending s) (v_nrand s) (v_norder s).
Definition v_with_pending (o : option nat) (s : verifier) : verifier :=
  Verifier (v_transcript s) (v_constraints s) (v_num_vars s) (v_V s) (v_deferred s) o (v_nrand s) (v_norder s).
Definition v_with_nrand (n : nat) (s : verifier) : verifier :=
  Verifier (v_transcript s) (v_constraints s) (v_num_vars s) (v_V s) (v_deferred s) (v_pending s) n (v_norder s).
Definition v_with_norder (n : nat) (s : verifier) : verifier :=
  Verifier (v_transcript s) (v_constraints s) (v_num_vars s) (v_V s) (v_deferred s) (v_pending s) (v_nrand s) n.

(** verifier.rs 124-132 *)
Definition verifier_commit (V : G1) (s : verifier) : var * verifier :=
  let i := length (v_V s) in
  let s := v_with_transcript (commit_point "V" V (v_transcript s)) s in
  (VCommitted i, v_with_V (v_V s ++ [V]) s).

(** verifier.rs 538-548 *)
Definition verifier_allocate_vars (s : verifier) : (var * var * var) * verifier :=
  let i := v_num_vars s in
  ((VLeft i, VRight i, VOut i), v_with_num_vars (S i) s).

(** verifier.rs 501-506 *)
Definition verifier_constrain (l : lc) (s : verifier) : verifier :=
  v_with_constraints (v_constraints s ++ [l]) s.

(** verifier.rs 463-477 *)
Definition verifier_multiply (left right : lc) (s : verifier) : (var * var * var) * verifier :=
  let '((l_var, r_var, o_var), s) := verifier_allocate_vars s in
  let s := verifier_constrain (left ++ [(l_var, - (1))]) s in
  let s := verifier_constrain (right ++ [(r_var, - (1))]) s in
  ((l_var, r_var, o_var), s).

(** verifier.rs 479-492 *)
Definition verifier_allocate (s : verifier) : result var * verifier :=
  match v_pending s with
  | None =>
      let i := v_num_vars s in
      (Ok (VLeft i), v_with_pending (Some i) (v_with_num_vars (S i) s))
  | Some i => (Ok (VRight i), v_with_pending None s)
  end.

(** verifier.rs 494-499 *)
Definition verifier_allocate_multiplier (s : verifier) : result (var * var * var) * verifier :=
  let '(vs, s) := verifier_allocate_vars s in (Ok vs, s).

(** verifier.rs 520-533 *)
Definition verifier_allocate_single (s : verifier) : result (var * option var) * verifier :=
  let '(r, s) := verifier_allocate s in
  match r with
  | Err e => (Err e, s)
  | Ok (VLeft i) => (Ok (VLeft i, None), s)
  | Ok (VRight i) => (Ok (VRight i, Some (VOut i)), s)
  | Ok _ => (Err FormatError, s)
  end.

(** Running a program: [phase2 = false] is [impl ConstraintSystem for Verifier]
    (verifier.rs 460-534), [phase2 = true] is [RandomizingVerifier] (551-600). *)
Fixpoint vrun (W : world) (phase2 : bool) {A} (m : vprog A) (s : verifier) : outcome (A * verifier) :=
  match m with
  | PRet a => Done (a, s)
  | PPanic => Panic
  | PMultiply l r k => let '(vs, s) := verifier_multiply l r s in vrun W phase2 (k vs) s
  | PAllocate _ k => let '(r, s) := verifier_allocate s in vrun W phase2 (k r) s
  | PAllocMultiplier _ k => let '(r, s) := verifier_allocate_multiplier s in vrun W phase2 (k r) s
  | PConstrain l k => vrun W phase2 (k tt) (verifier_constrain l s)
  | PSpecify c k =>
      if phase2
      then (* 577-582 *) '(r, s) <- vrun W phase2 c s ;; vrun W phase2 (k r) s
      else (* 508-514 *) vrun W phase2 (k (Ok tt)) (v_with_deferred (v_deferred s ++ [c]) s)
  | PEvaluate _ k => (* 516-518 *) vrun W phase2 (k None) s
  | PAllocSingle _ k => let '(r, s) := verifier_allocate_single s in vrun W phase2 (k r) s
  | PChallenge label k =>
      if phase2
      then (* 597-599 *)
        let '(c, t) := challenge_scalar label (v_transcript s) in
        vrun W phase2 (k c) (v_with_transcript t s)
      else Panic
  | PCommit V k =>
      if phase2 then Panic
      else let '(r, s) := verifier_commit V s in vrun W phase2 (k r) s
  | PShuffle l k =>
      vrun W phase2 (k (permute (w_order W (v_norder s)) l)) (v_with_norder (S (v_norder s)) s)
  | PRandom k => vrun W phase2 (k (w_random W (v_nrand s))) (v_with_nrand (S (v_nrand s)) s)
  end.

(** verifier.rs 259-261 *)
Fixpoint verifier_run_callbacks (W : world) (cbs : list (vprog (result unit))) (s : verifier)
  : outcome (result verifier) :=
  match cbs with
  | [] => Done (Ok s)
  | cb :: cbs' =>
      '(r, s) <- vrun W true cb s ;;
      match r with
      | Ok _ => verifier_run_callbacks W cbs' s
      | Err e => Done (Err e)
      end
  end.

(** verifier.rs 245-264 *)
Definition verifier_create_randomized_constraints (W : world) (s : verifier) : outcome (result verifier) :=
  let s := v_with_pending None s in
  match v_deferred s with
  | [] => Done (Ok (v_with_transcript (r1cs_1phase_domain_sep (v_transcript s)) s))
  | _ :: _ =>
      let s := v_with_transcript (r1cs_2phase_domain_sep (v_transcript s)) s in
      let callbacks := v_deferred s in
      verifier_run_callbacks W callbacks (v_with_deferred [] s)
  end.

(** verifier.rs 171-187: one term of one constraint *)
Definition verifier_flatten_term (exp_z : F) (w : list F * list F * list F * list F * F) (t : var * F)
  : outcome (list F * list F * list F * list F * F) :=
  let '(wL, wR, wO, wV, wc) := w in
  let '(v, coeff) := t in
  match v with
  | VLeft i => wL <- add_at wL i (exp_z * coeff) ;; Done (wL, wR, wO, wV, wc)
  | VRight i => wR <- add_at wR i (exp_z * coeff) ;; Done (wL, wR, wO, wV, wc)
  | VOut i => wO <- add_at wO i (exp_z * coeff) ;; Done (wL, wR, wO, wV, wc)
  | VCommitted i => wV <- add_at wV i (- (exp_z * coeff)) ;; Done (wL, wR, wO, wV, wc)
  | VOne => Done (wL, wR, wO, wV, wc - exp_z * coeff)
  end.

(** verifier.rs 149-193 *)
Definition verifier_flattened_constraints (s : verifier) (z : F)
  : outcome (list F * list F * list F * list F * F) :=
  let n := v_num_vars s in
  let m := length (v_V s) in
  '(w, _) <- foldM (fun '(w, exp_z) l =>
      w <- foldM (verifier_flatten_term exp_z) l w ;;
      Done (w, exp_z * z))
    (v_constraints s) ((zeros n, zeros n, zeros n, zeros m, 0), z) ;;
  Done w.

(** verifier.rs 378-390, one entry of [h_scalars] *)
Definition h_scalar (x b y_inv_i u_or_1 s_i_inv wLi wOi : F) : F :=
  u_or_1 * (y_inv_i * (x * wLi + wOi - b * s_i_inv) - 1).

(** verifier.rs 368-373, one entry of [g_scalars] *)
Definition g_scalar (x a yneg_wRi u_or_1 s_i : F) : F :=
  u_or_1 * (x * yneg_wRi - a * s_i).

(** zip of three / five iterators (stops at the shortest), mapped *)
Definition zipw3 {A B C D} (f : A -> B -> C -> D) (a : list A) (b : list B) (c : list C) : list D :=
  zipw (fun ab c => f (fst ab) (snd ab) c) (zipw pair a b) c.
Definition zipw5 {A B C D E R} (f : A -> B -> C -> D -> E -> R)
    (a : list A) (b : list B) (c : list C) (d : list D) (e : list E) : list R :=
  zipw (fun abcd e => let '(a, b, c, d) := abcd in f a b c d e)
    (zipw (fun abc d => (abc, d)) (zipw (fun ab c => (ab, c)) (zipw pair a b) c) d) e.

(** The scalars and points of the final check, verifier.rs 392-446: everything
    after the challenges are known. *)
Definition verify_final (proof : r1cs_proof) (g h : G1) (G_p H_p V : list G1)
    (wV : list F) (wc delta a b u x w r : F) (g_scalars h_scalars u_sq u_inv_sq : list F)
  : outcome G1 :=
  let x_sqr := x * x in
  let x_cube := x * x_sqr in
  let r_x_sqr := r * x_sqr in
  let rx := r * x in
  let rx_cube := r * x_cube in
  let rx_4 := rx_cube * x in
  let rx_5 := rx_4 * x in
  let rx_6 := rx_5 * x in
  let ux := u * x in
  let ux_sqr := u * x_sqr in
  let ux_cube := u * x_cube in
  let w' := w * (t_x proof - a * b) + r * (x_sqr * (wc + delta) - t_x proof) in
  let p := - (e_blinding proof + r * t_x_blinding proof) in
  msm_checked
    ([x; x_sqr; x_cube; ux; ux_sqr; ux_cube]
       ++ vscale r_x_sqr wV
       ++ [rx; rx_cube; rx_4; rx_5; rx_6]
       ++ [w'; p]
       ++ g_scalars ++ h_scalars ++ u_sq ++ u_inv_sq)
    ([A_I1 proof; A_O1 proof; S1 proof; A_I2 proof; A_O2 proof; S2 proof]
       ++ V
       ++ [T_1 proof; T_3 proof; T_4 proof; T_5 proof; T_6 proof]
       ++ [g; h]
       ++ G_p ++ H_p ++ ipp_L (proof_ipp proof) ++ ipp_R (proof_ipp proof)).

(** verifier.rs 267-457; also returns the final transcript *)
Definition verify (W : world) (s : verifier) (proof : r1cs_proof) (g h : G1) (G H : list G1)
  : outcome (result transcript) :=
  let t := append_u64 "m" (Z.of_nat (length (v_V s))) (v_transcript s) in
  let n1 := v_num_vars s in
  let t := commit_point "S1" (S1 proof) (commit_point "A_O1" (A_O1 proof)
             (commit_point "A_I1" (A_I1 proof) t)) in
  s <-? verifier_create_randomized_constraints W (v_with_transcript t s) ;;
  (* 290-299 *)
  let n := v_num_vars s in
  let n2 := (n - n1)%nat in
  let padded_n := next_power_of_two (v_num_vars s) in
  let pad := (padded_n - n)%nat in
  if Nat.ltb (length G) padded_n then Done (Err InvalidGeneratorsLength) else
  (* 301-323 *)
  let t := commit_point "S2" (S2 proof) (commit_point "A_O2" (A_O2 proof)
             (commit_point "A_I2" (A_I2 proof) (v_transcript s))) in
  let '(y, t) := challenge_scalar "y" t in
  let '(z, t) := challenge_scalar "z" t in
  let t := commit_point "T_6" (T_6 proof) (commit_point "T_5" (T_5 proof)
             (commit_point "T_4" (T_4 proof) (commit_point "T_3" (T_3 proof)
             (commit_point "T_1" (T_1 proof) t)))) in
  let '(u, t) := challenge_scalar "u" t in
  let '(x, t) := challenge_scalar "x" t in
  let t := commit_scalar "e_blinding" (e_blinding proof)
             (commit_scalar "t_x_blinding" (t_x_blinding proof)
             (commit_scalar "t_x" (t_x proof) t)) in
  let '(w, t) := challenge_scalar "w" t in
  (* 325-352 *)
  '(wL, wR, wO, wV, wc) <- verifier_flattened_constraints s z ;;
  let a := ipp_a (proof_ipp proof) in
  let b := ipp_b (proof_ipp proof) in
  let y_inv := finv y in
  let y_inv_vec := vandermonde y_inv padded_n in
  let y_inv_wR := zipw (fun wRi exp_y_inv => wRi * exp_y_inv) wR y_inv_vec ++ zeros pad in
  y_inv_wR_n <- slice_to n y_inv_wR ;;
  delta <- inner_product y_inv_wR_n wL ;;
  (* 354-360 *)
  vs <- verification_scalars (ipp_L (proof_ipp proof)) (ipp_R (proof_ipp proof)) padded_n t ;;
  match vs with
  | Err _ => Done (Err VerificationError)
  | Ok (u_sq, u_inv_sq, s_vec, t) =>
    (* 362-390 *)
    let u_for_g := repeat (1 : F) n1 ++ repeat u (n2 + pad) in
    let g_scalars := zipw3 (g_scalar x a) y_inv_wR u_for_g (firstn padded_n s_vec) in
    let h_scalars := zipw5 (h_scalar x b) y_inv_vec u_for_g (firstn padded_n (rev s_vec))
                       (wL ++ zeros pad) (wO ++ zeros pad) in
    (* 392-456 *)
    let r := w_random W (v_nrand s) in
    G_p <- slice_to padded_n G ;;
    H_p <- slice_to padded_n H ;;
    res <- verify_final proof g h G_p H_p (v_V s) wV wc delta a b u x w r
             g_scalars h_scalars u_sq u_inv_sq ;;
    if g1_eqb res g1_id then Done (Ok t) else Done (Err VerificationError)
  end.

End Verifier.
