(** src/r1cs/prover.rs and src/r1cs/proof.rs *)
From Coq Require Import ZArith String List Bool.
From Verif.Base Require Import Outcome Fp Params Algebra.
From Verif.Model Require Import Transcript LinComb Prog VectorPoly IPP.
Import ListNotations.
Local Open Scope outcome_scope.

(** The environment of a run: the stream of values returned by
    [FieldElement::random()] and the iteration orders chosen by [HashMap]s. *)
Record world {P : Params} : Type := World { w_random : nat -> F; w_order : nat -> list nat }.
Arguments World {P} w_random w_order.

Section Prover.
Context {P : Params}.
Local Open Scope fe_scope.

(** programs run by the prover: [commit] takes the value and the blinding and
    returns the commitment and the variable *)
Definition pprog : Type -> Type := prog (F * F) (G1 * var).

(** prover.rs 33-56.  [p_nrand] and [p_norder] count the values already drawn
    from the environment; they are not fields of the Rust struct. *)
Record prover : Type := Prover {
  p_g : G1;
  p_h : G1;
  p_transcript : transcript;
  p_constraints : list lc;
  p_aL : list F;
  p_aR : list F;
  p_aO : list F;
  p_v : list F;
  p_v_blinding : list F;
  p_deferred : list (pprog (result unit));
  p_pending : option nat;
  p_nrand : nat;
  p_norder : nat
}.

(** src/r1cs/proof.rs: [R1CSProof] *)
Record r1cs_proof : Type := R1CSProof {
  A_I1 : G1; A_O1 : G1; S1 : G1;
  A_I2 : G1; A_O2 : G1; S2 : G1;
  T_1 : G1; T_3 : G1; T_4 : G1; T_5 : G1; T_6 : G1;
  t_x : F; t_x_blinding : F; e_blinding : F;
  proof_ipp : ipp_proof
}.

(** prover.rs 84-100 *)
Definition prover_new (g h : G1) (t : transcript) : prover :=
  Prover g h (r1cs_domain_sep t) [] [] [] [] [] [] [] None 0 0.

(* record updates *)
Definition p_with_transcript (t : transcript) (s : prover) : prover :=
  Prover (p_g s) (p_h s) t (p_constraints s) (p_aL s) (p_aR s) (p_aO s) (p_v s)
    (p_v_blinding s) (p_deferred s) (p_pending s) (p_nrand s) (p_norder s).
Definition p_with_constraints (c : list lc) (s : prover) : prover :=
  Prover (p_g s) (p_h s) (p_transcript s) c (p_aL s) (p_aR s) (p_aO s) (p_v s)
    (p_v_blinding s) (p_deferred s) (p_pending s) (p_nrand s) (p_norder s).
Definition p_with_wires (aL aR aO : list F) (s : prover) : prover :=
  Prover (p_g s) (p_h s) (p_transcript s) (p_constraints s) aL aR aO (p_v s)
    (p_v_blinding s) (p_deferred s) (p_pending s) (p_nrand s) (p_norder s).
Definition p_with_v (v vb : list F) (s : prover) : prover :=
  Prover (p_g s) (p_h s) (p_transcript s) (p_constraints s) (p_aL s) (p_aR s) (p_aO s) v
    vb (p_deferred s) (p_pending s) (p_nrand s) (p_norder s).
Definition p_with_deferred (d : list (pprog (result unit))) (s : prover) : prover :=
  Prover (p_g s) (p_h s) (p_transcript s) (p_constraints s) (p_aL s) (p_aR s) (p_aO s) (p_v s)
    (p_v_blinding s) d (p_pending s) (p_nrand s) (p_norder s).
Definition p_with_pending (o : option nat) (s : prover) : prover :=
  Prover (p_g s) (p_h s) (p_transcript s) (p_constraints s) (p_aL s) (p_aR s) (p_aO s) (p_v s)
    (p_v_blinding s) (p_deferred s) o (p_nrand s) (p_norder s).
Definition p_with_nrand (n : nat) (s : prover) : prover :=
  Prover (p_g s) (p_h s) (p_transcript s) (p_constraints s) (p_aL s) (p_aR s) (p_aO s) (p_v s)
    (p_v_blinding s) (p_deferred s) (p_pending s) n (p_norder s).
Definition p_with_norder (n : nat) (s : prover) : prover :=
  Prover (p_g s) (p_h s) (p_transcript s) (p_constraints s) (p_aL s) (p_aR s) (p_aO s) (p_v s)
    (p_v_blinding s) (p_deferred s) (p_pending s) (p_nrand s) n.

(** prover.rs 119-129 *)
Definition prover_commit (v v_blinding : F) (s : prover) : (G1 * var) * prover :=
  let i := length (p_v s) in
  let V := commit (p_g s) (p_h s) v v_blinding in
  let s := p_with_v (p_v s ++ [v]) (p_v_blinding s ++ [v_blinding]) s in
  ((V, VCommitted i), p_with_transcript (commit_point "V" V (p_transcript s)) s).

(** prover.rs 283-296 *)
Definition prover_var_value (s : prover) (v : var) : outcome F :=
  match v with
  | VLeft i => index (p_aL s) i
  | VRight i => index (p_aR s) i
  | VOut i => index (p_aO s) i
  | VCommitted i => index (p_v s) i
  | VOne => Done 1
  end.
Definition prover_eval (s : prover) (l : lc) : outcome F :=
  foldM (fun sum '(v, coeff) => val <- prover_var_value s v ;; Done (sum + coeff * val)) l 0.

(** prover.rs 695-711 *)
Definition prover_allocate_vars (l r o : F) (s : prover) : (var * var * var) * prover :=
  ((VLeft (length (p_aL s)), VRight (length (p_aR s)), VOut (length (p_aO s))),
   p_with_wires (p_aL s ++ [l]) (p_aR s ++ [r]) (p_aO s ++ [o]) s).

(** prover.rs 659-663 *)
Definition prover_constrain (l : lc) (s : prover) : prover :=
  p_with_constraints (p_constraints s ++ [l]) s.

(** prover.rs 607-626 *)
Definition prover_multiply (left right : lc) (s : prover) : outcome ((var * var * var) * prover) :=
  l <- prover_eval s left ;;
  r <- prover_eval s right ;;
  let o := l * r in
  let '((l_var, r_var, o_var), s) := prover_allocate_vars l r o s in
  let s := prover_constrain (left ++ [(l_var, - (1))]) s in
  let s := prover_constrain (right ++ [(r_var, - (1))]) s in
  Done ((l_var, r_var, o_var), s).

(** prover.rs 628-647 *)
Definition prover_allocate (assignment : option F) (s : prover) : outcome (result var * prover) :=
  match assignment with
  | None => Done (Err MissingAssignment, s)
  | Some scalar =>
    match p_pending s with
    | None =>
        let i := length (p_aL s) in
        let s := p_with_pending (Some i) s in
        Done (Ok (VLeft i), p_with_wires (p_aL s ++ [scalar]) (p_aR s ++ [0]) (p_aO s ++ [0]) s)
    | Some i =>
        let s := p_with_pending None s in
        aR <- set_nth (p_aR s) i scalar ;;
        l <- index (p_aL s) i ;;
        r <- index aR i ;;
        aO <- set_nth (p_aO s) i (l * r) ;;
        Done (Ok (VRight i), p_with_wires (p_aL s) aR aO s)
    end
  end.

(** prover.rs 649-657 *)
Definition prover_allocate_multiplier (assignment : option (F * F)) (s : prover)
  : result (var * var * var) * prover :=
  match assignment with
  | None => (Err MissingAssignment, s)
  | Some (l, r) => let '(vs, s) := prover_allocate_vars l r (l * r) s in (Ok vs, s)
  end.

(** prover.rs 677-690 *)
Definition prover_allocate_single (assignment : option F) (s : prover)
  : outcome (result (var * option var) * prover) :=
  '(r, s) <- prover_allocate assignment s ;;
  match r with
  | Err e => Done (Err e, s)
  | Ok (VLeft i) => Done (Ok (VLeft i, None), s)
  | Ok (VRight i) => Done (Ok (VRight i, Some (VOut i)), s)
  | Ok _ => Done (Err FormatError, s)
  end.

(** Running a program.  [phase2 = false] is [impl ConstraintSystem for Prover]
    (prover.rs 604-691), [phase2 = true] is [RandomizingProver] (714-763).
    [PChallenge] in the first phase and [PCommit] in the second do not type-check
    in Rust; here they panic. *)
Fixpoint prun (W : world) (phase2 : bool) {A} (m : pprog A) (s : prover) : outcome (A * prover) :=
  match m with
  | PRet a => Done (a, s)
  | PPanic => Panic
  | PMultiply l r k => '(vs, s) <- prover_multiply l r s ;; prun W phase2 (k vs) s
  | PAllocate a k => '(r, s) <- prover_allocate a s ;; prun W phase2 (k r) s
  | PAllocMultiplier a k =>
      let '(r, s) := prover_allocate_multiplier a s in prun W phase2 (k r) s
  | PConstrain l k => prun W phase2 (k tt) (prover_constrain l s)
  | PSpecify c k =>
      if phase2
      then (* 740-745 *) '(r, s) <- prun W phase2 c s ;; prun W phase2 (k r) s
      else (* 665-671 *) prun W phase2 (k (Ok tt)) (p_with_deferred (p_deferred s ++ [c]) s)
  | PEvaluate l k => (* 673-675 *) v <- prover_eval s l ;; prun W phase2 (k (Some v)) s
  | PAllocSingle a k => '(r, s) <- prover_allocate_single a s ;; prun W phase2 (k r) s
  | PChallenge label k =>
      if phase2
      then (* 760-762 *)
        let '(c, t) := challenge_scalar label (p_transcript s) in
        prun W phase2 (k c) (p_with_transcript t s)
      else Panic
  | PCommit (v, v_blinding) k =>
      if phase2 then Panic
      else let '(r, s) := prover_commit v v_blinding s in prun W phase2 (k r) s
  | PShuffle l k =>
      prun W phase2 (k (permute (w_order W (p_norder s)) l)) (p_with_norder (S (p_norder s)) s)
  | PRandom k => prun W phase2 (k (w_random W (p_nrand s))) (p_with_nrand (S (p_nrand s)) s)
  end.

(** prover.rs 314-316 *)
Fixpoint prover_run_callbacks (W : world) (cbs : list (pprog (result unit))) (s : prover)
  : outcome (result prover) :=
  match cbs with
  | [] => Done (Ok s)
  | cb :: cbs' =>
      '(r, s) <- prun W true cb s ;;
      match r with
      | Ok _ => prover_run_callbacks W cbs' s
      | Err e => Done (Err e)
      end
  end.

(** prover.rs 300-319 *)
Definition prover_create_randomized_constraints (W : world) (s : prover) : outcome (result prover) :=
  let s := p_with_pending None s in
  match p_deferred s with
  | [] => Done (Ok (p_with_transcript (r1cs_1phase_domain_sep (p_transcript s)) s))
  | _ :: _ =>
      let s := p_with_transcript (r1cs_2phase_domain_sep (p_transcript s)) s in
      let callbacks := p_deferred s in
      prover_run_callbacks W callbacks (p_with_deferred [] s)
  end.

(** prover.rs 163-177: one term of one constraint *)
Definition add_at (l : list F) (i : nat) (x : F) : outcome (list F) :=
  a <- index l i ;; set_nth l i (a + x).
Definition prover_flatten_term (exp_z : F) (w : list F * list F * list F * list F) (t : var * F)
  : outcome (list F * list F * list F * list F) :=
  let '(wL, wR, wO, wV) := w in
  let '(v, coeff) := t in
  match v with
  | VLeft i => wL <- add_at wL i (exp_z * coeff) ;; Done (wL, wR, wO, wV)
  | VRight i => wR <- add_at wR i (exp_z * coeff) ;; Done (wL, wR, wO, wV)
  | VOut i => wO <- add_at wO i (exp_z * coeff) ;; Done (wL, wR, wO, wV)
  | VCommitted i => wV <- add_at wV i (- (exp_z * coeff)) ;; Done (wL, wR, wO, wV)
  | VOne => Done (wL, wR, wO, wV)
  end.

(** prover.rs 142-184 *)
Definition prover_flattened_constraints (s : prover) (z : F)
  : outcome (list F * list F * list F * list F) :=
  let n := length (p_aL s) in
  let m := length (p_v s) in
  '(w, _) <- foldM (fun '(w, exp_z) l =>
      w <- foldM (prover_flatten_term exp_z) l w ;;
      Done (w, exp_z * z))
    (p_constraints s) ((zeros n, zeros n, zeros n, zeros m), z) ;;
  Done w.

(** the next [n] values of [FieldElement::random()], starting at index [c] *)
Definition randoms (W : world) (c n : nat) : list F := map (w_random W) (seq c n).

(** prover.rs 469-486, iteration [i]: the entries written at index [i].
    The running product [exp_y] is [y^i]. *)
Definition prover_lr_entry (s : prover) (y : F) (exp_y_inv wL wR wO : list F) (sl sr : list F) (i : nat)
  : outcome (F * F * F * F * F * F) :=
  aL <- index (p_aL s) i ;;
  aR <- index (p_aR s) i ;;
  aO <- index (p_aO s) i ;;
  yi <- index exp_y_inv i ;;
  wl <- index wL i ;;
  wr <- index wR i ;;
  wo <- index wO i ;;
  sl_i <- index sl i ;;
  sr_i <- index sr i ;;
  let exp_y := fpow y i in
  Done (aL + yi * wr, aO, sl_i, wo - exp_y, exp_y * aR + wl, exp_y * sr_i).

(** [FieldElement] vectors of length [n] in which indices [0..m-1] were
    overwritten by [es] and the others kept their initial zero *)
Definition overwrite (n : nat) (es : list F) : outcome (list F) :=
  if Nat.leb (length es) n then Done (es ++ zeros (n - length es)) else Panic.

(** prover.rs 322-593, split at the two transcript milestones.  [prove] also
    returns the final transcript (a mutable borrow in Rust). *)
Definition prove (W : world) (s : prover) (G H : list G1) : outcome (result (r1cs_proof * transcript)) :=
  let s := p_with_transcript (append_u64 "m" (Z.of_nat (length (p_v s))) (p_transcript s)) s in
  let n1 := length (p_aL s) in
  if Nat.ltb (length G) n1 then Done (Err InvalidGeneratorsLength) else
  (* 336-341 *)
  let c := p_nrand s in
  let i_blinding1 := w_random W c in
  let o_blinding1 := w_random W (c + 1) in
  let s_blinding1 := w_random W (c + 2) in
  let s_L1 := randoms W (c + 3) n1 in
  let s_R1 := randoms W (c + 3 + n1) n1 in
  let s := p_with_nrand (c + 3 + n1 + n1) s in
  (* 343-366 *)
  G_n1 <- slice_to n1 G ;;
  H_n1 <- slice_to n1 H ;;
  AI1 <- commit_vectors G_n1 H_n1 (p_h s) (p_aL s) (p_aR s) i_blinding1 ;;
  ao1 <- msm_checked (p_aO s) G_n1 ;;
  let AO1 := g1_add ao1 (g1_mul o_blinding1 (p_h s)) in
  S_1 <- commit_vectors G_n1 H_n1 (p_h s) s_L1 s_R1 s_blinding1 ;;
  let t := commit_point "S1" S_1 (commit_point "A_O1" AO1 (commit_point "A_I1" AI1 (p_transcript s))) in
  let s := p_with_transcript t s in
  (* 369 *)
  s <-? prover_create_randomized_constraints W s ;;
  (* 374-381 *)
  let n := length (p_aL s) in
  let n2 := (n - n1)%nat in
  let padded_n := next_power_of_two n in
  let pad := (padded_n - n)%nat in
  if Nat.ltb (length G) padded_n then Done (Err InvalidGeneratorsLength) else
  (* 385-434 *)
  let has_2nd := Nat.ltb 0 n2 in
  let c := p_nrand s in
  let i_blinding2 := if has_2nd then w_random W c else 0 in
  let o_blinding2 := if has_2nd then w_random W (c + 1) else 0 in
  let s_blinding2 := if has_2nd then w_random W (c + 2) else 0 in
  let c := if has_2nd then (c + 3)%nat else c in
  let s_L2 := randoms W c n2 in
  let s_R2 := randoms W (c + n2) n2 in
  let c := (c + n2 + n2)%nat in
  '(AI2, AO2, S_2) <-
    (if has_2nd then
       G_n2 <- slice n1 n G ;;
       H_n2 <- slice n1 n H ;;
       a_L_n2 <- slice n1 (length (p_aL s)) (p_aL s) ;;
       a_R_n2 <- slice n1 (length (p_aR s)) (p_aR s) ;;
       a_O_n2 <- slice n1 (length (p_aO s)) (p_aO s) ;;
       ai2 <- commit_vectors G_n2 H_n2 (p_h s) a_L_n2 a_R_n2 i_blinding2 ;;
       ao2 <- msm_checked a_O_n2 G_n2 ;;
       s2 <- commit_vectors G_n2 H_n2 (p_h s) s_L2 s_R2 s_blinding2 ;;
       Done (ai2, g1_add ao2 (g1_mul o_blinding2 (p_h s)), s2)
     else Done (g1_id, g1_id, g1_id)) ;;
  let t := commit_point "S2" S_2 (commit_point "A_O2" AO2 (commit_point "A_I2" AI2 (p_transcript s))) in
  (* 438-441 *)
  let '(y, t) := challenge_scalar "y" t in
  let '(z, t) := challenge_scalar "z" t in
  '(wL, wR, wO, wV) <- prover_flattened_constraints s z ;;
  (* 458-486 *)
  let y_inv := finv y in
  let exp_y_inv := vandermonde y_inv padded_n in
  let sL := s_L1 ++ s_L2 in
  let sR := s_R1 ++ s_R2 in
  let rounds := Nat.min (length sL) (length sR) in
  es <- mapM (prover_lr_entry s y exp_y_inv wL wR wO sL sR) (seq 0 rounds) ;;
  l1 <- overwrite n (map (fun '(a, _, _, _, _, _) => a) es) ;;
  l2 <- overwrite n (map (fun '(_, a, _, _, _, _) => a) es) ;;
  l3 <- overwrite n (map (fun '(_, _, a, _, _, _) => a) es) ;;
  r0 <- overwrite n (map (fun '(_, _, _, a, _, _) => a) es) ;;
  r1 <- overwrite n (map (fun '(_, _, _, _, a, _) => a) es) ;;
  r3 <- overwrite n (map (fun '(_, _, _, _, _, a) => a) es) ;;
  let l_poly := VecPoly3 (zeros n) l1 l2 l3 in
  let r_poly := VecPoly3 r0 r1 (zeros n) r3 in
  (* 488-506 *)
  t_poly <- special_inner_product l_poly r_poly ;;
  let t_1_blinding := w_random W c in
  let t_3_blinding := w_random W (c + 1) in
  let t_4_blinding := w_random W (c + 2) in
  let t_5_blinding := w_random W (c + 3) in
  let t_6_blinding := w_random W (c + 4) in
  let T1 := commit (p_g s) (p_h s) (t1 t_poly) t_1_blinding in
  let T3 := commit (p_g s) (p_h s) (t3 t_poly) t_3_blinding in
  let T4 := commit (p_g s) (p_h s) (t4 t_poly) t_4_blinding in
  let T5 := commit (p_g s) (p_h s) (t5 t_poly) t_5_blinding in
  let T6 := commit (p_g s) (p_h s) (t6 t_poly) t_6_blinding in
  let t := commit_point "T_6" T6 (commit_point "T_5" T5 (commit_point "T_4" T4
             (commit_point "T_3" T3 (commit_point "T_1" T1 t)))) in
  (* 508-541 *)
  let '(u, t) := challenge_scalar "u" t in
  let '(x, t) := challenge_scalar "x" t in
  t_2_blinding <- inner_product wV (p_v_blinding s) ;;
  let t_blinding_poly :=
    Poly6 t_1_blinding t_2_blinding t_3_blinding t_4_blinding t_5_blinding t_6_blinding in
  let tx := poly6_eval t_poly x in
  let tx_blinding := poly6_eval t_blinding_poly x in
  l_vec <- vec_poly3_eval l_poly x ;;
  let l_vec := l_vec ++ zeros pad in
  r_vec <- vec_poly3_eval r_poly x ;;
  (* 532-535: exp_y is y^rounds after the loop above *)
  let r_vec := r_vec ++ map (fun i => - fpow y (rounds + i)) (seq 0 (padded_n - n)) in
  let i_blinding := i_blinding1 + u * i_blinding2 in
  let o_blinding := o_blinding1 + u * o_blinding2 in
  let s_blinding := s_blinding1 + u * s_blinding2 in
  let e_blind := x * (i_blinding + x * (o_blinding + x * s_blinding)) in
  (* 543-550 *)
  let t := commit_scalar "e_blinding" e_blind (commit_scalar "t_x_blinding" tx_blinding
             (commit_scalar "t_x" tx t)) in
  let '(w, t) := challenge_scalar "w" t in
  let Q := g1_mul w (p_g s) in
  (* 552-574 *)
  let G_factors := repeat (1 : F) n1 ++ repeat u (n2 + pad) in
  let H_factors := zipw (fun y u_or_1 => y * u_or_1) exp_y_inv G_factors in
  G_p <- slice_to padded_n G ;;
  H_p <- slice_to padded_n H ;;
  '(ipp, t) <- create_ipp t Q G_factors H_factors G_p H_p l_vec r_vec ;;
  Done (Ok (R1CSProof AI1 AO1 S_1 AI2 AO2 S_2 T1 T3 T4 T5 T6 tx tx_blinding e_blind ipp, t)).

(** prover.rs 595-601 *)
Definition prover_num_constraints (s : prover) : nat := length (p_constraints s).
Definition prover_num_multipliers (s : prover) : nat := length (p_aO s).

End Prover.
