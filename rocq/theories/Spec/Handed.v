(** The variables that a client program receives, in the order in which it
    receives them. *)
From Coq Require Import ZArith String List.
From Verif.Base Require Import Outcome Fp Params Algebra.
From Verif.Model Require Import Transcript LinComb Prog Prover Verifier.
Import ListNotations.

Section Handed.
Context {P : Params}.

(** variables in the result of a call *)
Definition vars3 (vs : var * var * var) : list var := let '(a, b, c) := vs in [a; b; c].
Definition vars_allocate (r : result var) : list var :=
  match r with Ok v => [v] | Err _ => [] end.
Definition vars_multiplier (r : result (var * var * var)) : list var :=
  match r with Ok vs => vars3 vs | Err _ => [] end.
Definition vars_single (r : result (var * option var)) : list var :=
  match r with
  | Ok (v, Some o) => [v; o]
  | Ok (v, None) => [v]
  | Err _ => []
  end.

(** The run of [prun], collecting the variables that the calls return. *)
Fixpoint prover_vars (W : world) (phase2 : bool) {A} (m : pprog A) (s : prover) : list var :=
  match m with
  | PRet _ | PPanic => []
  | PMultiply l r k =>
      match prover_multiply l r s with
      | Done (vs, s') => vars3 vs ++ prover_vars W phase2 (k vs) s'
      | Panic => []
      end
  | PAllocate a k =>
      match prover_allocate a s with
      | Done (r, s') => vars_allocate r ++ prover_vars W phase2 (k r) s'
      | Panic => []
      end
  | PAllocMultiplier a k =>
      let '(r, s') := prover_allocate_multiplier a s in vars_multiplier r ++ prover_vars W phase2 (k r) s'
  | PConstrain l k => prover_vars W phase2 (k tt) (prover_constrain l s)
  | PSpecify c k =>
      if phase2 then
        prover_vars W phase2 c s ++
        match prun W phase2 c s with
        | Done (r, s') => prover_vars W phase2 (k r) s'
        | Panic => []
        end
      else prover_vars W phase2 (k (Ok tt)) (p_with_deferred (p_deferred s ++ [c]) s)
  | PEvaluate l k =>
      match prover_eval s l with
      | Done v => prover_vars W phase2 (k (Some v)) s
      | Panic => []
      end
  | PAllocSingle a k =>
      match prover_allocate_single a s with
      | Done (r, s') => vars_single r ++ prover_vars W phase2 (k r) s'
      | Panic => []
      end
  | PChallenge label k =>
      if phase2
      then let '(c, t) := challenge_scalar label (p_transcript s) in
           prover_vars W phase2 (k c) (p_with_transcript t s)
      else []
  | PCommit (v, b) k =>
      if phase2 then []
      else let '(r, s') := prover_commit v b s in [snd r] ++ prover_vars W phase2 (k r) s'
  | PShuffle l k =>
      prover_vars W phase2 (k (permute (w_order W (p_norder s)) l)) (p_with_norder (S (p_norder s)) s)
  | PRandom k => prover_vars W phase2 (k (w_random W (p_nrand s))) (p_with_nrand (S (p_nrand s)) s)
  end.

(** ... over all callbacks of the second phase *)
Fixpoint prover_callback_vars (W : world) (cbs : list (pprog (result unit))) (s : prover) : list var :=
  match cbs with
  | [] => []
  | cb :: t =>
      prover_vars W true cb s ++
      match prun W true cb s with
      | Done (Ok _, s') => prover_callback_vars W t s'
      | _ => []
      end
  end.
Definition prover_phase2_vars (W : world) (s : prover) : list var :=
  prover_callback_vars W (p_deferred s)
    (p_with_deferred [] (p_with_transcript (r1cs_2phase_domain_sep (p_transcript s)) (p_with_pending None s))).

(** The same for the verifier. *)
Fixpoint verifier_vars (W : world) (phase2 : bool) {A} (m : vprog A) (s : verifier) : list var :=
  match m with
  | PRet _ | PPanic => []
  | PMultiply l r k => let '(vs, s') := verifier_multiply l r s in vars3 vs ++ verifier_vars W phase2 (k vs) s'
  | PAllocate _ k => let '(r, s') := verifier_allocate s in vars_allocate r ++ verifier_vars W phase2 (k r) s'
  | PAllocMultiplier _ k =>
      let '(r, s') := verifier_allocate_multiplier s in vars_multiplier r ++ verifier_vars W phase2 (k r) s'
  | PConstrain l k => verifier_vars W phase2 (k tt) (verifier_constrain l s)
  | PSpecify c k =>
      if phase2 then
        verifier_vars W phase2 c s ++
        match vrun W phase2 c s with
        | Done (r, s') => verifier_vars W phase2 (k r) s'
        | Panic => []
        end
      else verifier_vars W phase2 (k (Ok tt)) (v_with_deferred (v_deferred s ++ [c]) s)
  | PEvaluate l k => verifier_vars W phase2 (k None) s
  | PAllocSingle _ k =>
      let '(r, s') := verifier_allocate_single s in vars_single r ++ verifier_vars W phase2 (k r) s'
  | PChallenge label k =>
      if phase2
      then let '(c, t) := challenge_scalar label (v_transcript s) in
           verifier_vars W phase2 (k c) (v_with_transcript t s)
      else []
  | PCommit V k =>
      if phase2 then []
      else let '(r, s') := verifier_commit V s in [r] ++ verifier_vars W phase2 (k r) s'
  | PShuffle l k =>
      verifier_vars W phase2 (k (permute (w_order W (v_norder s)) l)) (v_with_norder (S (v_norder s)) s)
  | PRandom k => verifier_vars W phase2 (k (w_random W (v_nrand s))) (v_with_nrand (S (v_nrand s)) s)
  end.

Fixpoint verifier_callback_vars (W : world) (cbs : list (vprog (result unit))) (s : verifier) : list var :=
  match cbs with
  | [] => []
  | cb :: t =>
      verifier_vars W true cb s ++
      match vrun W true cb s with
      | Done (Ok _, s') => verifier_callback_vars W t s'
      | _ => []
      end
  end.
Definition verifier_phase2_vars (W : world) (s : verifier) : list var :=
  verifier_callback_vars W (v_deferred s)
    (v_with_deferred [] (v_with_transcript (r1cs_2phase_domain_sep (v_transcript s)) (v_with_pending None s))).

End Handed.
