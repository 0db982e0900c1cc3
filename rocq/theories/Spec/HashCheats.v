(** Dishonest provers for the inverse S-box; like those of Spec/Cheats.v they are
    no part of the code base. *)
From Coq Require Import ZArith String List.
From Verif.Base Require Import Outcome Fp Params Algebra.
From Verif.Model Require Import Transcript LinComb Prog Prover Verifier Gadgets Hash.
Import ListNotations.
Local Open Scope prog_scope.

Section Cheats.
Context {P : Params}.
Local Open Scope fe_scope.

(** an S-box whose output is [y], whatever the input *)
Definition cheat_inverse_sbox (y : F) : pprog (result var) :=
  '(var_l, _) <-? cs_allocate_single (Some (finv y)) ;;
  '(var_r, var_o) <-? cs_allocate_single (Some y) ;;
  is_nonzero_gadget var_l var_r ;;?
  var_o <- p_lift (of_option var_o) ;;
  constrain_lc_with_scalar (lc_of_var var_o) 1 ;;;
  PRet (Ok var_r).

(** A "proof" of knowledge of a preimage: commit to [x] and [y], then run the hash
    circuit on the constants [x'] and [y'] instead of the committed variables. *)
Definition cheat_Poseidon_2 (x y r1 r2 x' y' : F) (expected_output : F) (hash_params : poseidon_params)
  : pprog (result (list G1)) :=
  '(com_l, var_l) <- cs_commit (x, r1) ;;
  '(com_r, var_r) <- cs_commit (y, r2) ;;
  statics <- allocate_statics_for_prover 1 ;;
  hash <-? Poseidon_hash_2_constraints hash_params Inverse (lc_of_fe x') (lc_of_fe y') (map (fun s => lc_of_var s) statics) ;;
  constrain_lc_with_scalar hash expected_output ;;;
  PRet (Ok [com_l; com_r]).
End Cheats.
