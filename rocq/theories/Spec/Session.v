(** Vocabulary for sessions: the assignment a prover holds, the states that
    client code can reach, and when a prover and a verifier hold the same
    circuit. *)
From Coq Require Import ZArith String List.
From Verif.Base Require Import Outcome Fp Params Algebra.
From Verif.Model Require Import Transcript LinComb Prog Prover Verifier.
From Verif.Spec Require Import R1CS.
Import ListNotations.

Section Session.
Context {P : Params}.

(** the assignment held by the prover *)
Definition prover_assignment (s : prover) : assignment :=
  assignment_of (p_v s) (p_aL s) (p_aR s) (p_aO s).

(** The state in which the second phase starts: nothing pending, the callbacks
    taken out, an arbitrary transcript and an arbitrary amount of randomness
    consumed. *)
Definition p_enter2 (t : transcript) (nrand : nat) (s : prover) : prover :=
  p_with_deferred [] (p_with_transcript t (p_with_nrand nrand (p_with_pending None s))).

(** Prover states reachable by client code in the first phase ([false]) and in
    the second phase ([true]). *)
Inductive p_reachable : bool -> prover -> Prop :=
| p_reach_first : forall (W : world) g h t {A} (m : pprog A) a s,
    prun W false m (prover_new g h t) = Done (a, s) -> p_reachable false s
| p_reach_second : forall (W : world) t nrand {A} (m : pprog A) a s s',
    p_reachable false s -> prun W true m (p_enter2 t nrand s) = Done (a, s') -> p_reachable true s'.

(** The prover's and the verifier's views of one circuit. *)
Record same_circuit (ps : prover) (vs : verifier) : Prop := {
  same_multipliers : v_num_vars vs = length (p_aL ps);
  same_wires : length (p_aR ps) = length (p_aL ps) /\ length (p_aO ps) = length (p_aL ps);
  same_commitments : v_V vs = zipw (commit (p_g ps) (p_h ps)) (p_v ps) (p_v_blinding ps);
  same_commitments_number : length (v_V vs) = length (p_v ps);
  same_constraints : Forall2 lc_same (p_constraints ps) (v_constraints vs);
  same_pending : p_pending ps = v_pending vs;
  same_transcript : p_transcript ps = v_transcript vs
}.
End Session.
