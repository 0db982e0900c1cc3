(** What it means for second-phase callbacks to run once each, in order. *)
From Coq Require Import List.
From Verif.Base Require Import Outcome Fp Params.
From Verif.Model Require Import Transcript Prog Prover Verifier.
Import ListNotations.

Section Callbacks.
Context {P : Params}.

(** [p_ran W cbs s s']: from [s], the callbacks [cbs] ran one after the other,
    each of them once and successfully, and led to [s'] *)
Inductive p_ran (W : world) : list (pprog (result unit)) -> prover -> prover -> Prop :=
| p_ran_nil : forall s, p_ran W [] s s
| p_ran_cons : forall cb cbs s s1 s2,
    prun W true cb s = Done (Ok tt, s1) -> p_ran W cbs s1 s2 -> p_ran W (cb :: cbs) s s2.

Inductive v_ran (W : world) : list (vprog (result unit)) -> verifier -> verifier -> Prop :=
| v_ran_nil : forall s, v_ran W [] s s
| v_ran_cons : forall cb cbs s s1 s2,
    vrun W true cb s = Done (Ok tt, s1) -> v_ran W cbs s1 s2 -> v_ran W (cb :: cbs) s s2.

(** ... up to the first one that returns an error *)
Definition p_failed (W : world) (cbs : list (pprog (result unit))) (s : prover) (e : R1CSError) : Prop :=
  exists before cb after s1 s2, cbs = before ++ cb :: after /\ p_ran W before s s1 /\
    prun W true cb s1 = Done (Err e, s2).
Definition v_failed (W : world) (cbs : list (vprog (result unit))) (s : verifier) (e : R1CSError) : Prop :=
  exists before cb after s1 s2, cbs = before ++ cb :: after /\ v_ran W before s s1 /\
    vrun W true cb s1 = Done (Err e, s2).
(** The state in which the first callback starts: the two-phase separator has
    been absorbed, no multiplier is pending, no callback is left to run. *)
Definition p_start2 (s : prover) : prover :=
  p_with_deferred [] (p_with_transcript (r1cs_2phase_domain_sep (p_transcript s)) (p_with_pending None s)).
Definition v_start2 (s : verifier) : verifier :=
  v_with_deferred [] (v_with_transcript (r1cs_2phase_domain_sep (v_transcript s)) (v_with_pending None s)).

End Callbacks.
