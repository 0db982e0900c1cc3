(** Vocabulary for gadgets: values that the prover's variables have for good,
    sessions in which every constraint holds, and complete proofs. *)
From Coq Require Import ZArith String List.
From Verif.Base Require Import Outcome Fp Params Algebra.
From Verif.Model Require Import Transcript LinComb Prog IPP Prover Verifier Gadgets.
From Verif.Spec Require Import R1CS Session Protocol Verdict.
Import ListNotations.

Section Gadget.
Context {P : Params}.
Local Open Scope fe_scope.

(** [v] exists and no later call can change its value: the right and output
    wires of a multiplier whose right half is not yet allocated are excluded. *)
Definition settled (s : prover) (v : var) : Prop :=
  match v with
  | VCommitted i => (i < length (p_v s))%nat
  | VLeft i => (i < length (p_aL s))%nat
  | VRight i | VOut i => (i < length (p_aL s))%nat /\ p_pending s <> Some i
  | VOne => True
  end.

(** the prover has given [v] the value [x] *)
Definition has_value (s : prover) (v : var) (x : F) : Prop :=
  settled s v /\ var_value (prover_assignment s) v = x.

(** every constraint added so far holds *)
Definition honest (s : prover) : Prop :=
  forall l, In l (p_constraints s) ->
    (forall v c, In (v, c) l -> settled s v) /\ lc_value (prover_assignment s) l = 0.

(** a prover and a verifier in the middle of building the same circuit, in the
    first ([ph = false]) or second phase, with all constraints so far satisfied *)
Definition session (ph : bool) (ps : prover) (vs : verifier) : Prop :=
  p_reachable ph ps /\ same_circuit ps vs /\ honest ps.

(** From there, the two programs run to results [a] and [b] and again leave the
    same circuit and all constraints satisfied; they add [k] multipliers, and
    keep all values and the pending multiplier. *)
Definition completes (W W' : world) (ph : bool) {A B} (m : pprog A) (m' : vprog B) (k : nat)
  (ps : prover) (vs : verifier) (a : A) (b : B) : Prop :=
  exists ps' vs',
    prun W ph m ps = Done (a, ps') /\ vrun W' ph m' vs = Done (b, vs') /\
    same_circuit ps' vs' /\ honest ps' /\
    length (p_aL ps') = (length (p_aL ps) + k)%nat /\
    p_pending ps' = p_pending ps /\
    (forall v x, has_value ps v x -> has_value ps' v x).

(** What a satisfied circuit forces: whenever the verifier runs [m] to [Ok b], every
    assignment that satisfies the circuit built so far has the property [Q b]. *)
Definition forces (W : world) (ph : bool) {B} (m : vprog (result B)) (vs : verifier)
  (Q : assignment -> B -> Prop) : Prop :=
  forall b vs' s, vrun W ph m vs = Done (Ok b, vs') ->
    satisfies s (v_num_vars vs') (v_constraints vs') -> Q s b.

(** The challenges that a verifier running [vp] on [proof] draws are not among
    the exceptional ones (0). *)
Definition good_challenges (W : world) (t : transcript) {B} (vp : vprog B) (proof : r1cs_proof) : Prop :=
  forall b vs vs2, vrun W false vp (verifier_new t) = Done (b, vs) -> v_second W proof vs vs2 ->
    let c := protocol_challenges (v_transcript vs2) proof in
    c_y c <> 0 /\ all_nonzero (round_challenges (v_num_vars vs2) c proof).

(** enough generators for [k] multipliers, and few enough rounds *)
Definition enough_generators (k : nat) (G H : list G1) : Prop :=
  (next_power_of_two k <= length G)%nat /\ (next_power_of_two k <= length H)%nat /\
  (Nat.log2_up k < 32)%nat /\ ((1 < k)%nat \/ batch_invert_empty_panics = false).

(** The blinding of a commitment when [randomness] was passed: that value, or the
    [n]-th value drawn from the generator. *)
Definition blinding (W : world) (randomness : option F) (n : nat) : F :=
  match randomness with Some r => r | None => w_random W n end.

(** Proving with [pp] yields a proof and commitments, of which [good] holds and
    which a verifier that runs [vp] on the commitments accepts unless it draws
    one of the exceptional challenges. *)
Definition proves {A} (W W' : world) (label : list Z) (g h : G1) (G H : list G1) (pp : pprog (result A))
  (vp : A -> vprog (result unit)) (good : A -> Prop) : Prop :=
  exists proof comms,
    gen_proof W label g h G H pp = Done (Ok (proof, comms)) /\ good comms /\
    (good_challenges W' (transcript_new label) (vp comms) proof ->
     verify_proof W' label g h G H proof (vp comms) = Done (Ok tt)).
End Gadget.
