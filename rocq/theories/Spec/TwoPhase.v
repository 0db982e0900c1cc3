(** Circuits with a second phase, on paper: the constraints depend on challenges
    drawn after the prover has committed to the wires of the first phase. *)
From Coq Require Import ZArith String List.
From Verif.Base Require Import Outcome Fp Params Algebra.
From Verif.Model Require Import Transcript LinComb Prog IPP Prover Verifier.
From Verif.Spec Require Import R1CS Protocol IPPSpec Verdict Extractor R1CSTree R1CSExtractor Games.
Import ListNotations.

Section TwoPhase.
Context {P : Params}.
Local Open Scope fe_scope.

(** [R] holds for many challenge vectors: for more than [d1] first challenges, each
    of them followed by more than [d2] second challenges, and so on *)
Fixpoint branching (ds : list nat) (R : list F -> Prop) : Prop :=
  match ds with
  | [] => R []
  | d :: ds => exists l, NoDup l /\ (d < length l)%nat /\ forall x, In x l -> branching ds (fun e => R (x :: e))
  end.

(** the largest number in a list *)
Definition maximum (l : list nat) : nat := fold_right Nat.max 0%nat l.

(** the wires of the first [n1] gates are the same *)
Definition same_first_phase (n1 : nat) (aL aR aO aL' aR' aO' : list F) : Prop :=
  forall i, (i < n1)%nat -> nth i aL 0 = nth i aL' 0 /\ nth i aR 0 = nth i aR' 0 /\ nth i aO 0 = nth i aO' 0.

(** An accepted tree of conversations for the challenges [e] of the second phase, whose
    first message has the points [AI] and [AO]; [R] holds for all conversations. *)
Definition circuit_tree (g h : G1) (G H V : list G1) (n1 n k : nat) (circ : list F -> list lc) (AI AO : G1)
    (R : list F -> r1cs_proof -> list F -> Prop) (e : list F) (f : first_message) (t : proof_tree) : Prop :=
  f_AI1 f = AI /\ f_AO1 f = AO /\ proof_tree_wf k (length (circ e)) t /\ each_branch (R e) f t /\
  proof_tree_accepted g h G H V n1 n (circ e) f t.

(** The extractor finds [c] in one of the given trees, or from the witnesses of two. *)
Inductive finds (n1 n lG lH m : nat) (circ : list F -> list lc) (M : list F -> nat -> nat -> F)
    (tree : list F -> first_message -> proof_tree -> Prop) (c : list F) : Prop :=
| in_tree e f t : tree e f t ->
    r1cs_extract n1 n lG lH m (circ e) (M e) (tree_scalars t) = Broken c -> finds n1 n lG lH m circ M tree c
| between_trees e f t w e' f' t' w' : tree e f t -> tree e' f' t' ->
    r1cs_extract n1 n lG lH m (circ e) (M e) (tree_scalars t) = Got w ->
    r1cs_extract n1 n lG lH m (circ e') (M e') (tree_scalars t') = Got w' ->
    compare_witnesses lG lH m w w' = Broken c -> finds n1 n lG lH m circ M tree c.

(** The extractor obtains, from one of the trees, openings of the commitments and wires
    for the first phase.  From many other trees it completes these to a solution of the
    circuit for the challenges of the tree. *)
Definition knows_two_phase (g h : G1) (G H V : list G1) (n1 n : nat) (circ : list F -> list lc) (M : list F -> nat -> nat -> F)
    (tree : list F -> first_message -> proof_tree -> Prop) (ds : list nat) : Prop :=
  let extract e t := r1cs_extract n1 n (length G) (length H) (length V) (circ e) (M e) (tree_scalars t) in
  exists e0 f0 t0 w0, tree e0 f0 t0 /\ extract e0 t0 = Got w0 /\
    (forall j, (j < length V)%nat ->
       nth j V g1_id = g1_add (g1_mul (nth j (wit_v w0) 0) g) (g1_mul (nth j (wit_blinding w0) 0) h)) /\
    branching ds (fun e => exists f t w, tree e f t /\ extract e t = Got w /\
      same_first_phase n1 (wit_aL w0) (wit_aR w0) (wit_aO w0) (wit_aL w) (wit_aR w) (wit_aO w) /\
      satisfies (assignment_of (wit_v w0) (wit_aL w) (wit_aR w) (wit_aO w)) n (circ e)).
End TwoPhase.

(** *** The code with a given random oracle *)
(** A verifier after its first phase, which left [n1] gates, the constraints [cs1] and
    the callbacks [cbs]; [verify] accepts [pf]. *)
Definition two_phase_verifier {P : Params} (O : query -> Fp modulus) (V : list G1) (n1 : nat) (cs1 : list lc)
    (cbs : list (@vprog (backend O) (result unit))) (t0 : transcript) : @verifier (backend O) :=
  @Verifier (backend O) t0 cs1 n1 V cbs None 0 0.
Definition two_phase_accepts {P : Params} (O : query -> Fp modulus) (r : Fp modulus) (g h : G1) (G H V : list G1) (n1 : nat)
    (cs1 : list lc) (cbs : list (@vprog (backend O) (result unit))) (t0 : transcript) (pf : r1cs_proof) : Prop :=
  exists t, @verify (backend O) (@World (backend O) (fun _ => r) (fun _ => []))
    (two_phase_verifier O V n1 cs1 cbs t0) (same_proof O pf) g h G H = Done (Ok t).

(** The callbacks draw challenges with the given [labels]; afterwards the circuit has
    [n] gates and the constraints [circ e], where [e] are the answers. *)
Definition second_phase {P : Params} (n1 : nat) (cs1 : list lc) (V : list G1)
    (cbs : forall O : query -> Fp modulus, list (@vprog (backend O) (result unit)))
    (labels : list string) (n : nat) (circ : list (Fp modulus) -> list lc) : Prop :=
  forall O t, cbs O <> [] /\
    let t := r1cs_2phase_domain_sep t in
    exists s2, (forall r, @verifier_run_callbacks (backend O) (@World (backend O) (fun _ => r) (fun _ => [])) (cbs O)
        (@Verifier (backend O) t cs1 n1 V [] None 0 0) = Done (Ok s2)) /\
      @v_transcript (backend O) s2 = t ++ map (fun l => TChallenge l modbytes) labels /\
      @v_constraints (backend O) s2 = circ (map O (callback_queries labels t)) /\
      @v_num_vars (backend O) s2 = n /\ @v_V (backend O) s2 = V /\ @v_nrand (backend O) s2 = 0%nat.
