(** Cheating provers on paper.

    An interactive one is a strategy: every message is a function of the
    challenges seen so far.  A non-interactive one is a program that asks a random
    oracle and then outputs a proof.  Probabilities are counted: out of all
    challenge vectors, or of all oracles, those for which the prover wins. *)
From Coq Require Import ZArith String List.
From Verif.Base Require Import Outcome Fp Params Algebra.
From Verif.Model Require Import Transcript LinComb IPP Prover Verifier.
From Verif.Spec Require Import R1CS Protocol IPPSpec R1CSTree.
Import ListNotations.

Section Games.
Context {P : Params}.
Local Open Scope fe_scope.

(** all lists of length [m] over [C] *)
Fixpoint vectors (C : list F) (m : nat) : list (list F) :=
  match m with
  | O => [[]]
  | S m => flat_map (fun x => map (cons x) (vectors C m)) C
  end.

(** The protocol accepts [pf] for the challenges [c = y :: z :: u :: x :: w :: us]. *)
Definition accepted_for (g h : G1) (G H V : list G1) (n1 n : nat) (cs : list lc) (pf : r1cs_proof) (c : list F) : Prop :=
  match c with
  | y :: z :: u :: x :: w :: us => accepted g h G H V n1 n cs pf y z u x w us
  | _ => False
  end.

(** every branch of a tree of conversations, with its challenges, satisfies [R] *)
Definition each_branch (R : r1cs_proof -> list F -> Prop) (f : first_message) (t : proof_tree) : Prop :=
  forall yn zn un xn w it us Ls Rs a b,
    In yn t -> In zn (y_zs yn) -> In un (z_us zn) -> In xn (u_xs un) ->
    In (w, it) [(x_w1 xn, x_ipp1 xn); (x_w2 xn, x_ipp2 xn)] -> branch it us Ls Rs a b ->
    R (branch_proof f zn xn Ls Rs a b) (y_chal yn :: z_chal zn :: u_chal un :: x_chal xn :: w :: us).

(** *** Interactive provers *)
(** six points; then, given [y] and [z], five points; then, given also [u] and
    [x], three scalars; then, given also [w] and the challenges of the previous
    rounds, two points for every round; and two scalars at the end *)
Record strategy : Type := Strategy {
  st_first : first_message;
  st_T : F -> F -> G1 * G1 * G1 * G1 * G1;
  st_open : F -> F -> F -> F -> F * F * F;
  st_round : F -> F -> F -> F -> F -> list F -> G1 * G1;
  st_final : F -> F -> F -> F -> F -> list F -> F * F
}.

(** the proof that results from the challenges [c] *)
Definition strategy_proof (st : strategy) (c : list F) : r1cs_proof :=
  let y := nth 0 c 0 in let z := nth 1 c 0 in let u := nth 2 c 0 in let x := nth 3 c 0 in
  let w := nth 4 c 0 in let us := skipn 5 c in
  let f := st_first st in
  let '(T1, T3, T4, T5, T6) := st_T st y z in
  let '(tx, txb, eb) := st_open st y z u x in
  let rounds := map (fun j => st_round st y z u x w (firstn j us)) (seq 0 (length us)) in
  let '(a, b) := st_final st y z u x w us in
  R1CSProof (f_AI1 f) (f_AO1 f) (f_S1 f) (f_AI2 f) (f_AO2 f) (f_S2 f) T1 T3 T4 T5 T6 tx txb eb
    (IPPProof (map fst rounds) (map snd rounds) a b).

(** *** Non-interactive provers *)
(** A challenge is drawn by asking the oracle with everything absorbed so far
    and the label of the challenge. *)
Definition query : Type := transcript * string.
Definition oracle : Type := query -> F.
(** the oracle that the code uses *)
Definition transcript_oracle : oracle := fun q => challenge_value (snd q) (fst q).

(** the questions behind the challenges of a proof [pf] for a circuit without
    second phase that has [n] gates; [t] is the transcript after the [m]
    commitments were made ([challenge_queries]: after the second phase) *)
Fixpoint round_queries (Ls Rs : list G1) (t : transcript) : list query :=
  match Ls, Rs with
  | L :: Ls, R :: Rs =>
      let t := commit_point "R" R (commit_point "L" L t) in
      (t, "u"%string) :: round_queries Ls Rs (t ++ [TChallenge "u" modbytes])
  | _, _ => []
  end.
Definition challenge_queries (n : nat) (t : transcript) (pf : r1cs_proof) : list query :=
  let for_y := commit_point "S2" (S2 pf) (commit_point "A_O2" (A_O2 pf) (commit_point "A_I2" (A_I2 pf) t)) in
  let for_z := for_y ++ [TChallenge "y" modbytes] in
  let for_u := commit_point "T_6" (T_6 pf) (commit_point "T_5" (T_5 pf) (commit_point "T_4" (T_4 pf)
               (commit_point "T_3" (T_3 pf) (commit_point "T_1" (T_1 pf) (for_z ++ [TChallenge "z" modbytes]))))) in
  let for_x := for_u ++ [TChallenge "u" modbytes] in
  let for_w := commit_scalar "e_blinding" (e_blinding pf) (commit_scalar "t_x_blinding" (t_x_blinding pf)
               (commit_scalar "t_x" (t_x pf) (for_x ++ [TChallenge "x" modbytes]))) in
  [(for_y, "y"); (for_z, "z"); (for_u, "u"); (for_x, "x"); (for_w, "w")]%string ++
  round_queries (ipp_L (proof_ipp pf)) (ipp_R (proof_ipp pf))
    (innerproduct_domain_sep (next_power_of_two n) (for_w ++ [TChallenge "w" modbytes])).
Definition proof_queries (m n : nat) (t : transcript) (pf : r1cs_proof) : list query :=
  challenge_queries n (r1cs_1phase_domain_sep (first_phase_transcript pf m t)) pf.

(** the same for a circuit whose second phase draws challenges with the given labels *)
Fixpoint callback_queries (labels : list string) (t : transcript) : list query :=
  match labels with
  | [] => []
  | l :: labels => (t, l) :: callback_queries labels (t ++ [TChallenge l modbytes])
  end.
Definition two_phase_queries (labels : list string) (m n : nat) (t : transcript) (pf : r1cs_proof) : list query :=
  let t := r1cs_2phase_domain_sep (first_phase_transcript pf m t) in
  callback_queries labels t ++ challenge_queries n (t ++ map (fun l => TChallenge l modbytes) labels) pf.

(** A prover: it asks the oracle, each question depending on the answers so far,
    and ends with an output: a proof, or commitments and a proof. *)
Inductive adversary (X : Type) : Type :=
| Answer (x : X)
| Ask (q : query) (k : F -> adversary X).
Global Arguments Answer {X} x.
Global Arguments Ask {X} q k.

Fixpoint output {X} (O : oracle) (A : adversary X) : X :=
  match A with Answer x => x | Ask q k => output O (k (O q)) end.
Fixpoint asked {X} (O : oracle) (A : adversary X) : list query :=
  match A with Answer _ => [] | Ask q k => q :: asked O (k (O q)) end.
(** whatever the answers, at most [Q] questions *)
Fixpoint at_most {X} (Q : nat) (A : adversary X) {struct A} : Prop :=
  match A with
  | Answer _ => True
  | Ask _ k => match Q with O => False | S Q => forall a, at_most Q (k a) end
  end.

Definition query_eq_dec (q q' : query) : {q = q'} + {q <> q'}.
Proof. repeat decide equality. Defined.
Definition set_answer (O : oracle) (q : query) (x : F) : oracle :=
  fun q' => if query_eq_dec q' q then x else O q'.

(** all oracles that answer the questions in [D] with elements of [C] (and all
    others as [O] does); there are [length C ^ length D] *)
Fixpoint oracles_from (O : oracle) (D : list query) (C : list F) : list oracle :=
  match D with
  | [] => [O]
  | q :: D => flat_map (fun x => oracles_from (set_answer O q x) D C) C
  end.
Definition oracles (D : list query) (C : list F) : list oracle := oracles_from (fun _ => 0) D C.
End Games.

(** *** The code with a given random oracle *)
(** the backend, with merlin's challenges answered by [O] *)
Definition backend {P : Params} (O : query -> Fp modulus) : Params := {|
  modulus := @modulus P;
  modbytes := @modbytes P;
  G1 := @G1 P;
  g1_id := g1_id;
  g1_add := g1_add;
  g1_neg := g1_neg;
  g1_mul := g1_mul;
  g1_eqb := g1_eqb;
  g1_bytes := g1_bytes;
  fe_bytes := fe_bytes;
  g1_from_msg_hash := g1_from_msg_hash;
  fe_from_msg_hash := fe_from_msg_hash;
  g1_generator := g1_generator;
  xof := fun t label _ => fval (O (t, label));
  shake256 := shake256;
  batch_invert_empty_panics := batch_invert_empty_panics
|}.

(** a proof does not depend on the oracle *)
Definition same_proof {P : Params} (O : query -> Fp modulus) (pf : r1cs_proof) : @r1cs_proof (backend O) :=
  @R1CSProof (backend O) (A_I1 pf) (A_O1 pf) (S1 pf) (A_I2 pf) (A_O2 pf) (S2 pf)
    (T_1 pf) (T_3 pf) (T_4 pf) (T_5 pf) (T_6 pf) (t_x pf) (t_x_blinding pf) (e_blinding pf)
    (@IPPProof (backend O) (ipp_L (proof_ipp pf)) (ipp_R (proof_ipp pf)) (ipp_a (proof_ipp pf)) (ipp_b (proof_ipp pf))).

(** [verify] accepts [pf], with the oracle [O] and the random value [r], from a
    verifier whose circuit has [n] gates, the constraints [cs] and no second phase *)
Definition verify_accepts {P : Params} (O : query -> Fp modulus) (r : Fp modulus) (g h : G1) (G H V : list G1) (n : nat)
    (cs : list lc) (t0 : transcript) (pf : r1cs_proof) : Prop :=
  exists t, @verify (backend O) (@World (backend O) (fun _ => r) (fun _ => []))
    (@Verifier (backend O) t0 cs n V [] None 0 0) (same_proof O pf) g h G H = Done (Ok t).
