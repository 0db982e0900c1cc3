(** Trees of conversations for the R1CS protocol, on paper: a prover that was
    rewound after each of its messages and answered several challenges.

    A circuit with [n] gates, [n1] of them from the first phase, and linear
    constraints [cs]; [N] is [n] rounded up to a power of two. *)
From Coq Require Import ZArith List.
From Verif.Base Require Import Outcome Fp Params Algebra.
From Verif.Model Require Import LinComb IPP Prover.
From Verif.Spec Require Import R1CS Protocol IPPSpec.
Import ListNotations.

Section Tree.
Context {P : Params}.
Local Open Scope fe_scope.

(** The protocol accepts the proof [pf] for the challenges [y z u x w] and the
    round challenges [us] of the inner-product argument. *)
Definition accepted (g h : G1) (G H V : list G1) (n1 n : nat) (cs : list lc) (pf : r1cs_proof)
    (y z u x w : F) (us : list F) : Prop :=
  let N := next_power_of_two n in
  t_equation pf g h V n cs y z x /\
  conversation (g1_mul w g) (ipp_point pf g h G H n1 n N cs y z u x w)
    (map (fun i => g1_mul (phase_factor n1 u i) (nth i G g1_id)) (seq 0 N))
    (map (fun i => g1_mul (fpow (finv y) i * phase_factor n1 u i) (nth i H g1_id)) (seq 0 N))
    us (ipp_L (proof_ipp pf)) (ipp_R (proof_ipp pf)) (ipp_a (proof_ipp pf)) (ipp_b (proof_ipp pf)).

(** The nodes of the tree.  [T] is the type of the prover's points, [I] that of
    trees of the inner-product argument.

    Challenge [x], answered with three scalars; then two values of the
    challenge [w], each followed by an inner-product argument. *)
Record x_node (I : Type) : Type := XNode {
  x_chal : F; x_tx : F; x_txb : F; x_eb : F;
  x_w1 : F; x_ipp1 : I; x_w2 : F; x_ipp2 : I
}.
(** challenge [u] and several challenges [x] *)
Record u_node (I : Type) : Type := UNode { u_chal : F; u_xs : list (x_node I) }.
(** challenge [z], answered with [T_1], [T_3], ..., [T_6], and several challenges [u] *)
Record z_node (T I : Type) : Type := ZNode {
  z_chal : F; z_T1 : T; z_T3 : T; z_T4 : T; z_T5 : T; z_T6 : T; z_us : list (u_node I)
}.
(** challenge [y] and several challenges [z] *)
Record y_node (T I : Type) : Type := YNode { y_chal : F; y_zs : list (z_node T I) }.

(** The six points sent before the first challenge. *)
Record first_message : Type := FirstMessage {
  f_AI1 : G1; f_AO1 : G1; f_S1 : G1; f_AI2 : G1; f_AO2 : G1; f_S2 : G1
}.

Definition proof_tree : Type := list (y_node G1 ipp_tree).

Arguments x_chal {I}. Arguments x_tx {I}. Arguments x_txb {I}. Arguments x_eb {I}.
Arguments x_w1 {I}. Arguments x_ipp1 {I}. Arguments x_w2 {I}. Arguments x_ipp2 {I}.
Arguments u_chal {I}. Arguments u_xs {I}.
Arguments z_chal {T I}. Arguments z_T1 {T I}. Arguments z_T3 {T I}. Arguments z_T4 {T I}.
Arguments z_T5 {T I}. Arguments z_T6 {T I}. Arguments z_us {T I}.
Arguments y_chal {T I}. Arguments y_zs {T I}.

(** the proof sent along one branch *)
Definition branch_proof (f : first_message) (zn : z_node G1 ipp_tree) (xn : x_node ipp_tree)
    (Ls Rs : list G1) (a b : F) : r1cs_proof :=
  R1CSProof (f_AI1 f) (f_AO1 f) (f_S1 f) (f_AI2 f) (f_AO2 f) (f_S2 f)
    (z_T1 zn) (z_T3 zn) (z_T4 zn) (z_T5 zn) (z_T6 zn)
    (x_tx xn) (x_txb xn) (x_eb xn) (IPPProof Ls Rs a b).

(** every branch is an accepted conversation *)
Definition proof_tree_accepted (g h : G1) (G H V : list G1) (n1 n : nat) (cs : list lc)
    (f : first_message) (t : proof_tree) : Prop :=
  forall yn zn un xn w it us Ls Rs a b,
    In yn t -> In zn (y_zs yn) -> In un (z_us zn) -> In xn (u_xs un) ->
    In (w, it) [(x_w1 xn, x_ipp1 xn); (x_w2 xn, x_ipp2 xn)] ->
    branch it us Ls Rs a b ->
    accepted g h G H V n1 n cs (branch_proof f zn xn Ls Rs a b)
      (y_chal yn) (z_chal zn) (u_chal un) (x_chal xn) w us.

(** The shape of the tree: [N] values of [y]; under each one more value of [z]
    than there are constraints; under each five of [u]; under each seven of [x];
    under each two of [w], each with an inner-product tree of depth [k]. *)
Definition x_node_wf (k : nat) (xn : x_node ipp_tree) : Prop :=
  x_w1 xn <> 0 /\ x_w2 xn <> 0 /\ x_w1 xn <> x_w2 xn /\
  tree_wf k (x_ipp1 xn) /\ tree_wf k (x_ipp2 xn).
Definition u_node_wf (k : nat) (un : u_node ipp_tree) : Prop :=
  u_chal un <> 0 /\ length (u_xs un) = 7%nat /\ NoDup (map x_chal (u_xs un)) /\ Forall (x_node_wf k) (u_xs un).
Definition z_node_wf (k : nat) (zn : z_node G1 ipp_tree) : Prop :=
  length (z_us zn) = 5%nat /\ NoDup (map u_chal (z_us zn)) /\ Forall (u_node_wf k) (z_us zn).
Definition y_node_wf (k q : nat) (yn : y_node G1 ipp_tree) : Prop :=
  y_chal yn <> 0 /\ length (y_zs yn) = S q /\ NoDup (map z_chal (y_zs yn)) /\ Forall (z_node_wf k) (y_zs yn).
Definition proof_tree_wf (k q : nat) (t : proof_tree) : Prop :=
  length t = (2 ^ k)%nat /\ NoDup (map y_chal t) /\ Forall (y_node_wf k q) t.

(** The extractor sees the challenges and the scalars the prover sent, and no
    group element. *)
Definition x_scalars (xn : x_node ipp_tree) : x_node scalar_tree :=
  XNode _ (x_chal xn) (x_tx xn) (x_txb xn) (x_eb xn)
    (x_w1 xn) (scalars_of (x_ipp1 xn)) (x_w2 xn) (scalars_of (x_ipp2 xn)).
Definition u_scalars (un : u_node ipp_tree) : u_node scalar_tree :=
  UNode _ (u_chal un) (map x_scalars (u_xs un)).
Definition z_scalars (zn : z_node G1 ipp_tree) : z_node unit scalar_tree :=
  ZNode _ _ (z_chal zn) tt tt tt tt tt (map u_scalars (z_us zn)).
Definition y_scalars (yn : y_node G1 ipp_tree) : y_node unit scalar_tree :=
  YNode _ _ (y_chal yn) (map z_scalars (y_zs yn)).
Definition tree_scalars (t : proof_tree) : list (y_node unit scalar_tree) := map y_scalars t.

(** The extractor delivers a result, or the coefficients of a non-trivial linear
    relation between the generators [g, h, G, H]. *)
Inductive extracted (A : Type) : Type :=
| Got (a : A)
| Broken (c : list F).
Arguments Got {A}. Arguments Broken {A}.

Definition generator_relation (B : list G1) (c : list F) : Prop :=
  length c = length B /\ msm c B = g1_id /\ exists x, In x c /\ x <> 0.

(** A witness: values and blindings of the commitments, the wires of the
    circuit, and the coefficients over [g, h, G, H] of [A_I1] and [A_O1]. *)
Record witness : Type := Witness {
  wit_v : list F; wit_blinding : list F;
  wit_aL : list F; wit_aR : list F; wit_aO : list F;
  wit_AI1 : list F; wit_AO1 : list F
}.

Definition witness_ok (g h : G1) (G H V : list G1) (n1 n : nat) (cs : list lc) (f : first_message)
    (w : witness) : Prop :=
  (* the commitments are opened *)
  (forall j, (j < length V)%nat ->
     nth j V g1_id = g1_add (g1_mul (nth j (wit_v w) 0) g) (g1_mul (nth j (wit_blinding w) 0) h)) /\
  (* the circuit is satisfied *)
  satisfies (assignment_of (wit_v w) (wit_aL w) (wit_aR w) (wit_aO w)) n cs /\
  (* the wires of the first phase are those committed in its two points *)
  length (wit_AI1 w) = length (g :: h :: G ++ H) /\ msm (wit_AI1 w) (g :: h :: G ++ H) = f_AI1 f /\
  length (wit_AO1 w) = length (g :: h :: G ++ H) /\ msm (wit_AO1 w) (g :: h :: G ++ H) = f_AO1 f /\
  forall i, (i < n1)%nat -> (i < n)%nat ->
    nth i (wit_aL w) 0 = nth (2 + i) (wit_AI1 w) 0 /\
    nth i (wit_aR w) 0 = nth (2 + length G + i) (wit_AI1 w) 0 /\
    nth i (wit_aO w) 0 = nth (2 + i) (wit_AO1 w) 0.

(** The constraints determine the committed values: [M] is a left inverse of the
    matrix of their coefficients. *)
Definition recovers (M : nat -> nat -> F) (m : nat) (cs : list lc) : Prop :=
  forall j j', (j < m)%nat -> (j' < m)%nat ->
    sum_n (length cs) (fun q => M j q * coeff (VCommitted j') (nth q cs [])) =
    if Nat.eqb j j' then 1 else 0.
End Tree.

Arguments x_chal {P I}. Arguments x_tx {P I}. Arguments x_txb {P I}. Arguments x_eb {P I}.
Arguments x_w1 {P I}. Arguments x_ipp1 {P I}. Arguments x_w2 {P I}. Arguments x_ipp2 {P I}.
Arguments u_chal {P I}. Arguments u_xs {P I}.
Arguments z_chal {P T I}. Arguments z_T1 {P T I}. Arguments z_T3 {P T I}. Arguments z_T4 {P T I}.
Arguments z_T5 {P T I}. Arguments z_T6 {P T I}. Arguments z_us {P T I}.
Arguments y_chal {P T I}. Arguments y_zs {P T I}.
Arguments Got {P A}. Arguments Broken {P A}.
