(** Knowledge soundness of a verifying function.  The circuit it builds is public;
    the extractor computes from it how to recover the committed values, and then
    runs [r1cs_extract] on a tree of accepted proofs. *)
From Coq Require Import List ZArith.
From Verif.Base Require Import Outcome Fp Params Algebra.
From Verif.Model Require Import Transcript LinComb Prog IPP Prover Verifier.
From Verif.Spec Require Import R1CS Protocol IPPSpec R1CSTree R1CSExtractor.
Import ListNotations.

Section Knowledge.
Context {P : Params}.
Local Open Scope fe_scope.

(** *** Gaussian elimination *)
(** A row is a combination of the original rows; its weights are the second
    component.  The result gives, for every column [k], weights that combine the
    original rows to the unit vector of [k] (if there are any). *)
Definition eliminate (k : nat) (p r : (nat -> F) * (nat -> F)) : (nat -> F) * (nat -> F) :=
  let c := fst r k / fst p k in
  (fun j => fst r j - c * fst p j, fun q => snd r q - c * snd p q).
Fixpoint gauss (m : nat) (rows : list ((nat -> F) * (nat -> F))) : nat -> nat -> F :=
  match m with
  | O => fun _ _ => 0
  | S m =>
      match find (fun r => negb (feqb (fst r m) 0)) rows with
      | None => fun _ _ => 0
      | Some p =>
          let below := gauss m (map (eliminate m p) rows) in
          fun k q => if Nat.eqb k m then (snd p q - sum_n m (fun j => fst p j * below j q)) / fst p m else below k q
      end
  end.
(** the committed part of the constraints *)
Definition committed_rows (cs : list lc) : list ((nat -> F) * (nat -> F)) :=
  map (fun q => (fun j => coeff (VCommitted j) (nth q cs []), fun q' => if Nat.eqb q q' then 1 else 0)) (seq 0 (length cs)).
Definition left_inverse (m : nat) (cs : list lc) : nat -> nat -> F := gauss m (committed_rows cs).

(** The commitment with index [j] is [0 * g + 0 * h]: the extracted value is 0,
    or there is a relation between [g] and [h]. *)
Definition expect_zero (lG lH j : nat) (w : witness) : extracted witness :=
  if feqb (nth j (wit_v w) 0) 0 then Got w
  else Broken (nth j (wit_v w) 0 :: nth j (wit_blinding w) 0 :: zeros (lG + lH)).
Fixpoint expect_zeros (lG lH : nat) (js : list nat) (w : witness) : extracted witness :=
  match js with
  | [] => Got w
  | j :: js => ebind (expect_zero lG lH j w) (expect_zeros lG lH js)
  end.

(** The extractor for a circuit with one phase: [n] gates and constraints [cs]; [js]
    are the indices of the commitments to 0 that the verifier makes itself. *)
Definition circuit_extract (n lG lH m : nat) (cs : list lc) (js : list nat)
    (t : list (y_node unit scalar_tree)) : extracted witness :=
  ebind (r1cs_extract n n lG lH m cs (left_inverse m cs) t) (expect_zeros lG lH js).

(** [vp] builds its circuit in one phase, and [V] are the commitments in it (those
    received and those the verifier makes itself).  From every tree of proofs accepted
    for this circuit the extractor computes openings of all commitments such that the
    committed values are in the relation [R], or a relation between the generators. *)
Definition knowledge (W : world) (t0 : transcript) (vp : vprog (result unit)) (g h : G1) (V : list G1) (js : list nat)
    (R : list F -> Prop) : Prop :=
  forall vs, vrun W false vp (verifier_new t0) = Done (Ok tt, vs) ->
    let n := v_num_vars vs in
    let N := next_power_of_two n in
    let cs := v_constraints vs in
    v_deferred vs = [] /\ v_V vs = V /\
    forall G H k f t,
      N = (2 ^ k)%nat -> (N <= length G)%nat -> (N <= length H)%nat ->
      proof_tree_wf k (length cs) t -> proof_tree_accepted g h G H V n n cs f t ->
      match circuit_extract n (length G) (length H) (length V) cs js (tree_scalars t) with
      | Got w =>
          length (wit_v w) = length V /\
          (forall j, (j < length V)%nat ->
             nth j V g1_id = g1_add (g1_mul (nth j (wit_v w) 0) g) (g1_mul (nth j (wit_blinding w) 0) h)) /\
          R (wit_v w)
      | Broken c => generator_relation (g :: h :: G ++ H) c
      end.

(** The other direction. *)
(** as many different challenges as a tree needs, non-zero where necessary *)
Definition enough_challenges (k q : nat) (ys zs us xs ws cs : list F) : Prop :=
  (length ys = 2 ^ k /\ length zs = S q /\ length us = 5 /\ length xs = 7 /\ length ws = 2 /\ length cs = 4)%nat /\
  (NoDup ys /\ NoDup zs /\ NoDup us /\ NoDup xs /\ NoDup ws /\ NoDup (map (fun c => c * c) cs)) /\
  Forall (fun c => c <> 0) (ys ++ us ++ ws ++ cs).

(** Whoever runs [pp] can answer: it yields commitments, of which [good] holds; the
    verifier that runs [vp] on them builds a circuit for which there are accepted trees,
    whatever the challenges. *)
Definition answers {A} (W W' : world) (label : list Z) (g h : G1) (pp : pprog (result A))
    (vp : A -> vprog (result unit)) (good : A -> Prop) : Prop :=
  exists comms ps vs,
    prun W false pp (prover_new g h (transcript_new label)) = Done (Ok comms, ps) /\ good comms /\
    vrun W' false (vp comms) (verifier_new (transcript_new label)) = Done (Ok tt, vs) /\
    let n := v_num_vars vs in
    let N := next_power_of_two n in
    forall G H k ys zs us xs ws cs,
      N = (2 ^ k)%nat -> (N <= length G)%nat -> (N <= length H)%nat ->
      enough_challenges k (length (v_constraints vs)) ys zs us xs ws cs ->
      exists f t, proof_tree_wf k (length (v_constraints vs)) t /\
        proof_tree_accepted g h G H (v_V vs) n n (v_constraints vs) f t /\
        map y_chal t = ys /\ Forall (fun yn => map z_chal (y_zs yn) = zs) t.
End Knowledge.
