(** C60: cheating provers of circuits with randomized constraints. *)
From Coq Require Import ZArith String List Lia Permutation Ring Field.
From Verif.Base Require Import Outcome Fp Params Algebra Instances.
From Verif.Model Require Import Transcript LinComb Prog IPP Prover Verifier.
From Verif.Spec Require Import R1CS Protocol IPPSpec Verdict Extractor R1CSTree R1CSExtractor Games TwoPhase.
From Verif.Proofs Require Import R1CSExtract TreeCheck OracleCount OracleCode OracleHonest GameInteractive QueryProofs TwoPhaseGame TwoPhaseCode TwoPhaseHonest.
From Verif.Props Require Import Demo.
Import ListNotations.
Local Notation length := List.length.

Section Props.
Context {P : Params} {OK : ParamsOk P}.
Local Open Scope fe_scope.

(** ** C60 Knowledge error of circuits with randomized constraints *)
(** A circuit with a second phase: its callbacks draw challenges [e] with the given
    labels and lead to the constraints [circ e].  A prover that asks the oracle at most
    [Q] questions; if [verify] accepts for more than the fraction
    (Q+r+5+k) max(ds,N,q,7) / |C| + 1/|R| of the oracles and of the verifier's random
    values, then its proofs yield either a relation between the generators, or openings
    of the commitments and wires for the first phase that can be completed to a
    satisfying assignment for many [e]: for more than [d1] first challenges, each followed
    by more than [d2] second challenges, and so on, where [ds = [d1; d2; ...]]. *)
Theorem C60_two_phase {ENC : EncodingOk P} g h G H V n1 cs1 cbs labels ds n k q circ M t0 D C R (A : adversary r1cs_proof) Q
    (wins : oracle -> F -> bool) :
  let m := length V in
  let N := next_power_of_two n in
  let queries := two_phase_queries labels m n t0 in
  let r := length labels in
  second_phase n1 cs1 V cbs labels n circ ->
  N = (2 ^ k)%nat -> (1 < n)%nat \/ batch_invert_empty_panics = false -> (n1 <= n)%nat -> length ds = r ->
  (forall e, length e = r -> length (circ e) = q /\ recovers (M e) m (circ e)) ->
  NoDup C -> ~ In 0 C -> NoDup D -> NoDup R -> at_most Q A ->
  (forall O x, In O (oracles D C) -> In x R -> wins O x = true ->
     two_phase_accepts O x g h G H V n1 cs1 (cbs O) t0 (output O A) /\ incl (queries (output O A)) D) ->
  ((Q + r + 5 + k) * Nat.max (maximum ds) (Nat.max N (Nat.max q 7)) * length C ^ length D * length R + length C * length C ^ length D <
    length C * length (filter (fun Ox => wins (fst Ox) (snd Ox)) (list_prod (oracles D C) R)))%nat ->
  exists AI AO,
    let tree := circuit_tree g h G H V n1 n k circ AI AO (fun e pf c =>
      exists O x, In O (oracles D C) /\ In x R /\ wins O x = true /\ output O A = pf /\ map O (queries pf) = e ++ c) in
    branching ds (fun e => exists f t, tree e f t) /\
    ((exists c, generator_relation (g :: h :: G ++ H) c /\ finds n1 n (length G) (length H) m circ M tree c) \/
     knows_two_phase g h G H V n1 n circ M tree ds).
Proof. exact (two_phase_code g h G H V n1 cs1 cbs labels ds n k q circ M t0 D C R A Q wins). Qed.

(** The same against a verifier that checks both equations, without batching them. *)
Theorem C60_two_phase_protocol {ENC : EncodingOk P} g h G H V labels ds n1 n k q circ M t0 D C (A : adversary r1cs_proof) Q wins :
  let m := length V in
  let N := next_power_of_two n in
  let queries := two_phase_queries labels m n t0 in
  let r := length labels in
  N = (2 ^ k)%nat -> (N <= length G)%nat -> (N <= length H)%nat -> (n1 <= n)%nat -> length ds = r ->
  (forall e, length e = r -> length (circ e) = q /\ Forall (lc_in_range n m) (circ e) /\ recovers (M e) m (circ e)) ->
  NoDup C -> NoDup D -> at_most Q A ->
  (forall O, In O (oracles D C) -> wins O = true ->
     let pf := output O A in
     let c := map O (queries pf) in
     accepted_for g h G H V n1 n (circ (firstn r c)) pf (skipn r c) /\ incl (queries pf) D) ->
  ((Q + r + 5 + k) * Nat.max (maximum ds) (Nat.max N (Nat.max q 7)) * length C ^ length D < length C * length (filter wins (oracles D C)))%nat ->
  exists AI AO,
    let tree := circuit_tree g h G H V n1 n k circ AI AO (fun e pf c =>
      exists O, In O (oracles D C) /\ wins O = true /\ output O A = pf /\ map O (queries pf) = e ++ c) in
    branching ds (fun e => exists f t, tree e f t) /\
    ((exists c, generator_relation (g :: h :: G ++ H) c /\ finds n1 n (length G) (length H) m circ M tree c) \/
     knows_two_phase g h G H V n1 n circ M tree ds).
Proof. exact (two_phase_protocol g h G H V labels ds n1 n k q circ M t0 D C A Q wins). Qed.

(** [verify] asks exactly these questions: it accepts for two random values, or for all,
    only if the protocol accepts for the circuit and the challenges that the oracle gives. *)
Theorem C60_verify_asks g h G H V n1 cs1 cbs labels n circ t0 (pf : r1cs_proof) k (O : oracle) :
  let m := length V in
  let N := next_power_of_two n in
  let r := length labels in
  let c := map O (two_phase_queries labels m n t0 pf) in
  let accepts x := two_phase_accepts O x g h G H V n1 cs1 (cbs O) t0 pf in
  let acc := accepted_for g h G H V n1 n (circ (firstn r c)) pf (skipn r c) in
  second_phase n1 cs1 V cbs labels n circ -> (1 < n)%nat \/ batch_invert_empty_panics = false ->
  N = (2 ^ k)%nat -> (k < 32)%nat -> length (ipp_L (proof_ipp pf)) = k -> length (ipp_R (proof_ipp pf)) = k ->
  (N <= length G)%nat -> (N <= length H)%nat -> Forall (lc_in_range n m) (circ (firstn r c)) ->
  Forall (fun u => u <> 0) (skipn (r + 5) c) ->
  (acc -> forall x, accepts x) /\ (forall x x', x <> x' -> accepts x -> accepts x' -> acc).
Proof. exact (fun HP2 => two_phase_asks V n1 cs1 cbs labels n circ HP2 g h G H t0 pf k O). Qed.

(** Whoever knows openings and wires of the first phase that can be completed for all
    challenges wins, unless the oracle answers 0. *)
Theorem C60_honest_prover {ENC : EncodingOk P} g h G H n1 cs1 cbs labels n k circ v gam aL aR aO (aLs aRs aOs : list F -> list F) t0 :
  let N := next_power_of_two n in
  let V := zipw (fun x b => g1_add (g1_mul x g) (g1_mul b h)) v gam in
  let r := length labels in
  second_phase n1 cs1 V cbs labels n circ ->
  N = (2 ^ k)%nat -> (k < 32)%nat -> (1 < n)%nat \/ batch_invert_empty_panics = false ->
  (N <= length G)%nat -> (N <= length H)%nat -> length gam = length v ->
  (forall e, length e = r -> length (aLs e) = n /\ length (aRs e) = n /\ length (aOs e) = n /\
     same_first_phase n1 aL aR aO (aLs e) (aRs e) (aOs e) /\
     Forall (lc_in_range n (length v)) (circ e) /\ satisfies (assignment_of v (aLs e) (aRs e) (aOs e)) n (circ e)) ->
  exists A, at_most (r + 5 + k) A /\
    forall O, ~ In 0 (map O (two_phase_queries labels (length V) n t0 (output O A))) ->
      forall x, two_phase_accepts O x g h G H V n1 cs1 (cbs O) t0 (output O A).
Proof. exact (honest_two_phase g h G H _ n1 cs1 cbs labels n k circ v gam aL aR aO aLs aRs aOs t0 eq_refl). Qed.
End Props.

Print Assumptions C60_two_phase.
Print Assumptions C60_two_phase_protocol.
Print Assumptions C60_verify_asks.
Print Assumptions C60_honest_prover.

(** ** The hypotheses are met *)
(** Four commitments, to x0, x1, y0, y1.  The first phase puts x0 and x1 on the wires of
    a gate; the second one draws a challenge z and checks (x0 - z)(x1 - z) =
    (y0 - z)(y1 - z): the y's are the x's in some order. *)
Section Shuffle.
Context {P : Params}.
Local Open Scope fe_scope.
Local Open Scope prog_scope.
Definition sh_cs1 : list lc := [ [(VLeft 0, 1); (VCommitted 0, - (1))]; [(VRight 0, 1); (VCommitted 1, - (1))] ].
Definition sh_second : vprog (result unit) :=
  (z <- cs_challenge "shuffle" ;;
   a <- cs_multiply [(VLeft 0, 1); (VOne, - z)] [(VRight 0, 1); (VOne, - z)] ;;
   b <- cs_multiply [(VCommitted 2, 1); (VOne, - z)] [(VCommitted 3, 1); (VOne, - z)] ;;
   cs_constrain [(snd a, 1); (snd b, - (1))] ;;;
   PRet (Ok tt))%prog.
Definition sh_circ (e : list F) : list lc :=
  let z := nth 0 e 0 in
  sh_cs1 ++
  [ [(VLeft 0, 1); (VOne, - z); (VLeft 1, - (1))]; [(VRight 0, 1); (VOne, - z); (VRight 1, - (1))];
    [(VCommitted 2, 1); (VOne, - z); (VLeft 2, - (1))]; [(VCommitted 3, 1); (VOne, - z); (VRight 2, - (1))];
    [(VOut 1, 1); (VOut 2, - (1))] ].
Definition sh_M (e : list F) (j q : nat) : F :=
  match j, q with 0%nat, 0%nat | 1%nat, 1%nat => - (1) | 2%nat, 4%nat | 3%nat, 5%nat => 1 | _, _ => 0 end.
End Shuffle.
Definition sh_cbs {P : Params} (O : query -> Fp modulus) : list (@vprog (backend O) (result unit)) := [@sh_second (backend O)].

Section ShuffleFacts.
Context {P : Params} {OK : ParamsOk P}.
Local Open Scope fe_scope.
Add Field FFtp : (Fp_field_theory modulus modulus_prime).

Lemma sh_phase V : second_phase 1 sh_cs1 V sh_cbs ["shuffle"%string] 3 sh_circ.
Proof.
  intros O t. split; [discriminate|]. cbv zeta. eexists. split; [intros r; reflexivity|].
  split; [reflexivity|]. split; [|repeat split; reflexivity].
  cbn. unfold challenge_value. cbn. rewrite (of_Z_fval (@modulus P)). reflexivity.
Qed.

Lemma sh_range e : Forall (lc_in_range 3 4) (sh_circ e).
Proof.
  repeat constructor; intros v c Hin; cbn [In] in Hin;
    repeat (destruct Hin as [E|Hin]; [injection E as <- <-; cbn; try exact I; lia|]); contradiction.
Qed.
Lemma sh_recovers e : recovers (sh_M e) 4 (sh_circ e).
Proof.
  intros j j' Hj Hj'. destruct j as [|[|[|[|j]]]]; try lia; (destruct j' as [|[|[|[|j']]]]; try lia);
    cbn -[fadd fmul fopp]; ring.
Qed.

(** what a satisfying assignment says *)
Lemma sh_sat v aL aR aO e : satisfies (assignment_of v aL aR aO) 3 (sh_circ e) ->
  let z := nth 0 e 0 in
  (nth 0 v 0 - z) * (nth 1 v 0 - z) = (nth 2 v 0 - z) * (nth 3 v 0 - z) /\ nth 0 aL 0 = nth 0 v 0 /\ nth 0 aR 0 = nth 1 v 0.
Proof.
  intros [Hg Hc] z. pose proof (Hg 1%nat ltac:(lia)) as G1'. pose proof (Hg 2%nat ltac:(lia)) as G2'. unfold gate_ok in *.
  cbn [assignment_of as_left as_right as_out] in G1', G2'.
  assert (Hl : forall l, In l (sh_circ e) -> lc_value (assignment_of v aL aR aO) l = 0) by exact Hc.
  unfold sh_circ in Hl. cbn [app sh_cs1] in Hl.
  pose proof (Hl _ (or_introl eq_refl)) as C0. pose proof (Hl _ (or_intror (or_introl eq_refl))) as C1.
  pose proof (Hl _ (or_intror (or_intror (or_introl eq_refl)))) as C2.
  pose proof (Hl _ (or_intror (or_intror (or_intror (or_introl eq_refl))))) as C3.
  pose proof (Hl _ (or_intror (or_intror (or_intror (or_intror (or_introl eq_refl)))))) as C4.
  pose proof (Hl _ (or_intror (or_intror (or_intror (or_intror (or_intror (or_introl eq_refl))))))) as C5.
  pose proof (Hl _ (or_intror (or_intror (or_intror (or_intror (or_intror (or_intror (or_introl eq_refl)))))))) as C6.
  cbn [lc_value var_value assignment_of as_committed as_left as_right as_out] in *. fold z in C2, C3, C4, C5.
  assert (Hd : forall a b d : F, d = 0 -> a = b + d -> a = b) by (intros a b d -> ->; ring).
  assert (E0 : nth 0 aL 0 = nth 0 v 0) by (apply (Hd _ _ _ C0); ring).
  assert (E1 : nth 0 aR 0 = nth 1 v 0) by (apply (Hd _ _ _ C1); ring).
  assert (E2 : nth 1 aL 0 = nth 0 v 0 - z) by (symmetry; apply (Hd _ _ _ C2); rewrite E0; ring).
  assert (E3 : nth 1 aR 0 = nth 1 v 0 - z) by (symmetry; apply (Hd _ _ _ C3); rewrite E1; ring).
  assert (E4 : nth 2 aL 0 = nth 2 v 0 - z) by (symmetry; apply (Hd _ _ _ C4); ring).
  assert (E5 : nth 2 aR 0 = nth 3 v 0 - z) by (symmetry; apply (Hd _ _ _ C5); ring).
  assert (E6 : nth 1 aO 0 = nth 2 aO 0) by (apply (Hd _ _ _ C6); ring).
  split; [|auto]. rewrite <- E2, <- E3, <- E4, <- E5. rewrite G1', G2'. exact E6.
Qed.

(** two challenges are enough *)
Lemma sh_two x0 x1 y0 y1 (z z' : F) : z <> z' ->
  (x0 - z) * (x1 - z) = (y0 - z) * (y1 - z) -> (x0 - z') * (x1 - z') = (y0 - z') * (y1 - z') -> Permutation [x0; x1] [y0; y1].
Proof.
  intros Hne E E'.
  assert (Es : x0 + x1 = y0 + y1).
  { assert (Hz : (z' - z) * (x0 + x1 - (y0 + y1)) = 0).
    { transitivity ((x0 - z) * (x1 - z) - (x0 - z') * (x1 - z') - ((y0 - z) * (y1 - z) - (y0 - z') * (y1 - z'))); [ring|].
      rewrite E, E'. ring. }
    apply F_mul_integral in Hz as [Hz|Hz].
    - exfalso. apply Hne. transitivity (z + (z' - z)); [rewrite Hz|]; ring.
    - transitivity (y0 + y1 + (x0 + x1 - (y0 + y1))); [|rewrite Hz]; ring. }
  assert (Ep : x0 * x1 = y0 * y1).
  { transitivity ((x0 - z) * (x1 - z) + z * (x0 + x1) - z * z); [ring|]. rewrite E, Es. ring. }
  assert (Hx : (x0 - y0) * (x0 - y1) = 0).
  { transitivity (x0 * (x0 - (y0 + y1)) + y0 * y1); [ring|]. rewrite <- Es, <- Ep. ring. }
  apply F_mul_integral in Hx as [Hx|Hx].
  - assert (A : x0 = y0) by (transitivity (y0 + (x0 - y0)); [|rewrite Hx]; ring).
    assert (B : x1 = y1) by (transitivity (x0 + x1 - x0); [ring|]; rewrite Es, A; ring). rewrite A, B. apply Permutation_refl.
  - assert (A : x0 = y1) by (transitivity (y1 + (x0 - y1)); [|rewrite Hx]; ring).
    assert (B : x1 = y0) by (transitivity (x0 + x1 - x0); [ring|]; rewrite Es, A; ring). rewrite A, B. constructor 3.
Qed.

(** A prover that convinces [verify] too often has committed to a permutation. *)
Theorem C60_shuffle {ENC : EncodingOk P} g h G H V t0 D C R (A : adversary r1cs_proof) Q (wins : oracle -> F -> bool) :
  length V = 4%nat ->
  NoDup C -> ~ In 0 C -> NoDup D -> NoDup R -> at_most Q A ->
  (forall O x, In O (oracles D C) -> In x R -> wins O x = true ->
     two_phase_accepts O x g h G H V 1 sh_cs1 (sh_cbs O) t0 (output O A) /\
     incl (two_phase_queries ["shuffle"%string] 4 3 t0 (output O A)) D) ->
  ((Q + 8) * 7 * length C ^ length D * length R + length C * length C ^ length D <
    length C * length (filter (fun Ox => wins (fst Ox) (snd Ox)) (list_prod (oracles D C) R)))%nat ->
  exists AI AO,
    let tree := circuit_tree g h G H V 1 3 2 sh_circ AI AO (fun e pf c =>
      exists O x, In O (oracles D C) /\ In x R /\ wins O x = true /\ output O A = pf /\
        map O (two_phase_queries ["shuffle"%string] 4 3 t0 pf) = e ++ c) in
    (exists c, generator_relation (g :: h :: G ++ H) c /\ finds 1 3 (length G) (length H) 4 sh_circ sh_M tree c) \/
    (exists e f t w, tree e f t /\ r1cs_extract 1 3 (length G) (length H) 4 (sh_circ e) (sh_M e) (tree_scalars t) = Got w /\
       (forall j, (j < 4)%nat ->
          nth j V g1_id = g1_add (g1_mul (nth j (wit_v w) 0) g) (g1_mul (nth j (wit_blinding w) 0) h)) /\
       Permutation [nth 0 (wit_v w) 0; nth 1 (wit_v w) 0] [nth 2 (wit_v w) 0; nth 3 (wit_v w) 0]).
Proof.
  intros HV HC HC0 HD HR HA Hw Hcount.
  destruct (C60_two_phase g h G H V 1 sh_cs1 sh_cbs ["shuffle"%string] [1%nat] 3 2 7 sh_circ sh_M t0 D C R A Q wins (sh_phase V)
    eq_refl (or_introl (le_S _ _ (le_n 2))) ltac:(lia) eq_refl) as (AI & AO & Ht); try assumption.
  - intros e _. split; [reflexivity|]. rewrite HV. apply sh_recovers.
  - intros O x HO Hx Hwin. rewrite HV. apply Hw; assumption.
  - cbn [length maximum fold_right]. change (next_power_of_two 3) with 4%nat.
    change (Nat.max (Nat.max 1 0) (Nat.max 4 (Nat.max 7 7))) with 7%nat. replace (Q + 1 + 5 + 2)%nat with (Q + 8)%nat by lia. exact Hcount.
  - rewrite HV in Ht. exists AI, AO. cbv zeta in *. destruct Ht as (_ & [Hc|Hk]); [left; exact Hc|right].
    unfold knows_two_phase in Hk. cbv zeta in Hk. rewrite HV in Hk.
    destruct Hk as (e & f & t & w & H1 & H2 & H3 & l & Hn & Hl & Hb). exists e, f, t, w. split; [exact H1|]. split; [exact H2|]. split; [exact H3|].
    destruct l as [|z [|z' l]]; [cbn in Hl; lia|cbn in Hl; lia|]. inversion Hn as [|? ? Hz _]; subst.
    destruct (Hb z (or_introl eq_refl)) as (f1 & t1 & w1 & _ & _ & _ & S1'). destruct (Hb z' (or_intror (or_introl eq_refl))) as (f2 & t2 & w2 & _ & _ & _ & S2').
    apply sh_sat in S1' as [S1' _]. apply sh_sat in S2' as [S2' _]. cbn [nth] in S1', S2'.
    apply (sh_two _ _ _ _ z z'); [|exact S1'|exact S2']. intros ->. apply Hz. left. reflexivity.
Qed.
End ShuffleFacts.

Print Assumptions C60_shuffle.

Section Examples.
#[local] Existing Instance toyP.
#[local] Existing Instance toyP_ok.
#[local] Existing Instance toyP_enc.
Local Open Scope fe_scope.

(** 3, 5 and 5, 3 *)
Definition sh_v : list F := map fe [3; 5; 5; 3]%Z.
Definition sh_gam : list F := map fe [21; 22; 23; 24]%Z.
Definition sh_V : list G1 := zipw (fun x b => g1_add (g1_mul x demo_g) (g1_mul b demo_h)) sh_v sh_gam.
Definition sh_aL (e : list F) : list F := [fe 3; fe 3 - nth 0 e 0; fe 5 - nth 0 e 0].
Definition sh_aR (e : list F) : list F := [fe 5; fe 5 - nth 0 e 0; fe 3 - nth 0 e 0].
Definition sh_aO (e : list F) : list F := map (fun p => fst p * snd p) (combine (sh_aL e) (sh_aR e)).
Definition sh_C : list F := map (fun i => fe (Z.of_nat i)) (seq 1 200).
Definition sh_R : list F := map (fun i => fe (Z.of_nat i)) (seq 0 10).
Lemma sh_C_nodup : NoDup sh_C.
Proof. apply nodup_b_ok. vm_compute. reflexivity. Qed.
Lemma sh_R_nodup : NoDup sh_R.
Proof. apply nodup_b_ok. vm_compute. reflexivity. Qed.
Lemma sh_C_nz : ~ In 0 sh_C.
Proof.
  intros Hin. assert (Hz : Forall (fun c : F => c <> 0) sh_C) by (apply (forallb_Forall nz_b); [exact nz_b_ok|vm_compute; reflexivity]).
  rewrite Forall_forall in Hz. exact (Hz 0 Hin eq_refl).
Qed.
Add Field FFtpt : (Fp_field_theory modulus modulus_prime).
Lemma sh_solution e : satisfies (assignment_of sh_v (sh_aL e) (sh_aR e) (sh_aO e)) 3 (sh_circ e).
Proof.
  split.
  - intros i Hi. destruct i as [|[|[|i]]]; try lia; unfold gate_ok; reflexivity.
  - intros l Hl. unfold sh_circ in Hl. cbn [app sh_cs1 In] in Hl.
    repeat (destruct Hl as [<-|Hl]; [cbn [lc_value var_value assignment_of as_committed as_left as_right as_out sh_v sh_aL sh_aR sh_aO nth map combine fst snd]; ring|]).
    contradiction.
Qed.

Example C60_example : NoDup sh_C /\ ~ In 0 sh_C /\ NoDup sh_R /\ length sh_V = 4%nat /\ exists A D, NoDup D /\ at_most 8 A /\
  (forall O x, In O (oracles D sh_C) -> In x sh_R -> true = true ->
     two_phase_accepts O x demo_g demo_h demo_G demo_H sh_V 1 sh_cs1 (sh_cbs O) [] (output O A) /\
     incl (two_phase_queries ["shuffle"%string] 4 3 [] (output O A)) D) /\
  ((8 + 8) * 7 * length sh_C ^ length D * length sh_R + length sh_C * length sh_C ^ length D <
    length sh_C * length (filter (fun Ox => true) (list_prod (oracles D sh_C) sh_R)))%nat.
Proof.
  split; [exact sh_C_nodup|]. split; [exact sh_C_nz|]. split; [exact sh_R_nodup|]. split; [reflexivity|].
  destruct (C60_honest_prover demo_g demo_h demo_G demo_H 1 sh_cs1 sh_cbs ["shuffle"%string] 3 2 sh_circ sh_v sh_gam
    (sh_aL []) (sh_aR []) (sh_aO []) sh_aL sh_aR sh_aO [] (sh_phase sh_V) eq_refl ltac:(lia) (or_introl (le_S _ _ (le_n 2)))
    ltac:(change (4 <= 8)%nat; lia) ltac:(change (4 <= 8)%nat; lia) eq_refl) as (A & HA & Hacc).
  { intros e _. split; [reflexivity|]. split; [reflexivity|]. split; [reflexivity|]. split; [|split; [apply sh_range|apply sh_solution]].
    intros i Hi. destruct i as [|i]; [|lia]. split; [reflexivity|]. split; reflexivity. }
  destruct (domain_exists (two_phase_queries ["shuffle"%string] 4 3 []) sh_C A) as (D & HD & Hin). exists A, D.
  split; [exact HD|]. split; [exact HA|]. split.
  - intros O x HO _ _. split; [|exact (Hin O HO)]. apply Hacc. intros H0. apply in_map_iff in H0 as (q & E & Hq).
    apply sh_C_nz. rewrite <- E. apply (oracles_inside sh_C D (fun _ => 0)); [exact HD|exact HO|]. exact (Hin O HO q Hq).
  - rewrite filter_true, prod_length. unfold oracles. rewrite oracles_length.
    change (length sh_R) with 10%nat. change (length sh_C) with 200%nat.
    generalize (Nat.pow_nonzero 200 (length D) ltac:(discriminate)). generalize (200 ^ length D)%nat. intros x Hx. lia.
Qed.
End Examples.
