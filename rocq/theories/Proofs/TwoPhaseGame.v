(** Non-interactive provers of circuits with a second phase. *)
From Coq Require Import ZArith String List Lia Bool.
From Verif.Base Require Import Outcome Fp Params Algebra.
From Verif.Model Require Import Transcript LinComb IPP Prover.
From Verif.Spec Require Import R1CS Protocol IPPSpec Extractor R1CSTree R1CSExtractor Games TwoPhase Challenges.
From Verif.Proofs Require Import IPPProofs VerifyProofs R1CSExtract TreeCount TreeBuild OracleCount QueryProofs QueryTwo OracleGood GameOracle TwoPhaseTree.
Import ListNotations.
Local Notation length := List.length.

Section Game.
Context {P : Params} {OK : ParamsOk P} {ENC : EncodingOk P}.

Lemma tree_has_branch k : forall t, tree_wf k t -> exists us Ls Rs a b, branch t us Ls Rs a b.
Proof.
  induction k as [|k IH]; intros [a b|L R u1 t1 u2 t2 u3 t3 u4 t4] Hw; try contradiction.
  - exists [], [], [], a, b. constructor.
  - destruct Hw as (_ & _ & Hw & _). destruct (IH t1 Hw) as (us & Ls & Rs & a & b & Hb).
    exists (u1 :: us), (L :: Ls), (R :: Rs), a, b. constructor. exact Hb.
Qed.
Lemma proof_tree_has_branch k q t (R : r1cs_proof -> list F -> Prop) f : proof_tree_wf k q t -> each_branch R f t ->
  exists pf c, R pf c /\ A_I1 pf = f_AI1 f /\ A_O1 pf = f_AO1 f /\ S1 pf = f_S1 f.
Proof.
  intros (Hl & _ & Hy) Hb. destruct t as [|yn t]; [cbn in Hl; pose proof (Nat.pow_nonzero 2 k); lia|].
  inversion Hy as [|? ? (_ & Lz & _ & Hz) _]; subst. destruct (y_zs yn) as [|zn zs] eqn:Ez; [discriminate Lz|].
  inversion Hz as [|? ? (Lu & _ & Hu) _]; subst. destruct (z_us zn) as [|un us'] eqn:Eu; [discriminate Lu|].
  inversion Hu as [|? ? (_ & Lx & _ & Hx) _]; subst. destruct (u_xs un) as [|xn xs] eqn:Ex; [discriminate Lx|].
  inversion Hx as [|? ? (_ & _ & _ & Ht & _) _]; subst. destruct (tree_has_branch k _ Ht) as (us & Ls & Rs & a & b & Hbr).
  eexists _, _. split.
  - apply (Hb yn zn un xn (x_w1 xn) (x_ipp1 xn) us Ls Rs a b); [left; reflexivity|rewrite Ez; left; reflexivity|
      rewrite Eu; left; reflexivity|rewrite Ex; left; reflexivity|left; reflexivity|exact Hbr].
  - auto.
Qed.

Lemma maximum_le l x : In x l -> x <= maximum l.
Proof. induction l as [|a l IH]; intros Hin; [destruct Hin|]. cbn. destruct Hin as [->|Hin]; [lia|]. specialize (IH Hin). unfold maximum in IH. lia. Qed.

Theorem two_phase_tree g h G H V labels ds n1 n k q circ t0 D C mu (A : adversary r1cs_proof) Qn wins :
  let m := length V in
  let N := next_power_of_two n in
  let queries := two_phase_queries labels m n t0 in
  let r := length labels in
  N = 2 ^ k -> repeats mu C -> NoDup D -> at_most Qn A -> length ds = r ->
  (forall O, In O (oracles D C) -> wins O = true ->
     let pf := output O A in
     let c := map O (queries pf) in
     accepted_for g h G H V n1 n (circ (firstn r c)) pf (skipn r c) /\ incl (queries pf) D) ->
  (Qn + r + 5 + k) * (mu * Nat.max (maximum ds) (Nat.max N (Nat.max q 7))) * length C ^ length D < length C * length (filter wins (oracles D C)) ->
  exists AI AO, branching ds (fun e => exists f t, f_AI1 f = AI /\ f_AO1 f = AO /\ proof_tree_wf k q t /\
    each_branch (fun pf c => exists O, In O (oracles D C) /\ wins O = true /\ output O A = pf /\ map O (queries pf) = e ++ c) f t /\
    proof_tree_accepted g h G H V n1 n (circ e) f t).
Proof.
  intros m N queries r HN HC HD HA Hds Hacc Hcount.
  set (T := filter wins (oracles D C)).
  set (pr := fun e : oracle => output e A).
  set (ps := fun e : oracle => queries (pr e)).
  set (ch := fun e : oracle => map e (ps e)).
  set (pt := fun i (e : oracle) => nth i (ps e) no_query).
  assert (HT : forall e, In e T -> In e (oracles D C) /\ wins e = true) by (intros e He; apply filter_In, He).
  assert (Hs : forall e, In e T -> shaped k (pr e)).
  { intros e He. destruct (HT e He) as [H1 H2]. destruct (Hacc e H1 H2) as [Ha _].
    apply (accepted_for_shape g h G H V n1 n _ _ _ k HN Ha). }
  assert (HK : length (map (Nat.mul mu) (ds ++ thresholds k q)) = r + (5 + k)).
  { rewrite map_length, app_length, Hds. unfold thresholds. cbn [length]. rewrite repeat_length. reflexivity. }
  assert (Hg : good pt query_eq_dec ch T C (map (Nat.mul mu) (ds ++ thresholds k q)) 0 (fun _ => fzero modulus) [] = true).
  { apply (adversary_good queries (map (Nat.mul mu) (ds ++ thresholds k q)) (mu * Nat.max (maximum ds) (Nat.max N (Nat.max q 7))) D C A Qn wins HD HA).
    - intros K HKin. apply in_map_iff in HKin as (K' & <- & HKin). apply Nat.mul_le_mono_l. apply in_app_or in HKin as [Hin|Hin]; [apply maximum_le in Hin; lia|].
      unfold thresholds in Hin. rewrite HN. destruct Hin as [<-|[<-|[<-|[<-|[<-|Hin]]]]]; try lia. apply repeat_spec in Hin. lia.
    - intros e He. rewrite HK. change (length (queries (pr e)) = r + (5 + k)). apply two_phase_length, Hs, He.
    - intros e e' i j He He'. rewrite HK. intros Hi Hj E.
      assert (Ei : i = j) by (apply (point2_level labels m n t0 k (pr e) (pr e')); auto). split; [exact Ei|]. subst j.
      apply (points2_mono labels m n t0 k (pr e) (pr e')); auto.
    - intros e He. destruct (HT e He) as [H1 H2]. apply (Hacc e H1 H2).
    - rewrite HK. replace (Qn + (r + (5 + k))) with (Qn + r + 5 + k) by lia. exact Hcount. }
  apply (good_distinct pt query_eq_dec ch T C mu HC) in Hg.
  destruct (two_phase_build pt query_eq_dec ch T (nodup (Fp_eq_dec modulus) C) pr r k q) with (ds := ds) (e0 := fun _ : query => fzero modulus) as (e1 & He1 & Hb);
    try exact Hg; try apply NoDup_nodup; try exact Hds.
  - intros i e e' He He' Hi E. apply (point2_mono labels m n t0 k (pr e) (pr e') i (S i)); auto.
  - intros e e' He He' E. apply (point_first m n t0 k); auto. apply (point2_point labels m n t0 k); auto; [lia|].
    rewrite Nat.add_0_r. exact E.
  - intros e e' He He' E. apply (point_Ts m n t0 k); auto. apply (point2_point labels m n t0 k); auto. lia.
  - intros e e' He He' E. apply (point_opening m n t0 k); auto. apply (point2_point labels m n t0 k); auto. lia.
  - intros j e e' He He' Hj E. apply (point_round m n t0 k); auto. apply (point2_point labels m n t0 k); auto. lia.
  - intros e He. apply Hs, He.
  - exists (A_I1 (pr e1)), (A_O1 (pr e1)). eapply branching_imp; [|exact Hb]. cbv beta. intros e Hle (f & t & Hwf & Hbr).
    assert (Hcut : forall c0 : list F, firstn r (e ++ c0) = e /\ skipn r (e ++ c0) = c0).
    { intros c0. rewrite firstn_app, skipn_app, Hle, Hds, Nat.sub_diag. rewrite firstn_all2, skipn_all2 by lia. cbn. rewrite app_nil_r. auto. }
    destruct (proof_tree_has_branch k q t _ f Hwf Hbr) as (pf & c & (e2 & He2 & E0 & Ep & _) & F1 & F2 & _).
    destruct (point2_first labels m n t0 k (pr e1) (pr e2) 0 (Hs _ He1) (Hs _ He2) ltac:(lia) E0) as (B1 & B2 & _).
    exists f, t. split; [congruence|]. split; [congruence|]. split; [exact Hwf|].
    split; intros yn zn un xn w it us Ls Rs a b Hy Hz Hu Hx Hw Hbb;
      destruct (Hbr _ _ _ _ _ _ _ _ _ _ _ Hy Hz Hu Hx Hw Hbb) as (e3 & He3 & _ & Ep3 & Ec3); destruct (HT e3 He3) as [G1 G2].
    + exists e3. split; [exact G1|]. split; [exact G2|]. split; [exact Ep3|]. rewrite <- Ep3. exact Ec3.
    + destruct (Hacc e3 G1 G2) as [Ha _]. cbv zeta in Ha. change (map e3 (queries (output e3 A))) with (ch e3) in Ha. rewrite Ec3 in Ha.
      destruct (Hcut (y_chal yn :: z_chal zn :: u_chal un :: x_chal xn :: w :: us)) as [-> ->] in Ha.
      change (output e3 A) with (pr e3) in Ha. rewrite Ep3 in Ha. exact Ha.
Qed.

(** *** Extraction *)
Local Open Scope fe_scope.
Lemma satisfies_values v v' aL aR aO n m cs : (forall j, (j < m)%nat -> nth j v 0 = nth j v' 0) -> Forall (lc_in_range n m) cs ->
  satisfies (assignment_of v aL aR aO) n cs -> satisfies (assignment_of v' aL aR aO) n cs.
Proof.
  intros Hv Hr [Hg Hc]. split; [exact Hg|]. intros l Hl. rewrite <- (Hc l Hl). rewrite Forall_forall in Hr. specialize (Hr l Hl).
  clear Hl Hc. induction l as [|[x c] l IH]; [reflexivity|]. cbn [lc_value]. rewrite IH.
  - f_equal. f_equal. specialize (Hr x c (or_introl eq_refl)). destruct x; try reflexivity. cbn in *. symmetry. apply Hv, Hr.
  - intros y d Hin. apply (Hr y d). right. exact Hin.
Qed.

Lemma or_all (A : Type) (Q : Prop) (B : A -> Prop) (l : list A) : (forall x, In x l -> Q \/ B x) -> Q \/ forall x, In x l -> B x.
Proof.
  induction l as [|a l IH]; intros Hl; [right; intros x []|].
  destruct (Hl a (or_introl eq_refl)) as [HQ|Ha]; [left; exact HQ|].
  destruct IH as [HQ|Hb]; [intros x Hx; apply Hl; right; exact Hx|left; exact HQ|].
  right. intros x [<-|Hx]; auto.
Qed.
Lemma branching_or (Q : Prop) ds : forall (R : list F -> Prop), branching ds (fun e => Q \/ R e) -> Q \/ branching ds R.
Proof.
  induction ds as [|d ds IH]; intros R Hb; cbn [branching] in *; [exact Hb|].
  destruct Hb as (l & Hn & Hl & Hx).
  destruct (or_all F Q (fun x => branching ds (fun e => R (x :: e))) l) as [HQ|Ha]; [|left; exact HQ|].
  - intros x Hin. apply IH, Hx, Hin.
  - right. exists l. auto.
Qed.

Theorem two_phase_extract g h G H V n1 n k circ M ds (tree : list F -> first_message -> proof_tree -> Prop) AI AO :
  let N := next_power_of_two n in
  let m := length V in
  N = (2 ^ k)%nat -> (N <= length G)%nat -> (N <= length H)%nat -> (n1 <= n)%nat ->
  (forall e f t, length e = length ds -> tree e f t -> f_AI1 f = AI /\ f_AO1 f = AO /\
     proof_tree_wf k (length (circ e)) t /\ proof_tree_accepted g h G H V n1 n (circ e) f t /\
     Forall (lc_in_range n m) (circ e) /\ recovers (M e) m (circ e)) ->
  branching ds (fun e => exists f t, tree e f t) ->
  (exists c, generator_relation (g :: h :: G ++ H) c /\ finds n1 n (length G) (length H) m circ M tree c) \/
  knows_two_phase g h G H V n1 n circ M tree ds.
Proof.
  intros N m HN HG HH Hn1 Htree Hb.
  assert (Hex : forall e f t, length e = length ds -> tree e f t ->
    match r1cs_extract n1 n (length G) (length H) m (circ e) (M e) (tree_scalars t) with
    | Got w => witness_ok g h G H V n1 n (circ e) f w | Broken c => generator_relation (g :: h :: G ++ H) c end).
  { intros e f t He Ht. destruct (Htree e f t He Ht) as (_ & _ & Hwf & Ha & Hr & HM).
    exact (r1cs_extract_ok g h G H V n1 n k (circ e) HN HG HH (next_power_of_two_ge n) (M e) f t Hr HM Hwf Ha). }
  destruct (branching_some _ _ Hb) as (e0 & He0 & f0 & t0 & Ht0).
  pose proof (Hex e0 f0 t0 He0 Ht0) as H0.
  destruct (r1cs_extract n1 n (length G) (length H) m (circ e0) (M e0) (tree_scalars t0)) as [w0|c] eqn:E0.
  2:{ left. exists c. split; [exact H0|]. apply (in_tree _ _ _ _ _ _ _ _ _ e0 f0 t0); assumption. }
  set (Q := exists c, generator_relation (g :: h :: G ++ H) c /\ finds n1 n (length G) (length H) m circ M tree c).
  enough (Hq : Q \/ branching ds (fun e => exists f t w, tree e f t /\
      r1cs_extract n1 n (length G) (length H) m (circ e) (M e) (tree_scalars t) = Got w /\
      same_first_phase n1 (wit_aL w0) (wit_aR w0) (wit_aO w0) (wit_aL w) (wit_aR w) (wit_aO w) /\
      satisfies (assignment_of (wit_v w0) (wit_aL w) (wit_aR w) (wit_aO w)) n (circ e))).
  { destruct Hq as [Hq|Hq]; [left; exact Hq|right]. exists e0, f0, t0, w0. split; [exact Ht0|]. split; [exact E0|].
    split; [apply H0|exact Hq]. }
  apply branching_or. eapply branching_imp; [|exact Hb]. cbv beta. intros e He (f & t & Ht).
  pose proof (Hex e f t He Ht) as H1.
  destruct (r1cs_extract n1 n (length G) (length H) m (circ e) (M e) (tree_scalars t)) as [w|c] eqn:E1.
  2:{ left. exists c. split; [exact H1|]. apply (in_tree _ _ _ _ _ _ _ _ _ e f t); assumption. }
  destruct (Htree _ _ _ He0 Ht0) as (F0 & F0' & _). destruct (Htree _ _ _ He Ht) as (F1 & F1' & _ & _ & Hr & _).
  pose proof (next_power_of_two_ge n) as Hge. fold N in Hge.
  assert (Hcmp : RepProofs.good (g :: h :: G ++ H) (compare_witnesses (length G) (length H) m w0 w) (fun _ =>
    (forall j, (j < m)%nat -> nth j (wit_v w0) 0 = nth j (wit_v w) 0 /\ nth j (wit_blinding w0) 0 = nth j (wit_blinding w) 0) /\
    (forall i, (i < n1)%nat -> (i < n)%nat -> (i < n)%nat -> nth i (wit_aL w0) 0 = nth i (wit_aL w) 0 /\
       nth i (wit_aR w0) 0 = nth i (wit_aR w) 0 /\ nth i (wit_aO w0) 0 = nth i (wit_aO w) 0))).
  { apply (compare_ok g h G H V n1 n (circ e0) n (circ e) f0 f w0 w); try lia; try congruence; assumption. }
  destruct (compare_witnesses (length G) (length H) m w0 w) as [u|c] eqn:Ec; cbn [RepProofs.good] in Hcmp.
  2:{ left. exists c. split; [exact Hcmp|]. apply (between_trees _ _ _ _ _ _ _ _ _ e0 f0 t0 w0 e f t w); assumption. }
  right. exists f, t, w. split; [exact Ht|]. split; [exact E1|]. split.
  - intros i Hi. apply Hcmp; lia.
  - apply (satisfies_values (wit_v w) _ _ _ _ n m); [|exact Hr|apply H1]. intros j Hj. symmetry. apply Hcmp, Hj.
Qed.

Theorem two_phase_protocol_repeats g h G H V labels ds n1 n k q circ M t0 D C mu (A : adversary r1cs_proof) Qn wins :
  let m := length V in
  let N := next_power_of_two n in
  let queries := two_phase_queries labels m n t0 in
  let r := length labels in
  N = (2 ^ k)%nat -> (N <= length G)%nat -> (N <= length H)%nat -> (n1 <= n)%nat -> length ds = r ->
  (forall e, length e = r -> length (circ e) = q /\ Forall (lc_in_range n m) (circ e) /\ recovers (M e) m (circ e)) ->
  repeats mu C -> NoDup D -> at_most Qn A ->
  (forall O, In O (oracles D C) -> wins O = true ->
     let pf := output O A in
     let c := map O (queries pf) in
     accepted_for g h G H V n1 n (circ (firstn r c)) pf (skipn r c) /\ incl (queries pf) D) ->
  ((Qn + r + 5 + k) * (mu * Nat.max (maximum ds) (Nat.max N (Nat.max q 7))) * length C ^ length D < length C * length (filter wins (oracles D C)))%nat ->
  exists AI AO,
    let tree := circuit_tree g h G H V n1 n k circ AI AO (fun e pf c =>
      exists O, In O (oracles D C) /\ wins O = true /\ output O A = pf /\ map O (queries pf) = e ++ c) in
    branching ds (fun e => exists f t, tree e f t) /\
    ((exists c, generator_relation (g :: h :: G ++ H) c /\ finds n1 n (length G) (length H) m circ M tree c) \/
     knows_two_phase g h G H V n1 n circ M tree ds).
Proof.
  intros m N queries r HN HG HH Hn1 Hds Hcirc HC HD HA Hacc Hcount.
  destruct (two_phase_tree g h G H V labels ds n1 n k q circ t0 D C mu A Qn wins HN HC HD HA Hds Hacc Hcount) as (AI & AO & Hb).
  exists AI, AO. cbv zeta. match goal with |- branching _ (fun e => exists f t, ?T e f t) /\ _ => set (tree := T) end.
  assert (Hb' : branching ds (fun e => exists f t, tree e f t)).
  { eapply branching_imp; [|exact Hb]. cbv beta. intros e He (f & t & F1 & F2 & Hwf & Hbr & Ha). exists f, t.
    split; [exact F1|]. split; [exact F2|]. destruct (Hcirc e) as [-> _]; [congruence|]. auto. }
  split; [exact Hb'|]. apply (two_phase_extract g h G H V n1 n k circ M ds tree AI AO); auto.
  intros e f t He (F1 & F2 & Hwf & _ & Ha). destruct (Hcirc e) as (_ & Hr & HM); [congruence|]. auto 6.
Qed.

Theorem two_phase_protocol g h G H V labels ds n1 n k q circ M t0 D C (A : adversary r1cs_proof) Qn wins :
  let m := length V in
  let N := next_power_of_two n in
  let queries := two_phase_queries labels m n t0 in
  let r := length labels in
  N = (2 ^ k)%nat -> (N <= length G)%nat -> (N <= length H)%nat -> (n1 <= n)%nat -> length ds = r ->
  (forall e, length e = r -> length (circ e) = q /\ Forall (lc_in_range n m) (circ e) /\ recovers (M e) m (circ e)) ->
  NoDup C -> NoDup D -> at_most Qn A ->
  (forall O, In O (oracles D C) -> wins O = true ->
     let pf := output O A in
     let c := map O (queries pf) in
     accepted_for g h G H V n1 n (circ (firstn r c)) pf (skipn r c) /\ incl (queries pf) D) ->
  ((Qn + r + 5 + k) * Nat.max (maximum ds) (Nat.max N (Nat.max q 7)) * length C ^ length D < length C * length (filter wins (oracles D C)))%nat ->
  exists AI AO,
    let tree := circuit_tree g h G H V n1 n k circ AI AO (fun e pf c =>
      exists O, In O (oracles D C) /\ wins O = true /\ output O A = pf /\ map O (queries pf) = e ++ c) in
    branching ds (fun e => exists f t, tree e f t) /\
    ((exists c, generator_relation (g :: h :: G ++ H) c /\ finds n1 n (length G) (length H) m circ M tree c) \/
     knows_two_phase g h G H V n1 n circ M tree ds).
Proof.
  intros m N queries r HN HG HH Hn1 Hds Hcirc HC HD HA Hacc Hcount.
  apply (two_phase_protocol_repeats g h G H V labels ds n1 n k q circ M t0 D C 1 A Qn wins HN HG HH Hn1 Hds Hcirc (repeats_once C HC) HD HA Hacc).
  rewrite Nat.mul_1_l. exact Hcount.
Qed.
End Game.
