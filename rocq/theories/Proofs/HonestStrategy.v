(** Whoever knows a satisfying assignment has a strategy that always wins; and
    every strategy is also a non-interactive prover. *)
From Coq Require Import ZArith String List Lia Bool Ring Field.
From Verif.Base Require Import Outcome Fp Params Algebra.
From Verif.Model Require Import Transcript LinComb IPP Prover.
From Verif.Spec Require Import R1CS Protocol IPPSpec R1CSTree Games.
From Verif.Proofs Require Import IPPProofs IPPMore VerifyProofs TreeCheck HonestTree TreeCount TreeBuild GameInteractive OracleCount QueryProofs.
Import ListNotations.
Local Notation length := List.length.

Section HonestStrategy.
Context {P : Params} {OK : ParamsOk P}.
Local Open Scope fe_scope.
Add Field FFhs : (Fp_field_theory modulus modulus_prime).

(** *** The inner-product argument *)
Definition ipp_state : Type := list G1 * list G1 * list F * list F.
Definition ipp_message (Q : G1) (s : ipp_state) : G1 * G1 :=
  let '(G, H, a, b) := s in
  let m := Nat.div2 (length a) in
  let a1 := firstn m a in let a2 := skipn m a in let b1 := firstn m b in let b2 := skipn m b in
  (g1_add (g1_add (msm a1 (skipn m G)) (msm b2 (firstn m H))) (g1_mul (ip a1 b2) Q),
   g1_add (g1_add (msm a2 (firstn m G)) (msm b1 (skipn m H))) (g1_mul (ip a2 b1) Q)).
Definition ipp_step (s : ipp_state) (u : F) : ipp_state :=
  let '(G, H, a, b) := s in
  let m := Nat.div2 (length a) in
  let a1 := firstn m a in let a2 := skipn m a in let b1 := firstn m b in let b2 := skipn m b in
  (fold_halves (finv u) u G, fold_halves u (finv u) H,
   vadd (vscale u a1) (vscale (finv u) a2), vadd (vscale (finv u) b1) (vscale u b2)).
Definition ipp_final (s : ipp_state) : F * F := let '(_, _, a, b) := s in (nth 0 a 0, nth 0 b 0).

Lemma honest_conversation Q us : forall G H a b, Forall (fun u => u <> 0) us ->
  length a = (2 ^ length us)%nat -> length b = (2 ^ length us)%nat ->
  length G = (2 ^ length us)%nat -> length H = (2 ^ length us)%nat ->
  let s := (G, H, a, b) in
  let rounds := map (fun j => ipp_message Q (fold_left ipp_step (firstn j us) s)) (seq 0 (length us)) in
  let fin := ipp_final (fold_left ipp_step us s) in
  conversation Q (g1_add (g1_add (msm a G) (msm b H)) (g1_mul (ip a b) Q)) G H us
    (map fst rounds) (map snd rounds) (fst fin) (snd fin).
Proof.
  induction us as [|u us IH]; intros G H a b Hnz Ha Hb HG HH.
  - cbv zeta. cbn [length seq map fold_left conversation ipp_final fst snd].
    destruct a as [|a0 [|? ?]]; try discriminate Ha. destruct b as [|b0 [|? ?]]; try discriminate Hb.
    destruct G as [|G0 [|? ?]]; try discriminate HG. destruct H as [|H0 [|? ?]]; try discriminate HH.
    simpl. gnorm; ring.
  - inversion Hnz as [|? ? Hu Hnz']; subst. cbv zeta. cbn [length seq map].
    rewrite <- seq_shift, !map_map. cbn [firstn fold_left].
    cbn [conversation]. cbn [fst snd].
    cbn [length] in Ha, Hb, HG, HH.
    assert (Em : Nat.div2 (length a) = (2 ^ length us)%nat) by (apply div2_pow2_len; exact Ha).
    cbn [ipp_message fst snd]. rewrite Em.
    rewrite (honest_round (length us)) by assumption.
    set (a' := vadd (vscale u (firstn (2 ^ length us) a)) (vscale (finv u) (skipn (2 ^ length us) a))).
    set (b' := vadd (vscale (finv u) (firstn (2 ^ length us) b)) (vscale u (skipn (2 ^ length us) b))).
    assert (Es : ipp_step (G, H, a, b) u = (fold_halves (finv u) u G, fold_halves u (finv u) H, a', b')) by (unfold ipp_step; rewrite Em; reflexivity).
    rewrite Es.
    pose proof (IH (fold_halves (finv u) u G) (fold_halves u (finv u) H) a' b' Hnz') as IH'. cbv zeta in IH'. rewrite !map_map in IH'.
    apply IH'.
    + unfold a'. rewrite vadd_length, !vscale_length, firstn_length, skipn_length, Ha. cbn [Nat.pow]. lia.
    + unfold b'. rewrite vadd_length, !vscale_length, firstn_length, skipn_length, Hb. cbn [Nat.pow]. lia.
    + apply fold_halves_length. exact HG.
    + apply fold_halves_length. exact HH.
Qed.

(** *** The strategy *)
Definition honest_strategy (g h : G1) (G H : list G1) (n1 n k : nat) (cs : list lc) (v gam aL aR aO : list F) : strategy :=
  let zn := fun y z => honest_z g h G H n1 n k cs v gam aL aR aO [] [] [] [] (1, 1, 1, 1) y z [] [] 0 0 in
  let xn := fun y z u x => honest_x g G H n1 n k cs v gam aL aR aO [] [] [] [] (1, 1, 1, 1) y z u x 0 0 in
  let s0 := fun y z u x => (scaled_G G n1 k u, scaled_H H n1 k y u, honest_l n k cs aL aO [] y z x, honest_r n k cs aR [] y z x) in
  Strategy (honest_first h G H n1 k aL aR aO [] [] [])
    (fun y z => (z_T1 (zn y z), z_T3 (zn y z), z_T4 (zn y z), z_T5 (zn y z), z_T6 (zn y z)))
    (fun y z u x => (x_tx (xn y z u x), x_txb (xn y z u x), x_eb (xn y z u x)))
    (fun y z u x w us => ipp_message (g1_mul w g) (fold_left ipp_step us (s0 y z u x)))
    (fun y z u x w us => ipp_final (fold_left ipp_step us (s0 y z u x))).

Theorem honest_strategy_wins g h G H n1 n k cs v gam aL aR aO :
  let N := next_power_of_two n in
  N = (2 ^ k)%nat -> (N <= length G)%nat -> (N <= length H)%nat -> length gam = length v ->
  length aL = n -> length aR = n -> length aO = n ->
  Forall (lc_in_range n (length v)) cs -> satisfies (assignment_of v aL aR aO) n cs ->
  forall c, length c = (5 + k)%nat -> ~ In 0 c ->
    accepted_for g h G H (zipw (fun x b => g1_add (g1_mul x g) (g1_mul b h)) v gam) n1 n cs
      (strategy_proof (honest_strategy g h G H n1 n k cs v gam aL aR aO) c) c.
Proof.
  intros N HN HG HH Hgam HaL HaR HaO Hr Hsat. unfold N in *. rewrite HN in *.
  set (zn := fun y z => honest_z g h G H n1 n k cs v gam aL aR aO [] [] [] [] (1, 1, 1, 1) y z [] [] 0 0).
  set (xn := fun y z u x => honest_x g G H n1 n k cs v gam aL aR aO [] [] [] [] (1, 1, 1, 1) y z u x 0 0).
  set (s0 := fun y z u x => (scaled_G G n1 k u, scaled_H H n1 k y u, honest_l n k cs aL aO [] y z x, honest_r n k cs aR [] y z x)).
  change (honest_strategy g h G H n1 n k cs v gam aL aR aO) with (Strategy (honest_first h G H n1 k aL aR aO [] [] [])
    (fun y z => (z_T1 (zn y z), z_T3 (zn y z), z_T4 (zn y z), z_T5 (zn y z), z_T6 (zn y z)))
    (fun y z u x => (x_tx (xn y z u x), x_txb (xn y z u x), x_eb (xn y z u x)))
    (fun y z u x w us => ipp_message (g1_mul w g) (fold_left ipp_step us (s0 y z u x)))
    (fun y z u x w us => ipp_final (fold_left ipp_step us (s0 y z u x)))).
  intros c Hc Hz. do 5 (destruct c as [|? c]; [discriminate Hc|]).
  rename f into y, f0 into z, f1 into u, f2 into x, f3 into w. rename c into us.
  assert (Hus : length us = k) by (cbn [length] in Hc; lia).
  assert (Hnz : Forall (fun u => u <> 0) us).
  { apply Forall_forall. intros a Ha E. apply Hz. rewrite <- E. do 5 right. exact Ha. }
  assert (Hy : y <> 0) by (intros E; apply Hz; left; exact E).
  cbn [accepted_for]. unfold strategy_proof. cbn [nth skipn st_first st_T st_open st_round st_final].
  destruct (ipp_final (fold_left ipp_step us (s0 y z u x))) as [a b] eqn:Ef.
  set (rounds := map (fun j => ipp_message (g1_mul w g) (fold_left ipp_step (firstn j us) (s0 y z u x))) (seq 0 (length us))).
  assert (Hpf : forall Ls Rs, R1CSProof (f_AI1 (honest_first h G H n1 k aL aR aO [] [] [])) (f_AO1 (honest_first h G H n1 k aL aR aO [] [] []))
      (f_S1 (honest_first h G H n1 k aL aR aO [] [] [])) (f_AI2 (honest_first h G H n1 k aL aR aO [] [] []))
      (f_AO2 (honest_first h G H n1 k aL aR aO [] [] [])) (f_S2 (honest_first h G H n1 k aL aR aO [] [] []))
      (z_T1 (zn y z)) (z_T3 (zn y z)) (z_T4 (zn y z)) (z_T5 (zn y z)) (z_T6 (zn y z))
      (x_tx (xn y z u x)) (x_txb (xn y z u x)) (x_eb (xn y z u x)) (IPPProof Ls Rs a b) =
    honest_proof g h G H n1 n k cs v gam aL aR aO [] [] [] [] 1 1 1 1 y z u x Ls Rs a b) by (intros; reflexivity).
  rewrite Hpf.
  destruct (honest_equations g h G H n1 n k cs v gam aL aR aO [] [] [] [] 1 1 1 1 HN HG HH Hgam HaL HaR HaO Hr Hsat eq_refl
    y z u x w (map fst rounds) (map snd rounds) a b Hy) as [Et Ep].
  split; [exact Et|]. cbv zeta. rewrite HN, Ep.
  unfold honest_proof, branch_proof. cbn [proof_ipp ipp_L ipp_R ipp_a ipp_b].
  replace a with (fst (ipp_final (fold_left ipp_step us (s0 y z u x)))) by (rewrite Ef; reflexivity).
  replace b with (snd (ipp_final (fold_left ipp_step us (s0 y z u x)))) by (rewrite Ef; reflexivity).
  apply (honest_conversation (g1_mul w g) us); auto;
    unfold scaled_G, scaled_H, honest_l, honest_r; rewrite map_length, seq_length, Hus; reflexivity.
Qed.

Theorem honest_strategy_exists g h G H n1 n k cs v gam aL aR aO :
  let N := next_power_of_two n in
  N = (2 ^ k)%nat -> (N <= length G)%nat -> (N <= length H)%nat -> length gam = length v ->
  length aL = n -> length aR = n -> length aO = n ->
  Forall (lc_in_range n (length v)) cs -> satisfies (assignment_of v aL aR aO) n cs ->
  exists st, forall c, length c = (5 + k)%nat -> ~ In 0 c ->
    accepted_for g h G H (zipw (fun x b => g1_add (g1_mul x g) (g1_mul b h)) v gam) n1 n cs (strategy_proof st c) c.
Proof.
  intros N HN HG HH Hgam HaL HaR HaO Hr Hsat. exists (honest_strategy g h G H n1 n k cs v gam aL aR aO).
  exact (honest_strategy_wins g h G H n1 n k cs v gam aL aR aO HN HG HH Hgam HaL HaR HaO Hr Hsat).
Qed.

(** *** Strategies as non-interactive provers *)
Section FiatShamir.
Context (m n k : nat) (t0 : transcript) (st : strategy).
Local Notation sp := (strategy_proof st).
Local Notation pnt := (point m n t0).

Lemma strategy_shaped c : length c = (5 + k)%nat -> shaped k (sp c).
Proof.
  intros Hc. destruct (strategy_proof_parts st c) as (_ & _ & _ & L & R). unfold shaped.
  rewrite L, R, !map_length, seq_length, skipn_length. lia.
Qed.
Lemma strategy_Ts c c' : firstn 2 c = firstn 2 c' -> Ts_of (sp c) = Ts_of (sp c').
Proof.
  intros Ee. destruct (strategy_proof_parts st c) as (_ & E1 & _). destruct (strategy_proof_parts st c') as (_ & E2 & _).
  rewrite (firstn_nth c c' 2 0), (firstn_nth c c' 2 1) in E1 by (exact Ee || lia). rewrite <- E2 in E1.
  unfold Ts_of. injection E1 as -> -> -> -> ->. reflexivity.
Qed.
Lemma strategy_opening c c' : firstn 4 c = firstn 4 c' -> opening_of (sp c) = opening_of (sp c').
Proof.
  intros Ee. destruct (strategy_proof_parts st c) as (_ & _ & E1 & _). destruct (strategy_proof_parts st c') as (_ & _ & E2 & _).
  rewrite (firstn_nth c c' 4 0), (firstn_nth c c' 4 1), (firstn_nth c c' 4 2), (firstn_nth c c' 4 3) in E1 by (exact Ee || lia).
  rewrite <- E2 in E1. unfold opening_of. injection E1 as -> -> ->. reflexivity.
Qed.
Lemma firstn_map_seq {A} (f : nat -> A) l j : (j <= l)%nat -> firstn j (map f (seq 0 l)) = map f (seq 0 j).
Proof.
  intros Hj. replace l with (j + (l - j))%nat by lia. rewrite seq_app, map_app, firstn_app, map_length, seq_length, Nat.sub_diag.
  rewrite firstn_all2 by (rewrite map_length, seq_length; lia). apply app_nil_r.
Qed.
Lemma strategy_rounds c c' j : length c = (5 + k)%nat -> length c' = (5 + k)%nat -> (j < k)%nat ->
  firstn (5 + j) c = firstn (5 + j) c' ->
  firstn (S j) (ipp_L (proof_ipp (sp c))) = firstn (S j) (ipp_L (proof_ipp (sp c'))) /\
  firstn (S j) (ipp_R (proof_ipp (sp c))) = firstn (S j) (ipp_R (proof_ipp (sp c'))).
Proof.
  intros Hc Hc' Hj Ee. destruct (strategy_proof_parts st c) as (_ & _ & _ & L1 & R1).
  destruct (strategy_proof_parts st c') as (_ & _ & _ & L2 & R2).
  rewrite L1, R1, L2, R2, !firstn_map_seq by (rewrite skipn_length; lia).
  rewrite (firstn_nth c c' (5 + j) 0), (firstn_nth c c' (5 + j) 1), (firstn_nth c c' (5 + j) 2), (firstn_nth c c' (5 + j) 3),
    (firstn_nth c c' (5 + j) 4) by (exact Ee || lia).
  split; apply map_ext_in; intros i Hi; apply in_seq in Hi; do 2 f_equal;
    rewrite !firstn_skipn_comm; f_equal; apply (firstn_less c c' (5 + j) (5 + i)); (lia || exact Ee).
Qed.

Lemma round_events_firstn Ls : forall Rs j, length Rs = length Ls ->
  firstn (3 * j) (round_events Ls Rs) = round_events (firstn j Ls) (firstn j Rs).
Proof.
  induction Ls as [|L Ls IH]; intros [|R Rs] j Hl; try discriminate.
  - rewrite !firstn_nil. reflexivity.
  - destruct j as [|j]; [reflexivity|]. replace (3 * S j)%nat with (S (S (S (3 * j)))) by lia. cbn [round_events firstn].
    do 3 f_equal. apply IH. cbn in Hl. lia.
Qed.

Lemma point_strategy c c' i : length c = (5 + k)%nat -> length c' = (5 + k)%nat -> (i < 5 + k)%nat ->
  firstn i c = firstn i c' -> pnt i (sp c) = pnt i (sp c').
Proof.
  intros Hc Hc' Hi Ee. pose proof (strategy_shaped c Hc) as Hs. pose proof (strategy_shaped c' Hc') as Hs'.
  rewrite !(point_prefix m n t0 k) by assumption. do 2 f_equal.
  destruct (strategy_proof_parts st c) as [F1 _]. destruct (strategy_proof_parts st c') as [F2 _]. rewrite <- F2 in F1. clear F2.
  unfold first_of in F1. injection F1 as A1 A2 A3 A4 A5 A6. unfold events.
  destruct i as [|[|i]].
  1,2: cbn [offset firstn head_events app]; rewrite A1, A2, A3, A4, A5, A6; reflexivity.
  pose proof (strategy_Ts c c' (firstn_less c c' (S (S i)) 2 ltac:(lia) Ee)) as Ht. unfold Ts_of in Ht. injection Ht as B1 B2 B3 B4 B5.
  destruct i as [|[|i]].
  1,2: cbn [offset firstn head_events app]; rewrite A1, A2, A3, A4, A5, A6, B1, B2, B3, B4, B5; reflexivity.
  pose proof (strategy_opening c c' (firstn_less c c' (S (S (S (S i)))) 4 ltac:(lia) Ee)) as Ho. unfold opening_of in Ho. injection Ho as C1 C2 C3.
  assert (Eh : head_events m n (sp c) = head_events m n (sp c')).
  { unfold head_events. rewrite A1, A2, A3, A4, A5, A6, B1, B2, B3, B4, B5, C1, C2, C3. reflexivity. }
  rewrite Eh. destruct i as [|j].
  { cbn [offset firstn head_events app]. reflexivity. }
  change (S (S (S (S (S j))))) with (5 + j)%nat in *. change (offset (5 + j)) with (25 + 3 * (5 + j - 5))%nat.
  rewrite !firstn_app. f_equal. change (length (head_events m n (sp c'))) with 23%nat.
  replace (25 + 3 * (5 + j - 5) - 23)%nat with (2 + 3 * j)%nat by lia.
  destruct Hs as [HL HR], Hs' as [HL' HR'].
  destruct (strategy_rounds c c' j Hc Hc' ltac:(lia) Ee) as [EL ER].
  assert (E3 : firstn (3 * S j) (round_events (ipp_L (proof_ipp (sp c))) (ipp_R (proof_ipp (sp c)))) =
    firstn (3 * S j) (round_events (ipp_L (proof_ipp (sp c'))) (ipp_R (proof_ipp (sp c'))))).
  { rewrite !round_events_firstn by congruence. rewrite EL, ER. reflexivity. }
  transitivity (firstn (2 + 3 * j) (firstn (3 * S j) (round_events (ipp_L (proof_ipp (sp c))) (ipp_R (proof_ipp (sp c)))))).
  - rewrite firstn_firstn, Nat.min_l by lia. reflexivity.
  - rewrite E3, firstn_firstn, Nat.min_l by lia. reflexivity.
Qed.

(** it draws its challenges from the oracle *)
Fixpoint fs_prover (j : nat) (c : list F) : adversary r1cs_proof :=
  match j with
  | O => Answer (sp c)
  | S j' => Ask (pnt (length c) (sp (c ++ repeat 0 j))) (fun x => fs_prover j' (c ++ [x]))
  end.

Lemma fs_prover_most j : forall c, at_most j (fs_prover j c).
Proof. induction j as [|j IH]; intros c; cbn [fs_prover at_most]; [exact I|]. intros x. apply IH. Qed.

Lemma fs_prover_output O j : forall c, (length c + j = 5 + k)%nat ->
  exists r, length r = j /\ output O (fs_prover j c) = sp (c ++ r) /\
    forall i, (length c <= i < 5 + k)%nat -> O (pnt i (sp (c ++ r))) = nth i (c ++ r) 0.
Proof.
  induction j as [|j IH]; intros c Hc.
  - exists []. rewrite app_nil_r. split; [reflexivity|]. split; [reflexivity|]. intros i Hi. lia.
  - cbn [fs_prover output]. set (q := pnt (length c) (sp (c ++ repeat 0 (S j)))).
    destruct (IH (c ++ [O q])) as (r & Hr & Eo & Hi); [rewrite app_length; cbn; lia|].
    rewrite <- app_assoc in Eo, Hi. cbn [app] in Eo, Hi. exists (O q :: r). split; [cbn; lia|]. split; [exact Eo|].
    intros i Hle. destruct (Nat.eq_dec i (length c)) as [->|Hne].
    + rewrite app_nth2, Nat.sub_diag by lia. cbn [nth]. f_equal. unfold q. apply point_strategy.
      * rewrite app_length. cbn [length]. lia.
      * rewrite app_length, repeat_length. lia.
      * lia.
      * rewrite !firstn_app, Nat.sub_diag. cbn [firstn]. rewrite !app_nil_r. reflexivity.
    + apply Hi. rewrite app_length. cbn [length]. lia.
Qed.

Theorem fs_prover_ok O : exists c, length c = (5 + k)%nat /\ output O (fs_prover (5 + k) []) = sp c /\
  map O (proof_queries m n t0 (sp c)) = c.
Proof.
  destruct (fs_prover_output O (5 + k) []) as (c & Hc & Eo & Hi); [reflexivity|]. cbn [app length] in Eo, Hi.
  exists c. split; [exact Hc|]. split; [exact Eo|].
  assert (Hl : length (proof_queries m n t0 (sp c)) = (5 + k)%nat) by (apply proof_queries_length, strategy_shaped, Hc).
  apply (nth_ext _ _ (O no_query) 0).
  - rewrite map_length, Hl. auto.
  - intros i Hlt. rewrite map_length, Hl in Hlt. rewrite map_nth. apply Hi. lia.
Qed.
End FiatShamir.
End HonestStrategy.
