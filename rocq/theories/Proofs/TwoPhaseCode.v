(** Cheating provers of circuits with a second phase, against [verify] with a random
    oracle. *)
From Coq Require Import ZArith String List Lia Bool Arith.
From Verif.Base Require Import Outcome Fp Params Algebra.
From Verif.Model Require Import Transcript LinComb Prog IPP Prover Verifier.
From Verif.Spec Require Import R1CS Protocol IPPSpec Verdict Extractor R1CSTree R1CSExtractor Games TwoPhase Challenges.
From Verif.Proofs Require Utils.
From Verif.Proofs Require Import VerifyProofs VerdictProofs R1CSMain R1CSExtract R1CSAccepted OracleVerify TreeCount OracleCount OracleZero OracleCode QueryProofs QueryTwo TwoPhaseTree TwoPhaseGame.
Import ListNotations.
Local Notation length := List.length.

Section Accepted.
Context {P : Params} {OK : ParamsOk P}.
Lemma accepted_two_worlds W W' s s2 proof g h G H :
  v_second W proof s s2 -> v_second W' proof s s2 -> proof_fits s2 proof G H ->
  w_random W (v_nrand s2) <> w_random W' (v_nrand s2) ->
  let c := protocol_challenges (v_transcript s2) proof in
  let us := round_challenges (v_num_vars s2) c proof in
  all_nonzero us ->
  (exists t, verify W s proof g h G H = Done (Ok t)) -> (exists t, verify W' s proof g h G H = Done (Ok t)) ->
  accepted g h G H (v_V s2) (v_num_vars s) (v_num_vars s2) (v_constraints s2) proof (c_y c) (c_z c) (c_u c) (c_x c) (c_w c) us.
Proof.
  intros H2 H2' Hfit Hne c us Hnz [t1 E1] [t2 E2]. apply (equations_accepted s s2 proof g h G H Hfit Hnz).
  destruct Hfit as [HG HH Hr HLR H32 HN Hb].
  apply (batch_two_r s s2 proof g h G H HG HH Hr HLR H32 HN Hb W W' t1 t2); assumption.
Qed.
Lemma accepted_all_worlds W s s2 proof g h G H :
  v_second W proof s s2 -> proof_fits s2 proof G H ->
  let c := protocol_challenges (v_transcript s2) proof in
  let us := round_challenges (v_num_vars s2) c proof in
  all_nonzero us ->
  accepted g h G H (v_V s2) (v_num_vars s) (v_num_vars s2) (v_constraints s2) proof (c_y c) (c_z c) (c_u c) (c_x c) (c_w c) us ->
  exists t, verify W s proof g h G H = Done (Ok t).
Proof.
  intros H2 Hfit c us Hnz Hacc. apply (equations_accepted s s2 proof g h G H Hfit Hnz) in Hacc as [E1 E2].
  destruct Hfit as [HG HH Hr HLR H32 HN Hb].
  destruct (batch_accepts_all s s2 proof g h G H HG HH Hr HLR H32 HN Hb E1 E2) as [t Ht]. exists t. apply Ht. exact H2.
Qed.
End Accepted.

Section Code.
Context {P : Params} {OK : ParamsOk P}.
Context (V : list G1) (n1 : nat) (cs1 : list lc).
Context (cbs : forall O : query -> Fp modulus, list (@vprog (backend O) (result unit))).
Context (labels : list string) (n : nat) (circ : list (Fp modulus) -> list lc).
Hypothesis HP2 : second_phase n1 cs1 V cbs labels n circ.
Let m := length V.
Let r := length labels.

(** the questions of the second phase *)
Definition second_queries (t0 : transcript) (pf : r1cs_proof) : list query :=
  callback_queries labels (r1cs_2phase_domain_sep (first_phase_transcript pf m t0)).

Lemma second_queries_firstn t0 pf (O : oracle) : firstn r (map O (two_phase_queries labels m n t0 pf)) = map O (second_queries t0 pf).
Proof.
  unfold two_phase_queries. cbv zeta. rewrite map_app, firstn_app. fold (second_queries t0 pf).
  assert (E : length (map O (second_queries t0 pf)) = r) by (rewrite map_length; apply callback_length).
  rewrite E, Nat.sub_diag, firstn_O, app_nil_r. apply firstn_all2. lia.
Qed.
Lemma second_queries_skipn t0 pf (O : oracle) : skipn r (map O (two_phase_queries labels m n t0 pf)) =
  map O (challenge_queries n (r1cs_2phase_domain_sep (first_phase_transcript pf m t0) ++ map (fun l => TChallenge l modbytes) labels) pf).
Proof.
  unfold two_phase_queries. cbv zeta. rewrite map_app, skipn_app. fold (second_queries t0 pf).
  assert (E : length (map O (second_queries t0 pf)) = r) by (rewrite map_length; apply callback_length).
  rewrite E, Nat.sub_diag, skipn_all2 by lia. reflexivity.
Qed.

(** the verifier after the second phase *)
Lemma second_state O t0 (pf : @r1cs_proof P) :
  exists s2, (forall x, @v_second (@backend P O) (@World (@backend P O) (fun _ => x) (fun _ => [])) (@same_proof P O pf)
       (@two_phase_verifier P O V n1 cs1 (cbs O) t0) s2) /\
    @v_transcript (@backend P O) s2 = r1cs_2phase_domain_sep (first_phase_transcript pf m t0) ++ map (fun l => TChallenge l (@modbytes P)) labels /\
    @v_constraints (@backend P O) s2 = circ (map O (second_queries t0 pf)) /\
    @v_num_vars (@backend P O) s2 = n /\ @v_V (@backend P O) s2 = V /\ @v_nrand (@backend P O) s2 = 0.
Proof.
  destruct (HP2 O (first_phase_transcript pf m t0)) as (Hne & s2 & Hrun & Hrest). exists s2. split; [|exact Hrest].
  intros x. unfold v_second, verifier_create_randomized_constraints, two_phase_verifier, v_absorb. cbv zeta. cbn.
  destruct (cbs O) as [|cb l] eqn:Ecb; [contradiction|]. specialize (Hrun x). exact Hrun.
Qed.

Lemma two_phase_fits O x g h G H t0 (pf : @r1cs_proof P) s2 :
  @v_second (@backend P O) (@World (@backend P O) (fun _ => x) (fun _ => [])) (@same_proof P O pf)
       (@two_phase_verifier P O V n1 cs1 (cbs O) t0) s2 -> @v_num_vars (@backend P O) s2 = n ->
  @two_phase_accepts P O x g h G H V n1 cs1 (cbs O) t0 pf -> 1 < n \/ @batch_invert_empty_panics P = false ->
  @proof_fits (@backend P O) s2 (@same_proof P O pf) G H.
Proof.
  intros H2 En [t E] Hb. apply (@verify_inv (@backend P O) (backend_ok O)) in E.
  destruct E as (s2' & E & HG & HH & Hr & HLR & H32 & HN & _).
  unfold v_second in H2.
  assert (Es : s2' = s2) by (pose proof (eq_trans (eq_sym E) H2) as E'; injection E' as E'; exact E').
  subst s2'. constructor; try assumption. rewrite En. exact Hb.
Qed.

Lemma two_phase_in_range O x g h G H t0 (pf : @r1cs_proof P) :
  @two_phase_accepts P O x g h G H V n1 cs1 (cbs O) t0 pf -> 1 < n \/ @batch_invert_empty_panics P = false ->
  next_power_of_two n <= length G /\ next_power_of_two n <= length H /\
  Forall (lc_in_range n m) (circ (map O (second_queries t0 pf))).
Proof.
  intros Ha Hb. destruct (second_state O t0 pf) as (s2 & H2 & _ & Ec & En & EV & _).
  destruct (two_phase_fits O x g h G H t0 pf s2 (H2 x) En Ha Hb) as [HG HH Hr _ _ _ _].
  rewrite En in HG, HH, Hr. rewrite EV, Ec in Hr. auto.
Qed.

Lemma two_phase_shaped O x g h G H t0 (pf : @r1cs_proof P) k :
  @two_phase_accepts P O x g h G H V n1 cs1 (cbs O) t0 pf -> 1 < n \/ @batch_invert_empty_panics P = false ->
  next_power_of_two n = 2 ^ k -> shaped k pf.
Proof.
  intros Ha Hb HN. destruct (second_state O t0 pf) as (s2 & H2 & _ & Ec & En & EV & _).
  destruct (two_phase_fits O x g h G H t0 pf s2 (H2 x) En Ha Hb) as [_ _ _ HLR _ Hk _].
  rewrite En, HN in Hk. cbn in HLR, Hk. apply Nat.pow_inj_r in Hk; [|lia]. unfold shaped. split; congruence.
Qed.

Lemma two_phase_two O x x' g h G H t0 (pf : @r1cs_proof P) :
  1 < n \/ @batch_invert_empty_panics P = false ->
  let c := map O (@two_phase_queries P labels m n t0 pf) in
  Forall (fun u => u <> fzero modulus) (skipn (r + 5) c) -> x <> x' ->
  @two_phase_accepts P O x g h G H V n1 cs1 (cbs O) t0 pf -> @two_phase_accepts P O x' g h G H V n1 cs1 (cbs O) t0 pf ->
  @accepted_for P g h G H V n1 n (circ (firstn r c)) pf (skipn r c).
Proof.
  intros Hb c Hnz Hne A1 A2. destruct (second_state O t0 pf) as (s2 & H2 & Et & Ec & En & EV & Er).
  pose proof (two_phase_fits O x g h G H t0 pf s2 (H2 x) En A1 Hb) as Hf.
  rewrite <- Utils.skipn_skipn' in Hnz.
  unfold c in *. rewrite second_queries_firstn, second_queries_skipn in *.
  assert (Hq : map O (@challenge_queries P n (r1cs_2phase_domain_sep (first_phase_transcript pf m t0) ++ map (fun l => TChallenge l modbytes) labels) pf) =
    map (@transcript_oracle (@backend P O)) (@challenge_queries (@backend P O) n (@v_transcript (@backend P O) s2) (@same_proof P O pf))).
  { rewrite (map_ext _ O (backend_oracle O)). rewrite Et. reflexivity. }
  rewrite Hq in *. rewrite (@challenge_queries_challenges (@backend P O)) in *. apply (backend_accepted O).
  cbn [skipn accepted_for] in *.
  pose proof (@accepted_two_worlds (@backend P O) (backend_ok O) (@World (@backend P O) (fun _ => x) (fun _ => [])) (@World (@backend P O) (fun _ => x') (fun _ => []))
     (@two_phase_verifier P O V n1 cs1 (cbs O) t0) s2 (@same_proof P O pf) g h G H (H2 x) (H2 x') Hf) as Hmain.
  cbv zeta in Hmain. rewrite EV, En, Ec in Hmain. exact (Hmain Hne Hnz A1 A2).
Qed.

Lemma two_phase_all O g h G H t0 (pf : @r1cs_proof P) k :
  1 < n \/ @batch_invert_empty_panics P = false ->
  let c := map O (@two_phase_queries P labels m n t0 pf) in
  next_power_of_two n = 2 ^ k -> (k < 32)%nat -> shaped k pf ->
  next_power_of_two n <= length G -> next_power_of_two n <= length H -> Forall (lc_in_range n m) (circ (firstn r c)) ->
  Forall (fun u => u <> fzero modulus) (skipn (r + 5) c) ->
  @accepted_for P g h G H V n1 n (circ (firstn r c)) pf (skipn r c) ->
  forall x, @two_phase_accepts P O x g h G H V n1 cs1 (cbs O) t0 pf.
Proof.
  intros Hb c HN Hk [HL HR] HG HH Hrange Hnz Hacc x. destruct (second_state O t0 pf) as (s2 & H2 & Et & Ec & En & EV & Er).
  rewrite <- Utils.skipn_skipn' in Hnz. unfold c in *. rewrite second_queries_firstn, second_queries_skipn in *.
  assert (Hf : @proof_fits (@backend P O) s2 (@same_proof P O pf) G H).
  { constructor; rewrite ?En, ?EV, ?Ec; cbn; rewrite ?HL, ?HR; try assumption; reflexivity. }
  assert (Hq : map O (@challenge_queries P n (r1cs_2phase_domain_sep (first_phase_transcript pf m t0) ++ map (fun l => TChallenge l modbytes) labels) pf) =
    map (@transcript_oracle (@backend P O)) (@challenge_queries (@backend P O) n (@v_transcript (@backend P O) s2) (@same_proof P O pf))).
  { rewrite (map_ext _ O (backend_oracle O)). rewrite Et. reflexivity. }
  rewrite Hq in *. rewrite (@challenge_queries_challenges (@backend P O)) in *. apply (backend_accepted O) in Hacc.
  cbn [skipn accepted_for] in *.
  pose proof (@accepted_all_worlds (@backend P O) (backend_ok O) (@World (@backend P O) (fun _ => x) (fun _ => []))
     (@two_phase_verifier P O V n1 cs1 (cbs O) t0) s2 (@same_proof P O pf) g h G H (H2 x) Hf) as Hmain.
  cbv zeta in Hmain. rewrite EV, En, Ec in Hmain. exact (Hmain Hnz Hacc).
Qed.

Theorem two_phase_asks g h G H t0 (pf : @r1cs_proof P) k (O : oracle) :
  let c := map O (two_phase_queries labels m n t0 pf) in
  let accepts x := two_phase_accepts O x g h G H V n1 cs1 (cbs O) t0 pf in
  let acc := accepted_for g h G H V n1 n (circ (firstn r c)) pf (skipn r c) in
  1 < n \/ batch_invert_empty_panics = false ->
  next_power_of_two n = 2 ^ k -> (k < 32)%nat -> length (ipp_L (proof_ipp pf)) = k -> length (ipp_R (proof_ipp pf)) = k ->
  next_power_of_two n <= length G -> next_power_of_two n <= length H -> Forall (lc_in_range n m) (circ (firstn r c)) ->
  Forall (fun u => u <> fzero modulus) (skipn (r + 5) c) ->
  (acc -> forall x, accepts x) /\ (forall x x', x <> x' -> accepts x -> accepts x' -> acc).
Proof.
  intros c accepts acc Hb HN Hk HL HR HG HH Hr Hnz. split.
  - intros Ha. exact (two_phase_all O g h G H t0 pf k Hb HN Hk (conj HL HR) HG HH Hr Hnz Ha).
  - intros x x' Hne A1 A2. exact (two_phase_two O x x' g h G H t0 pf Hb Hnz Hne A1 A2).
Qed.
End Code.

Section Main.
Context {P : Params} {OK : ParamsOk P} {ENC : EncodingOk P}.

Theorem two_phase_code_repeats g h G H V n1 cs1 cbs labels ds n k q circ M t0 D C mu R (A : adversary r1cs_proof) Qn (wins : oracle -> F -> bool) :
  let m := length V in
  let N := next_power_of_two n in
  let queries := two_phase_queries labels m n t0 in
  let r := length labels in
  second_phase n1 cs1 V cbs labels n circ ->
  N = 2 ^ k -> 1 < n \/ batch_invert_empty_panics = false -> n1 <= n -> length ds = r ->
  (forall e, length e = r -> length (circ e) = q /\ recovers (M e) m (circ e)) ->
  repeats mu C -> NoDup D -> NoDup R -> at_most Qn A ->
  (forall O x, In O (oracles D C) -> In x R -> wins O x = true ->
     two_phase_accepts O x g h G H V n1 cs1 (cbs O) t0 (output O A) /\ incl (queries (output O A)) D) ->
  (Qn + r + 5 + k) * (mu * Nat.max (maximum ds) (Nat.max N (Nat.max q 7)) + times C (fzero modulus)) * length C ^ length D * length R + length C * length C ^ length D <
    length C * length (filter (fun Ox => wins (fst Ox) (snd Ox)) (list_prod (oracles D C) R)) ->
  exists AI AO,
    let tree := circuit_tree g h G H V n1 n k circ AI AO (fun e pf c =>
      exists O x, In O (oracles D C) /\ In x R /\ wins O x = true /\ output O A = pf /\ map O (queries pf) = e ++ c) in
    branching ds (fun e => exists f t, tree e f t) /\
    ((exists c, generator_relation (g :: h :: G ++ H) c /\ finds n1 n (length G) (length H) m circ M tree c) \/
     knows_two_phase g h G H V n1 n circ M tree ds).
Proof.
  intros m N queries r HP2 HN Hb Hn1 Hds Hcirc HC HD HR HA Hw Hcount.
  assert (Hc0 : (0 < length C)%nat) by (destruct C; cbn in *; lia).
  rewrite <- (oracles_length C D (fun _ => fzero modulus)) in Hcount at 2.
  apply (many_pairs (oracles D C) R wins _ (length C) Hc0) in Hcount.
  set (good0 := fun O => Nat.leb 2 (length (filter (wins O) R))) in Hcount.
  assert (Hgood0 : forall O, In O (oracles D C) -> good0 O = true -> exists x x', x <> x' /\ In x R /\ In x' R /\ wins O x = true /\ wins O x' = true).
  { intros O _ HO. apply two_in; [exact HR|]. apply Nat.leb_le. exact HO. }
  assert (Hz := zero_answers queries (r + (5 + k)) D C A Qn good0 HD HA).
  set (good := fun O => good0 O && no_zero queries A O) in Hz.
  assert (Hcount' : ((Qn + r + 5 + k) * (mu * Nat.max (maximum ds) (Nat.max N (Nat.max q 7))) * length C ^ length D < length C * length (filter good (oracles D C)))%nat).
  { match type of Hz with ?H -> _ => assert (Hz0 : H) end.
    - intros O HO Hg. destruct (Hgood0 O HO Hg) as (x & _ & _ & Hx & _ & Hw1 & _).
      destruct (Hw O x HO Hx Hw1) as (A1 & Hincl). split; [|exact Hincl].
      apply two_phase_length. exact (two_phase_shaped V n1 cs1 cbs labels n circ HP2 O x g h G H t0 _ k A1 Hb HN).
    - specialize (Hz Hz0). replace (Qn + (r + (5 + k)))%nat with (Qn + r + 5 + k)%nat in Hz by lia. lia. }
  clear Hcount Hz. rename Hcount' into Hcount.
  assert (Hgood : forall O, In O (oracles D C) -> good O = true -> exists x x', x <> x' /\ In x R /\ In x' R /\ wins O x = true /\ wins O x' = true).
  { intros O HO Hg. apply andb_true_iff in Hg as [Hg _]. apply Hgood0; assumption. }
  destruct (two_phase_tree g h G H V labels ds n1 n k q circ t0 D C mu A Qn good HN HC HD HA Hds) as (AI & AO & Hb1).
  { intros O HO Hg. destruct (Hgood O HO Hg) as (x & x' & Hne & Hx & Hx' & Hw1 & Hw2). cbv zeta.
    destruct (Hw O x HO Hx Hw1) as [A1 Hincl]. destruct (Hw O x' HO Hx' Hw2) as [A2 _]. split; [|exact Hincl].
    apply (two_phase_two V n1 cs1 cbs labels n circ HP2 O x x'); try assumption. apply Forall_forall. intros u Hu E. subst u.
    apply andb_true_iff in Hg as [_ Hz]. apply (no_zero_ok queries A O (fzero modulus) Hz); [|reflexivity].
    rewrite <- (firstn_skipn (r + 5)). apply in_or_app. right. exact Hu. }
  { exact Hcount. }
  exists AI, AO. cbv zeta. match goal with |- branching _ (fun e => exists f t, ?T e f t) /\ _ => set (tree := T) end.
  assert (Hb' : branching ds (fun e => exists f t, tree e f t)).
  { eapply branching_imp; [|exact Hb1]. cbv beta. intros e He (f & t & F1 & F2 & Hwf & Hbr & Ha). exists f, t.
    split; [exact F1|]. split; [exact F2|]. destruct (Hcirc e) as [-> _]; [congruence|]. split; [exact Hwf|]. split; [|exact Ha].
    intros yn zn un xn w it us Ls Rs a b Hy Hz Hu Hx Hwi Hbb.
    destruct (Hbr _ _ _ _ _ _ _ _ _ _ _ Hy Hz Hu Hx Hwi Hbb) as (O & HO & Hg & Ep & Ec).
    destruct (Hgood O HO Hg) as (x & _ & _ & Hx1 & _ & Hw2 & _). exists O, x. auto. }
  assert (Hrange : forall e f t, length e = length ds -> tree e f t ->
    N <= length G /\ N <= length H /\ Forall (lc_in_range n m) (circ e)).
  { intros e f t He (_ & _ & Hwf & Hbr & _).
    destruct (proof_tree_has_branch k _ t _ f Hwf Hbr) as (pf & c & (O & x & HO & Hx & Hwin & Ep & Ec) & _).
    destruct (Hw O x HO Hx Hwin) as [A1 _]. rewrite Ep in A1.
    assert (Ee : e = map O (second_queries V labels t0 pf)).
    { rewrite <- (second_queries_firstn V labels n t0 pf O). fold m queries. rewrite Ec. fold r. rewrite <- Hds, <- He.
      rewrite firstn_app, Nat.sub_diag, firstn_O, app_nil_r, firstn_all. reflexivity. }
    rewrite Ee. apply (two_phase_in_range V n1 cs1 cbs labels n circ HP2 O x g h G H t0 pf A1 Hb). }
  split; [exact Hb'|].
  destruct (branching_some _ _ Hb') as (e1 & He1 & f1 & t1 & Ht1). destruct (Hrange e1 f1 t1 He1 Ht1) as (HG & HH & _).
  apply (two_phase_extract g h G H V n1 n k circ M ds tree AI AO); auto.
  intros e f t He Ht. destruct (Hrange e f t He Ht) as (_ & _ & Hr). destruct Ht as (F1 & F2 & Hwf & _ & Ha).
  destruct (Hcirc e) as (_ & HM); [congruence|]. auto 6.
Qed.

Theorem two_phase_code g h G H V n1 cs1 cbs labels ds n k q circ M t0 D C R (A : adversary r1cs_proof) Qn (wins : oracle -> F -> bool) :
  let m := length V in
  let N := next_power_of_two n in
  let queries := two_phase_queries labels m n t0 in
  let r := length labels in
  second_phase n1 cs1 V cbs labels n circ ->
  N = 2 ^ k -> 1 < n \/ batch_invert_empty_panics = false -> n1 <= n -> length ds = r ->
  (forall e, length e = r -> length (circ e) = q /\ recovers (M e) m (circ e)) ->
  NoDup C -> ~ In (fzero modulus) C -> NoDup D -> NoDup R -> at_most Qn A ->
  (forall O x, In O (oracles D C) -> In x R -> wins O x = true ->
     two_phase_accepts O x g h G H V n1 cs1 (cbs O) t0 (output O A) /\ incl (queries (output O A)) D) ->
  (Qn + r + 5 + k) * Nat.max (maximum ds) (Nat.max N (Nat.max q 7)) * length C ^ length D * length R + length C * length C ^ length D <
    length C * length (filter (fun Ox => wins (fst Ox) (snd Ox)) (list_prod (oracles D C) R)) ->
  exists AI AO,
    let tree := circuit_tree g h G H V n1 n k circ AI AO (fun e pf c =>
      exists O x, In O (oracles D C) /\ In x R /\ wins O x = true /\ output O A = pf /\ map O (queries pf) = e ++ c) in
    branching ds (fun e => exists f t, tree e f t) /\
    ((exists c, generator_relation (g :: h :: G ++ H) c /\ finds n1 n (length G) (length H) m circ M tree c) \/
     knows_two_phase g h G H V n1 n circ M tree ds).
Proof.
  intros m N queries r HP2 HN Hb Hn1 Hds Hcirc HC HC0 HD HR HA Hw Hcount.
  apply (two_phase_code_repeats g h G H V n1 cs1 cbs labels ds n k q circ M t0 D C 1 R A Qn wins HP2 HN Hb Hn1 Hds Hcirc (repeats_once C HC) HD HR HA Hw).
  rewrite times_zero, Nat.add_0_r, Nat.mul_1_l by exact HC0. exact Hcount.
Qed.
End Main.
