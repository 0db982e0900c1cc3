(** Zero knowledge with a random oracle for circuits with a second phase. *)
From Coq Require Import ZArith String List Lia Bool Arith.
From Verif.Base Require Import Outcome Fp Params Algebra.
From Verif.Model Require Import Transcript LinComb Prog VectorPoly IPP Prover Verifier.
From Verif.Spec Require Import R1CS Sim Protocol IPPSpec Session Verdict Indist Simulator R1CSTree Games RomSim TwoPhase RomTwo Challenges.
From Verif.Proofs Require Import RunProofs SyncMore IPPProofs IPPMain VerifyProofs ProveProofs RoundTrip WICore WIShift WIMain ZKMain ZKAccepted
  TreeBuild OracleVerify QueryProofs TreeCount OracleCount GameInteractive OracleCode RomLink RomCount RomZK QueryTwo TwoPhaseCode.
Import ListNotations.
Local Notation length := List.length.

Section Scripted.
Context {P : Params} {OK : ParamsOk P}.
Context (labels : list string) (m n : nat) (t0 : transcript).
Local Notation r := (length labels).

Lemma challenges_map (l : list string) : challenges_in (map (fun l => TChallenge l modbytes) l) = length l.
Proof. induction l as [|a l IH]; [reflexivity|]. unfold challenges_in in *. cbn [map filter is_challenge length]. rewrite IH. reflexivity. Qed.

Lemma events_at k pf i : shaped k pf -> i < 5 + k -> challenges_in (firstn (offset i) (events m n pf)) = i.
Proof.
  intros Hp Hi. destruct i as [|[|[|[|[|i]]]]]; try reflexivity.
  change (offset (S (S (S (S (S i)))))) with (offset (5 + i)).
  replace (offset (5 + i)) with (23 + (2 + 3 * i)) by (change (offset (5 + i)) with (25 + 3 * (5 + i - 5)); lia).
  unfold events. rewrite firstn_app. change (length (head_events m n pf)) with 23.
  rewrite (firstn_all2 (head_events m n pf)) by (change (length (head_events m n pf)) with 23; lia).
  replace (23 + (2 + 3 * i) - 23) with (2 + 3 * i) by lia. rewrite challenges_app.
  destruct Hp as [HL HR]. rewrite challenges_rounds by lia. reflexivity.
Qed.

Lemma events2_at k pf i : shaped k pf -> i < r + (5 + k) -> challenges_in (firstn (offset2 labels i) (events2 labels m n pf)) = i.
Proof.
  intros Hp Hi. unfold events2. rewrite firstn_app, (four m n k) by exact Hp.
  assert (Ho : 5 <= offset2 labels i) by (unfold offset2; pose proof (offset_5 (i - r)); destruct (Nat.ltb i r); lia).
  rewrite (firstn_all2 (firstn 4 (events m n pf))) by (rewrite (four m n k) by exact Hp; lia).
  assert (E4 : challenges_in (firstn 4 (events m n pf)) = 0) by reflexivity.
  rewrite challenges_app, E4. cbn [Nat.add].
  replace (offset2 labels i - 4) with (S (offset2 labels i - 5)) by lia. cbn [app firstn]. unfold challenges_in. cbn [filter is_challenge]. fold is_challenge.
  change (challenges_in (firstn (offset2 labels i - 5) (map (fun l => TChallenge l modbytes) labels ++ skipn 5 (events m n pf))) = i).
  rewrite firstn_app, map_length, challenges_app. unfold offset2. destruct (Nat.ltb_spec i r) as [Hlt|Hge].
  - replace (5 + i - 5) with i by lia. replace (i - r) with 0 by lia. rewrite firstn_map, challenges_map, firstn_length. cbn. lia.
  - pose proof (offset_5 (i - r)) as H5. rewrite firstn_all2 by (rewrite map_length; lia). rewrite challenges_map.
    replace (r + offset (i - r) - 5 - r) with (offset (i - r) - 5) by lia.
    assert (E : challenges_in (firstn (offset (i - r)) (events m n pf)) = i - r) by (apply (events_at k); [exact Hp|lia]).
    replace (offset (i - r)) with (5 + (offset (i - r) - 5)) in E at 1 by lia. unfold events in *. cbn [head_events app firstn skipn Nat.add] in *.
    unfold challenges_in in *. cbn [filter is_challenge] in E. rewrite E. lia.
Qed.

Lemma scripted_point2 k pf c i : shaped k pf -> i < r + (5 + k) -> scripted t0 c (point2 labels m n t0 i pf) = nth i c (fzero modulus).
Proof.
  intros Hp Hi. unfold scripted. rewrite (point2_prefix labels m n t0 k) by assumption. cbn [fst]. rewrite challenges_app, (events2_at k) by assumption.
  f_equal. lia.
Qed.
Lemma scripted_map2 k pf c : shaped k pf -> length c = r + (5 + k) -> map (scripted t0 c) (two_phase_queries labels m n t0 pf) = c.
Proof.
  intros Hp Hc. assert (Hq := two_phase_length labels m n t0 k pf Hp).
  apply (nth_ext _ _ (scripted t0 c no_query) (fzero modulus)); [rewrite map_length; congruence|].
  intros i Hi. rewrite map_length in Hi. rewrite map_nth. apply (scripted_point2 k); [exact Hp|lia].
Qed.
Lemma queries_nodup2 k pf : shaped k pf -> NoDup (two_phase_queries labels m n t0 pf).
Proof.
  intros Hp. assert (Hq := two_phase_length labels m n t0 k pf Hp). apply (proj2 (NoDup_nth _ no_query)).
  intros i j Hi Hj E. apply (point2_level labels m n t0 k pf pf); try assumption; lia.
Qed.
End Scripted.

Section Link.
Context {P : Params} {OK : ParamsOk P}.
Context (g h : @G1 P) (G H V : list (@G1 P)) (n1 n k : nat) (labels : list string) (circ : list (Fp (@modulus P)) -> list (@lc P)) (t0 : transcript).
Let N := next_power_of_two n.
Local Notation r := (length labels).
Context (Hk : N = 2 ^ k) (HG : N <= length G) (HH : N <= length H).
Let qs (pf : @r1cs_proof P) := two_phase_queries labels (length V) n t0 pf.
Let tr (pf : @r1cs_proof P) := r1cs_2phase_domain_sep (first_phase_transcript pf (length V) t0) ++ map (fun l => TChallenge l modbytes) labels.

(** the challenges of the proof, for an oracle *)
Lemma chal2_e (O : query -> Fp modulus) (pf : @r1cs_proof P) :
  firstn r (map O (qs pf)) = map O (callback_queries labels (r1cs_2phase_domain_sep (first_phase_transcript pf (length V) t0))).
Proof.
  clear Hk HG HH. unfold qs, two_phase_queries. cbv zeta. rewrite map_app, firstn_app, map_length, callback_length, Nat.sub_diag, app_nil_r.
  apply firstn_all2. rewrite map_length, callback_length. lia.
Qed.
Lemma chal2_at (O : query -> Fp modulus) (pf : @r1cs_proof P) :
  let c := @protocol_challenges (@backend P O) (tr pf) (same_proof O pf) in
  skipn r (map O (qs pf)) = @c_y (@backend P O) c :: @c_z (@backend P O) c :: @c_u (@backend P O) c :: @c_x (@backend P O) c :: @c_w (@backend P O) c ::
    map O (round_queries (ipp_L (proof_ipp pf)) (ipp_R (proof_ipp pf)) (innerproduct_domain_sep N (@c_t (@backend P O) c))).
Proof.
  clear Hk HG HH. intros c. unfold qs, two_phase_queries. cbv zeta. rewrite map_app, skipn_app, map_length, callback_length, Nat.sub_diag.
  rewrite skipn_all2 by (rewrite map_length, callback_length; lia). cbn [app skipn].
  unfold challenge_queries. cbv zeta. cbn [app map]. unfold c, protocol_challenges. cbv zeta.
  cbn [c_y c_z c_u c_x c_w c_t]. rewrite !backend_challenge. reflexivity.
Qed.

Definition sim2_at (O : query -> Fp modulus) (pf : @r1cs_proof P) (tp : transcript) (tape : list (Fp (@modulus P))) : Prop :=
  let c := map O (qs pf) in
  let d := skipn r c in
  let y := nth 0 d (fzero _) in let z := nth 1 d (fzero _) in let u := nth 2 d (fzero _) in let x := nth 3 d (fzero _) in
  @simulate (@backend P O) g h G H V n1 n (circ (firstn r c)) y z u x (@read_coins (@backend P O) n1 n tape) (tr pf) = Done (same_proof O pf, tp).

Lemma simulate_facts O cs y z u x tape t (pf : @r1cs_proof P) tp :
  @simulate (@backend P O) g h G H V n1 n cs y z u x (@read_coins (@backend P O) n1 n tape) t = Done (same_proof O pf, tp) ->
  shaped k pf /\ A_I1 pf = g1_mul (nth 0 tape (fzero _)) h.
Proof.
  intros E. pose proof (proj1 (@simulate_iff (@backend P O) g h G H V n1 n cs _ _ _ _ _ _ _ _) E) as I. destruct I as (E1 & _ & _ & _ & _ & _ & _ & _ & _ & _ & EI). split; [|exact E1].
  apply (@create_ipp_shape (@backend P O) (backend_ok O)) in EI as (k' & Lk & LL & LR).
  assert (H0 : k' = k).
  { apply (Nat.pow_inj_r 2); [lia|]. rewrite <- Lk, <- Hk. change (length (firstn N G) = N). rewrite firstn_length. lia. }
  split; [exact (eq_trans LL H0)|exact (eq_trans LR H0)].
Qed.
Lemma sim2_at_facts O pf tp tape : sim2_at O pf tp tape -> shaped k pf /\ A_I1 pf = g1_mul (nth 0 tape (fzero _)) h.
Proof. unfold sim2_at. cbv zeta. apply simulate_facts. Qed.

(** two oracles that agree on the questions of the proof *)
Lemma sim2_at_agree O S pf tp tape : map O (qs pf) = map S (qs pf) -> sim2_at O pf tp tape -> sim2_at S pf tp tape.
Proof.
  intros Heq. unfold sim2_at. cbv zeta. rewrite <- Heq. set (cs := circ _).
  set (y := nth 0 _ _). set (z := nth 1 _ _). set (u := nth 2 _ _). set (x := nth 3 _ _). intros E.
  pose proof (@simulate_iff (@backend P O) g h G H V n1 n cs y z u x (@read_coins (@backend P O) n1 n tape) (tr pf) (same_proof O pf) tp) as [I _].
  pose proof (@simulate_iff (@backend P S) g h G H V n1 n cs y z u x (@read_coins (@backend P S) n1 n tape) (tr pf) (same_proof S pf) tp) as [_ J].
  specialize (I E). apply J. clear E J.
  destruct I as (E1 & E2 & E3 & E4 & E5 & E6 & ET & Etx & Etxb & Eeb & EI).
  (split; [exact E1|]). (split; [exact E2|]). (split; [exact E3|]). (split; [exact E4|]). split; [exact E5|]. split; [exact E6|].
  (split; [exact ET|]). (split; [exact Etx|]). split; [exact Etxb|]. split; [exact Eeb|]. clear E1 E2 E3 E4 E5 E6 ET Etx Etxb Eeb.
  pose proof (chal2_at O pf) as CO. pose proof (chal2_at S pf) as CS. cbv zeta in CO, CS.
  apply (f_equal (skipn r)) in Heq.
  pose proof (f_equal (fun l => nth 4 l (fzero _)) (eq_trans (eq_sym CO) (eq_trans Heq CS))) as Ew.
  pose proof (f_equal (skipn 5) (eq_trans (eq_sym CO) (eq_trans Heq CS))) as Er.
  cbn [nth skipn] in Ew, Er. clear CO CS Heq.
  apply (create_agree O S) in EI.
  - rewrite Ew in EI. exact EI.
  - intros q Hq. apply (map_agree O S) with (2 := Hq).
    assert (EL : length (firstn N G) = N) by (rewrite firstn_length; lia).
    match goal with |- map O (round_queries _ _ (innerproduct_domain_sep ?a _)) = _ => replace a with N by (symmetry; exact EL) end.
    exact Er.
Qed.

Lemma sim2_transcript O cs y z u x co t (pf : @r1cs_proof P) tp :
  @simulate (@backend P O) g h G H V n1 n cs y z u x co t = Done (same_proof O pf, tp) ->
  let draft := @sim_proof (@backend P O) g h G H V n1 n cs y z u x co (@IPPProof (@backend P O) [] [] (fzero _) (fzero _)) in
  @r1cs_2phase_domain_sep (@first_phase_transcript (@backend P O) draft (length V) t0) ++ map (fun l => TChallenge l modbytes) labels = tr pf.
Proof.
  intros E. pose proof (proj1 (@simulate_iff (@backend P O) g h G H V n1 n cs _ _ _ _ _ _ _ _) E) as I.
  destruct I as (E1 & E2 & E3 & _). cbv zeta. unfold tr, first_phase_transcript. cbn [sim_proof sim_draft A_I1 A_O1 S1].
  change (@A_I1 (@backend P O) (same_proof O pf)) with (A_I1 pf) in E1. change (@A_O1 (@backend P O) (same_proof O pf)) with (A_O1 pf) in E2.
  change (@S1 (@backend P O) (same_proof O pf)) with (S1 pf) in E3. rewrite E1, E2, E3. reflexivity.
Qed.

Lemma simulated2_at c tape pf tp : length c = r + (5 + k) ->
  (two_phase_simulated g h G H V n1 n labels circ t0 c tape = Some (pf, tp) <-> sim2_at (scripted t0 c) pf tp tape).
Proof.
  intros Hc. unfold two_phase_simulated. cbv zeta. set (O := scripted t0 c). set (cs := circ _).
  set (y := nth 0 _ _). set (z := nth 1 _ _). set (u := nth 2 _ _). set (x := nth 3 _ _).
  set (draft := @sim_proof (@backend P O) g h G H V n1 n cs y z u x (@read_coins (@backend P O) n1 n tape) (@IPPProof (@backend P O) [] [] (fzero _) (fzero _))).
  split.
  - destruct (@simulate (@backend P O) g h G H V n1 n cs y z u x (@read_coins (@backend P O) n1 n tape)
      (@r1cs_2phase_domain_sep (@first_phase_transcript (@backend P O) draft (length V) t0) ++ map (fun l => TChallenge l modbytes) labels)) as [[pf' tp']|] eqn:E; [|discriminate].
    intros X. injection X as <- <-. set (pf := own_proof O pf') in *.
    assert (E' : pf' = same_proof O pf) by (symmetry; apply same_own). rewrite E' in E.
    pose proof (sim2_transcript O cs y z u x _ _ pf tp' E) as Et. cbv zeta in Et. fold draft in Et. rewrite Et in E.
    assert (Hs : shaped k pf) by exact (proj1 (simulate_facts _ _ _ _ _ _ _ _ _ _ E)).
    assert (Em : map O (qs pf) = c) by exact (scripted_map2 labels (length V) n t0 k pf c Hs Hc).
    unfold sim2_at. cbv zeta. rewrite Em. exact E.
  - intros E. destruct (sim2_at_facts O pf tp tape E) as [Hs _]. unfold sim2_at in E. cbv zeta in E.
    assert (Em : map O (qs pf) = c) by exact (scripted_map2 labels (length V) n t0 k pf c Hs Hc). rewrite Em in E. fold cs y z u x in E.
    pose proof (sim2_transcript O cs y z u x _ _ pf tp E) as Et. cbv zeta in Et. fold draft in Et. rewrite Et, E, own_same. reflexivity.
Qed.

Lemma simulated2_iff O tape pf tp : shaped k pf ->
  (two_phase_simulated g h G H V n1 n labels circ t0 (map O (qs pf)) tape = Some (pf, tp) <-> sim2_at O pf tp tape).
Proof.
  intros Hs. assert (Hl : length (map O (qs pf)) = r + (5 + k)) by (rewrite map_length; apply two_phase_length, Hs).
  rewrite simulated2_at by exact Hl.
  assert (E : map (scripted t0 (map O (qs pf))) (qs pf) = map O (qs pf)) by (apply (scripted_map2 _ _ _ _ k); assumption).
  split; apply sim2_at_agree; [exact E|symmetry; exact E].
Qed.

(** on the backend with the oracle [O] *)
Definition v2_at (O : query -> Fp modulus) (cs : list (@lc P)) (n : nat) (t : transcript) : @verifier (@backend P O) := @Verifier (@backend P O) t cs n V [] None 0 0.
Lemma simulates2_at O tape pf tp :
  sim2_at O pf tp tape <-> @simulates (@backend P O) g h (v2_at O [] n1 t0) (v2_at O (circ (firstn r (map O (qs pf)))) n (tr pf)) G H (same_proof O pf) tp tape.
Proof.
  unfold sim2_at, simulates. cbv zeta. pose proof (chal2_at O pf) as E. cbv zeta in E. rewrite E. cbn [nth]. reflexivity.
Qed.
End Link.

(** *** The simulator, for any circuit *)
Section Any.
Context {P : Params} {OK : ParamsOk P}.
Context (g h : @G1 P) (G H V : list (@G1 P)) (n1 n k : nat) (labels : list string) (circ : list (Fp (@modulus P)) -> list (@lc P)) (t0 : transcript).
Let N := next_power_of_two n.
Local Notation r := (length labels).
Context (Hk : N = 2 ^ k) (HG : N <= length G) (HH : N <= length H).

(** it never fails *)
Lemma simulator_total2 c tape : exists pf tp, two_phase_simulated g h G H V n1 n labels circ t0 c tape = Some (pf, tp).
Proof.
  unfold two_phase_simulated. cbv zeta. set (O := scripted t0 c). set (cs := circ _).
  set (co := @read_coins (@backend P O) n1 n tape).
  match goal with |- context [@simulate _ g h G H V n1 n cs ?y ?z ?u ?x co ?t] => set (t1 := t); generalize t1 y z u x end.
  clear t1. intros t y z u x. unfold simulate. fold N.
  set (c1 := @protocol_challenges _ _ _).
  destruct (@create_ipp_spec (@backend P O) (backend_ok O) (@c_t (@backend P O) c1) (@g1_mul P (@c_w (@backend P O) c1) g)
    (map (@phase_factor P n1 u) (seq 0 N)) (map (fun i => fmul (fpow (finv y) i) (@phase_factor P n1 u i)) (seq 0 N))
    (firstn N G) (firstn N H) (map (@sim_l (@backend P O) n co) (seq 0 N)) (map (@sim_r (@backend P O) n y co) (seq 0 N)) k)
    as (L & R & af & bf & us & t' & E & _).
  1-2: rewrite <- Hk, firstn_length; apply Nat.min_l; assumption.
  1-4: rewrite <- Hk; rewrite map_length; apply seq_length.
  match goal with |- context [obind ?e _] => replace e with (Done (@IPPProof (@backend P O) L R af bf, t')) by (symmetry; exact E) end.
  cbn [obind]. match goal with |- exists pf tp, Some (?a, ?b) = _ => exists a, b; reflexivity end.
Qed.

(** and its proofs are accepted by the verifier with the programmed oracle *)
Lemma simulator_accepted2 cs1 cbs c tape pf tp O x :
  TwoPhase.second_phase n1 cs1 V cbs labels n circ ->
  Forall (lc_in_range n (length V)) (circ (firstn r c)) -> k < 32 -> 1 < n \/ batch_invert_empty_panics = false ->
  length c = r + (5 + k) -> ~ In (fzero modulus) (skipn r c) ->
  two_phase_simulated g h G H V n1 n labels circ t0 c tape = Some (pf, tp) ->
  let O' := programmed O (two_phase_queries labels (length V) n t0 pf) c in
  two_phase_accepts O' x g h G H V n1 cs1 (cbs O') t0 pf.
Proof.
  intros HP2 Hr H32 Hb Hc Hnz E O'.
  pose proof (proj1 (simulated2_at g h G H V n1 n k labels circ t0 Hk HG HH c tape pf tp Hc) E) as E1. clear E. rename E1 into E.
  destruct (sim2_at_facts g h G H V n1 n k labels circ t0 Hk HG HH _ _ _ _ E) as [Hs _].
  assert (Em : map O' (two_phase_queries labels (length V) n t0 pf) = c).
  { apply programmed_map; [apply (queries_nodup2 labels _ _ _ k), Hs|]. rewrite (two_phase_length labels _ _ _ k) by exact Hs. exact Hc. }
  apply (sim2_at_agree g h G H V n1 n k labels circ t0 Hk HG HH _ O') in E.
  2:{ rewrite Em. apply (scripted_map2 labels _ _ _ k); assumption. }
  pose proof (proj1 (simulates2_at g h G H V n1 n labels circ t0 O' tape pf tp) E) as Es. clear E.
  pose proof (eq_trans (eq_sym (f_equal (skipn r) Em)) (chal2_at V n labels t0 O' pf)) as Ech. cbv zeta in Ech.
  assert (Hin : forall i, i < 5 + k -> nth i (skipn r c) (fzero _) <> fzero _).
  { intros i Hi E0. apply Hnz. rewrite <- E0. apply nth_In. rewrite skipn_length. lia. }
  assert (Elog : Nat.log2_up n = k) by (apply (Nat.pow_inj_r 2); [lia|exact Hk]).
  destruct (TwoPhaseCode.second_state V n1 cs1 cbs labels n circ HP2 O' t0 pf) as (s2 & Hsec & Et & Ecs & En & EV & Enr).
  unfold second_queries in Ecs. rewrite <- (chal2_e V n labels t0 O' pf), Em in Ecs.
  pose proof (eq_ind _ (fun l => @simulates (@backend P O') g h (v2_at V O' [] n1 t0) (v2_at V O' (circ (firstn r l)) n
    (r1cs_2phase_domain_sep (first_phase_transcript pf (length V) t0) ++ map (fun l => TChallenge l modbytes) labels)) G H (same_proof O' pf) tp tape) Es c Em) as Es1.
  cbv beta in Es1. clear Es. rename Es1 into Es.
  set (tr := r1cs_2phase_domain_sep (first_phase_transcript pf (length V) t0) ++ map (fun l => TChallenge l modbytes) labels) in *.
  assert (Es2 : @simulates (@backend P O') g h (@two_phase_verifier P O' V n1 cs1 (cbs O') t0) s2 G H (same_proof O' pf) tp tape).
  { unfold simulates in *. cbv zeta in *. rewrite Et, Ecs, En, EV. exact Es. }
  pose proof (@simulated_accepted_all (@backend P O') (backend_ok O') (@two_phase_verifier P O' V n1 cs1 (cbs O') t0) s2 g h G H (same_proof O' pf) tp tape) as X.
  cbv zeta in X. rewrite Et, En, Ecs, EV in X.
  destruct (X HG HH Hr) as (t' & Ht'); [exact (eq_ind_r (fun x => x < 32) H32 Elog)|exact Hb| | |exact Es2|].
  - intros E0. apply (Hin 3); [lia|]. exact (eq_trans (f_equal (fun l => nth 3 l (fzero _)) Ech) E0).
  - assert (Er : map O' (round_queries (ipp_L (proof_ipp pf)) (ipp_R (proof_ipp pf)) (innerproduct_domain_sep N
      (@c_t (@backend P O') (@protocol_challenges (@backend P O') tr (same_proof O' pf))))) = skipn 5 (skipn r c))
      by (symmetry; exact (f_equal (skipn 5) Ech)).
    pose proof (@round_queries_challenges (@backend P O') (ipp_L (proof_ipp pf)) (ipp_R (proof_ipp pf)) (innerproduct_domain_sep N
      (@c_t (@backend P O') (@protocol_challenges (@backend P O') tr (same_proof O' pf))))) as Rq.
    apply Forall_forall. intros u0 Hu E0. apply Hnz.
    assert (Hu' : In u0 (skipn 5 (skipn r c))).
    { rewrite <- Er. refine (eq_ind_r (fun l => In u0 l) _ (map_ext _ _ (fun q => eq_sym (backend_oracle O' q)) _)). refine (eq_ind_r (fun l => In u0 l) _ Rq). exact Hu. }
    rewrite <- (firstn_skipn 5 (skipn r c)). apply in_or_app. right. exact (eq_ind _ (fun u => In u (skipn 5 (skipn r c))) Hu' _ E0).
  - exists t'. apply Ht', Hsec.
Qed.
End Any.

Section Main.
Context {P : Params} {OK : ParamsOk P} {ENC : EncodingOk P}.
Context (s : @prover P) (cbs : forall O : query -> Fp (@modulus P), list (@pprog (@backend P O) (result unit)))
  (labels : list string) (n : nat) (circ : list (Fp (@modulus P)) -> list (@lc P)) (G H : list (@G1 P)) (k kt : nat).
Let n1 := length (p_aL s).
Let N := next_power_of_two n.
Let g := p_g s.
Let h := p_h s.
Let V := zipw (commit (p_g s) (p_h s)) (p_v s) (p_v_blinding s).
Let t0 := p_transcript s.
Local Notation r := (length labels).
Context (Hwf : pwf s) (Hgen : generates h) (Hsec : prover_second_phase s cbs labels n circ)
  (Hk : N = 2 ^ k) (HG : N <= length G) (HH : N <= length H) (Hkt : 11 + 2 * n <= kt).
Let T : list (list (Fp (@modulus P))) := vectors every_scalar kt.
Let qs (x : @r1cs_proof P * transcript) := two_phase_queries labels (length V) n t0 (fst x).
Let tr (pf : @r1cs_proof P) := r1cs_2phase_domain_sep (first_phase_transcript pf (length V) t0) ++ map (fun l => TChallenge l modbytes) labels.

Let W0 (O : query -> Fp modulus) : @world (@backend P O) := @World (@backend P O) (fun _ => fzero _) (fun _ => []).
Let s0 (O : query -> Fp modulus) : @prover (@backend P O) := two_phase_prover O s (cbs O).

Lemma V_length : length V = length (p_v s).
Proof. unfold V. rewrite zipw_length. destruct Hwf as [_ _ Hb _ _]. rewrite Hb. apply Nat.min_id. Qed.

Lemma pwf_at2 O : @pwf (@backend P O) (s0 O).
Proof. destruct Hwf as [a b c d e]. constructor; assumption. Qed.

(** the prover after the second phase *)
Lemma second_at2 O pf : exists s2 : @prover (@backend P O),
  @WIMain.second_phase (@backend P O) (W0 O) (s0 O) (@first_phase_transcript (@backend P O) (same_proof O pf) (length (p_v s)) (p_transcript s)) s2 /\
  @p_transcript (@backend P O) s2 = tr pf /\ length (@p_aL (@backend P O) s2) = n /\
  Forall2 (@lc_same (@backend P O)) (@p_constraints (@backend P O) s2) (circ (firstn r (map O (qs (pf, []))))) /\
  Forall (@lc_in_range (@backend P O) n (length (p_v s))) (@p_constraints (@backend P O) s2) /\
  @satisfies (@backend P O) (@prover_assignment (@backend P O) s2) n (@p_constraints (@backend P O) s2) /\
  length (@p_v (@backend P O) s2) = length (p_v s).
Proof.
  destruct (Hsec O (first_phase_transcript pf (length V) t0)) as (Hne & s2 & Hrun & Et & En & Ec & Hr & Hs). cbv zeta in Hrun, Et, En, Ec, Hr, Hs.
  exists s2.
  assert (H2 : @WIMain.second_phase (@backend P O) (W0 O) (s0 O) (@first_phase_transcript (@backend P O) (same_proof O pf) (length (p_v s)) (p_transcript s)) s2).
  { intros random j. specialize (Hrun random j). unfold prover_create_randomized_constraints, s0, two_phase_prover.
    cbn [p_with_pending p_with_nrand p_with_transcript p_with_deferred p_deferred prover_at].
    destruct (cbs O) as [|cb cbs']; [destruct (Hne eq_refl)|]. rewrite V_length in Hrun. exact Hrun. }
  split; [exact H2|]. split; [exact Et|]. split; [exact En|].
  split; [unfold qs; cbn [fst]; rewrite chal2_e; exact Ec|]. split; [exact Hr|]. split; [exact Hs|].
  destruct (@second_phase_facts (@backend P O) (backend_ok O) _ _ _ _ (pwf_at2 O) H2) as (_ & _ & _ & Ev & _). rewrite Ev. reflexivity.
Qed.

Lemma real_iff2 O tape pf tp :
  two_phase_real s cbs G H O tape = Some (pf, tp) <-> @yields (@backend P O) (W0 O) (s0 O) G H (same_proof O pf) tp tape.
Proof.
  unfold two_phase_real, yields. fold (W0 O). fold (s0 O). change (@p_nrand (@backend P O) (s0 O)) with (p_nrand s).
  match goal with |- match ?e with _ => _ end = _ <-> _ => destruct e as [[[pf' tp']|]|] end; split; intros E; try discriminate.
  - injection E as <- <-. rewrite same_own. reflexivity.
  - injection E as -> ->. rewrite own_same. reflexivity.
Qed.

Lemma real_shaped2 O tape pf tp : length tape = kt -> two_phase_real s cbs G H O tape = Some (pf, tp) -> shaped k pf.
Proof.
  intros Hl E. apply real_iff2 in E.
  destruct (second_at2 O pf) as (s2 & H2 & Et & En & Ec & Hr & Hs & Ev).
  destruct (@second_phase_facts (@backend P O) (backend_ok O) _ _ _ _ (pwf_at2 O) H2) as (_ & _ & _ & _ & _ & Hle & _).
  destruct (@tape_blocks (@backend P O) (length (@p_aL (@backend P O) (s0 O))) (length (@p_aL (@backend P O) s2)) Hle tape) as (m0 & rest & Hm & Etp).
  { refine (Nat.le_trans _ kt _ _ (Nat.eq_le_incl _ _ (eq_sym Hl))). unfold drawn. rewrite En in *. destruct (Nat.ltb 0 _); lia. }
  rewrite Etp in E.
  assert (HG2 : next_power_of_two (length (@p_aL (@backend P O) s2)) <= length G) by (rewrite En; exact HG).
  assert (HH2 : next_power_of_two (length (@p_aL (@backend P O) s2)) <= length H) by (rewrite En; exact HH).
  assert (Hr2 : Forall (@lc_in_range (@backend P O) (length (@p_aL (@backend P O) s2)) (length (@p_v (@backend P O) s2))) (@p_constraints (@backend P O) s2))
    by (rewrite En, Ev; exact Hr).
  pose proof (proj1 (@yields_core (@backend P O) (backend_ok O) (W0 O) (s0 O) G H s2 (same_proof O pf) tp m0 rest
    (pwf_at2 O) H2 HG2 HH2 Hr2 Hm) E) as Ecr.
  unfold core in Ecr. pose proof (proj1 (@finish_iff (@backend P O) _ _ _ _ _ _ _ _ _ _ _ _ _ _ _ _ _ _ _ _) Ecr) as I.
  destruct I as (_ & _ & _ & _ & _ & _ & _ & _ & _ & _ & EI).
  apply (@create_ipp_shape (@backend P O) (backend_ok O)) in EI as (k' & Lk & LL & LR).
  assert (H0 : k' = k).
  { apply (Nat.pow_inj_r 2); [lia|]. rewrite <- Lk, <- Hk. rewrite En. change (length (firstn N G) = N). rewrite firstn_length. lia. }
  split; [exact (eq_trans LL H0)|exact (eq_trans LR H0)].
Qed.

Definition shape2 (x : @r1cs_proof P * transcript) : bool :=
  (length (ipp_L (proof_ipp (fst x))) =? k) && (length (ipp_R (proof_ipp (fst x))) =? k).
Lemma shape2_ok x : shape2 x = true <-> shaped k (fst x).
Proof. unfold shape2, shaped. rewrite andb_true_iff, !Nat.eqb_eq. reflexivity. Qed.

Let sim_out (c tape : list (Fp (@modulus P))) := two_phase_simulated g h G H V n1 n labels circ t0 c tape.

Lemma sim_shaped2 c tape pf tp : length c = r + (5 + k) -> sim_out c tape = Some (pf, tp) ->
  shaped k pf /\ A_I1 pf = g1_mul (nth 0 tape (fzero _)) h.
Proof.
  intros Hc E. apply (simulated2_at g h G H V n1 n k labels circ t0 Hk HG HH c tape pf tp Hc) in E.
  exact (sim2_at_facts g h G H V n1 n k labels circ t0 Hk HG HH _ _ _ _ E).
Qed.

Section Games.
Context (C : list (Fp (@modulus P))) (D : list query) (A : distinguisher) (Q : nat).
Context (HD : NoDup D)
  (Hcov : forall pf, shaped k pf -> incl (two_phase_queries labels (length V) n t0 pf) D) (HQ : at_most Q A).

Lemma same_numbers2 O x : In O (oracles D C) -> shape2 x = true -> nonzero_at r (r + 3) (map O (qs x)) = true ->
  length (filter (fun t => has out_eq_dec x (two_phase_real s cbs G H O t)) T) =
  length (filter (fun t => has out_eq_dec x (sim_out (map O (qs x)) t)) T).
Proof.
  intros HO Hx Hnz. apply shape2_ok in Hx. destruct x as [pf tp]. cbn [fst] in Hx. apply nonzero_at_ok in Hnz as [Hnz0 Hnz3].
  rewrite <- (Nat.add_0_r r) in Hnz0 at 1. rewrite <- nth_skipn_at in Hnz0, Hnz3.
  destruct (second_at2 O pf) as (s2 & H2 & Et & En & Ec & Hr & Hs & Ev). change (qs (pf, [])) with (qs (pf, tp)) in Ec.
  pose proof (chal2_at V n labels t0 O pf) as Ech. cbv zeta in Ech. change (two_phase_queries labels (length V) n t0 pf) with (qs (pf, tp)) in Ech. fold (tr pf) in Ech.
  set (vs2 := v2_at V O (circ (firstn r (map O (qs (pf, tp))))) n (tr pf)).
  apply (@number_of_unique P kt (@yields (@backend P O) (W0 O) (s0 O) G H (same_proof O pf) tp)).
  - apply (@number_of_filter P OK). intros tape _. rewrite has_ok. symmetry. apply real_iff2.
  - assert (Hsim : @number_of P kt (@simulates (@backend P O) g h (v2_at V O [] n1 t0) vs2 G H (same_proof O pf) tp)
      (length (filter (fun t => has out_eq_dec (pf, tp) (sim_out (map O (qs (pf, tp))) t)) T))).
    { apply (@number_of_filter P OK). intros tape _. rewrite has_ok. symmetry.
      eapply iff_trans; [exact (simulated2_iff g h G H V n1 n k labels circ t0 Hk HG HH O tape pf tp Hx)|]. apply simulates2_at. }
    assert (HG2 : next_power_of_two (length (@p_aL (@backend P O) s2)) <= length G) by (rewrite En; exact HG).
    assert (HH2 : next_power_of_two (length (@p_aL (@backend P O) s2)) <= length H) by (rewrite En; exact HH).
    assert (Hr2 : Forall (@lc_in_range (@backend P O) (length (@p_aL (@backend P O) s2)) (length (@p_v (@backend P O) s2))) (@p_constraints (@backend P O) s2))
      by (rewrite En, Ev; exact Hr).
    assert (Hs2 : @satisfies (@backend P O) (@prover_assignment (@backend P O) s2) (length (@p_aL (@backend P O) s2)) (@p_constraints (@backend P O) s2))
      by (rewrite En; exact Hs).
    assert (Hkt2 : 11 + 2 * length (@p_aL (@backend P O) s2) <= kt) by (rewrite En; exact Hkt).
    refine (proj2 (@count_simulated (@backend P O) (backend_ok O) (W0 O) (s0 O) s2 (v2_at V O [] n1 t0) vs2
      G H (same_proof O pf) tp kt (pwf_at2 O) Hgen H2 eq_refl (eq_sym En) eq_refl Ec (eq_sym Et) Hs2 Hr2 HG2 HH2 _ _ Hkt2 _) Hsim).
    + rewrite Et. intros E. apply Hnz0. exact (eq_trans (f_equal (fun l => nth 0 l (fzero _)) Ech) E).
    + rewrite Et. intros E. apply Hnz3. exact (eq_trans (f_equal (fun l => nth 3 l (fzero _)) Ech) E).
Qed.

Lemma rare_meeting2 c q : In c (vectors C (r + (5 + k))) ->
  Z.to_nat modulus * length (filter (fun t => match sim_out c t with
    | Some x => if in_dec query_eq_dec q (qs x) then true else false | None => false end) T) <= length T.
Proof.
  intros Hc. apply in_vectors in Hc as [Hc _]. unfold T. destruct kt as [|j]; [lia|]. apply first_fixed.
  intros a b l l' Ea Eb.
  destruct (sim_out c (a :: l)) as [[pf tp]|] eqn:E1; [|discriminate]. destruct (sim_out c (b :: l')) as [[pf' tp']|] eqn:E2; [|discriminate].
  destruct (in_dec query_eq_dec q (qs (pf, tp))) as [I1|]; [|discriminate]. destruct (in_dec query_eq_dec q (qs (pf', tp'))) as [I2|]; [|discriminate].
  destruct (sim_shaped2 _ _ _ _ Hc E1) as [S1 A1]. destruct (sim_shaped2 _ _ _ _ Hc E2) as [S2 A2]. cbn [nth] in A1, A2.
  apply (In_nth _ _ no_query) in I1 as (i & Hi & N1). apply (In_nth _ _ no_query) in I2 as (i' & Hi' & N2).
  unfold qs in Hi, Hi', N1, N2. cbn [fst] in Hi, Hi', N1, N2.
  rewrite (two_phase_length labels _ _ _ k) in Hi, Hi' by assumption.
  assert (Ep : point2 labels (length V) n t0 i pf = point2 labels (length V) n t0 i' pf') by (unfold point2; congruence).
  assert (i = i') by exact (point2_level labels (length V) n t0 k pf pf' i i' S1 S2 Hi Hi' Ep). subst i'.
  apply (point2_first labels _ _ _ k) in Ep as [Ep _]; [|assumption..].
  apply (mul_h_inj h); [apply Hgen|]. congruence.
Qed.

Lemma wins_real2 : length (filter (fun p => two_phase_real_guess s cbs G H A (fst p) (snd p)) (list_prod (oracles D C) T)) =
  real_wins C D T (two_phase_real s cbs G H) A.
Proof.
  rewrite (pairs_as_sum (oracles D C) T (fun O t => two_phase_real_guess s cbs G H A O t)). unfold real_wins, all_oracles. apply sum_over_ext. intros O _.
  rewrite filter_as_sum. apply sum_over_ext. intros t _. unfold two_phase_real_guess. destruct (two_phase_real s cbs G H O t); reflexivity.
Qed.
Lemma wins_sim2 : length (filter (fun p => two_phase_simulated_guess g h G H V n1 n labels circ t0 A (fst (fst p)) (snd (fst p)) (snd p))
    (list_prod (list_prod (oracles D C) (vectors C (r + (5 + k)))) T)) =
  sim_wins C D (r + (5 + k)) T sim_out qs A.
Proof.
  rewrite (pairs_as_sum (list_prod (oracles D C) (vectors C (r + (5 + k)))) T
    (fun Oc t => two_phase_simulated_guess g h G H V n1 n labels circ t0 A (fst Oc) (snd Oc) t)).
  unfold sim_wins, all_oracles.
  assert (Ep : forall {X Y} (l : list X) (l' : list Y) f, sum_over (list_prod l l') f = sum_over l (fun a => sum_over l' (fun b => f (a, b)))).
  { intros X Y l l' f. induction l as [|a l IH]; [reflexivity|]. cbn [list_prod]. rewrite sum_over_app, sum_over_map, IH. reflexivity. }
  rewrite Ep. apply sum_over_ext. intros O _. apply sum_over_ext. intros c _. rewrite filter_as_sum. apply sum_over_ext. intros t _.
  cbn [fst snd]. unfold two_phase_simulated_guess, sim_out. destruct (two_phase_simulated g h G H V n1 n labels circ t0 c t); reflexivity.
Qed.

Lemma rom_games2 :
  let real := length (filter (fun p => two_phase_real_guess s cbs G H A (fst p) (snd p)) (list_prod (oracles D C) T)) in
  let simulated := length (filter (fun p => two_phase_simulated_guess g h G H V n1 n labels circ t0 A (fst (fst p)) (snd (fst p)) (snd p))
    (list_prod (list_prod (oracles D C) (vectors C (r + (5 + k)))) T)) in
  let total := length (list_prod (list_prod (oracles D C) (vectors C (r + (5 + k)))) T) in
  let order := Z.to_nat modulus in
  let error := Q * length C + 2 * order * times C (fzero _) in
  order * length C * (length C ^ (r + (5 + k)) * real) <= order * length C * simulated + error * total /\
  order * length C * simulated <= order * length C * (length C ^ (r + (5 + k)) * real) + error * total.
Proof.
  cbv zeta. rewrite wins_real2, wins_sim2, !prod_length. assert (EO : length (oracles D C) = length C ^ length D) by apply oracles_length. rewrite EO, (vectors_length C).
  apply most_bound with (B := bad_challenges C (r + (5 + k)) (nonzero_at r (r + 3))); [apply few_bad; lia|].
  apply (two_games_most out_eq_dec C D HD (r + (5 + k)) T (two_phase_real s cbs G H) sim_out qs A Q HQ (nonzero_at r (r + 3)) shape2).
  - intros x Hx. apply shape2_ok in Hx. split; [apply (queries_nodup2 labels _ _ _ k), Hx|]. split; [apply two_phase_length, Hx|apply Hcov, Hx].
  - intros c t [pf tp] Hc _ E. apply in_vectors in Hc as [Hc _]. apply shape2_ok. exact (proj1 (sim_shaped2 _ _ _ _ Hc E)).
  - intros O t [pf tp] _ Ht E. unfold T in Ht. apply in_vectors in Ht as [Ht _]. apply shape2_ok. exact (real_shaped2 O t pf tp Ht E).
  - intros c t E. destruct (simulator_total2 g h G H V n1 n k labels circ t0 Hk HG HH c t) as (pf & tp & E'). unfold sim_out in E. congruence.
  - exact same_numbers2.
  - exact rare_meeting2.
Qed.
End Games.
End Main.

(** *** As stated in Props/RomTwoProps.v *)
Section Stated.
Context {P : Params} {OK : ParamsOk P}.

Lemma rom_zk2_times {ENC : EncodingOk P} (s : prover) cbs labels n circ G H k kt (C : list F) D (A : distinguisher) Q :
  let V := zipw (commit (p_g s) (p_h s)) (p_v s) (p_v_blinding s) in
  let r := length labels in
  p_reachable false s -> generates (p_h s) -> prover_second_phase s cbs labels n circ ->
  next_power_of_two n = 2 ^ k -> 2 ^ k <= length G -> 2 ^ k <= length H -> 11 + 2 * n <= kt ->
  NoDup D ->
  (forall pf, length (ipp_L (proof_ipp pf)) = k -> length (ipp_R (proof_ipp pf)) = k ->
     incl (two_phase_queries labels (length V) n (p_transcript s) pf) D) ->
  at_most Q A ->
  let tapes := vectors every_scalar kt in
  let real := length (filter (fun '(ro, tape) => two_phase_real_guess s cbs G H A ro tape) (list_prod (oracles D C) tapes)) in
  let games := list_prod (list_prod (oracles D C) (vectors C (r + (5 + k)))) tapes in
  let simulated := length (filter (fun '(ro, c, tape) =>
    two_phase_simulated_guess (p_g s) (p_h s) G H V (length (p_aL s)) n labels circ (p_transcript s) A ro c tape) games) in
  let order := Z.to_nat modulus in
  let error := Q * length C + 2 * order * times C (fzero _) in
  order * length C * (length C ^ (r + (5 + k)) * real) <= order * length C * simulated + error * length games /\
  order * length C * simulated <= order * length C * (length C ^ (r + (5 + k)) * real) + error * length games.
Proof.
  intros V r Hr Hg Hsec Hk HG HH Hkt HD Hcov HQ tapes real games simulated order error.
  assert (HG' : next_power_of_two n <= length G) by (rewrite Hk; exact HG).
  assert (HH' : next_power_of_two n <= length H) by (rewrite Hk; exact HH).
  pose proof (rom_games2 s cbs labels n circ G H k kt (reachable_pwf _ _ Hr) Hg Hsec Hk HG' HH' Hkt C D A Q HD
    (fun pf Hp => Hcov pf (proj1 Hp) (proj2 Hp)) HQ) as X.
  cbv zeta in X. unfold error, simulated, real, order, games, tapes.
  rewrite (filter_same (fun '(ro, tape) => two_phase_real_guess s cbs G H A ro tape) (fun p => two_phase_real_guess s cbs G H A (fst p) (snd p)) _
    ltac:(intros [? ?]; reflexivity)).
  rewrite (filter_same (fun '(ro, c, tape) => two_phase_simulated_guess (p_g s) (p_h s) G H V (length (p_aL s)) n labels circ
      (p_transcript s) A ro c tape)
    (fun p => two_phase_simulated_guess (p_g s) (p_h s) G H V (length (p_aL s)) n labels circ
      (p_transcript s) A (fst (fst p)) (snd (fst p)) (snd p)) _
    ltac:(intros [[? ?] ?]; reflexivity)).
  exact X.
Qed.

Lemma rom_zk2 {ENC : EncodingOk P} (s : prover) cbs labels n circ G H k kt (C : list F) D (A : distinguisher) Q :
  let V := zipw (commit (p_g s) (p_h s)) (p_v s) (p_v_blinding s) in
  let r := length labels in
  p_reachable false s -> generates (p_h s) -> prover_second_phase s cbs labels n circ ->
  next_power_of_two n = 2 ^ k -> 2 ^ k <= length G -> 2 ^ k <= length H -> 11 + 2 * n <= kt ->
  NoDup C -> ~ In (fzero _) C -> NoDup D ->
  (forall pf, length (ipp_L (proof_ipp pf)) = k -> length (ipp_R (proof_ipp pf)) = k ->
     incl (two_phase_queries labels (length V) n (p_transcript s) pf) D) ->
  at_most Q A ->
  let tapes := vectors every_scalar kt in
  let real := length (filter (fun '(ro, tape) => two_phase_real_guess s cbs G H A ro tape) (list_prod (oracles D C) tapes)) in
  let games := list_prod (list_prod (oracles D C) (vectors C (r + (5 + k)))) tapes in
  let simulated := length (filter (fun '(ro, c, tape) =>
    two_phase_simulated_guess (p_g s) (p_h s) G H V (length (p_aL s)) n labels circ (p_transcript s) A ro c tape) games) in
  let order := Z.to_nat modulus in
  order * (length C ^ (r + (5 + k)) * real) <= order * simulated + Q * length games /\
  order * simulated <= order * (length C ^ (r + (5 + k)) * real) + Q * length games.
Proof.
  intros V r Hr Hg Hsec Hk HG HH Hkt HC HC0 HD Hcov HQ tapes real games simulated order.
  pose proof (rom_zk2_times s cbs labels n circ G H k kt C D A Q Hr Hg Hsec Hk HG HH Hkt HD Hcov HQ) as X. cbv zeta in X.
  rewrite (times_none C HC0) in X. refine (no_zero_bound (length C) _ _ _ _ _ _ X).
  assert (E0 : length C = 0 -> length C ^ (length labels + (5 + k)) = 0) by (intros E; rewrite E; apply Nat.pow_0_l; lia).
  intros E. split; [rewrite (E0 E); reflexivity|]. apply Nat.le_0_r. etransitivity; [apply filter_few|].
  rewrite !prod_length, vectors_length, (E0 E). lia.
Qed.

Lemma rom_questions2 h labels m n t0 k : generates h ->
  exists D, NoDup D /\ forall pf, length (ipp_L (proof_ipp pf)) = k -> length (ipp_R (proof_ipp pf)) = k ->
    incl (two_phase_queries labels m n t0 pf) D.
Proof.
  intros Hg. exists (nodup query_eq_dec (flat_map (fun l => two_phase_queries labels m n t0 (decode h k l)) (vectors every_scalar (16 + (k + k))))).
  split; [apply NoDup_nodup|]. intros pf HL HR q Hq. apply nodup_In, in_flat_map.
  destruct (decode_all h Hg k pf (conj HL HR)) as (l & Hl & <-). exists l. split; [|exact Hq].
  apply in_vectors. split; [exact Hl|]. intros a _. apply every_scalar_all.
Qed.

Lemma rom_accepted2 g h G H V n1 cs1 cbs labels n k circ t0 c tape :
  let r := length labels in
  TwoPhase.second_phase n1 cs1 V cbs labels n circ ->
  next_power_of_two n = 2 ^ k -> 2 ^ k <= length G -> 2 ^ k <= length H -> k < 32 ->
  1 < n \/ batch_invert_empty_panics = false ->
  Forall (lc_in_range n (length V)) (circ (firstn r c)) -> length c = r + (5 + k) -> ~ In (fzero _) (skipn r c) ->
  exists pf tp, two_phase_simulated g h G H V n1 n labels circ t0 c tape = Some (pf, tp) /\
    forall O x, let O' := programmed O (two_phase_queries labels (length V) n t0 pf) c in
      two_phase_accepts O' x g h G H V n1 cs1 (cbs O') t0 pf.
Proof.
  intros r HP2 Hk HG HH Hk32 Hn Hr Hc Hz.
  assert (HG' : next_power_of_two n <= length G) by (rewrite Hk; exact HG).
  assert (HH' : next_power_of_two n <= length H) by (rewrite Hk; exact HH).
  destruct (simulator_total2 g h G H V n1 n k labels circ t0 Hk HG' HH' c tape) as (pf & tp & E).
  exists pf, tp. split; [exact E|]. intros O x.
  exact (simulator_accepted2 g h G H V n1 n k labels circ t0 Hk HG' HH' cs1 cbs c tape pf tp O x HP2 Hr Hk32 Hn Hc Hz E).
Qed.
End Stated.
