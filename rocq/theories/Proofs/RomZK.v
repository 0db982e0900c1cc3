(** Zero knowledge with a random oracle: the prover and the simulator. *)
From Coq Require Import ZArith String List Lia Bool Arith.
From Verif.Base Require Import Outcome Fp Params Algebra.
From Verif.Model Require Import Transcript LinComb Prog VectorPoly IPP Prover Verifier.
From Verif.Spec Require Import R1CS Sim Protocol IPPSpec Session Verdict Indist Simulator R1CSTree Games RomSim Challenges.
From Verif.Proofs Require Import RunProofs SyncMore IPPProofs IPPMain VerifyProofs ProveProofs RoundTrip WICore WIShift WIMain ZKMain ZKAccepted
  TreeBuild OracleVerify QueryProofs TreeCount OracleCount GameInteractive OracleCode RomLink RomCount.
Import ListNotations.
Local Notation length := List.length.

Section Scripted.
Context {P : Params} {OK : ParamsOk P}.

Lemma challenges_app t t' : challenges_in (t ++ t') = challenges_in t + challenges_in t'.
Proof. unfold challenges_in. rewrite filter_app, app_length. reflexivity. Qed.
Lemma challenges_rounds Ls : forall Rs j, length Rs = length Ls -> j < length Ls ->
  challenges_in (firstn (2 + 3 * j) (round_events Ls Rs)) = j.
Proof.
  induction Ls as [|L Ls IH]; intros [|R Rs] j Hl Hj; try discriminate; [cbn in Hj; lia|].
  cbn [round_events]. destruct j as [|j]; [reflexivity|].
  replace (2 + 3 * S j) with (S (S (S (2 + 3 * j)))) by lia. cbn [firstn].
  unfold challenges_in in *. cbn [filter is_challenge length]. rewrite IH by (cbn in Hl, Hj; lia). reflexivity.
Qed.

Context (m n : nat) (t0 : transcript).
Lemma scripted_point k pf c i : shaped k pf -> i < 5 + k -> scripted t0 c (point m n t0 i pf) = nth i c (fzero modulus).
Proof.
  intros Hp Hi. unfold scripted. rewrite (point_prefix m n t0 k) by assumption. cbn [fst]. rewrite challenges_app.
  replace (challenges_in t0 + challenges_in (firstn (offset i) (events m n pf)) - challenges_in t0)
    with (challenges_in (firstn (offset i) (events m n pf))) by lia.
  f_equal. destruct i as [|[|[|[|[|i]]]]]; try reflexivity.
  change (offset (S (S (S (S (S i)))))) with (offset (5 + i)).
  replace (offset (5 + i)) with (23 + (2 + 3 * i)) by (change (offset (5 + i)) with (25 + 3 * (5 + i - 5)); lia).
  unfold events. rewrite firstn_app. change (length (head_events m n pf)) with 23.
  rewrite (firstn_all2 (head_events m n pf)) by (change (length (head_events m n pf)) with 23; lia).
  replace (23 + (2 + 3 * i) - 23) with (2 + 3 * i) by lia. rewrite challenges_app.
  destruct Hp as [HL HR]. rewrite challenges_rounds by lia. reflexivity.
Qed.
Lemma scripted_map k pf c : shaped k pf -> length c = 5 + k -> map (scripted t0 c) (proof_queries m n t0 pf) = c.
Proof.
  intros Hp Hc. assert (Hq := proof_queries_length m n t0 k pf Hp).
  apply (nth_ext _ _ (scripted t0 c no_query) (fzero modulus)); [rewrite map_length; congruence|].
  intros i Hi. rewrite map_length in Hi. rewrite map_nth. apply (scripted_point k); [exact Hp|lia].
Qed.
Lemma queries_nodup k pf : shaped k pf -> NoDup (proof_queries m n t0 pf).
Proof.
  intros Hp. assert (Hq := proof_queries_length m n t0 k pf Hp). apply (proj2 (NoDup_nth _ no_query)).
  intros i j Hi Hj E. apply (point_level m n t0 k pf pf); try assumption; lia.
Qed.
Lemma map_agree (O S : query -> Fp modulus) qs q : map O qs = map S qs -> In q qs -> O q = S q.
Proof.
  induction qs as [|a qs IH]; intros E Hq; [destruct Hq|]. cbn [map] in E. injection E as E1 E2.
  destruct Hq as [<-|Hq]; [exact E1|auto].
Qed.
End Scripted.

Section Link.
Context {P : Params} {OK : ParamsOk P}.

Lemma own_same (O : query -> Fp modulus) (pf : @r1cs_proof P) : own_proof O (same_proof O pf) = pf.
Proof. destruct pf as [? ? ? ? ? ? ? ? ? ? ? ? ? ? [? ? ? ?]]. reflexivity. Qed.
Lemma same_own (O : query -> Fp modulus) (pf : @r1cs_proof (@backend P O)) : same_proof O (own_proof O pf) = pf.
Proof. destruct pf as [? ? ? ? ? ? ? ? ? ? ? ? ? ? [? ? ? ?]]. reflexivity. Qed.

Context (g h : @G1 P) (G H V : list (@G1 P)) (n k : nat) (cs : list (@lc P)) (t0 : transcript).
Let N := next_power_of_two n.
Context (Hk : N = 2 ^ k) (HG : N <= length G) (HH : N <= length H).
Let qs (pf : @r1cs_proof P) := proof_queries (length V) n t0 pf.
Let tr (pf : @r1cs_proof P) := r1cs_1phase_domain_sep (first_phase_transcript pf (length V) t0).

(** the challenges of the proof, for an oracle *)
Lemma chal_at (O : query -> Fp modulus) (pf : @r1cs_proof P) :
  let c := @protocol_challenges (@backend P O) (tr pf) (same_proof O pf) in
  map O (qs pf) = @c_y (@backend P O) c :: @c_z (@backend P O) c :: @c_u (@backend P O) c :: @c_x (@backend P O) c :: @c_w (@backend P O) c ::
    map O (round_queries (ipp_L (proof_ipp pf)) (ipp_R (proof_ipp pf)) (innerproduct_domain_sep N (@c_t (@backend P O) c))).
Proof.
  intros c. unfold qs, proof_queries, challenge_queries. cbv zeta. cbn [app map]. unfold c, protocol_challenges. cbv zeta.
  cbn [c_y c_z c_u c_x c_w c_t]. rewrite !backend_challenge. reflexivity.
Qed.

Definition sim_at (O : query -> Fp modulus) (pf : @r1cs_proof P) (tp : transcript) (tape : list (Fp (@modulus P))) : Prop :=
  let c := map O (qs pf) in
  let y := nth 0 c (fzero _) in let z := nth 1 c (fzero _) in let u := nth 2 c (fzero _) in let x := nth 3 c (fzero _) in
  @simulate (@backend P O) g h G H V n n cs y z u x (@read_coins (@backend P O) n n tape) (tr pf) = Done (same_proof O pf, tp).

Lemma sim_at_facts O pf tp tape : sim_at O pf tp tape -> shaped k pf /\ A_I1 pf = g1_mul (nth 0 tape (fzero _)) h.
Proof.
  unfold sim_at. cbv zeta. intros E. pose proof (proj1 (@simulate_iff (@backend P O) g h G H V n n cs _ _ _ _ _ _ _ _) E) as I. destruct I as (E1 & _ & _ & _ & _ & _ & _ & _ & _ & _ & EI). split; [|exact E1].
  apply (@create_ipp_shape (@backend P O) (backend_ok O)) in EI as (k' & Lk & LL & LR).
  assert (H0 : k' = k).
  { apply (Nat.pow_inj_r 2); [lia|]. rewrite <- Lk, <- Hk. change (length (firstn N G) = N). rewrite firstn_length. lia. }
  split; [exact (eq_trans LL H0)|exact (eq_trans LR H0)].
Qed.

(** two oracles that agree on the questions of the proof *)
Lemma sim_at_agree O S pf tp tape : map O (qs pf) = map S (qs pf) -> sim_at O pf tp tape -> sim_at S pf tp tape.
Proof.
  intros Heq. unfold sim_at. cbv zeta. rewrite <- Heq.
  set (y := nth 0 _ _). set (z := nth 1 _ _). set (u := nth 2 _ _). set (x := nth 3 _ _). intros E.
  pose proof (@simulate_iff (@backend P O) g h G H V n n cs y z u x (@read_coins (@backend P O) n n tape) (tr pf) (same_proof O pf) tp) as [I _].
  pose proof (@simulate_iff (@backend P S) g h G H V n n cs y z u x (@read_coins (@backend P S) n n tape) (tr pf) (same_proof S pf) tp) as [_ J].
  specialize (I E). apply J. clear E J.
  destruct I as (E1 & E2 & E3 & E4 & E5 & E6 & ET & Etx & Etxb & Eeb & EI).
  (split; [exact E1|]). (split; [exact E2|]). (split; [exact E3|]). (split; [exact E4|]). split; [exact E5|]. split; [exact E6|].
  (split; [exact ET|]). (split; [exact Etx|]). split; [exact Etxb|]. split; [exact Eeb|]. clear E1 E2 E3 E4 E5 E6 ET Etx Etxb Eeb.
  pose proof (chal_at O pf) as CO. pose proof (chal_at S pf) as CS. cbv zeta in CO, CS.
  pose proof (f_equal (fun l => nth 4 l (fzero _)) (eq_trans (eq_sym CO) (eq_trans Heq CS))) as Ew.
  pose proof (f_equal (skipn 5) (eq_trans (eq_sym CO) (eq_trans Heq CS))) as Er.
  cbn [nth skipn] in Ew, Er. clear CO CS Heq.
  apply (create_agree O S) in EI.
  - rewrite Ew in EI. exact EI.
  - intros q Hq. apply (map_agree O S) with (2 := Hq).
    assert (EL : length (firstn N G) = N) by (rewrite firstn_length; lia).
    match goal with |- map O (round_queries _ _ (innerproduct_domain_sep ?a _)) = _ => replace a with N by (symmetry; exact EL) end.
    exact Er.
Qed.

Lemma sim_transcript O y z u x co t (pf : @r1cs_proof P) tp :
  @simulate (@backend P O) g h G H V n n cs y z u x co t = Done (same_proof O pf, tp) ->
  let draft := @sim_proof (@backend P O) g h G H V n n cs y z u x co (@IPPProof (@backend P O) [] [] (fzero _) (fzero _)) in
  @r1cs_1phase_domain_sep (@first_phase_transcript (@backend P O) draft (length V) t0) = tr pf.
Proof.
  intros E. pose proof (proj1 (@simulate_iff (@backend P O) g h G H V n n cs _ _ _ _ _ _ _ _) E) as I.
  destruct I as (E1 & E2 & E3 & _). cbv zeta. unfold tr, first_phase_transcript. cbn [sim_proof sim_draft A_I1 A_O1 S1].
  change (@A_I1 (@backend P O) (same_proof O pf)) with (A_I1 pf) in E1. change (@A_O1 (@backend P O) (same_proof O pf)) with (A_O1 pf) in E2.
  change (@S1 (@backend P O) (same_proof O pf)) with (S1 pf) in E3. rewrite E1, E2, E3. reflexivity.
Qed.

Lemma simulated_at c tape pf tp : length c = 5 + k ->
  (simulated_proof g h G H V n cs t0 c tape = Some (pf, tp) <-> sim_at (scripted t0 c) pf tp tape).
Proof.
  intros Hc. unfold simulated_proof. cbv zeta. set (O := scripted t0 c).
  set (y := nth 0 c _). set (z := nth 1 c _). set (u := nth 2 c _). set (x := nth 3 c _).
  set (draft := @sim_proof (@backend P O) g h G H V n n cs y z u x (@read_coins (@backend P O) n n tape) (@IPPProof (@backend P O) [] [] (fzero _) (fzero _))).
  split.
  - destruct (@simulate (@backend P O) g h G H V n n cs y z u x (@read_coins (@backend P O) n n tape)
      (@r1cs_1phase_domain_sep (@first_phase_transcript (@backend P O) draft (length V) t0))) as [[pf' tp']|] eqn:E; [|discriminate].
    intros X. injection X as <- <-. set (pf := own_proof O pf') in *.
    assert (E' : pf' = same_proof O pf) by (symmetry; apply same_own). rewrite E' in E.
    pose proof (sim_transcript O y z u x _ _ pf tp' E) as Et. cbv zeta in Et. fold draft in Et. rewrite Et in E.
    assert (Hs : shaped k pf).
    { pose proof (proj1 (@simulate_iff (@backend P O) g h G H V n n cs _ _ _ _ _ _ _ _) E) as I.
      destruct I as (_ & _ & _ & _ & _ & _ & _ & _ & _ & _ & EI).
      apply (@create_ipp_shape (@backend P O) (backend_ok O)) in EI as (k' & Lk & LL & LR).
      assert (H0 : k' = k).
      { apply (Nat.pow_inj_r 2); [lia|]. rewrite <- Lk, <- Hk. change (length (firstn N G) = N). rewrite firstn_length. lia. }
      split; [exact (eq_trans LL H0)|exact (eq_trans LR H0)]. }
    assert (Em : map O (qs pf) = c) by exact (scripted_map (length V) n t0 k pf c Hs Hc).
    unfold sim_at. cbv zeta. rewrite Em. exact E.
  - intros E. destruct (sim_at_facts O pf tp tape E) as [Hs _]. unfold sim_at in E. cbv zeta in E.
    assert (Em : map O (qs pf) = c) by exact (scripted_map (length V) n t0 k pf c Hs Hc). rewrite Em in E. fold y z u x in E.
    pose proof (sim_transcript O y z u x _ _ pf tp E) as Et. cbv zeta in Et. fold draft in Et. rewrite Et, E, own_same. reflexivity.
Qed.

Lemma simulated_iff O tape pf tp : shaped k pf ->
  (simulated_proof g h G H V n cs t0 (map O (qs pf)) tape = Some (pf, tp) <-> sim_at O pf tp tape).
Proof.
  intros Hs. assert (Hl : length (map O (qs pf)) = 5 + k) by (rewrite map_length; apply proof_queries_length, Hs).
  rewrite simulated_at by exact Hl.
  assert (E : map (scripted t0 (map O (qs pf))) (qs pf) = map O (qs pf)) by (apply (scripted_map _ _ _ k); assumption).
  split; apply sim_at_agree; [exact E|symmetry; exact E].
Qed.

(** on the backend with the oracle [O] *)
Definition v_at (O : query -> Fp modulus) (t : transcript) : @verifier (@backend P O) := @Verifier (@backend P O) t cs n V [] None 0 0.
Lemma simulates_at O tape pf tp :
  sim_at O pf tp tape <-> @simulates (@backend P O) g h (v_at O t0) (v_at O (tr pf)) G H (same_proof O pf) tp tape.
Proof.
  unfold sim_at, simulates. cbv zeta. pose proof (chal_at O pf) as E. cbv zeta in E. rewrite E. cbn [nth]. reflexivity.
Qed.
End Link.

(** *** The simulator, for any circuit *)
Section Any.
Context {P : Params} {OK : ParamsOk P}.
Context (g h : @G1 P) (G H V : list (@G1 P)) (n k : nat) (cs : list (@lc P)) (t0 : transcript).
Let N := next_power_of_two n.
Context (Hk : N = 2 ^ k) (HG : N <= length G) (HH : N <= length H).

(** it never fails *)
Lemma simulator_total c tape : exists pf tp, simulated_proof g h G H V n cs t0 c tape = Some (pf, tp).
Proof.
  unfold simulated_proof. cbv zeta. set (O := scripted t0 c).
  set (co := @read_coins (@backend P O) n n tape).
  match goal with |- context [@simulate _ g h G H V n n cs ?y ?z ?u ?x co ?t] => set (t1 := t); generalize t1 y z u x end.
  clear t1. intros t y z u x. unfold simulate. fold N.
  set (c1 := @protocol_challenges _ _ _).
  destruct (@create_ipp_spec (@backend P O) (backend_ok O) (@c_t (@backend P O) c1) (@g1_mul P (@c_w (@backend P O) c1) g)
    (map (@phase_factor P n u) (seq 0 N)) (map (fun i => fmul (fpow (finv y) i) (@phase_factor P n u i)) (seq 0 N))
    (firstn N G) (firstn N H) (map (@sim_l (@backend P O) n co) (seq 0 N)) (map (@sim_r (@backend P O) n y co) (seq 0 N)) k)
    as (L & R & af & bf & us & t' & E & _).
  1-2: rewrite <- Hk, firstn_length; apply Nat.min_l; assumption.
  1-4: rewrite <- Hk; rewrite map_length; apply seq_length.
  match goal with |- context [obind ?e _] => replace e with (Done (@IPPProof (@backend P O) L R af bf, t')) by (symmetry; exact E) end.
  cbn [obind]. match goal with |- exists pf tp, Some (?a, ?b) = _ => exists a, b; reflexivity end.
Qed.

(** and its proofs are accepted by the verifier with the programmed oracle *)
Lemma simulator_accepted c tape pf tp O r :
  Forall (lc_in_range n (length V)) cs -> k < 32 -> 1 < n \/ batch_invert_empty_panics = false ->
  length c = 5 + k -> ~ In (fzero modulus) c ->
  simulated_proof g h G H V n cs t0 c tape = Some (pf, tp) ->
  verify_accepts (programmed O (proof_queries (length V) n t0 pf) c) r g h G H V n cs t0 pf.
Proof.
  intros Hr H32 Hb Hc Hnz E.
  pose proof (proj1 (simulated_at g h G H V n k cs t0 Hk HG HH c tape pf tp Hc) E) as E1. clear E. rename E1 into E.
  destruct (sim_at_facts g h G H V n k cs t0 Hk HG HH _ _ _ _ E) as [Hs _].
  set (O' := programmed O (proof_queries (length V) n t0 pf) c).
  assert (Em : map O' (proof_queries (length V) n t0 pf) = c).
  { apply programmed_map; [apply (queries_nodup _ _ _ k), Hs|]. rewrite (proof_queries_length _ _ _ k) by exact Hs. exact Hc. }
  apply (sim_at_agree g h G H V n k cs t0 Hk HG HH _ O') in E.
  2:{ rewrite Em. apply (scripted_map _ _ _ k); assumption. }
  pose proof (proj1 (simulates_at g h G H V n cs t0 O' tape pf tp) E) as Es.
  pose proof (eq_trans (eq_sym Em) (chal_at V n t0 O' pf)) as Ech. cbv zeta in Ech.
  assert (Hin : forall i, i < 5 + k -> nth i c (fzero _) <> fzero _).
  { intros i Hi E0. apply Hnz. rewrite <- E0. apply nth_In. lia. }
  assert (Elog : Nat.log2_up n = k) by (apply (Nat.pow_inj_r 2); [lia|exact Hk]).
  assert (Hsec : @v_second (@backend P O') (@World (@backend P O') (fun _ => r) (fun _ => [])) (same_proof O' pf) (v_at V n cs O' t0)
    (v_at V n cs O' (r1cs_1phase_domain_sep (first_phase_transcript pf (length V) t0)))).
  { reflexivity. }
  pose proof (@simulated_accepted (@backend P O') (backend_ok O') (@World (@backend P O') (fun _ => r) (fun _ => [])) (v_at V n cs O' t0)
    (v_at V n cs O' (r1cs_1phase_domain_sep (first_phase_transcript pf (length V) t0))) g h G H (same_proof O' pf) tp tape r Hsec HG HH Hr) as X.
  cbv zeta in X.
  refine (X _ Hb _ _ Es); clear X.
  - exact (eq_ind_r (fun x => x < 32) H32 Elog).
  - intros E0. apply (Hin 3); [lia|]. exact (eq_trans (f_equal (fun l => nth 3 l (fzero _)) Ech) E0).
  - assert (Er : map O' (round_queries (ipp_L (proof_ipp pf)) (ipp_R (proof_ipp pf)) (innerproduct_domain_sep N
      (@c_t (@backend P O') (@protocol_challenges (@backend P O') (r1cs_1phase_domain_sep (first_phase_transcript pf (length V) t0)) (same_proof O' pf))))) = skipn 5 c)
      by (symmetry; exact (f_equal (skipn 5) Ech)).
    pose proof (@round_queries_challenges (@backend P O') (ipp_L (proof_ipp pf)) (ipp_R (proof_ipp pf)) (innerproduct_domain_sep N
      (@c_t (@backend P O') (@protocol_challenges (@backend P O') (r1cs_1phase_domain_sep (first_phase_transcript pf (length V) t0)) (same_proof O' pf))))) as Rq.
    apply Forall_forall. intros u0 Hu E0. apply Hnz.
    assert (Hu' : In u0 (skipn 5 c)).
    { rewrite <- Er. refine (eq_ind_r (fun l => In u0 l) _ (map_ext _ _ (fun q => eq_sym (backend_oracle O' q)) _)). refine (eq_ind_r (fun l => In u0 l) _ Rq). exact Hu. }
    rewrite <- (firstn_skipn 5 c). apply in_or_app. right. exact (eq_ind _ (fun u => In u (skipn 5 c)) Hu' _ E0).
Qed.
End Any.

Section Main.
Context {P : Params} {OK : ParamsOk P} {ENC : EncodingOk P}.
Context (s : @prover P) (vs : @verifier P) (G H : list (@G1 P)) (k kt : nat).
Let n := length (p_aL s).
Let N := next_power_of_two n.
Let g := p_g s.
Let h := p_h s.
Let V := v_V vs.
Let cs := v_constraints vs.
Let t0 := v_transcript vs.
Context (Hwf : pwf s) (Hdef : p_deferred s = []) (Hsame : same_circuit s vs) (Hgen : generates h)
  (Hsat : satisfies (prover_assignment s) n (p_constraints s)) (Hr : Forall (lc_in_range n (length (p_v s))) (p_constraints s))
  (Hk : N = 2 ^ k) (HG : N <= length G) (HH : N <= length H) (Hkt : 11 + 2 * n <= kt).
Let T : list (list (Fp (@modulus P))) := vectors every_scalar kt.
Let qs (x : @r1cs_proof P * transcript) := proof_queries (length V) n t0 (fst x).
Let tr (pf : @r1cs_proof P) := r1cs_1phase_domain_sep (first_phase_transcript pf (length V) t0).

Let W0 (O : query -> Fp modulus) : @world (@backend P O) := @World (@backend P O) (fun _ => fzero _) (fun _ => []).
Let s2 (O : query -> Fp modulus) (pf : @r1cs_proof P) : @prover (@backend P O) :=
  @p_with_transcript (@backend P O) (tr pf) (@p_with_pending (@backend P O) None (prover_at O s)).

Lemma pwf_at O : @pwf (@backend P O) (prover_at O s).
Proof. destruct Hwf as [a b c d e]. constructor; assumption. Qed.

Lemma value_at O v aL aR aO (l : @lc P) : @lc_value (@backend P O) (@assignment_of (@backend P O) v aL aR aO) l = @lc_value P (@assignment_of P v aL aR aO) l.
Proof.
  induction l as [|[w c] l IH]; [reflexivity|]. cbn [lc_value].
  assert (Ev : @var_value (@backend P O) (@assignment_of (@backend P O) v aL aR aO) w = @var_value P (@assignment_of P v aL aR aO) w) by (destruct w; reflexivity).
  exact (f_equal2 (fun a b => fadd (fmul c a) b) Ev IH).
Qed.
Lemma sat_at O pf : @satisfies (@backend P O) (@prover_assignment (@backend P O) (s2 O pf)) n (p_constraints s).
Proof. destruct Hsat as [Hg Hl]. split; [exact Hg|]. intros l Hin. refine (eq_trans (value_at O _ _ _ _ l) _). apply Hl, Hin. Qed.

Lemma second_at O pf : @second_phase (@backend P O) (W0 O) (prover_at O s)
  (@first_phase_transcript (@backend P O) (same_proof O pf) (length (p_v s)) (p_transcript s)) (s2 O pf).
Proof.
  destruct Hsame as [_ _ _ Hl _ _ Ht]. intros random j. unfold s2, tr. fold V in Hl. fold t0 in Ht. rewrite Hl, <- Ht. reflexivity.
Qed.

Lemma real_iff O tape pf tp :
  real_proof s G H O tape = Some (pf, tp) <-> @yields (@backend P O) (W0 O) (prover_at O s) G H (same_proof O pf) tp tape.
Proof.
  unfold real_proof, yields. fold (W0 O). change (@p_nrand (@backend P O) (prover_at O s)) with (p_nrand s).
  match goal with |- match ?e with _ => _ end = _ <-> _ => destruct e as [[[pf' tp']|]|] end; split; intros E; try discriminate.
  - injection E as <- <-. rewrite same_own. reflexivity.
  - injection E as -> ->. rewrite own_same. reflexivity.
Qed.

Lemma real_shaped O tape pf tp : length tape = kt -> real_proof s G H O tape = Some (pf, tp) -> shaped k pf.
Proof.
  intros Hl E. apply real_iff in E.
  destruct (@tape_blocks (@backend P O) n n (le_n n) tape) as (m0 & rest & Hm & Et).
  { refine (Nat.le_trans _ kt _ _ (Nat.eq_le_incl _ _ (eq_sym Hl))). unfold drawn. destruct (Nat.ltb 0 (n - n)); lia. }
  rewrite Et in E.
  pose proof (proj1 (@yields_core (@backend P O) (backend_ok O) (W0 O) (prover_at O s) G H (s2 O pf) (same_proof O pf) tp m0 rest
    (pwf_at O) (second_at O pf) HG HH Hr Hm) E) as Ec.
  unfold core in Ec. pose proof (proj1 (@finish_iff (@backend P O) _ _ _ _ _ _ _ _ _ _ _ _ _ _ _ _ _ _ _ _) Ec) as I.
  destruct I as (_ & _ & _ & _ & _ & _ & _ & _ & _ & _ & EI).
  apply (@create_ipp_shape (@backend P O) (backend_ok O)) in EI as (k' & Lk & LL & LR).
  assert (H0 : k' = k).
  { apply (Nat.pow_inj_r 2); [lia|]. rewrite <- Lk, <- Hk. change (length (firstn N G) = N). rewrite firstn_length. lia. }
  split; [exact (eq_trans LL H0)|exact (eq_trans LR H0)].
Qed.

Definition out_eq_dec (a b : @r1cs_proof P * transcript) : {a = b} + {a <> b}.
Proof. decide equality; [apply list_eq_dec, tevent_eq_dec|apply proof_eq_dec]. Qed.
Definition shape (x : @r1cs_proof P * transcript) : bool :=
  (length (ipp_L (proof_ipp (fst x))) =? k) && (length (ipp_R (proof_ipp (fst x))) =? k).
Lemma shape_ok x : shape x = true <-> shaped k (fst x).
Proof. unfold shape, shaped. rewrite andb_true_iff, !Nat.eqb_eq. reflexivity. Qed.
Lemma has_ok x o : has out_eq_dec x o = true <-> o = Some x.
Proof. destruct o as [y|]; cbn; [|split; discriminate]. destruct (out_eq_dec x y); split; congruence. Qed.

Let sim_out (c tape : list (Fp (@modulus P))) := simulated_proof g h G H V n cs t0 c tape.

Lemma sim_shaped c tape pf tp : length c = 5 + k -> sim_out c tape = Some (pf, tp) ->
  shaped k pf /\ A_I1 pf = g1_mul (nth 0 tape (fzero _)) h.
Proof.
  intros Hc E. apply (simulated_at g h G H V n k cs t0 Hk HG HH c tape pf tp Hc) in E.
  exact (sim_at_facts g h G H V n k cs t0 Hk HG HH _ _ _ _ E).
Qed.

Section Games.
Context (C : list (Fp (@modulus P))) (D : list query) (A : distinguisher) (Q : nat).
Context (HD : NoDup D) (Hcov : forall pf, shaped k pf -> incl (proof_queries (length V) n t0 pf) D)
  (HQ : at_most Q A).

Lemma same_numbers O x : In O (oracles D C) -> shape x = true -> nonzero_at 0 3 (map O (qs x)) = true ->
  length (filter (fun t => has out_eq_dec x (real_proof s G H O t)) T) =
  length (filter (fun t => has out_eq_dec x (sim_out (map O (qs x)) t)) T).
Proof.
  intros HO Hx Hnz. apply shape_ok in Hx. destruct x as [pf tp]. cbn [fst] in Hx. apply nonzero_at_ok in Hnz as [Hnz0 Hnz3].
  pose proof (chal_at V n t0 O pf) as Ech. cbv zeta in Ech.
  apply (@number_of_unique P kt (@yields (@backend P O) (W0 O) (prover_at O s) G H (same_proof O pf) tp)).
  - apply (@number_of_filter P OK). intros tape _. rewrite has_ok. symmetry. apply real_iff.
  - assert (Hsim : @number_of P kt (@simulates (@backend P O) g h (v_at V n cs O t0) (v_at V n cs O (tr pf)) G H (same_proof O pf) tp)
      (length (filter (fun t => has out_eq_dec (pf, tp) (sim_out (map O (qs (pf, tp))) t)) T))).
    { apply (@number_of_filter P OK). intros tape _. rewrite has_ok. symmetry.
      eapply iff_trans; [exact (simulated_iff g h G H V n k cs t0 Hk HG HH O tape pf tp Hx)|]. apply simulates_at. }
    destruct Hsame as [e1 e2 e3 e4 e5 e6 e7].
    refine (proj2 (@count_simulated (@backend P O) (backend_ok O) (W0 O) (prover_at O s) (s2 O pf) (v_at V n cs O t0) (v_at V n cs O (tr pf))
      G H (same_proof O pf) tp kt (pwf_at O) Hgen (second_at O pf) eq_refl eq_refl e3 e5 eq_refl (sat_at O pf) Hr HG HH _ _ Hkt _) Hsim).
    + intros E. apply Hnz0. exact (eq_trans (f_equal (fun l => nth 0 l (fzero _)) Ech) E).
    + intros E. apply Hnz3. exact (eq_trans (f_equal (fun l => nth 3 l (fzero _)) Ech) E).
Qed.

Lemma rare_meeting c q : In c (vectors C (5 + k)) ->
  Z.to_nat modulus * length (filter (fun t => match sim_out c t with
    | Some x => if in_dec query_eq_dec q (qs x) then true else false | None => false end) T) <= length T.
Proof.
  intros Hc. apply in_vectors in Hc as [Hc _]. unfold T. destruct kt as [|j]; [lia|]. apply first_fixed.
  intros a b r r' Ea Eb.
  destruct (sim_out c (a :: r)) as [[pf tp]|] eqn:E1; [|discriminate]. destruct (sim_out c (b :: r')) as [[pf' tp']|] eqn:E2; [|discriminate].
  destruct (in_dec query_eq_dec q (qs (pf, tp))) as [I1|]; [|discriminate]. destruct (in_dec query_eq_dec q (qs (pf', tp'))) as [I2|]; [|discriminate].
  destruct (sim_shaped _ _ _ _ Hc E1) as [S1 A1]. destruct (sim_shaped _ _ _ _ Hc E2) as [S2 A2]. cbn [nth] in A1, A2.
  apply (In_nth _ _ no_query) in I1 as (i & Hi & N1). apply (In_nth _ _ no_query) in I2 as (i' & Hi' & N2).
  unfold qs in Hi, Hi', N1, N2. cbn [fst] in Hi, Hi', N1, N2.
  rewrite (proof_queries_length _ _ _ k) in Hi, Hi' by assumption.
  assert (Ep : point (length V) n t0 i pf = point (length V) n t0 i' pf') by (unfold point; congruence).
  assert (i = i') by exact (point_level (length V) n t0 k pf pf' i i' S1 S2 Hi Hi' Ep). subst i'.
  apply (point_mono _ _ _ k pf pf' 0 i) in Ep; [|assumption|assumption|lia|assumption].
  apply (point_first _ _ _ k) in Ep; [|assumption|assumption]. unfold first_of in Ep. injection Ep as Ep _.
  apply (mul_h_inj h); [apply Hgen|]. congruence.
Qed.

Lemma wins_real : length (filter (fun p => real_guess s G H A (fst p) (snd p)) (list_prod (oracles D C) T)) =
  real_wins C D T (real_proof s G H) A.
Proof.
  rewrite (pairs_as_sum (oracles D C) T (fun O t => real_guess s G H A O t)). unfold real_wins, all_oracles. apply sum_over_ext. intros O _.
  rewrite filter_as_sum. apply sum_over_ext. intros t _. unfold real_guess. destruct (real_proof s G H O t); reflexivity.
Qed.
Lemma wins_sim : length (filter (fun p => simulated_guess g h G H V n cs t0 A (fst (fst p)) (snd (fst p)) (snd p))
    (list_prod (list_prod (oracles D C) (vectors C (5 + k))) T)) =
  sim_wins C D (5 + k) T sim_out qs A.
Proof.
  rewrite (pairs_as_sum (list_prod (oracles D C) (vectors C (5 + k))) T (fun Oc t => simulated_guess g h G H V n cs t0 A (fst Oc) (snd Oc) t)).
  unfold sim_wins, all_oracles.
  assert (Ep : forall {X Y} (l : list X) (l' : list Y) f, sum_over (list_prod l l') f = sum_over l (fun a => sum_over l' (fun b => f (a, b)))).
  { intros X Y l l' f. induction l as [|a l IH]; [reflexivity|]. cbn [list_prod]. rewrite sum_over_app, sum_over_map, IH. reflexivity. }
  rewrite Ep. apply sum_over_ext. intros O _. apply sum_over_ext. intros c _. rewrite filter_as_sum. apply sum_over_ext. intros t _.
  cbn [fst snd]. unfold simulated_guess, sim_out. destruct (simulated_proof g h G H V n cs t0 c t); reflexivity.
Qed.

Lemma rom_games :
  let real := length (filter (fun p => real_guess s G H A (fst p) (snd p)) (list_prod (oracles D C) T)) in
  let simulated := length (filter (fun p => simulated_guess g h G H V n cs t0 A (fst (fst p)) (snd (fst p)) (snd p))
    (list_prod (list_prod (oracles D C) (vectors C (5 + k))) T)) in
  let total := length (list_prod (list_prod (oracles D C) (vectors C (5 + k))) T) in
  let order := Z.to_nat modulus in
  let error := Q * length C + 2 * order * times C (fzero _) in
  order * length C * (length C ^ (5 + k) * real) <= order * length C * simulated + error * total /\
  order * length C * simulated <= order * length C * (length C ^ (5 + k) * real) + error * total.
Proof.
  cbv zeta. rewrite wins_real, wins_sim, !prod_length. assert (EO : length (oracles D C) = length C ^ length D) by apply oracles_length. rewrite EO, (vectors_length C).
  apply most_bound with (B := bad_challenges C (5 + k) (nonzero_at 0 3)); [apply few_bad; lia|].
  apply (two_games_most out_eq_dec C D HD (5 + k) T (real_proof s G H) sim_out qs A Q HQ (nonzero_at 0 3) shape).
  - intros x Hx. apply shape_ok in Hx. split; [apply (queries_nodup _ _ _ k), Hx|]. split; [apply proof_queries_length, Hx|apply Hcov, Hx].
  - intros c t [pf tp] Hc _ E. apply in_vectors in Hc as [Hc _]. apply shape_ok. exact (proj1 (sim_shaped _ _ _ _ Hc E)).
  - intros O t [pf tp] _ Ht E. unfold T in Ht. apply in_vectors in Ht as [Ht _]. apply shape_ok. exact (real_shaped O t pf tp Ht E).
  - intros c t E. destruct (simulator_total g h G H V n k cs t0 Hk HG HH c t) as (pf & tp & E'). unfold sim_out in E. congruence.
  - exact same_numbers.
  - exact rare_meeting.
Qed.
End Games.
End Main.

(** *** Finitely many questions *)
Section Domain.
Context {P : Params} {OK : ParamsOk P}.
Context (h : @G1 P) (Hgen : generates h).

Definition points (l : list (Fp (@modulus P))) : list (@G1 P) := map (fun a => g1_mul a h) l.
Definition decode (k : nat) (l : list (Fp (@modulus P))) : @r1cs_proof P :=
  let p i := g1_mul (nth i l (fzero _)) h in
  R1CSProof (p 0) (p 1) (p 2) (p 3) (p 4) (p 5) (p 6) (p 7) (p 8) (p 9) (p 10) (nth 11 l (fzero _)) (nth 12 l (fzero _)) (nth 13 l (fzero _))
    (IPPProof (points (firstn k (skipn 16 l))) (points (skipn k (skipn 16 l))) (nth 14 l (fzero _)) (nth 15 l (fzero _))).
Lemma points_all (L : list (@G1 P)) : exists l, length l = length L /\ points l = L.
Proof.
  induction L as [|X L IH]; [exists []; auto|]. destruct IH as (l & Hl & E). destruct Hgen as [_ Hall]. destruct (Hall X) as [a Ea].
  exists (a :: l). split; [cbn; lia|]. unfold points in *. cbn [map]. rewrite E, <- Ea. reflexivity.
Qed.
Lemma decode_all k pf : shaped k pf -> exists l, length l = 16 + (k + k) /\ decode k l = pf.
Proof.
  destruct pf as [a1 a2 a3 a4 a5 a6 a7 a8 a9 a10 a11 x1 x2 x3 [L R x4 x5]]. intros [HL HR]. cbn in HL, HR.
  destruct (points_all [a1; a2; a3; a4; a5; a6; a7; a8; a9; a10; a11]) as (l & Hl & E). cbn in Hl.
  destruct (points_all L) as (lL & HlL & EL). destruct (points_all R) as (lR & HlR & ER).
  exists (l ++ [x1; x2; x3; x4; x5] ++ lL ++ lR).
  do 11 (destruct l as [|?y l]; [discriminate Hl|]). destruct l; [|discriminate Hl].
  split; [rewrite !app_length; cbn [length]; lia|].
  cbn in E. injection E as <- <- <- <- <- <- <- <- <- <- <-. unfold decode.
  cbn [app nth skipn]. rewrite firstn_app, skipn_app. replace (k - length lL) with 0 by lia. rewrite firstn_all2, skipn_all2 by lia.
  cbn [firstn skipn app]. rewrite app_nil_r, EL, ER. reflexivity.
Qed.

Lemma questions_finite m n t0 k : exists D, NoDup D /\ forall pf, shaped k pf -> incl (proof_queries m n t0 pf) D.
Proof.
  exists (nodup query_eq_dec (flat_map (fun l => proof_queries m n t0 (decode k l)) (vectors every_scalar (16 + (k + k))))).
  split; [apply NoDup_nodup|]. intros pf Hs q Hq. apply nodup_In, in_flat_map.
  destruct (decode_all k pf Hs) as (l & Hl & <-). exists l. split; [|exact Hq].
  apply in_vectors. split; [exact Hl|]. intros a _. apply every_scalar_all.
Qed.
End Domain.

(** *** As stated in Props/RomZKProps.v *)
Section Stated.
Context {P : Params} {OK : ParamsOk P}.

Lemma filter_same {X} (f g : X -> bool) (l : list X) : (forall x, f x = g x) -> length (filter f l) = length (filter g l).
Proof. intros E. f_equal. apply filter_ext. exact E. Qed.

Lemma rom_zk_times {ENC : EncodingOk P} (s : prover) (vs : verifier) G H k kt (C : list F) D (A : distinguisher) Q :
  p_reachable false s -> p_deferred s = [] -> same_circuit s vs -> generates (p_h s) ->
  satisfies (prover_assignment s) (length (p_aL s)) (p_constraints s) ->
  Forall (lc_in_range (length (p_aL s)) (length (p_v s))) (p_constraints s) ->
  next_power_of_two (length (p_aL s)) = 2 ^ k -> 2 ^ k <= length G -> 2 ^ k <= length H ->
  11 + 2 * length (p_aL s) <= kt ->
  NoDup D ->
  (forall pf, length (ipp_L (proof_ipp pf)) = k -> length (ipp_R (proof_ipp pf)) = k ->
     incl (proof_queries (length (v_V vs)) (length (p_aL s)) (v_transcript vs) pf) D) ->
  at_most Q A ->
  let tapes := vectors every_scalar kt in
  let real := length (filter (fun '(ro, tape) => real_guess s G H A ro tape) (list_prod (oracles D C) tapes)) in
  let games := list_prod (list_prod (oracles D C) (vectors C (5 + k))) tapes in
  let simulated := length (filter (fun '(ro, c, tape) =>
    simulated_guess (p_g s) (p_h s) G H (v_V vs) (length (p_aL s)) (v_constraints vs) (v_transcript vs) A ro c tape) games) in
  let order := Z.to_nat modulus in
  let error := Q * length C + 2 * order * times C (fzero _) in
  order * length C * (length C ^ (5 + k) * real) <= order * length C * simulated + error * length games /\
  order * length C * simulated <= order * length C * (length C ^ (5 + k) * real) + error * length games.
Proof.
  intros Hr _ Hs Hg Hsat Hran Hk HG HH Hkt HD Hcov HQ tapes real games simulated order error.
  assert (HG' : next_power_of_two (length (p_aL s)) <= length G) by (rewrite Hk; exact HG).
  assert (HH' : next_power_of_two (length (p_aL s)) <= length H) by (rewrite Hk; exact HH).
  pose proof (rom_games s vs G H k kt (reachable_pwf _ _ Hr) Hs Hg Hsat Hran Hk HG' HH' Hkt C D A Q HD
    (fun pf Hp => Hcov pf (proj1 Hp) (proj2 Hp)) HQ) as X.
  cbv zeta in X. unfold error, simulated, real, order, games, tapes.
  rewrite (filter_same (fun '(ro, tape) => real_guess s G H A ro tape) (fun p => real_guess s G H A (fst p) (snd p)) _
    ltac:(intros [? ?]; reflexivity)).
  rewrite (filter_same (fun '(ro, c, tape) => simulated_guess (p_g s) (p_h s) G H (v_V vs) (length (p_aL s)) (v_constraints vs)
      (v_transcript vs) A ro c tape)
    (fun p => simulated_guess (p_g s) (p_h s) G H (v_V vs) (length (p_aL s)) (v_constraints vs)
      (v_transcript vs) A (fst (fst p)) (snd (fst p)) (snd p)) _
    ltac:(intros [[? ?] ?]; reflexivity)).
  exact X.
Qed.

Lemma rom_zk {ENC : EncodingOk P} (s : prover) (vs : verifier) G H k kt (C : list F) D (A : distinguisher) Q :
  p_reachable false s -> p_deferred s = [] -> same_circuit s vs -> generates (p_h s) ->
  satisfies (prover_assignment s) (length (p_aL s)) (p_constraints s) ->
  Forall (lc_in_range (length (p_aL s)) (length (p_v s))) (p_constraints s) ->
  next_power_of_two (length (p_aL s)) = 2 ^ k -> 2 ^ k <= length G -> 2 ^ k <= length H ->
  11 + 2 * length (p_aL s) <= kt ->
  NoDup C -> ~ In (fzero _) C -> NoDup D ->
  (forall pf, length (ipp_L (proof_ipp pf)) = k -> length (ipp_R (proof_ipp pf)) = k ->
     incl (proof_queries (length (v_V vs)) (length (p_aL s)) (v_transcript vs) pf) D) ->
  at_most Q A ->
  let tapes := vectors every_scalar kt in
  let real := length (filter (fun '(ro, tape) => real_guess s G H A ro tape) (list_prod (oracles D C) tapes)) in
  let games := list_prod (list_prod (oracles D C) (vectors C (5 + k))) tapes in
  let simulated := length (filter (fun '(ro, c, tape) =>
    simulated_guess (p_g s) (p_h s) G H (v_V vs) (length (p_aL s)) (v_constraints vs) (v_transcript vs) A ro c tape) games) in
  let order := Z.to_nat modulus in
  order * (length C ^ (5 + k) * real) <= order * simulated + Q * length games /\
  order * simulated <= order * (length C ^ (5 + k) * real) + Q * length games.
Proof.
  intros Hr Hd Hs Hg Hsat Hran Hk HG HH Hkt HC HC0 HD Hcov HQ tapes real games simulated order.
  pose proof (rom_zk_times s vs G H k kt C D A Q Hr Hd Hs Hg Hsat Hran Hk HG HH Hkt HD Hcov HQ) as X. cbv zeta in X.
  rewrite (times_none C HC0) in X. refine (no_zero_bound (length C) _ _ _ _ _ _ X).
  intros E. rewrite E. split; [reflexivity|]. apply Nat.le_0_r. etransitivity; [apply filter_few|].
  rewrite !prod_length, vectors_length, E. cbn [Nat.pow Nat.add Nat.mul]. lia.
Qed.

Lemma rom_total (C : list F) D k kt :
  length (list_prod (list_prod (oracles D C) (vectors C (5 + k))) (vectors every_scalar kt)) =
  length C ^ (5 + k) * length (list_prod (oracles D C) (vectors every_scalar kt)).
Proof. rewrite !prod_length, vectors_length. lia. Qed.

Lemma rom_questions h m n t0 k : generates h ->
  exists D, NoDup D /\ forall pf, length (ipp_L (proof_ipp pf)) = k -> length (ipp_R (proof_ipp pf)) = k ->
    incl (proof_queries m n t0 pf) D.
Proof.
  intros Hg. destruct (questions_finite h Hg m n t0 k) as (D & HD & Hc). exists D. split; [exact HD|].
  intros pf HL HR. apply Hc. split; assumption.
Qed.

Lemma rom_accepted g h G H V n k cs t0 c tape :
  next_power_of_two n = 2 ^ k -> 2 ^ k <= length G -> 2 ^ k <= length H -> k < 32 ->
  1 < n \/ batch_invert_empty_panics = false ->
  Forall (lc_in_range n (length V)) cs -> length c = 5 + k -> ~ In (fzero _) c ->
  exists pf tp, simulated_proof g h G H V n cs t0 c tape = Some (pf, tp) /\
    forall O r, verify_accepts (programmed O (proof_queries (length V) n t0 pf) c) r g h G H V n cs t0 pf.
Proof.
  intros Hk HG HH Hk32 Hn Hr Hc Hz.
  assert (HG' : next_power_of_two n <= length G) by (rewrite Hk; exact HG).
  assert (HH' : next_power_of_two n <= length H) by (rewrite Hk; exact HH).
  destruct (simulator_total g h G H V n k cs t0 Hk HG' HH' c tape) as (pf & tp & E).
  exists pf, tp. split; [exact E|]. intros O r.
  exact (simulator_accepted g h G H V n k cs t0 Hk HG' HH' c tape pf tp O r Hr Hk32 Hn Hc Hz E).
Qed.
End Stated.
