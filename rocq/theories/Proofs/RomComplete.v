(** The proof of an honest prover as the Fiat-Shamir transform of an interactive strategy,
    and how often it is rejected. *)
From Coq Require Import ZArith String List Lia Bool Arith.
From Verif.Base Require Import Outcome Fp Params Algebra.
From Verif.Model Require Import Transcript LinComb Prog VectorPoly IPP Prover Verifier.
From Verif.Spec Require Import R1CS Sim Protocol IPPSpec Session Verdict Indist Simulator R1CSTree Games RomSim RomComplete Challenges.
From Verif.Proofs Require Import RunProofs SyncMore IPPProofs IPPMain FlattenProofs VerifyProofs ProveProofs RoundTrip WICore WIShift WIMain ZKMain
  TreeBuild OracleVerify QueryProofs TreeCount OracleCount GameInteractive OracleCode RomLink RomCount RomZK HonestStrategy HonestRounds OracleHonest OracleWeight OracleZero.
Import ListNotations.
Local Notation length := List.length.

Section Parts.
Context {P : Params} {OK : ParamsOk P}.
Lemma strategy_proof_eq st (pf : r1cs_proof) y z u x w us :
  first_of pf = st_first st ->
  (T_1 pf, T_3 pf, T_4 pf, T_5 pf, T_6 pf) = st_T st y z ->
  (t_x pf, t_x_blinding pf, e_blinding pf) = st_open st y z u x ->
  ipp_L (proof_ipp pf) = map fst (map (fun j => st_round st y z u x w (firstn j us)) (seq 0 (length us))) ->
  ipp_R (proof_ipp pf) = map snd (map (fun j => st_round st y z u x w (firstn j us)) (seq 0 (length us))) ->
  (ipp_a (proof_ipp pf), ipp_b (proof_ipp pf)) = st_final st y z u x w us ->
  pf = strategy_proof st (y :: z :: u :: x :: w :: us).
Proof.
  intros E1 E2 E3 E4 E5 E6. unfold strategy_proof. cbn [nth skipn]. rewrite <- E1, <- E2, <- E3, <- E6, <- E4, <- E5.
  destruct pf as [? ? ? ? ? ? ? ? ? ? ? ? ? ? [? ? ? ?]]. reflexivity.
Qed.
End Parts.

Section Zero.
Context {P : Params} {OK : ParamsOk P}.
Add Field FFrc : (Fp_field_theory modulus modulus_prime).
Lemma F_neg_mul_zero (a : Fp (@modulus P)) : fopp (fmul a (fzero _)) = fzero _.
Proof. change (@eq (Fp (@modulus P)) (fopp (fmul a (fzero _))) (fzero _)). ring. Qed.
Lemma firstn_S_nth {A} (l : list A) i d : i < length l -> firstn (S i) l = firstn i l ++ [nth i l d].
Proof.
  revert i. induction l as [|a l IH]; intros [|i] Hi; cbn [length] in Hi; try lia; [reflexivity|].
  cbn [firstn nth app]. f_equal. apply IH. lia.
Qed.
Lemma nth_skip {A} (l : list A) j i d : nth i (skipn j l) d = nth (j + i) l d.
Proof.
  revert l. induction j as [|j IH]; intros l; [reflexivity|]. destruct l as [|a l]; [destruct i; reflexivity|]. apply IH.
Qed.
End Zero.

Section Main.
Context {P : Params} {OK : ParamsOk P}.
Context (s : @prover P) (vs : @verifier P) (G H : list (@G1 P)) (k : nat) (tape : list (Fp (@modulus P))).
Let n := length (p_aL s).
Let N := next_power_of_two n.
Let g := p_g s.
Let h := p_h s.
Let V := v_V vs.
Let cs := v_constraints vs.
Let t0 := v_transcript vs.
Context (Hwf : pwf s) (Hsame : same_circuit s vs)
  (Hr : Forall (lc_in_range n (length (p_v s))) (p_constraints s))
  (Hk : N = 2 ^ k) (HG : N <= length G) (HH : N <= length H).
Let qs (pf : @r1cs_proof P) := proof_queries (length V) n t0 pf.
Let tr (pf : @r1cs_proof P) := r1cs_1phase_domain_sep (first_phase_transcript pf (length V) t0).

(** the random values that [prove] draws *)
Let WP : @world P := @with_tape P (@World P (fun _ => fzero _) (fun _ => [])) (p_nrand s) tape.
Let mk : @masks P := @draw P WP (p_nrand s) (p_nrand s + 3 + n + n) n n.
Let wt : @wit P := @wit_of P s.
Let wf := @weight P (p_constraints s).

Definition honest_start (y z u x : Fp (@modulus P)) : @ipp_state P :=
  (scale_points (@tab P N (phase_factor n u)) (firstn N G),
   scale_points (@tab P N (fun i => fmul (fpow (finv y) i) (phase_factor n u i))) (firstn N H),
   @tab P N (padded n (c_lx wf wt mk y z u x)), @tab P N (c_rx n wf wt mk y z u x)).
Definition real_strategy : strategy := Strategy
  (FirstMessage (first_point h G H n (p_aL s) (p_aR s) (m_i1 mk)) (first_point_o h G n (p_aO s) (m_o1 mk))
     (first_point h G H n (m_sL mk) (m_sR mk) (m_b1 mk)) (second_point h G H n n (p_aL s) (p_aR s) (m_i2 mk))
     (second_point_o h G n n (p_aO s) (m_o2 mk)) (second_point h G H n n (m_sL mk) (m_sR mk) (m_b2 mk)))
  (c_TT g h n wf wt mk)
  (fun y z u x => (c_tx n wf wt mk y z u x, c_txb wf wt mk y z u x, c_eb mk y z u x))
  (fun y z u x w us => ipp_message (g1_mul w g) (fold_left ipp_step us (honest_start y z u x)))
  (fun y z u x w us => ipp_final (fold_left ipp_step us (honest_start y z u x))).

Let WT (O : query -> Fp modulus) : @world (@backend P O) :=
  @with_tape (@backend P O) (@World (@backend P O) (fun _ => fzero _) (fun _ => [])) (p_nrand s) tape.
Let s2 (O : query -> Fp modulus) : @prover (@backend P O) :=
  let s1 := @hp_state1 (@backend P O) (WT O) (prover_at O s) G H in
  @p_with_transcript (@backend P O) (r1cs_1phase_domain_sep (@p_transcript (@backend P O) s1)) (@p_with_pending (@backend P O) None s1).

Lemma real_facts O : exists pf tp, real_proof s G H O tape = Some (pf, tp) /\
  @prove (@backend P O) (WT O) (prover_at O s) G H = Done (Ok (same_proof O pf, tp)) /\
  shaped k pf /\ @p_transcript (@backend P O) (s2 O) = tr pf /\
  pf = strategy_proof real_strategy (map O (qs pf)).
Proof.
  assert (Hwf' : @pwf (@backend P O) (prover_at O s)) by exact (pwf_at s Hwf O).
  assert (E2 : @prover_create_randomized_constraints (@backend P O) (WT O) (@hp_state1 (@backend P O) (WT O) (prover_at O s) G H) = Done (Ok (s2 O))) by reflexivity.
  pose proof (@prove_core (@backend P O) (backend_ok O) (WT O) (prover_at O s) G H (s2 O) Hwf' E2 HG HH Hr) as Ec. cbv zeta in Ec.
  destruct (@prove_char (@backend P O) (backend_ok O) (WT O) (prover_at O s) G H (s2 O) Hwf' E2 HG HH Hr) as (pf' & tp & us & Ep & Et & Hrest).
  cbv zeta in Hrest. destruct Hrest as (HL & HR & Ech & _).
  exists (own_proof O pf'), tp. set (pf := own_proof O pf').
  assert (E' : pf' = same_proof O pf) by (symmetry; apply same_own).
  assert (Elog : Nat.log2_up n = k) by (apply (Nat.pow_inj_r 2); [lia|exact Hk]).
  split. { unfold real_proof. fold (WT O). rewrite Ep. reflexivity. }
  split. { rewrite <- E'. exact Ep. }
  split. { split; [rewrite <- Elog; rewrite E' in HL; exact HL|rewrite <- Elog; rewrite E' in HR; exact HR]. }
  assert (Htr : @p_transcript (@backend P O) (s2 O) = tr pf).
  { destruct Hsame as [_ _ _ Hl _ _ Ht]. fold V in Hl. fold t0 in Ht. rewrite E' in Et. unfold tr. rewrite Hl, <- Ht.
    exact (f_equal r1cs_1phase_domain_sep (eq_sym Et)). }
  split; [exact Htr|].
  pose proof (eq_trans (eq_sym Ec) Ep) as Ef. unfold core in Ef.
  pose proof (proj1 (@finish_iff (@backend P O) _ _ _ _ _ _ _ _ _ _ _ _ _ _ _ _ _ _ _ _) Ef) as I. clear Ef Ec Ep.
  rewrite Htr, E' in I. rewrite Htr, E' in Ech.
  pose proof (chal_at V n t0 O pf) as C. cbv zeta in C. fold (qs pf) (tr pf) in C. fold (tr pf) in C.
  set (c := @protocol_challenges (@backend P O) (tr pf) (same_proof O pf)) in *.
  destruct I as (F1 & F2 & F3 & F4 & F5 & F6 & ET & Etx & Etxb & Eeb & EI).
  assert (Lf : forall (X : list (@G1 P)), N <= length X -> length (firstn N X) = 2 ^ k).
  { intros X HX. rewrite <- Hk, firstn_length. lia. }
  assert (Lt : forall f, length (@tab P N f) = 2 ^ k).
  { intros f. rewrite <- Hk. unfold tab. rewrite map_length. apply seq_length. }
  pose proof (@create_ipp_rounds (@backend P O) (backend_ok O) _ _ _ _ _ _ _ _ k _ _ (Lf G HG) (Lf H HH) (Lt _) (Lt _) (Lt _) (Lt _) EI) as R.
  cbv zeta in R. clear EI.
  assert (Er : map O (round_queries (ipp_L (proof_ipp pf)) (ipp_R (proof_ipp pf)) (innerproduct_domain_sep N (@c_t (@backend P O) c))) =
     fst (@ipp_challenges (@backend P O) (ipp_L (proof_ipp pf)) (ipp_R (proof_ipp pf)) (innerproduct_domain_sep (2 ^ k) (@c_t (@backend P O) c)))).
  { refine (eq_trans (map_ext _ _ (fun q => eq_sym (backend_oracle O q)) _) _). rewrite Hk. 
    exact (@round_queries_challenges (@backend P O) (ipp_L (proof_ipp pf)) (ipp_R (proof_ipp pf)) (innerproduct_domain_sep (2 ^ k) (@c_t (@backend P O) c))). }
  set (us' := fst _) in *.
  assert (C' : map O (qs pf) = @c_y (@backend P O) c :: @c_z (@backend P O) c :: @c_u (@backend P O) c :: @c_x (@backend P O) c :: @c_w (@backend P O) c :: us').
  { refine (eq_trans C _). do 5 apply (f_equal (cons _)). exact Er. }
  rewrite C'. clear C C' Er.
  destruct R as (_ & RL & RR & Rf).
  apply (strategy_proof_eq real_strategy pf (@c_y (@backend P O) c) (@c_z (@backend P O) c) (@c_u (@backend P O) c) (@c_x (@backend P O) c) (@c_w (@backend P O) c) us').
  - unfold first_of. cbn [real_strategy st_first]. 
    change (A_I1 pf) with (@A_I1 (@backend P O) (same_proof O pf)). change (A_O1 pf) with (@A_O1 (@backend P O) (same_proof O pf)).
    change (S1 pf) with (@S1 (@backend P O) (same_proof O pf)). change (A_I2 pf) with (@A_I2 (@backend P O) (same_proof O pf)).
    change (A_O2 pf) with (@A_O2 (@backend P O) (same_proof O pf)). change (S2 pf) with (@S2 (@backend P O) (same_proof O pf)).
    rewrite F1, F2, F3, F4, F5, F6. reflexivity.
  - exact ET.
  - cbn [real_strategy st_open]. exact (f_equal2 pair (f_equal2 pair Etx Etxb) Eeb).
  - exact RL.
  - exact RR.
  - exact Rf.
Qed.

(** *** It is what the Fiat-Shamir transform of the strategy outputs *)
Lemma fixed_point_unique st O c c' : length c = 5 + k -> length c' = 5 + k ->
  map O (qs (strategy_proof st c)) = c -> map O (qs (strategy_proof st c')) = c' -> c = c'.
Proof.
  intros Lc Lc' E E'.
  assert (X : forall i, i <= 5 + k -> firstn i c = firstn i c').
  { induction i as [|i IH]; intros Hi; [reflexivity|]. specialize (IH ltac:(lia)).
    rewrite (firstn_S_nth c i (fzero _)), (firstn_S_nth c' i (fzero _)) by lia. f_equal; [exact IH|]. f_equal.
    pose proof (point_strategy (length V) n k t0 st c c' i Lc Lc' ltac:(lia) IH) as Ep.
    assert (Q : forall c, length c = 5 + k -> map O (qs (strategy_proof st c)) = c -> nth i c (fzero _) = O (point (length V) n t0 i (strategy_proof st c))).
    { intros c0 L0 E0. rewrite <- E0 at 1. unfold point. rewrite <- (map_nth O). apply nth_indep.
      rewrite map_length. unfold qs. rewrite (proof_queries_length _ _ _ k) by (apply strategy_shaped; exact L0). lia. }
    rewrite (Q c Lc E), (Q c' Lc' E'), Ep. reflexivity. }
  specialize (X (5 + k) (le_n _)). rewrite !firstn_all2 in X by lia. exact X.
Qed.

Lemma real_output O : exists pf tp, real_proof s G H O tape = Some (pf, tp) /\ shaped k pf /\
  pf = output O (fs_prover (length V) n t0 real_strategy (5 + k) []) /\
  pf = strategy_proof real_strategy (map O (qs pf)).
Proof.
  destruct (real_facts O) as (pf & tp & E & _ & Hs & _ & Es). exists pf, tp. split; [exact E|]. split; [exact Hs|]. split; [|exact Es].
  destruct (fs_prover_ok (length V) n k t0 real_strategy O) as (c & Lc & Eo & Ec). rewrite Eo.
  assert (Lm : length (map O (qs pf)) = 5 + k) by (rewrite map_length; apply proof_queries_length, Hs).
  rewrite Es at 1. f_equal. apply (fixed_point_unique real_strategy O); [exact Lm|exact Lc| |exact Ec].
  rewrite <- Es. reflexivity.
Qed.

(** *** When it is accepted *)
Context (Hdef : p_deferred s = []) (Hsat : satisfies (prover_assignment s) n (p_constraints s))
  (H32 : k < 32) (Hb : 1 < n \/ batch_invert_empty_panics = false).

Lemma real_accepted O r : exists pf tp, real_proof s G H O tape = Some (pf, tp) /\
  let c := map O (qs pf) in
  (nth 0 c (fzero _) <> fzero _ -> Forall (fun u => u <> fzero _) (skipn 5 c) -> accepts vs g h G H O r pf = true).
Proof.
  destruct (real_facts O) as (pf & tp & E & Ep & Hs & Htr & _). exists pf, tp. split; [exact E|]. intros c Hy Hu.
  set (W' := @World (@backend P O) (fun _ => r) (fun _ => [])).
  set (v0 := @Verifier (@backend P O) (v_transcript vs) (v_constraints vs) (v_num_vars vs) (v_V vs) [] (v_pending vs) 0 0).
  assert (Hsync : @sync (@backend P O) (WT O) W' (prover_at O s) v0).
  { split; [|constructor]. destruct Hsame as [e1 e2 e3 e4 e5 e6 e7]. constructor; try assumption. exact (pwf_at s Hwf O). }
  destruct (@round_trip_sync (@backend P O) (backend_ok O) (WT O) W' g h G H (prover_at O s) v0 (same_proof O pf) tp Hsync eq_refl eq_refl Ep)
    as (s2' & vs2 & E2 & _ & _ & Hrest).
  assert (E2' : s2 O = s2') by (assert (X : @prover_create_randomized_constraints (@backend P O) (WT O) (@hp_state1 (@backend P O) (WT O) (prover_at O s) G H) = Done (Ok (s2 O))) by reflexivity; rewrite X in E2; injection E2; auto).
  subst s2'. cbv zeta in Hrest. destruct Hrest as (_ & _ & _ & _ & _ & _ & Hv).
  rewrite Htr in Hv.
  pose proof (chal_at V n t0 O pf) as C. cbv zeta in C. fold (qs pf) (tr pf) in C. fold (tr pf) in C. fold c in C.
  assert (Elog : Nat.log2_up n = k) by (apply (Nat.pow_inj_r 2); [lia|exact Hk]).
  unfold accepts. fold W' v0. 
  match type of Hv with ?a -> _ => assert (h1 : a) by exact (eq_ind_r (fun x => x < 32) H32 Elog) end. specialize (Hv h1 Hb). clear h1.
  match type of Hv with ?a -> _ => assert (h1 : a) end.
  { intros E0. apply Hy. refine (eq_trans (f_equal (fun l => nth 0 l (fzero _)) C) _). exact E0. }
  specialize (Hv h1). clear h1.
  match type of Hv with ?a -> _ => assert (h1 : a) end.
  { set (cc := @protocol_challenges (@backend P O) (tr pf) (same_proof O pf)) in *.
    assert (Er : map O (round_queries (ipp_L (proof_ipp pf)) (ipp_R (proof_ipp pf)) (innerproduct_domain_sep N (@c_t (@backend P O) cc))) =
     fst (@ipp_challenges (@backend P O) (ipp_L (proof_ipp pf)) (ipp_R (proof_ipp pf)) (innerproduct_domain_sep N (@c_t (@backend P O) cc)))).
    { refine (eq_trans (map_ext _ _ (fun q => eq_sym (backend_oracle O q)) _) _).
      exact (@round_queries_challenges (@backend P O) (ipp_L (proof_ipp pf)) (ipp_R (proof_ipp pf)) (innerproduct_domain_sep N (@c_t (@backend P O) cc))). }
    pose proof (eq_trans (f_equal (skipn 5) C) Er) as X. cbn [skipn] in X.
    exact (eq_ind _ (fun l => Forall (fun u => u <> fzero _) l) Hu _ X). }
  specialize (Hv h1). clear h1.
  rewrite Hv. clear Hv.
  match goal with |- context [g1_eqb ?a ?b] => replace (g1_eqb a b) with true; [reflexivity|symmetry] end.
  apply (@g1_eqb_spec (@backend P O) (backend_ok O)).
  match goal with |- context [@zsum (@backend P O) ?a ?b ?z] =>
    assert (Ez : @zsum (@backend P O) a b z = fzero _) end.
  { apply (@zsum_satisfied (@backend P O) (backend_ok O)). destruct Hsat as [_ Hl]. intros l Hin.
    refine (eq_trans (value_at O _ _ _ _ l) _). exact (Hl l Hin). }
  rewrite Ez.
  match goal with |- g1_mul ?a _ = _ => assert (Ea : a = fzero _) end.
  { exact (@F_neg_mul_zero P OK _). }
  rewrite Ea. apply (@g1_mul_zero (@backend P O) (backend_ok O)).
Qed.
End Main.

(** *** The questions whose answer must not be 0: the first one and those after the fifth *)
Section Count.
Context {P : Params} {OK : ParamsOk P}.
Context (m n k : nat) (t0 : transcript) (st : @strategy P) (C : list (Fp (@modulus P))).
Local Notation pnt := (point m n t0).
Local Notation sp := (strategy_proof st).

Definition sensitive (q : query) : bool :=
  let i := challenges_in (fst q) - challenges_in t0 in (i =? 0) || (5 <=? i).
Definition zero_there (q : query) (O : @oracle P) (x : Fp (@modulus P)) : bool := sensitive q && (if Fp_eq_dec _ x (fzero _) then true else false).
Let Z0 := times C (fzero _).
Definition weight_of (q : query) : nat := (if sensitive q then 1 else 0) * Z0.

Lemma point_index i pf : shaped k pf -> i < 5 + k -> challenges_in (fst (pnt i pf)) - challenges_in t0 = i.
Proof.
  intros Hp Hi. rewrite (point_prefix m n t0 k) by assumption. cbn [fst]. rewrite challenges_app.
  replace (challenges_in t0 + challenges_in (firstn (offset i) (events m n pf)) - challenges_in t0)
    with (challenges_in (firstn (offset i) (events m n pf))) by lia.
  destruct i as [|[|[|[|[|i]]]]]; try reflexivity.
  change (offset (S (S (S (S (S i)))))) with (offset (5 + i)). change (offset (5 + i)) with (25 + 3 * (5 + i - 5)).
  unfold events. rewrite firstn_app. change (length (head_events m n pf)) with 23.
  rewrite firstn_all2 by (change (length (head_events m n pf)) with 23; lia).
  rewrite challenges_app. replace (25 + 3 * (5 + i - 5) - 23) with (2 + 3 * i) by lia.
  destruct Hp as [HL HR]. rewrite challenges_rounds by lia. reflexivity.
Qed.
Lemma sensitive_point i pf : shaped k pf -> i < 5 + k -> sensitive (pnt i pf) = (i =? 0) || (5 <=? i).
Proof. intros Hp Hi. unfold sensitive. rewrite (point_index i pf Hp Hi). reflexivity. Qed.

Lemma zero_fresh q x : looks_at (fun q' => q' <> q) (fun O => zero_there q O x).
Proof. intros O O' _. reflexivity. Qed.
Lemma zero_few q O : length (filter (zero_there q O) C) <= weight_of q.
Proof.
  unfold zero_there, weight_of. destruct (sensitive q); cbn [andb].
  - rewrite Nat.mul_1_l. apply Nat.eq_le_incl. exact (zeros_times C).
  - clear. induction C as [|a l IH]; [cbn; lia|exact IH].
Qed.

Definition still (j : nat) : nat := if j =? 5 + k then 1 + k else Nat.min j k.
Lemma fs_budget j : forall c, length c + j = 5 + k -> budget weight_of (still j * Z0) (fs_prover m n t0 st j c).
Proof.
  induction j as [|j IH]; intros c Hc; cbn [fs_prover budget]; [exact I|].
  assert (Hs : shaped k (sp (c ++ repeat (fzero _) (S j)))) by (apply strategy_shaped; rewrite app_length, repeat_length; lia).
  unfold weight_of. rewrite (sensitive_point (length c)) by (exact Hs || lia).
  assert (X : (if (length c =? 0) || (5 <=? length c) then 1 else 0) <= still (S j) /\
    still (S j) - (if (length c =? 0) || (5 <=? length c) then 1 else 0) = still j).
  { unfold still. destruct (Nat.eqb_spec (length c) 0), (Nat.leb_spec 5 (length c)), (Nat.eqb_spec (S j) (5 + k)), (Nat.eqb_spec j (5 + k)); cbn [orb]; lia. }
  destruct X as [X1 X2]. split; [apply Nat.mul_le_mono_r, X1|]. intros a. rewrite <- Nat.mul_sub_distr_r, X2. apply IH. rewrite app_length. cbn [length]. lia.
Qed.

Lemma fs_asks O j : forall c, length c + j = 5 + k ->
  exists r, length r = j /\ output O (fs_prover m n t0 st j c) = sp (c ++ r) /\
    forall i, length c <= i < 5 + k -> In (pnt i (sp (c ++ r))) (asked O (fs_prover m n t0 st j c)).
Proof.
  induction j as [|j IH]; intros c Hc.
  - exists []. rewrite app_nil_r. split; [reflexivity|]. split; [reflexivity|]. intros i Hi. lia.
  - cbn [fs_prover output asked]. set (q := pnt (length c) (sp (c ++ repeat (fzero _) (S j)))).
    destruct (IH (c ++ [O q])) as (r & Hr & Eo & Hi); [rewrite app_length; cbn; lia|].
    rewrite <- app_assoc in Eo, Hi. cbn [app] in Eo, Hi. exists (O q :: r). split; [cbn; lia|]. split; [exact Eo|].
    intros i Hle. destruct (Nat.eq_dec i (length c)) as [->|Hne].
    + left. unfold q. apply (point_strategy m n k t0 st).
      * rewrite app_length, repeat_length. lia.
      * rewrite app_length. cbn [length]. lia.
      * lia.
      * rewrite !firstn_app, Nat.sub_diag. cbn [firstn]. rewrite !app_nil_r. reflexivity.
    + right. apply Hi. rewrite app_length. cbn [length]. lia.
Qed.

(** few oracles answer a sensitive question of the proof by 0 *)
Lemma few_zeros D O0 : NoDup D -> (forall pf, shaped k pf -> incl (proof_queries m n t0 pf) D) ->
  let A := fs_prover m n t0 st (5 + k) [] in
  let bad O := let c := map O (proof_queries m n t0 (output O A)) in
    existsb (fun x => if Fp_eq_dec _ x (fzero _) then true else false) (nth 0 c (fzero _) :: skipn 5 c) in
  length C * length (filter bad (oracles_from O0 D C)) <= (1 + k) * Z0 * length (oracles_from O0 D C).
Proof.
  intros HD Hcov A bad. rewrite oracles_length.
  assert (Hb : budget weight_of ((1 + k) * Z0) A).
  { pose proof (fs_budget (5 + k) [] eq_refl) as X. unfold still in X. rewrite Nat.eqb_refl in X. exact X. }
  etransitivity; [|apply (hits_weighted C zero_there weight_of zero_fresh zero_few A ((1 + k) * Z0) D O0 Hb HD)].
  apply Nat.mul_le_mono_l. apply (cnt_le C O0 D bad). intros O _ Hbad. unfold bad in Hbad.
  destruct (fs_asks O (5 + k) [] eq_refl) as (c & Lc & Eo & Ha). cbn [app length] in Eo, Ha. fold A in Eo, Ha. rewrite Eo in Hbad.
  assert (Hs : shaped k (sp c)) by (apply strategy_shaped; exact Lc).
  pose proof (proof_queries_length m n t0 k (sp c) Hs) as Lq.
  assert (X : exists i, i < 5 + k /\ (i =? 0) || (5 <=? i) = true /\ O (pnt i (sp c)) = fzero _).
  { apply existsb_exists in Hbad as (x & Hin & Hx). destruct (Fp_eq_dec _ x (fzero _)) as [->|]; [|discriminate]. clear Hx.
    assert (Q : forall i, i < 5 + k -> nth i (map O (proof_queries m n t0 (sp c))) (fzero _) = O (pnt i (sp c))).
    { intros i Hi. unfold point. rewrite <- (map_nth O). apply nth_indep. rewrite map_length, Lq. exact Hi. }
    destruct Hin as [E|Hin].
    - exists 0. split; [lia|]. split; [reflexivity|]. rewrite <- Q by lia. exact E.
    - apply (In_nth _ _ (fzero _)) in Hin as (i & Hi & E). rewrite skipn_length, map_length, Lq in Hi.
      exists (5 + i). split; [lia|]. split; [destruct i; reflexivity|]. rewrite <- Q by lia. rewrite nth_skip in E. exact E. }
  destruct X as (i & Hi & Hsens & E). unfold hits. apply existsb_exists. exists (pnt i (sp c)). split; [apply Ha; lia|].
  apply andb_true_iff. split.
  - apply mem_ok. apply (Hcov (sp c) Hs). unfold point. apply nth_In. lia.
  - unfold zero_there. rewrite (sensitive_point i (sp c) Hs Hi), Hsens, E. cbn [andb].
    destruct (Fp_eq_dec _ (fzero _) (fzero _)); [reflexivity|congruence].
Qed.
End Count.

Section Stated.
Context {P : Params} {OK : ParamsOk P}.

Lemma completeness_error_times (s : @prover P) (vs : @verifier P) G H k (tape : list F) (r : F) (C : list F) D :
  p_reachable false s -> p_deferred s = [] -> same_circuit s vs ->
  satisfies (prover_assignment s) (length (p_aL s)) (p_constraints s) ->
  Forall (lc_in_range (length (p_aL s)) (length (p_v s))) (p_constraints s) ->
  next_power_of_two (length (p_aL s)) = 2 ^ k -> 2 ^ k <= length G -> 2 ^ k <= length H ->
  k < 32 -> 1 < length (p_aL s) \/ batch_invert_empty_panics = false ->
  NoDup D ->
  (forall pf, length (ipp_L (proof_ipp pf)) = k -> length (ipp_R (proof_ipp pf)) = k ->
     incl (proof_queries (length (v_V vs)) (length (p_aL s)) (v_transcript vs) pf) D) ->
  length C * length (filter (fun O => rejected s vs G H O tape r) (oracles D C)) <= (1 + k) * times C (fzero _) * length (oracles D C).
Proof.
  intros Hreach Hdef Hsame Hsat Hr Hk HG HH H32 Hb HD Hcov.
  assert (HG' : next_power_of_two (length (p_aL s)) <= length G) by (rewrite Hk; exact HG).
  assert (HH' : next_power_of_two (length (p_aL s)) <= length H) by (rewrite Hk; exact HH).
  pose proof (reachable_pwf _ _ Hreach) as Hwf.
  etransitivity; [|apply (few_zeros (length (v_V vs)) (length (p_aL s)) k (v_transcript vs) (real_strategy s G H tape) C D (fun _ => fzero _) HD
    (fun pf Hp => Hcov pf (proj1 Hp) (proj2 Hp)))].
  apply Nat.mul_le_mono_l. apply (cnt_le C (fun _ => fzero _) D (fun O => rejected s vs G H O tape r)). intros O _ Hrej.
  destruct (real_output s vs G H k tape Hwf Hsame Hr Hk HG' HH' O) as (pf & tp & E & _ & Eo & _). cbv beta zeta. rewrite <- Eo.
  destruct (real_accepted s vs G H k tape Hwf Hsame Hr Hk HG' HH' Hsat H32 Hb O r) as (pf' & tp' & E' & Hacc).
  rewrite E in E'. injection E' as <- <-. cbv zeta in Hacc.
  unfold rejected in Hrej. rewrite E in Hrej. apply negb_true_iff in Hrej.
  set (c := map O _) in *.
  match goal with |- existsb ?f ?l = true => destruct (existsb f l) eqn:Ex; [reflexivity|] end. exfalso.
  assert (Hall : forall x, In x (nth 0 c (fzero _) :: skipn 5 c) -> x <> fzero _).
  { intros x Hin Ez. assert (Y : existsb (fun x => if Fp_eq_dec _ x (fzero _) then true else false) (nth 0 c (fzero _) :: skipn 5 c) = true).
    { apply existsb_exists. exists x. split; [exact Hin|]. destruct (Fp_eq_dec _ x (fzero _)); congruence. }
    rewrite Y in Ex. discriminate. }
  rewrite Hacc in Hrej; [discriminate|apply Hall; left; reflexivity|].
  apply Forall_forall. intros x Hx. apply Hall. right. exact Hx.
Qed.
Lemma completeness_error (s : @prover P) (vs : @verifier P) G H k (tape : list F) (r : F) (C : list F) D :
  p_reachable false s -> p_deferred s = [] -> same_circuit s vs ->
  satisfies (prover_assignment s) (length (p_aL s)) (p_constraints s) ->
  Forall (lc_in_range (length (p_aL s)) (length (p_v s))) (p_constraints s) ->
  next_power_of_two (length (p_aL s)) = 2 ^ k -> 2 ^ k <= length G -> 2 ^ k <= length H ->
  k < 32 -> 1 < length (p_aL s) \/ batch_invert_empty_panics = false ->
  NoDup C -> NoDup D ->
  (forall pf, length (ipp_L (proof_ipp pf)) = k -> length (ipp_R (proof_ipp pf)) = k ->
     incl (proof_queries (length (v_V vs)) (length (p_aL s)) (v_transcript vs) pf) D) ->
  length C * length (filter (fun O => rejected s vs G H O tape r) (oracles D C)) <= (1 + k) * length (oracles D C).
Proof.
  intros Hreach Hdef Hsame Hsat Hr Hk HG HH H32 Hb HC HD Hcov.
  etransitivity; [apply (completeness_error_times s vs G H k tape r C D); assumption|].
  apply Nat.mul_le_mono_r. rewrite <- (Nat.mul_1_r (1 + k)) at 2. apply Nat.mul_le_mono_l. apply (repeats_once C HC).
Qed.

(** The proof is the one of an interactive prover, and that one convinces for all
    challenges but few. *)
Lemma interactive_prover (s : @prover P) (vs : @verifier P) G H k (tape : list F) :
  p_reachable false s -> p_deferred s = [] -> same_circuit s vs ->
  satisfies (prover_assignment s) (length (p_aL s)) (p_constraints s) ->
  Forall (lc_in_range (length (p_aL s)) (length (p_v s))) (p_constraints s) ->
  next_power_of_two (length (p_aL s)) = 2 ^ k -> 2 ^ k <= length G -> 2 ^ k <= length H ->
  k < 32 -> 1 < length (p_aL s) \/ batch_invert_empty_panics = false ->
  exists st : strategy,
    (forall O, exists pf tp, real_proof s G H O tape = Some (pf, tp) /\
       pf = strategy_proof st (map O (proof_queries (length (v_V vs)) (length (p_aL s)) (v_transcript vs) pf))) /\
    (forall c, length c = 5 + k -> nth 0 c (fzero _) <> fzero _ -> Forall (fun u => u <> fzero _) (skipn 5 c) ->
       accepted_for (p_g s) (p_h s) G H (v_V vs) (length (p_aL s)) (length (p_aL s)) (v_constraints vs) (strategy_proof st c) c).
Proof.
  intros Hreach Hdef Hsame Hsat Hr Hk HG HH H32 Hb.
  assert (HG' : next_power_of_two (length (p_aL s)) <= length G) by (rewrite Hk; exact HG).
  assert (HH' : next_power_of_two (length (p_aL s)) <= length H) by (rewrite Hk; exact HH).
  pose proof (reachable_pwf _ _ Hreach) as Hwf.
  exists (real_strategy s G H tape). split.
  - intros O. destruct (real_output s vs G H k tape Hwf Hsame Hr Hk HG' HH' O) as (pf & tp & E & _ & _ & Es).
    exists pf, tp. split; [exact E|exact Es].
  - intros c Lc Hy Hu. set (O := scripted (v_transcript vs) c).
    destruct (real_output s vs G H k tape Hwf Hsame Hr Hk HG' HH' O) as (pf & tp & E & Hs & _ & Es).
    assert (Em : map O (proof_queries (length (v_V vs)) (length (p_aL s)) (v_transcript vs) pf) = c) by (apply (scripted_map _ _ _ k); assumption).
    rewrite Em in Es. rewrite <- Es.
    assert (Hacc : forall r, accepts vs (p_g s) (p_h s) G H O r pf = true).
    { intros r. destruct (real_accepted s vs G H k tape Hwf Hsame Hr Hk HG' HH' Hsat H32 Hb O r) as (pf' & tp' & E' & X).
      rewrite E in E'. injection E' as <- <-. cbv zeta in X. rewrite Em in X. apply X; assumption. }
    destruct Hsame as [e1 _ _ e4 e5 _ _]. destruct Hs as [HL HR].
    set (v0 := @Verifier (@backend P O) (v_transcript vs) (v_constraints vs) (v_num_vars vs) (v_V vs) [] (v_pending vs) 0 0).
    assert (Elog : Nat.log2_up (length (p_aL s)) = k) by (apply (Nat.pow_inj_r 2); [lia|exact Hk]).
    assert (Hf : @proof_fits (@backend P O) v0 (@same_proof P O pf) G H).
    { constructor; cbn; rewrite ?e1, ?HL, ?HR, ?e4; try assumption; try reflexivity.
      eapply (@in_range_same_all P); [exact e5|exact Hr]. }
    assert (Ec : c = map (@transcript_oracle (@backend P O)) (@proof_queries (@backend P O) (length (v_V vs)) (v_num_vars vs) (v_transcript vs) (@same_proof P O pf))).
    { rewrite (map_ext _ O (backend_oracle O)), e1. symmetry. exact Em. }
    assert (Hu' : Forall (fun u => u <> fzero modulus) (skipn 5 c)) by exact Hu.
    rewrite Ec in Hu'.
    destruct (@verify_asks (@backend P O) (backend_ok O) (@World (@backend P O) (fun _ => fzero modulus) (fun _ => []))
      v0 (@same_proof P O pf) (p_g s) (p_h s) G H eq_refl Hf Hu') as [[_ H2] _].
    assert (Hd : forall r, exists t, @verify (@backend P O) (@World (@backend P O) (fun _ => r) (fun _ => [])) v0 (@same_proof P O pf) (p_g s) (p_h s) G H = Done (Ok t)).
    { intros r. specialize (Hacc r). unfold accepts in Hacc. fold v0 in Hacc.
      match type of Hacc with match ?e with _ => _ end = _ => destruct e as [[t|]|] eqn:Ev; try discriminate end.
      exists t. reflexivity. }
    apply (backend_accepted O). rewrite Ec. rewrite <- e1 at 1 2. exact (H2 Hd).
Qed.
End Stated.
