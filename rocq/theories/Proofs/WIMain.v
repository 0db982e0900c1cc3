(** Tapes, and the number of tapes with which a proof is output. *)
From Coq Require Import ZArith String List Lia Bool Ring Field.
From Verif.Base Require Import Outcome Fp Params Algebra.
From Verif.Model Require Import Transcript LinComb Prog VectorPoly IPP Prover Verifier.
From Verif.Spec Require Import R1CS Sim Protocol Session Indist.
From Verif.Proofs Require Import LinCombProofs RunProofs ExtProofs FlattenProofs IPPProofs VerifyProofs ProveProofs RoundTrip SyncMore CircuitMain PoseidonBijection WICore WIShift.
Import ListNotations.

(** *** Counting *)
Section Count.
Context {P : Params} {OK : ParamsOk P}.

Lemma tape_dec (a b : list F) : {a = b} + {a <> b}.
Proof. apply list_eq_dec. apply Fp_eq_dec. Qed.

Lemma nodup_map_inj (f : list F -> list F) l :
  NoDup l -> (forall a b, In a l -> In b l -> f a = f b -> a = b) -> NoDup (map f l).
Proof.
  induction 1 as [|a l Hn Hd IH]; intros Hf; [constructor|]. cbn [map]. constructor.
  - intros Hin. apply in_map_iff in Hin as (b & E & Hb). apply Hf in E; [|right; exact Hb|left; reflexivity]. subst b. contradiction.
  - apply IH. intros x y Hx Hy. apply Hf; right; assumption.
Qed.

Lemma number_transfer k (Q Q' : list F -> Prop) (f f' : list F -> list F) m :
  (forall a, length a = k -> Q a -> length (f a) = k /\ Q' (f a)) ->
  (forall a, length a = k -> Q' a -> length (f' a) = k /\ Q (f' a)) ->
  (forall a b, length a = k -> length b = k -> Q a -> Q b -> f a = f b -> a = b) ->
  (forall a b, length a = k -> length b = k -> Q' a -> Q' b -> f' a = f' b -> a = b) ->
  number_of k Q m -> number_of k Q' m.
Proof.
  intros Hf Hf' Hi Hi' (l & Hd & Hl & Hin). exists (map f l).
  assert (Hd' : NoDup (map f l)).
  { apply nodup_map_inj; [exact Hd|]. intros a b Ha Hb. apply Hin in Ha as [Ha1 Ha2]. apply Hin in Hb as [Hb1 Hb2]. apply Hi; assumption. }
  split; [exact Hd'|]. split; [rewrite map_length; exact Hl|]. intros tape. split.
  - intros Ht. apply in_map_iff in Ht as (a & <- & Ha). apply Hin in Ha as [Ha1 Ha2]. apply Hf; assumption.
  - intros [Ht1 Ht2]. destruct (in_dec tape_dec tape (map f l)) as [|Hni]; [assumption|exfalso].
    assert (HQ : forall a, In a (tape :: map f l) -> length a = k /\ Q' a).
    { intros a [<-|Ha]; [split; assumption|]. apply in_map_iff in Ha as (b & <- & Hb). apply Hin in Hb as [Hb1 Hb2]. apply Hf; assumption. }
    assert (Hd2 : NoDup (map f' (tape :: map f l))).
    { apply nodup_map_inj; [constructor; assumption|]. intros a b Ha Hb. apply HQ in Ha as [Ha1 Ha2]. apply HQ in Hb as [Hb1 Hb2]. apply Hi'; assumption. }
    assert (Hincl : incl (map f' (tape :: map f l)) l).
    { intros a Ha. apply in_map_iff in Ha as (b & <- & Hb). apply HQ in Hb as [Hb1 Hb2]. apply Hin. apply Hf'; assumption. }
    pose proof (NoDup_incl_length Hd2 Hincl) as Hle. cbn [map length] in Hle. rewrite !map_length in Hle. lia.
Qed.
End Count.

Section WIMain.
Context {P : Params} {OK : ParamsOk P}.
Local Open Scope fe_scope.
Add Field FFwim : (Fp_field_theory modulus modulus_prime).

Lemma div_mul (x h : F) : h <> 0 -> x = x * finv h * h.
Proof. intros Hh. field. exact Hh. Qed.

(** *** Tapes *)
Lemma with_tape_block W c pre blk post j : length pre = j ->
  randoms (with_tape W c (pre ++ blk ++ post)) (c + j) (length blk) = blk.
Proof.
  intros <-. unfold randoms. apply nth_ext with (d := 0) (d' := 0); [rewrite map_length, seq_length; reflexivity|].
  rewrite map_length, seq_length. intros i Hi.
  rewrite (nth_indep _ 0 (w_random (with_tape W c (pre ++ blk ++ post)) O)) by (rewrite map_length, seq_length; exact Hi).
  rewrite map_nth, seq_nth by exact Hi. cbn [with_tape w_random].
  replace (c + length pre + i - c)%nat with (length pre + i)%nat by lia. rewrite !app_length.
  destruct (Nat.leb_spec c (c + length pre + i)); [|lia]. destruct (Nat.ltb_spec (length pre + i) (length pre + (length blk + length post))); [|lia].
  cbn [andb]. rewrite app_nth2 by lia. replace (length pre + i - length pre)%nat with i by lia.
  apply app_nth1. exact Hi.
Qed.
Lemma randoms_block3 W c a b d : randoms W c 3 = [a; b; d] -> w_random W c = a /\ w_random W (c + 1) = b /\ w_random W (c + 2) = d.
Proof.
  unfold randoms. cbn [seq map]. intros E. injection E as E1 E2 E3.
  replace (c + 1)%nat with (S c) by lia. replace (c + 2)%nat with (S (S c)) by lia. auto.
Qed.
Lemma randoms_block5 W c a b d e f : randoms W c 5 = [a; b; d; e; f] ->
  w_random W c = a /\ w_random W (c + 1) = b /\ w_random W (c + 2) = d /\ w_random W (c + 3) = e /\ w_random W (c + 4) = f.
Proof.
  unfold randoms. cbn [seq map]. intros E. injection E as E1 E2 E3 E4 E5.
  replace (c + 1)%nat with (S c) by lia. replace (c + 2)%nat with (S (S c)) by lia.
  replace (c + 3)%nat with (S (S (S c))) by lia. replace (c + 4)%nat with (S (S (S (S c)))) by lia. auto.
Qed.

Section Tape.
Context (n1 n : nat) (Hn : (n1 <= n)%nat).
Let has := Nat.ltb 0 (n - n1).

Definition blocks (m : masks) : list F :=
  [m_i1 m; m_o1 m; m_b1 m] ++ firstn n1 (m_sL m) ++ firstn n1 (m_sR m) ++
  (if has then [m_i2 m; m_o2 m; m_b2 m] else []) ++ skipn n1 (m_sL m) ++ skipn n1 (m_sR m) ++
  [m_t1 m; m_t3 m; m_t4 m; m_t5 m; m_t6 m].
Definition drawn : nat := (3 + n1 + n1 + (if has then 3 else 0) + (n - n1) + (n - n1) + 5)%nat.

Record masks_ok (m : masks) : Prop := {
  mo_sized : masks_sized n m;
  mo_none : has = false -> m_i2 m = 0 /\ m_o2 m = 0 /\ m_b2 m = 0
}.

Lemma blocks_length m : masks_ok m -> length (blocks m) = drawn.
Proof.
  intros [[L R] _]. unfold blocks, drawn. rewrite !app_length, !firstn_length, !skipn_length, L, R.
  destruct has; cbn [length]; lia.
Qed.

Lemma take_block (l : list F) k : (k <= length l)%nat -> exists a r, l = a ++ r /\ length a = k.
Proof.
  intros H. exists (firstn k l), (skipn k l). split; [symmetry; apply firstn_skipn|]. rewrite firstn_length. lia.
Qed.

Lemma tape_blocks tape : (drawn <= length tape)%nat -> exists m rest, masks_ok m /\ tape = blocks m ++ rest.
Proof.
  unfold drawn. intros H.
  destruct (take_block tape 3 ltac:(lia)) as (a & r1 & -> & La). rewrite app_length, La in H.
  destruct (take_block r1 n1 ltac:(lia)) as (l1 & r2 & -> & Ll1). rewrite app_length, Ll1 in H.
  destruct (take_block r2 n1 ltac:(lia)) as (rr1 & r3 & -> & Lr1). rewrite app_length, Lr1 in H.
  destruct (take_block r3 (if has then 3 else 0)%nat ltac:(lia)) as (b & r4 & -> & Lb). rewrite app_length, Lb in H.
  destruct (take_block r4 (n - n1) ltac:(lia)) as (l2 & r5 & -> & Ll2). rewrite app_length, Ll2 in H.
  destruct (take_block r5 (n - n1) ltac:(lia)) as (rr2 & r6 & -> & Lr2). rewrite app_length, Lr2 in H.
  destruct (take_block r6 5 ltac:(lia)) as (t & rest & -> & Lt).
  destruct a as [|a1 [|a2 [|a3 [|]]]]; try discriminate.
  destruct t as [|q1 [|q2 [|q3 [|q4 [|q5 [|]]]]]]; try discriminate.
  exists (Masks a1 a2 a3 (nth 0 b 0) (nth 1 b 0) (nth 2 b 0) (l1 ++ l2) (rr1 ++ rr2) q1 q2 q3 q4 q5), rest.
  destruct (app_split l1 l2 n1 Ll1) as [F1 F2]. destruct (app_split rr1 rr2 n1 Lr1) as [F3 F4]. split.
  - split; [split; cbn; rewrite app_length; lia|]. intros Hh. rewrite Hh in Lb. destruct b; [|discriminate]. repeat split.
  - unfold blocks. cbn [m_i1 m_o1 m_b1 m_i2 m_o2 m_b2 m_sL m_sR m_t1 m_t3 m_t4 m_t5 m_t6]. rewrite F1, F2, F3, F4, <- !app_assoc.
    do 4 f_equal. destruct has; [destruct b as [|b1 [|b2 [|b3 [|]]]]; try discriminate; reflexivity|].
    destruct b; [reflexivity|discriminate].
Qed.

Lemma draw_blocks W c0 m rest : masks_ok m ->
  draw (with_tape W c0 (blocks m ++ rest)) c0 (c0 + 3 + n1 + n1) n1 n = m.
Proof.
  intros [[L R] Hz]. set (T := blocks m ++ rest). set (WT := with_tape W c0 T).
  set (a := [m_i1 m; m_o1 m; m_b1 m]). set (l1 := firstn n1 (m_sL m)). set (r1 := firstn n1 (m_sR m)).
  set (b := if has then [m_i2 m; m_o2 m; m_b2 m] else []). set (l2 := skipn n1 (m_sL m)). set (r2 := skipn n1 (m_sR m)).
  set (t := [m_t1 m; m_t3 m; m_t4 m; m_t5 m; m_t6 m]).
  assert (ET : T = a ++ l1 ++ r1 ++ b ++ l2 ++ r2 ++ t ++ rest) by (unfold T, blocks; rewrite <- !app_assoc; reflexivity).
  assert (Ll1 : length l1 = n1) by (unfold l1; rewrite firstn_length; lia).
  assert (Lr1 : length r1 = n1) by (unfold r1; rewrite firstn_length; lia).
  assert (Ll2 : length l2 = (n - n1)%nat) by (unfold l2; rewrite skipn_length; lia).
  assert (Lr2 : length r2 = (n - n1)%nat) by (unfold r2; rewrite skipn_length; lia).
  set (c1 := (c0 + 3 + n1 + n1)%nat). set (c2 := if has then (c1 + 3)%nat else c1).
  assert (Lb : (c1 + length b = c2)%nat) by (unfold b, c2; destruct has; cbn; lia).
  assert (B0 : randoms WT c0 3 = a).
  { pose proof (with_tape_block W c0 [] a (l1 ++ r1 ++ b ++ l2 ++ r2 ++ t ++ rest) 0 eq_refl) as E.
    cbn [app] in E. rewrite <- ET in E. rewrite Nat.add_0_r in E. exact E. }
  assert (B1 : randoms WT (c0 + 3) n1 = l1).
  { pose proof (with_tape_block W c0 a l1 (r1 ++ b ++ l2 ++ r2 ++ t ++ rest) 3 eq_refl) as E. rewrite <- ET, Ll1 in E. exact E. }
  assert (B2 : randoms WT (c0 + 3 + n1) n1 = r1).
  { pose proof (with_tape_block W c0 (a ++ l1) r1 (b ++ l2 ++ r2 ++ t ++ rest) (3 + n1)) as E. rewrite <- !app_assoc in E.
    rewrite <- ET, Lr1 in E. rewrite <- Nat.add_assoc. apply E. rewrite app_length, Ll1. reflexivity. }
  assert (B3 : randoms WT c1 (length b) = b).
  { pose proof (with_tape_block W c0 (a ++ l1 ++ r1) b (l2 ++ r2 ++ t ++ rest) (3 + n1 + n1)) as E. rewrite <- !app_assoc in E.
    rewrite <- ET in E. replace c1 with (c0 + (3 + n1 + n1))%nat by (unfold c1; lia). apply E.
    rewrite !app_length, Ll1, Lr1. cbn. lia. }
  assert (B4 : randoms WT c2 (n - n1) = l2).
  { pose proof (with_tape_block W c0 (a ++ l1 ++ r1 ++ b) l2 (r2 ++ t ++ rest) (3 + n1 + n1 + length b)) as E. rewrite <- !app_assoc in E.
    rewrite <- ET, Ll2 in E. replace c2 with (c0 + (3 + n1 + n1 + length b))%nat by (unfold c1 in Lb; lia). apply E.
    rewrite !app_length, Ll1, Lr1. cbn [length a]. lia. }
  assert (B5 : randoms WT (c2 + (n - n1)) (n - n1) = r2).
  { pose proof (with_tape_block W c0 (a ++ l1 ++ r1 ++ b ++ l2) r2 (t ++ rest) (3 + n1 + n1 + length b + (n - n1))) as E. rewrite <- !app_assoc in E.
    rewrite <- ET, Lr2 in E. replace (c2 + (n - n1))%nat with (c0 + (3 + n1 + n1 + length b + (n - n1)))%nat by (unfold c1 in Lb; lia). apply E.
    rewrite !app_length, Ll1, Lr1, Ll2. cbn [length a]. lia. }
  assert (B6 : randoms WT (c2 + (n - n1) + (n - n1)) 5 = t).
  { pose proof (with_tape_block W c0 (a ++ l1 ++ r1 ++ b ++ l2 ++ r2) t rest (3 + n1 + n1 + length b + (n - n1) + (n - n1))) as E.
    rewrite <- !app_assoc in E.
    rewrite <- ET in E. replace (c2 + (n - n1) + (n - n1))%nat with (c0 + (3 + n1 + n1 + length b + (n - n1) + (n - n1)))%nat by (unfold c1 in Lb; lia). apply E.
    rewrite !app_length, Ll1, Lr1, Ll2, Lr2. cbn [length a]. lia. }
  apply randoms_block3 in B0 as (A1 & A2 & A3). apply randoms_block5 in B6 as (Q1 & Q2 & Q3 & Q4 & Q5).
  assert (EL : l1 ++ l2 = m_sL m) by apply firstn_skipn. assert (ER : r1 ++ r2 = m_sR m) by apply firstn_skipn.
  unfold draw. fold has. fold c2. rewrite B1, B2, B4, B5, A1, A2, A3, Q1, Q2, Q3, Q4, Q5, EL, ER.
  assert (Eb : (if has then w_random WT c1 else 0) = m_i2 m /\ (if has then w_random WT (c1 + 1) else 0) = m_o2 m /\
               (if has then w_random WT (c1 + 2) else 0) = m_b2 m).
  { unfold b in B3. destruct has; [apply randoms_block3; exact B3|]. destruct (Hz eq_refl) as (-> & -> & ->). auto. }
  destruct Eb as (-> & -> & ->). destruct m. reflexivity.
Qed.
End Tape.

(** *** The second phase *)

(** The second phase of [s], entered with transcript [t], ends in the state [s2]
    (up to the count of random values), whatever random values were drawn before. *)
Definition second_phase (W : world) (s : prover) (t : transcript) (s2 : prover) : Prop :=
  forall random k, prover_create_randomized_constraints (World random (w_order W)) (p_with_nrand k (p_with_transcript t s)) =
    Done (Ok (p_with_nrand k s2)).

Definition moved_state {A} (k : nat) (o : outcome (A * prover)) : outcome (A * prover) :=
  match o with Done (a, s) => Done (a, p_with_nrand k s) | Panic => Panic end.

Lemma multiply_moved k l r s : prover_multiply l r (p_with_nrand k s) = moved_state k (prover_multiply l r s).
Proof.
  unfold prover_multiply. change (prover_eval (p_with_nrand k s)) with (prover_eval s).
  destruct (prover_eval s l); [|reflexivity]. cbn [obind]. destruct (prover_eval s r); reflexivity.
Qed.
Lemma allocate_moved k a s : prover_allocate a (p_with_nrand k s) = moved_state k (prover_allocate a s).
Proof.
  unfold prover_allocate. destruct a as [x|]; [|reflexivity].
  cbn [p_pending p_with_nrand p_with_pending p_aL p_aR p_aO]. destruct (p_pending s) as [i|]; [|reflexivity].
  destruct (set_nth (p_aR s) i x) as [aR|]; [|reflexivity]. cbn [obind]. destruct (index (p_aL s) i) as [l|]; [|reflexivity]. cbn [obind].
  destruct (index aR i) as [r|]; [|reflexivity]. cbn [obind]. destruct (set_nth (p_aO s) i (l * r)); reflexivity.
Qed.
Lemma allocate_single_moved k a s : prover_allocate_single a (p_with_nrand k s) = moved_state k (prover_allocate_single a s).
Proof.
  unfold prover_allocate_single. rewrite allocate_moved. destruct (prover_allocate a s) as [[[[]|] s1]|]; reflexivity.
Qed.

Lemma allocate_deferred a s r s1 : prover_allocate a s = Done (r, s1) -> p_deferred s1 = p_deferred s.
Proof.
  unfold prover_allocate. destruct a as [x|]; [|intros E; injection E as _ <-; reflexivity].
  cbn [p_with_pending p_aL p_aR p_aO]. destruct (p_pending s) as [i|]; [|intros E; injection E as _ <-; reflexivity].
  destruct (set_nth (p_aR s) i x) as [aR|]; [|discriminate]. cbn [obind]. destruct (index (p_aL s) i) as [l|]; [|discriminate]. cbn [obind].
  destruct (index aR i) as [r0|]; [|discriminate]. cbn [obind]. destruct (set_nth (p_aO s) i (l * r0)); [|discriminate].
  intros E; injection E as _ <-; reflexivity.
Qed.

Lemma no_random_run W W' k {A} (m : pprog A) : w_order W' = w_order W -> no_random m -> forall ph s,
  prun W' ph m (p_with_nrand k s) = moved_state k (prun W ph m s).
Proof.
  intros EW. induction m as [A a|A|A l r kk IH|A a kk IH|A a kk IH|A l kk IH|A c IHc kk IH|A l kk IH|A a kk IH|A l kk IH|A [v b] kk IH|A l kk IH|A kk IH];
    intros Hq ph s; cbn [no_random] in Hq; cbn [prun].
  - reflexivity.
  - reflexivity.
  - rewrite multiply_moved. destruct (prover_multiply l r s) as [[a s1]|]; [|reflexivity]. cbn [moved_state obind]. apply IH, Hq.
  - rewrite allocate_moved. destruct (prover_allocate a s) as [[r s1]|]; [|reflexivity]. cbn [moved_state obind]. apply IH, Hq.
  - destruct a as [[l r]|]; [apply (IH _ (Hq _) ph (snd (prover_allocate_vars l r (l * r) s)))|apply (IH _ (Hq _) ph s)].
  - apply (IH tt (Hq tt) ph (prover_constrain l s)).
  - destruct ph.
    + rewrite IHc by apply Hq. destruct (prun W true c s) as [[a s1]|]; [|reflexivity]. cbn [moved_state obind]. apply IH, Hq.
    + apply (IH (Ok tt) (proj2 Hq (Ok tt)) false (p_with_deferred (p_deferred s ++ [c]) s)).
  - replace (prover_eval (p_with_nrand k s) l) with (prover_eval s l) by reflexivity.
    destruct (prover_eval s l); [|reflexivity]. cbn [obind]. apply IH, Hq.
  - rewrite allocate_single_moved. destruct (prover_allocate_single a s) as [[r s1]|]; [|reflexivity]. cbn [moved_state obind]. apply IH, Hq.
  - destruct ph; [|reflexivity]. cbn [p_transcript p_with_nrand]. destruct (challenge_scalar l (p_transcript s)) as [c t].
    apply (IH c (Hq c) true (p_with_transcript t s)).
  - destruct ph; [reflexivity|]. apply (IH (fst (prover_commit v b s)) (Hq _) false (snd (prover_commit v b s))).
  - rewrite EW. cbn [p_norder p_with_nrand]. apply (IH (permute (w_order W (p_norder s)) l) (Hq _) ph (p_with_norder (S (p_norder s)) s)).
  - contradiction.
Qed.

Lemma no_random_callbacks W W' k cbs : w_order W' = w_order W -> Forall no_random cbs -> forall s s2,
  prover_run_callbacks W cbs s = Done (Ok s2) -> prover_run_callbacks W' cbs (p_with_nrand k s) = Done (Ok (p_with_nrand k s2)).
Proof.
  intros EW. induction cbs as [|cb cbs IH]; intros Hq s s2; cbn [prover_run_callbacks]; [intros E; injection E as ->; reflexivity|].
  inversion Hq as [|? ? Hc Hcs]; subst. rewrite (no_random_run W W' k cb EW Hc true s).
  destruct (prun W true cb s) as [[r s1]|]; [|discriminate]. cbn [moved_state obind]. destruct r; [|discriminate]. apply IH. exact Hcs.
Qed.

Lemma second_phase_of W s t s2 : Forall no_random (p_deferred s) ->
  prover_create_randomized_constraints W (p_with_transcript t s) = Done (Ok s2) -> second_phase W s t s2.
Proof.
  intros Hq E random k. unfold prover_create_randomized_constraints in *.
  cbn [p_deferred p_with_pending p_with_nrand p_with_transcript] in *.
  destruct (p_deferred s) as [|cb cbs] eqn:Ed; [injection E as <-; reflexivity|].
  eapply (no_random_callbacks W (World random (w_order W)) k (cb :: cbs) eq_refl Hq) in E. exact E.
Qed.


(** *** A proof and the values drawn for it *)
Lemma core_points g h G H n1 n wf t0 w m pf tp : core g h G H n1 n wf t0 w m = Done (Ok (pf, tp)) ->
  A_I1 pf = first_point h G H n1 (wit_aL w) (wit_aR w) (m_i1 m) /\ A_O1 pf = first_point_o h G n1 (wit_aO w) (m_o1 m) /\
  S1 pf = first_point h G H n1 (m_sL m) (m_sR m) (m_b1 m).
Proof.
  unfold core, finish. destruct (c_TT _ _ _ _ _ _ _ _) as [[[[T1 T3] T4] T5] T6].
  destruct (create_ipp _ _ _ _ _ _ _ _) as [[ipp t']|]; [|discriminate]. cbn [obind]. intros E. injection E as <- _.
  repeat split.
Qed.

Lemma hp_transcript W s s2 G H m pf c1 :
  let n1 := length (p_aL s) in
  firstn n1 (p_aL s2) = p_aL s -> firstn n1 (p_aR s2) = p_aR s -> firstn n1 (p_aO s2) = p_aO s ->
  m = draw W (p_nrand s) c1 n1 (length (p_aL s2)) ->
  A_I1 pf = first_point (p_h s) G H n1 (p_aL s2) (p_aR s2) (m_i1 m) -> A_O1 pf = first_point_o (p_h s) G n1 (p_aO s2) (m_o1 m) ->
  S1 pf = first_point (p_h s) G H n1 (m_sL m) (m_sR m) (m_b1 m) ->
  first_phase_transcript pf (length (p_v s)) (p_transcript s) = p_transcript (hp_state1 W s G H).
Proof.
  intros n1 EL ER EO Em E1 E2 E3. unfold first_phase_transcript, hp_state1. cbn [p_with_transcript p_transcript].
  rewrite E1, E2, E3. unfold first_point, first_point_o, hp_AI1, hp_AO1, hp_S1. fold n1. rewrite EL, ER, EO, Em.
  cbn [draw m_i1 m_o1 m_b1 m_sL m_sR].
  destruct (app_split (randoms W (p_nrand s + 3) n1)
     (randoms W (if Nat.ltb 0 (length (p_aL s2) - n1) then (c1 + 3)%nat else c1) (length (p_aL s2) - n1)) n1 (randoms_length _ _ _)) as [-> _].
  destruct (app_split (randoms W (p_nrand s + 3 + n1) n1)
     (randoms W ((if Nat.ltb 0 (length (p_aL s2) - n1) then (c1 + 3)%nat else c1) + (length (p_aL s2) - n1)) (length (p_aL s2) - n1)) n1
     (randoms_length _ _ _)) as [-> _].
  reflexivity.
Qed.

Lemma second_phase_facts W s t s2 : pwf s -> second_phase W s t s2 ->
  pwf s2 /\ p_g s2 = p_g s /\ p_h s2 = p_h s /\ p_v s2 = p_v s /\ p_v_blinding s2 = p_v_blinding s /\
  (length (p_aL s) <= length (p_aL s2))%nat /\ firstn (length (p_aL s)) (p_aL s2) = p_aL s /\
  firstn (length (p_aL s)) (p_aR s2) = p_aR s /\ firstn (length (p_aL s)) (p_aO s2) = p_aO s.
Proof.
  intros Hwf H. specialize (H (fun _ => 0) O).
  assert (Hwf1 : pwf (p_with_nrand 0 (p_with_transcript t s))) by (eapply pwf_same_wires; [..|exact Hwf]; reflexivity).
  destruct (prover_second_phase_ext _ _ _ Hwf1 H) as (H1 & H2 & H3 & H4 & H5 & H6 & H7 & H8 & H9 & _).
  split; [eapply pwf_same_wires; [..|exact H1]; reflexivity|]. repeat split; assumption.
Qed.

Lemma state1_form W s G H :
  hp_state1 W s G H = p_with_nrand (p_nrand s + 3 + length (p_aL s) + length (p_aL s)) (p_with_transcript (p_transcript (hp_state1 W s G H)) s).
Proof. reflexivity. Qed.

Lemma yields_core W s G H s2 pf tp m rest :
  let n1 := length (p_aL s) in
  let n := length (p_aL s2) in
  pwf s -> second_phase W s (first_phase_transcript pf (length (p_v s)) (p_transcript s)) s2 ->
  (next_power_of_two n <= length G)%nat -> (next_power_of_two n <= length H)%nat ->
  Forall (lc_in_range n (length (p_v s2))) (p_constraints s2) ->
  masks_ok n1 n m ->
  (yields W s G H pf tp (blocks n1 n m ++ rest) <->
   core (p_g s) (p_h s) G H n1 n (weight (p_constraints s2)) (p_transcript s2) (wit_of s2) m = Done (Ok (pf, tp))).
Proof.
  intros n1 n Hwf H2 HG HH Hr Hm. unfold yields. set (WT := with_tape W (p_nrand s) (blocks n1 n m ++ rest)).
  set (k1 := (p_nrand s + 3 + n1 + n1)%nat).
  destruct (second_phase_facts _ _ _ _ Hwf H2) as (Hwf2 & Eg & Eh & Ev & Evb & Hle & EaL & EaR & EaO). fold n1 in Hle, EaL, EaR, EaO. fold n in Hle.
  assert (Ed : draw WT (p_nrand s) k1 n1 n = m) by (apply draw_blocks; assumption).
  assert (Hkey : first_phase_transcript pf (length (p_v s)) (p_transcript s) = p_transcript (hp_state1 WT s G H) ->
    prove WT s G H = core (p_g s) (p_h s) G H n1 n (weight (p_constraints s2)) (p_transcript s2) (wit_of s2) m).
  { intros Et. rewrite <- Ed.
    apply (prove_core WT s G H (p_with_nrand k1 s2)); try assumption. rewrite state1_form, <- Et. apply H2. }
  split; intros E.
  - assert (E0 := E). apply (prove_inv _ _ _ _ _ Hwf) in E0 as (s2a & E2 & HGa & HHa & Hra).
    assert (Hwf1 : pwf (hp_state1 WT s G H)) by (eapply pwf_same_wires; [..|exact Hwf]; reflexivity).
    destruct (prover_second_phase_ext _ _ _ Hwf1 E2) as (_ & _ & _ & _ & _ & _ & FL & FR & FO & _).
    rewrite <- Hkey; [exact E|].
    assert (E1 := E). rewrite (prove_core WT s G H s2a Hwf E2 HGa HHa Hra) in E1. apply core_points in E1 as (Q1 & Q2 & Q3).
    eapply (hp_transcript WT s s2a); [exact FL|exact FR|exact FO|reflexivity|exact Q1|exact Q2|exact Q3].
  - rewrite Hkey; [exact E|]. apply core_points in E as (Q1 & Q2 & Q3).
    eapply (hp_transcript WT s s2); [exact EaL|exact EaR|exact EaO|symmetry; exact Ed|exact Q1|exact Q2|exact Q3].
Qed.

(** *** What the commitments fix *)
Lemma mul_h_inj h (a b : F) : h <> g1_id -> g1_mul a h = g1_mul b h -> a = b.
Proof.
  intros Hh E. destruct (Fp_eq_dec _ a b) as [|Hne]; [assumption|exfalso]. apply Hh.
  assert (Hd : a - b <> 0) by (intros Hz; apply Hne, F_sub_zero; exact Hz).
  assert (E0 : g1_mul (a - b) h = g1_id).
  { replace (a - b) with (a + - b) by ring. rewrite g1_mul_add_l, E, <- g1_mul_add_l. replace (b + - b) with (0 : F) by ring. apply g1_mul_zero. }
  transitivity (g1_mul (finv (a - b)) (g1_mul (a - b) h)).
  - rewrite g1_mul_mul. replace (finv (a - b) * (a - b)) with (1 : F) by (field; exact Hd). symmetry. apply g1_mul_one.
  - rewrite E0. apply g1_mul_id.
Qed.

Lemma openings h gam (v : list F) : forall vb v' vb', h <> g1_id -> length vb = length v -> length vb' = length v' ->
  zipw (commit (g1_mul gam h) h) v vb = zipw (commit (g1_mul gam h) h) v' vb' ->
  length v = length v' /\ forall j, nth j v 0 * gam + nth j vb 0 = nth j v' 0 * gam + nth j vb' 0.
Proof.
  induction v as [|a v IH]; intros [|b vb] [|a' v'] [|b' vb'] Hh L L' E; try discriminate; [auto|].
  cbn [zipw] in E. injection E as E1 E2. destruct (IH vb v' vb' Hh) as [Hl Hj]; [cbn in L; lia|cbn in L'; lia|exact E2|].
  split; [cbn; lia|]. intros [|j]; [|apply Hj]. cbn [nth]. apply (mul_h_inj h); [exact Hh|].
  unfold commit in E1. rewrite !g1_mul_mul, <- !g1_mul_add_l in E1. exact E1.
Qed.

Lemma list_as_tab (l : list F) : l = tab (length l) (fun i => nth i l 0).
Proof.
  apply nth_ext with (d := 0) (d' := 0); [rewrite tab_length; reflexivity|]. intros i Hi. rewrite tab_nth by exact Hi. reflexivity.
Qed.

Lemma second_value gam n y z cs v vb aL aR aO m : y <> 0 -> length vb = length v ->
  satisfies (assignment_of v aL aR aO) n cs -> Forall (lc_in_range n (length v)) cs ->
  t2 (c_poly n (weight cs) (Wit aL aR aO vb) m y z) * gam + c_t2b (weight cs) (Wit aL aR aO vb) z =
  (delta n cs y z - weight cs z VOne) * gam - sum_n (length v) (fun j => weight cs z (VCommitted j) * (nth j v 0 * gam + nth j vb 0)).
Proof.
  intros Hy L [Hg Hc] Hr.
  pose proof (flatten_zsum (assignment_of v aL aR aO) n (length v) cs z Hr) as Ez. rewrite zsum_satisfied in Ez by exact Hc.
  cbn [assignment_of as_left as_right as_out as_committed] in Ez. fold (sum_n n (fun j => weight cs z (VLeft j) * nth j aL 0)) in Ez.
  fold (sum_n n (fun j => weight cs z (VRight j) * nth j aR 0)) in Ez. fold (sum_n n (fun j => weight cs z (VOut j) * nth j aO 0)) in Ez.
  fold (sum_n (length v) (fun j => weight cs z (VCommitted j) * nth j v 0)) in Ez.
  assert (Eb : c_t2b (weight cs) (Wit aL aR aO vb) z = - sum_n (length v) (fun j => weight cs z (VCommitted j) * nth j vb 0)).
  { unfold c_t2b. cbn [wit_vb]. rewrite (list_as_tab vb) at 2. rewrite ProveProofs.ip_tab, L.
    transitivity (- (1) * sum_n (length v) (fun j => weight cs z (VCommitted j) * nth j vb 0)); [|ring].
    rewrite <- sum_n_scale. apply sum_n_ext. intros i _. ring. }
  assert (Et : t2 (c_poly n (weight cs) (Wit aL aR aO vb) m y z) =
    delta n cs y z - weight cs z VOne - sum_n (length v) (fun j => weight cs z (VCommitted j) * nth j v 0)).
  { unfold c_poly, c_l1, c_r1, c_r0. cbn [t2 wit_aL wit_aR wit_aO].
    rewrite (gate_sum n y (fun i => nth i aL 0) (fun i => nth i aR 0) (fun i => nth i aO 0) (fun i => weight cs z (VLeft i))
       (fun i => weight cs z (VRight i)) (fun i => weight cs z (VOut i)) Hy Hg).
    fold (delta n cs y z). apply F_sub_zero. etransitivity; [|exact Ez]. ring. }
  assert (Es : sum_n (length v) (fun j => weight cs z (VCommitted j) * (nth j v 0 * gam + nth j vb 0)) =
    gam * sum_n (length v) (fun j => weight cs z (VCommitted j) * nth j v 0) + sum_n (length v) (fun j => weight cs z (VCommitted j) * nth j vb 0)).
  { rewrite <- sum_n_scale, <- sum_n_add. apply sum_n_ext. intros i _. ring. }
  rewrite Eb, Et, Es. ring.
Qed.

Lemma second_coefficient h gam n (cs cs' : list lc) v vb aL aR aO v' vb' aL' aR' aO' y z :
  h <> g1_id -> y <> 0 ->
  (forall x, weight cs' z x = weight cs z x) ->
  length vb = length v -> length vb' = length v' ->
  zipw (commit (g1_mul gam h) h) v vb = zipw (commit (g1_mul gam h) h) v' vb' ->
  satisfies (assignment_of v aL aR aO) n cs -> satisfies (assignment_of v' aL' aR' aO') n cs' ->
  Forall (lc_in_range n (length v)) cs -> Forall (lc_in_range n (length v')) cs' ->
  second_coefficient_kept gam n (weight cs) (weight cs') (Wit aL aR aO vb) (Wit aL' aR' aO' vb') y z.
Proof.
  intros Hh Hy Hw L L' EV Hs Hs' Hr Hr' m m'.
  destruct (openings _ _ _ _ _ _ Hh L L' EV) as [Lv Hj].
  rewrite (second_value gam n y z cs v vb aL aR aO m), (second_value gam n y z cs' v' vb' aL' aR' aO' m') by assumption. unfold delta. rewrite <- Lv. f_equal.
  - rewrite Hw. do 2 f_equal. apply sum_n_ext. intros i _. rewrite !Hw. reflexivity.
  - apply sum_n_ext. intros i _. rewrite Hw, Hj. reflexivity.
Qed.

(** *** The two provers *)
Lemma all_logs h (l : list G1) : (forall X, exists a, X = g1_mul a h) -> exists a, l = pts h a.
Proof.
  intros Hh. induction l as [|X l [a ->]]; [exists []; reflexivity|]. destruct (Hh X) as [b ->]. exists (b :: a). reflexivity.
Qed.

Lemma blocks_app_inj n1 n m1 m2 r1 r2 : (n1 <= n)%nat -> masks_ok n1 n m1 -> masks_ok n1 n m2 ->
  blocks n1 n m1 ++ r1 = blocks n1 n m2 ++ r2 -> m1 = m2 /\ r1 = r2.
Proof.
  intros Hn H1 H2 E. set (W := World (fun _ : nat => (0 : F)) (fun _ => [])).
  assert (Em : m1 = m2) by (rewrite <- (draw_blocks n1 n Hn W O m1 r1 H1), <- (draw_blocks n1 n Hn W O m2 r2 H2), E; reflexivity).
  split; [exact Em|]. subst m2. eapply app_inv_head. exact E.
Qed.

Lemma shift_ok gam Gs Hs n1 n wf wf' w w' y z x m : masks_ok n1 n m -> masks_ok n1 n (shift gam Gs Hs n1 n wf wf' w w' y z x m).
Proof.
  intros [Hm Hz]. split; [apply shift_sized|]. intros Hh. destruct (Hz Hh) as (E1 & E2 & E3).
  cbn [shift shift_points m_i2 m_o2 m_b2]. apply Nat.ltb_ge in Hh. unfold hi. replace (n - n1)%nat with O by lia.
  rewrite E1, E2, E3. unfold sum_n. cbn [seq map fsum fold_right]. repeat split; ring.
Qed.

Record related (s s' s2 s2' : prover) : Prop := {
  rel_g : p_g s' = p_g s; rel_h : p_h s' = p_h s;
  rel_t : p_transcript s' = p_transcript s; rel_t2 : p_transcript s2' = p_transcript s2;
  rel_m : length (p_v s') = length (p_v s);
  rel_V : zipw (commit (p_g s) (p_h s)) (p_v s) (p_v_blinding s) = zipw (commit (p_g s) (p_h s)) (p_v s') (p_v_blinding s');
  rel_n1 : length (p_aL s') = length (p_aL s); rel_n : length (p_aL s2') = length (p_aL s2);
  rel_w : forall z x, weight (p_constraints s2') z x = weight (p_constraints s2) z x
}.

Section Move.
Context (W W' : world) (s s' s2 s2' : prover) (G H : list G1) (pf : r1cs_proof) (tp : transcript) (k : nat).
Let n1 := length (p_aL s).
Let n := length (p_aL s2).
Context (Hwf : pwf s) (Hwf' : pwf s') (Hgen : generates (p_h s)) (Hrel : related s s' s2 s2').
Context (H2 : second_phase W s (first_phase_transcript pf (length (p_v s)) (p_transcript s)) s2).
Context (H2' : second_phase W' s' (first_phase_transcript pf (length (p_v s)) (p_transcript s)) s2').
Context (Hsat : satisfies (prover_assignment s2) n (p_constraints s2)) (Hsat' : satisfies (prover_assignment s2') n (p_constraints s2')).
Context (Hr : Forall (lc_in_range n (length (p_v s2))) (p_constraints s2)) (Hr' : Forall (lc_in_range n (length (p_v s2'))) (p_constraints s2')).
Context (HG : (next_power_of_two n <= length G)%nat) (HH : (next_power_of_two n <= length H)%nat).
Context (Hy : c_y (protocol_challenges (p_transcript s2) pf) <> 0).
Context (Hk : (11 + 2 * n <= k)%nat).

Lemma move : exists f : list F -> list F,
  (forall a, length a = k -> yields W s G H pf tp a -> length (f a) = k /\ yields W' s' G H pf tp (f a)) /\
  (forall a b, length a = k -> length b = k -> f a = f b -> a = b).
Proof.
  destruct Hgen as [Hh Hall]. destruct Hrel as [Rg Rh Rt Rt2 Rm RV Rn1 Rn Rw].
  destruct (Hall (p_g s)) as [gam Eg]. destruct (all_logs _ G Hall) as [Gs EG]. destruct (all_logs _ H Hall) as [Hs EH].
  destruct (second_phase_facts _ _ _ _ Hwf H2) as (Hwf2 & Eg2 & Eh2 & Ev & Evb & Hle & _). fold n1 n in Hle.
  destruct (second_phase_facts _ _ _ _ Hwf' H2') as (Hwf2' & Eg2' & Eh2' & Ev' & Evb' & Hle' & _).
  set (c := protocol_challenges (p_transcript s2) pf) in *.
  set (sh := shift gam Gs Hs n1 n (weight (p_constraints s2)) (weight (p_constraints s2')) (wit_of s2) (wit_of s2') (c_y c) (c_z c) (c_x c)).
  set (D := drawn n1 n).
  assert (HD : (D <= k)%nat) by (unfold D, drawn; destruct (Nat.ltb 0 (n - n1)); lia).
  set (mk := fun a => draw (with_tape W (p_nrand s) a) (p_nrand s) (p_nrand s + 3 + n1 + n1) n1 n).
  assert (Hpar : forall a, length a = k -> masks_ok n1 n (mk a) /\ a = blocks n1 n (mk a) ++ skipn D a).
  { intros a La. destruct (tape_blocks n1 n Hle a) as (m & rest & Hm & Ea); [fold D; lia|].
    assert (Em : mk a = m) by (unfold mk; rewrite Ea; apply draw_blocks; assumption).
    rewrite Em. split; [exact Hm|]. rewrite Ea at 1. f_equal. rewrite Ea. unfold D. rewrite <- (blocks_length n1 n Hle m Hm).
    symmetry. rewrite skipn_app, skipn_all, Nat.sub_diag. reflexivity. }
  assert (Hlen : forall m rest, masks_ok n1 n m -> length (blocks n1 n m ++ rest) = (D + length rest)%nat)
    by (intros m rest Hm; rewrite app_length, (blocks_length n1 n Hle m Hm); reflexivity).
  assert (Sz : wit_sized n (wit_of s2)) by (constructor; cbn [wit_of wit_aL wit_aR wit_aO]; [reflexivity|apply (pwf_aR _ Hwf2)|apply (pwf_aO _ Hwf2)]).
  assert (Sz' : wit_sized n (wit_of s2')).
  { constructor; cbn [wit_of wit_aL wit_aR wit_aO]; [exact Rn|rewrite (pwf_aR _ Hwf2'); exact Rn|rewrite (pwf_aO _ Hwf2'); exact Rn]. }
  exists (fun a => blocks n1 n (sh (mk a)) ++ skipn D a). split.
  - intros a La Ya. destruct (Hpar a La) as [Hm Ea]. split.
    { rewrite Hlen by (apply shift_ok; exact Hm). rewrite skipn_length, La. lia. }
    assert (L1 : length (p_aL s') = n1) by exact Rn1. assert (L2 : length (p_aL s2') = n) by exact Rn.
    assert (Hg := yields_core W' s' G H s2' pf tp (sh (mk a)) (skipn D a)). cbv zeta in Hg. rewrite L1, L2, Rm, Rt, Rg, Rh, Rt2 in Hg.
    apply Hg; clear Hg; try assumption; [apply shift_ok; exact Hm|].
    rewrite Ea in Ya. apply (yields_core W s G H s2 pf tp (mk a) (skipn D a)) in Ya; try assumption.
    fold n1 n in Ya. rewrite Eg, EG, EH in *. unfold sh.
    assert (Hn0 : (n <= next_power_of_two n)%nat) by apply next_power_of_two_ge.
    unfold pts in HG, HH. rewrite map_length in HG, HH.
    eapply core_shift; try eassumption; try reflexivity; try lia; [destruct Hm as [Hm _]; exact Hm|].
    apply second_coefficient with (h := p_h s) (v := p_v s2) (v' := p_v s2'); try assumption.
    + intros x. apply Rw.
    + apply (pwf_vb _ Hwf2).
    + apply (pwf_vb _ Hwf2').
    + rewrite Ev, Evb, Ev', Evb'. exact RV.
  - intros a b La Lb E. destruct (Hpar a La) as [Hma Ea]. destruct (Hpar b Lb) as [Hmb Eb].
    apply blocks_app_inj in E as [E1 E2]; try assumption; try (apply shift_ok; assumption).
    apply shift_injective in E1; [|apply Hma|apply Hmb]. rewrite Ea, Eb, E1, E2. reflexivity.
Qed.
End Move.

Lemma related_sym s s' s2 s2' : related s s' s2 s2' -> related s' s s2' s2.
Proof.
  intros [Rg Rh Rt Rt2 Rm RV Rn1 Rn Rw]. constructor; try (symmetry; assumption).
  - rewrite Rg, Rh. symmetry. exact RV.
  - intros z x. symmetry. apply Rw.
Qed.

Lemma same_count W W' s s' s2 s2' G H pf tp k m :
  let n := length (p_aL s2) in
  pwf s -> pwf s' -> generates (p_h s) -> related s s' s2 s2' ->
  second_phase W s (first_phase_transcript pf (length (p_v s)) (p_transcript s)) s2 ->
  second_phase W' s' (first_phase_transcript pf (length (p_v s)) (p_transcript s)) s2' ->
  satisfies (prover_assignment s2) n (p_constraints s2) -> satisfies (prover_assignment s2') n (p_constraints s2') ->
  Forall (lc_in_range n (length (p_v s2))) (p_constraints s2) -> Forall (lc_in_range n (length (p_v s2'))) (p_constraints s2') ->
  (next_power_of_two n <= length G)%nat -> (next_power_of_two n <= length H)%nat ->
  c_y (protocol_challenges (p_transcript s2) pf) <> 0 -> (11 + 2 * n <= k)%nat ->
  number_of k (yields W s G H pf tp) m <-> number_of k (yields W' s' G H pf tp) m.
Proof.
  intros n Hwf Hwf' Hgen Hrel H2 H2' Hs Hs' Hr Hr' HG HH Hy Hk.
  assert (Rn := rel_n _ _ _ _ Hrel).
  destruct (move W W' s s' s2 s2' G H pf tp k Hwf Hwf' Hgen Hrel H2 H2' Hs Hs' Hr Hr' HG HH Hy Hk) as (f & Hf & Hi).
  destruct (move W' W s' s s2' s2 G H pf tp k) as (f' & Hf' & Hi');
    rewrite ?Rn, ?(rel_m _ _ _ _ Hrel), ?(rel_t _ _ _ _ Hrel), ?(rel_h _ _ _ _ Hrel), ?(rel_t2 _ _ _ _ Hrel); try assumption.
  { apply related_sym. exact Hrel. }
  split; eapply number_transfer; eauto.
Qed.

(** *** The count exists *)
Lemma g1_eq_dec (a b : G1) : {a = b} + {a <> b}.
Proof. destruct (g1_eqb a b) eqn:E; [left; apply g1_eqb_spec; exact E|right; apply g1_eqb_neq; exact E]. Qed.
Lemma tevent_eq_dec (a b : tevent) : {a = b} + {a <> b}.
Proof. decide equality; try apply string_dec; try apply Nat.eq_dec; try (apply list_eq_dec; apply Z.eq_dec); try apply Z.eq_dec. Qed.
Lemma ipp_eq_dec (a b : ipp_proof) : {a = b} + {a <> b}.
Proof. decide equality; try apply Fp_eq_dec; apply list_eq_dec; apply g1_eq_dec. Qed.
Lemma proof_eq_dec (a b : r1cs_proof) : {a = b} + {a <> b}.
Proof. decide equality; try apply Fp_eq_dec; try apply g1_eq_dec. apply ipp_eq_dec. Qed.
Lemma yields_dec W s G H pf tp tape : {yields W s G H pf tp tape} + {~ yields W s G H pf tp tape}.
Proof.
  unfold yields. destruct (prove _ s G H) as [[[pf' tp']|e]|]; try (right; discriminate).
  destruct (proof_eq_dec pf' pf) as [->|Hn]; [|right; congruence].
  destruct (list_eq_dec tevent_eq_dec tp' tp) as [->|Hn]; [left; reflexivity|right; congruence].
Qed.

Lemma count_exists W s G H pf tp k : exists m, number_of k (yields W s G H pf tp) m.
Proof.
  set (all := nodup vec_eq_dec (vectors k)).
  set (l := filter (fun t => if yields_dec W s G H pf tp t then true else false) all).
  exists (length l), l. split; [apply NoDup_filter, NoDup_nodup|]. split; [reflexivity|].
  intros tape. unfold l, all. rewrite filter_In, nodup_In, in_vectors.
  destruct (yields_dec W s G H pf tp tape); split; intros [? ?]; split; try assumption; try reflexivity; try discriminate; contradiction.
Qed.

Lemma count_unique k (Q : list F -> Prop) m m' : number_of k Q m -> number_of k Q m' -> m = m'.
Proof.
  intros (l & D & L & I) (l' & D' & L' & I'). subst m m'. apply Nat.le_antisymm; apply NoDup_incl_length; try assumption; intros a Ha; [apply I', I|apply I, I']; exact Ha.
Qed.

(** *** Two programs for one verifier *)
Lemma prover_keys W g h t {A} (m : pprog A) a s : prun W false m (prover_new g h t) = Done (a, s) -> p_g s = g /\ p_h s = h.
Proof.
  intros E. destruct (prun_pext _ _ _ _ _ _ (pwf_new g h t) E) as [Eg Eh]. auto.
Qed.

Lemma programs_related W W' (Wv : world) g h t {A A' B} (R : A -> B -> Prop) (R' : A' -> B -> Prop) pp pp' vp a s a' s' t1 s2 s2' :
  sim g h R pp vp -> sim g h R' pp' vp ->
  prun W false pp (prover_new g h t) = Done (a, s) -> prun W' false pp' (prover_new g h t) = Done (a', s') ->
  second_phase W s t1 s2 -> second_phase W' s' t1 s2' ->
  related s s' s2 s2' /\ length (p_v s2') = length (p_v s2) /\
  (forall n m, Forall (lc_in_range n m) (p_constraints s2) -> Forall (lc_in_range n m) (p_constraints s2')).
Proof.
  intros Hs Hs' E E' H2 H2'.
  destruct (first_phase_same W Wv g h t R pp vp a s Hs E) as (b & vs & Ev & _ & C & _).
  destruct (first_phase_same W' Wv g h t R' pp' vp a' s' Hs' E') as (b' & vs' & Ev' & _ & C' & _).
  rewrite Ev in Ev'. injection Ev' as <- <-.
  destruct (prover_keys _ _ _ _ _ _ _ E) as [Eg Eh]. destruct (prover_keys _ _ _ _ _ _ _ E') as [Eg' Eh'].
  assert (Hwf : pwf s) by (eapply reachable_pwf; econstructor; exact E).
  assert (Hwf' : pwf s') by (eapply reachable_pwf; econstructor; exact E').
  destruct (second_phase_facts _ _ _ _ Hwf H2) as (_ & _ & _ & Ev2 & _).
  destruct (second_phase_facts _ _ _ _ Hwf' H2') as (_ & _ & _ & Ev2' & _).
  assert (X := H2 (w_random W) O).
  assert (X' := H2' (w_random W') O).
  assert (EW : forall w : world, World (w_random w) (w_order w) = w) by (intros []; reflexivity). rewrite EW in X, X'.
  destruct (second_phase_same W Wv g h t R pp vp a b s vs t1 O _ Hs E Ev X) as (vs2 & Y & C2 & _).
  destruct (second_phase_same W' Wv g h t R' pp' vp a' b s' vs t1 O _ Hs' E' Ev X') as (vs2' & Y' & C2' & _).
  rewrite Y in Y'. injection Y' as <-.
  destruct C as [c1 c2 c3 c4 c5 c6 c7]. destruct C' as [d1 d2 d3 d4 d5 d6 d7].
  destruct C2 as [e1 e2 e3 e4 e5 e6 e7]. destruct C2' as [f1 f2 f3 f4 f5 f6 f7].
  cbn [p_with_nrand p_aL p_constraints p_transcript p_v p_v_blinding] in *.
  split; [|split].
  - constructor; try congruence.
    intros z x. rewrite (weight_equiv _ _ z x f5), (weight_equiv _ _ z x e5). reflexivity.
  - congruence.
  - intros n m Hr. apply (in_range_same_all n m) in e5; [|exact Hr].
    revert e5. apply in_range_same_all. clear -f5. induction f5 as [|l l' u u' [H1 H2] _ IH]; constructor; [|exact IH].
    split; [intros x; symmetry; apply H1|intros x; symmetry; apply H2].
Qed.

Theorem witness_indistinguishable W W' g h t {A A' B} (R : A -> B -> Prop) (R' : A' -> B -> Prop) pp pp' vp a s a' s' s2 s2' G H pf tp k m :
  let n := length (p_aL s2) in
  let t1 := first_phase_transcript pf (length (p_v s)) (p_transcript s) in
  generates h -> sim g h R pp vp -> sim g h R' pp' vp ->
  prun W false pp (prover_new g h t) = Done (a, s) -> prun W' false pp' (prover_new g h t) = Done (a', s') ->
  Forall no_random (p_deferred s) -> Forall no_random (p_deferred s') ->
  prover_create_randomized_constraints W (p_with_transcript t1 s) = Done (Ok s2) ->
  prover_create_randomized_constraints W' (p_with_transcript t1 s') = Done (Ok s2') ->
  Forall (lc_in_range n (length (p_v s))) (p_constraints s2) ->
  satisfies (prover_assignment s2) n (p_constraints s2) -> satisfies (prover_assignment s2') n (p_constraints s2') ->
  (next_power_of_two n <= length G)%nat -> (next_power_of_two n <= length H)%nat ->
  c_y (protocol_challenges (p_transcript s2) pf) <> 0 -> (11 + 2 * n <= k)%nat ->
  (number_of k (yields W s G H pf tp) m <-> number_of k (yields W' s' G H pf tp) m).
Proof.
  intros n t1 Hgen Hs Hs' E E' Hq Hq' H2 H2' Hr Hsat Hsat' HG HH Hy Hk.
  apply (second_phase_of _ _ _ _ Hq) in H2. apply (second_phase_of _ _ _ _ Hq') in H2'.
  assert (Hwf : pwf s) by (eapply reachable_pwf; econstructor; exact E).
  assert (Hwf' : pwf s') by (eapply reachable_pwf; econstructor; exact E').
  destruct (second_phase_facts _ _ _ _ Hwf H2) as (_ & _ & _ & Ev2 & _). rewrite <- Ev2 in Hr.
  destruct (programs_related W W' W g h t R R' pp pp' vp a s a' s' t1 s2 s2' Hs Hs' E E' H2 H2') as (Hrel & Em & Hrr).
  destruct (prover_keys _ _ _ _ _ _ _ E) as [_ Eh].
  apply (same_count W W' s s' s2 s2'); try assumption; [rewrite Eh; exact Hgen|].
  apply Hrr. rewrite Em. exact Hr.
Qed.

Theorem witness_indistinguishable_one_phase W W' g h t {A A' B} (R : A -> B -> Prop) (R' : A' -> B -> Prop) pp pp' vp a s a' s' G H pf tp k m :
  let n := length (p_aL s) in
  let t1 := first_phase_transcript pf (length (p_v s)) (p_transcript s) in
  generates h -> sim g h R pp vp -> sim g h R' pp' vp ->
  prun W false pp (prover_new g h t) = Done (a, s) -> prun W' false pp' (prover_new g h t) = Done (a', s') ->
  p_deferred s = [] ->
  Forall (lc_in_range n (length (p_v s))) (p_constraints s) ->
  satisfies (prover_assignment s) n (p_constraints s) -> satisfies (prover_assignment s') n (p_constraints s') ->
  (next_power_of_two n <= length G)%nat -> (next_power_of_two n <= length H)%nat ->
  c_y (protocol_challenges (r1cs_1phase_domain_sep t1) pf) <> 0 -> (11 + 2 * n <= k)%nat ->
  (number_of k (yields W s G H pf tp) m <-> number_of k (yields W' s' G H pf tp) m).
Proof.
  intros n t1 Hgen Hs Hs' E E' Hd Hr Hsat Hsat' HG HH Hy Hk.
  destruct (first_phase_same W W g h t R pp vp a s Hs E) as (b & vs & Ev & _ & _ & _ & D).
  destruct (first_phase_same W' W g h t R' pp' vp a' s' Hs' E') as (b' & vs' & Ev' & _ & _ & _ & D').
  rewrite Ev in Ev'. injection Ev' as <- <-. rewrite Hd in D.
  assert (Dv : v_deferred vs = []) by (inversion D; reflexivity). rewrite Dv in D'.
  assert (Dp : p_deferred s' = []) by (inversion D'; reflexivity).
  eapply (witness_indistinguishable W W' g h t R R' pp pp' vp a s a' s'
    (p_with_transcript (r1cs_1phase_domain_sep t1) (p_with_pending None s))
    (p_with_transcript (r1cs_1phase_domain_sep t1) (p_with_pending None s'))); try eassumption;
    try (rewrite Hd; constructor); try (rewrite Dp; constructor);
    unfold prover_create_randomized_constraints; cbn [p_deferred p_with_pending p_with_transcript]; rewrite ?Hd, ?Dp; reflexivity.
Qed.

(** *** The tapes that occur *)
Lemma no_random_deferred W {A} (m : pprog A) : no_random m -> forall s a s',
  Forall no_random (p_deferred s) -> prun W false m s = Done (a, s') -> Forall no_random (p_deferred s').
Proof.
  induction m as [A a|A|A l r kk IH|A a kk IH|A a kk IH|A l kk IH|A c IHc kk IH|A l kk IH|A a kk IH|A l kk IH|A [v b] kk IH|A l kk IH|A kk IH];
    intros Hq s x s' Hd; cbn [no_random] in Hq; cbn [prun].
  - intros E. injection E as _ <-. exact Hd.
  - discriminate.
  - unfold prover_multiply. destruct (prover_eval s l); [|discriminate]. cbn [obind]. destruct (prover_eval s r); [|discriminate]. cbn [obind].
    apply IH; [apply Hq|exact Hd].
  - destruct (prover_allocate a s) as [[r s1]|] eqn:E1; [|discriminate]. cbn [obind]. apply IH; [apply Hq|].
    rewrite (allocate_deferred _ _ _ _ E1). exact Hd.
  - destruct a as [[l r]|]; cbn [prover_allocate_multiplier]; [unfold prover_allocate_vars|]; apply IH; try apply Hq; exact Hd.
  - apply IH; [apply Hq|exact Hd].
  - apply IH; [apply Hq|]. cbn [p_deferred p_with_deferred]. apply Forall_app. split; [exact Hd|]. constructor; [apply Hq|constructor].
  - destruct (prover_eval s l); [|discriminate]. cbn [obind]. apply IH; [apply Hq|exact Hd].
  - unfold prover_allocate_single. destruct (prover_allocate a s) as [[r s1]|] eqn:E1; [|discriminate]. cbn [obind].
    assert (Hd1 : Forall no_random (p_deferred s1)) by (rewrite (allocate_deferred _ _ _ _ E1); exact Hd).
    destruct r as [[]|]; cbn [obind]; apply IH; try apply Hq; exact Hd1.
  - discriminate.
  - unfold prover_commit. apply IH; [apply Hq|exact Hd].
  - apply IH; [apply Hq|exact Hd].
  - contradiction.
Qed.

Lemma tape_randoms W c k i : w_random (with_tape W c (randoms W c k)) i = w_random W i.
Proof.
  cbn [with_tape w_random]. unfold randoms at 1. rewrite map_length, seq_length.
  destruct (Nat.leb_spec c i); [|reflexivity]. destruct (Nat.ltb_spec (i - c) k); [|reflexivity]. cbn [andb].
  unfold randoms. rewrite (nth_indep _ 0 (w_random W O)) by (rewrite map_length, seq_length; assumption).
  rewrite map_nth, seq_nth by assumption. f_equal. lia.
Qed.

(** the proof that is output is output with the values that were drawn *)
Theorem drawn_tape_counts W s G H pf tp k : pwf s -> Forall no_random (p_deferred s) ->
  prove W s G H = Done (Ok (pf, tp)) -> yields W s G H pf tp (randoms W (p_nrand s) k).
Proof.
  intros Hwf Hq E. assert (E0 := E). apply (prove_inv _ _ _ _ _ Hwf) in E0 as (s2 & E2 & HG & HH & Hr).
  unfold yields. set (WT := with_tape W (p_nrand s) (randoms W (p_nrand s) k)).
  assert (Ew : forall i, w_random WT i = w_random W i) by (intros i; apply tape_randoms).
  assert (Er : forall c n, randoms WT c n = randoms W c n) by (intros c n; apply map_ext; exact Ew).
  assert (Es : hp_state1 WT s G H = hp_state1 W s G H) by (unfold hp_state1, hp_AI1, hp_AO1, hp_S1; rewrite !Ew, !Er; reflexivity).
  assert (E2' : prover_create_randomized_constraints WT (hp_state1 WT s G H) = Done (Ok s2)).
  { rewrite Es.
    assert (X := second_phase_of W (hp_state1 W s G H) (p_transcript (hp_state1 W s G H)) s2 Hq E2).
    assert (X1 := X (w_random W) (p_nrand (hp_state1 W s G H))). assert (X2 := X (w_random WT) (p_nrand (hp_state1 W s G H))).
    assert (EW : World (w_random W) (w_order W) = W) by (destruct W; reflexivity). rewrite EW in X1.
    change (p_with_nrand (p_nrand (hp_state1 W s G H)) (p_with_transcript (p_transcript (hp_state1 W s G H)) (hp_state1 W s G H)))
      with (hp_state1 W s G H) in X1, X2.
    rewrite E2 in X1. rewrite <- X1 in X2. exact X2. }
  rewrite (prove_core WT s G H s2 Hwf E2' HG HH Hr). rewrite (prove_core W s G H s2 Hwf E2 HG HH Hr) in E. rewrite <- E. f_equal.
  unfold draw. rewrite !Ew, !Er. reflexivity.
Qed.

Lemma output_counted W g h t {A} (pp : pprog A) a s G H pf tp k :
  prun W false pp (prover_new g h t) = Done (a, s) -> Forall no_random (p_deferred s) ->
  prove W s G H = Done (Ok (pf, tp)) -> yields W s G H pf tp (randoms W (p_nrand s) k).
Proof. intros E. apply drawn_tape_counts. eapply reachable_pwf. econstructor. exact E. Qed.

Lemma number_of_tapes W s G H pf tp k : exists! m, number_of k (yields W s G H pf tp) m.
Proof.
  destruct (count_exists W s G H pf tp k) as [m Hm]. exists m. split; [exact Hm|].
  intros m' Hm'. exact (count_unique k _ m m' Hm Hm').
Qed.
End WIMain.
