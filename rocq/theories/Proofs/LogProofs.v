(** What is in a verifier's transcript, and that it can be read back. *)
From Coq Require Import ZArith String List Lia Bool.
From Verif.Base Require Import Outcome Fp Params Algebra.
From Verif.Model Require Import Transcript LinComb Prog VectorPoly IPP Prover Verifier.
From Verif.Spec Require Import R1CS Protocol Log.
From Verif.Proofs Require Import RunProofs ExtProofs VerifyProofs.
Import ListNotations.

Section LogProofs.
Context {P : Params}.

(** the definitions of [Spec.Log] are where the challenges are drawn *)
Lemma challenges_log t pf :
  let c := protocol_challenges t pf in
  c_y c = challenge_value "y" (at_y t pf) /\ c_z c = challenge_value "z" (at_z t pf) /\
  c_u c = challenge_value "u" (at_u t pf) /\ c_x c = challenge_value "x" (at_x t pf) /\
  c_w c = challenge_value "w" (at_w t pf) /\ c_t c = at_w t pf ++ [TChallenge "w" modbytes].
Proof.
  assert (E1 : commit_point "S2" (S2 pf) (commit_point "A_O2" (A_O2 pf) (commit_point "A_I2" (A_I2 pf) t)) = at_y t pf).
  { unfold at_y, commit_point, append_message. rewrite <- !app_assoc. reflexivity. }
  unfold protocol_challenges. rewrite E1. cbn zeta. cbn [c_y c_z c_u c_x c_w c_t].
  assert (E2 : commit_point "T_6" (T_6 pf) (commit_point "T_5" (T_5 pf)
             (commit_point "T_4" (T_4 pf) (commit_point "T_3" (T_3 pf)
             (commit_point "T_1" (T_1 pf) ((at_y t pf ++ [TChallenge "y" modbytes]) ++ [TChallenge "z" modbytes]))))) = at_u t pf).
  { unfold at_u, at_z, commit_point, append_message. rewrite <- !app_assoc. reflexivity. }
  rewrite E2. fold (at_x t pf).
  assert (E3 : commit_scalar "e_blinding" (e_blinding pf) (commit_scalar "t_x_blinding" (t_x_blinding pf)
     (commit_scalar "t_x" (t_x pf) (at_x t pf ++ [TChallenge "x" modbytes]))) = at_w t pf).
  { unfold at_w, commit_scalar, append_message. rewrite <- !app_assoc. reflexivity. }
  rewrite E3. repeat split.
Qed.

Lemma ipp_challenges_log Ls : forall Rs t,
  snd (ipp_challenges Ls Rs t) = t ++ flat_map round_log (combine Ls Rs).
Proof.
  induction Ls as [|L Ls IH]; intros Rs t; [simpl; rewrite app_nil_r; reflexivity|].
  destruct Rs as [|R Rs]; [simpl; rewrite app_nil_r; reflexivity|].
  simpl. specialize (IH Rs (commit_point "R" R (commit_point "L" L t) ++ [TChallenge "u" modbytes])).
  destruct (ipp_challenges Ls Rs _) as [us t']. simpl in *. rewrite IH.
  unfold commit_point, append_message. rewrite <- !app_assoc. reflexivity.
Qed.

Lemma ipp_challenges_value Ls : forall Rs t j L R, nth_error (combine Ls Rs) j = Some (L, R) ->
  nth_error (fst (ipp_challenges Ls Rs t)) j =
  Some (challenge_value "u" (t ++ flat_map round_log (firstn j (combine Ls Rs)) ++ [TMessage "L" (g1_bytes L); TMessage "R" (g1_bytes R)])).
Proof.
  induction Ls as [|L0 Ls IH]; intros Rs t j L R; [destruct j; discriminate|].
  destruct Rs as [|R0 Rs]; [destruct j; discriminate|].
  simpl combine. specialize (IH Rs (commit_point "R" R0 (commit_point "L" L0 t) ++ [TChallenge "u" modbytes])).
  simpl. destruct (ipp_challenges Ls Rs _) as [us t'] eqn:E. cbn [fst] in *.
  destruct j as [|j]; simpl.
  - intros E'. injection E' as <- <-. unfold commit_point, append_message. rewrite <- !app_assoc. reflexivity.
  - intros E'. rewrite (IH j L R E'). unfold commit_point, append_message. rewrite <- !app_assoc. reflexivity.
Qed.

(** *** The events recorded by a run *)
Definition msg_V (V : G1) : tevent := TMessage "V" (g1_bytes V).

Lemma vrun_phase1_log W {A} (m : vprog A) : forall s a s', vrun W false m s = Done (a, s') ->
  exists Vs, v_V s' = v_V s ++ Vs /\ v_transcript s' = v_transcript s ++ map msg_V Vs.
Proof.
  assert (Z : forall s : verifier, exists Vs, v_V s = v_V s ++ Vs /\ v_transcript s = v_transcript s ++ map msg_V Vs).
  { intros s. exists []. simpl. rewrite !app_nil_r. auto. }
  induction m as [| | | | | | ? c IHc k IH | | | | ? x k IH | |]; intros s a0 s'; cbn [vrun].
  - intros E. injection E as <- <-. apply Z.
  - discriminate.
  - unfold verifier_multiply, verifier_allocate_vars. intros E. apply H in E. exact E.
  - unfold verifier_allocate. destruct (v_pending s); intros E; apply H in E; exact E.
  - unfold verifier_allocate_multiplier, verifier_allocate_vars. intros E. apply H in E. exact E.
  - intros E. apply H in E. exact E.
  - intros E. apply IH in E. exact E.
  - intros E. apply H in E. exact E.
  - unfold verifier_allocate_single, verifier_allocate. destruct (v_pending s); intros E; apply H in E; exact E.
  - discriminate.
  - unfold verifier_commit. intros E. apply IH in E. cbn [v_with_V v_with_transcript v_V v_transcript] in E.
    destruct E as (Vs & E1 & E2). exists (x :: Vs). rewrite E1, E2. unfold commit_point, append_message.
    rewrite <- !app_assoc. auto.
  - intros E. apply H in E. exact E.
  - intros E. apply H in E. exact E.
Qed.

Definition chal (l : string) : tevent := TChallenge l modbytes.

Lemma vrun_phase2_log W {A} (m : vprog A) : forall s a s', vrun W true m s = Done (a, s') ->
  exists ls, v_transcript s' = v_transcript s ++ map chal ls.
Proof.
  assert (Z : forall s : verifier, exists ls, v_transcript s = v_transcript s ++ map chal ls).
  { intros s. exists []. simpl. rewrite !app_nil_r. auto. }
  induction m as [| | | | | | ? c IHc k IH | | | | ? x k IH | |]; intros s a0 s'; cbn [vrun].
  - intros E. injection E as <- <-. apply Z.
  - discriminate.
  - unfold verifier_multiply, verifier_allocate_vars. intros E. apply H in E. exact E.
  - unfold verifier_allocate. destruct (v_pending s); intros E; apply H in E; exact E.
  - unfold verifier_allocate_multiplier, verifier_allocate_vars. intros E. apply H in E. exact E.
  - intros E. apply H in E. exact E.
  - destruct (vrun W true c s) as [[r s1]|] eqn:E1; [|discriminate]. cbn [obind]. intros E.
    apply IHc in E1 as (l1 & E1). apply IH in E as (l2 & E). exists (l1 ++ l2).
    rewrite E, E1, map_app, app_assoc. reflexivity.
  - intros E. apply H in E. exact E.
  - unfold verifier_allocate_single, verifier_allocate. destruct (v_pending s); intros E; apply H in E; exact E.
  - unfold challenge_scalar. intros E. apply H in E. destruct E as (ls & E). exists (label :: ls).
    rewrite E. cbn [v_with_transcript v_transcript]. rewrite <- app_assoc. reflexivity.
  - discriminate.
  - intros E. apply H in E. exact E.
  - intros E. apply H in E. exact E.
Qed.

Lemma verifier_callbacks_log W cbs : forall s s', verifier_run_callbacks W cbs s = Done (Ok s') ->
  exists ls, v_transcript s' = v_transcript s ++ map chal ls.
Proof.
  induction cbs as [|cb cbs IH]; intros s s'; simpl.
  - intros E. injection E as <-. exists []. rewrite app_nil_r. reflexivity.
  - destruct (vrun W true cb s) as [[[[]|] s1]|] eqn:E; try discriminate. cbn [obind]. intros E'.
    apply vrun_phase2_log in E as (l1 & E). apply IH in E' as (l2 & E'). exists (l1 ++ l2).
    rewrite E', E, map_app, app_assoc. reflexivity.
Qed.

Definition phase_sep (two : bool) : tevent :=
  TMessage "dom-sep" (bytes_of_string (if two then "r1cs-2phase" else "r1cs-1phase")).

Definition session_log (t0 : transcript) (V : list G1) (pf : r1cs_proof) (two : bool) (labels : list string) : transcript :=
  t0 ++ TMessage "dom-sep" (bytes_of_string "r1cs v1") :: map msg_V V ++
  TMessage "m" (le_bytes 8 (Z.of_nat (length V))) :: TMessage "A_I1" (g1_bytes (A_I1 pf)) ::
  TMessage "A_O1" (g1_bytes (A_O1 pf)) :: TMessage "S1" (g1_bytes (S1 pf)) :: phase_sep two :: map chal labels.

Lemma verifier_session_log W {A} (m : vprog A) t0 a s s2 pf :
  vrun W false m (verifier_new t0) = Done (a, s) ->
  verifier_create_randomized_constraints W
    (v_with_transcript (first_phase_transcript pf (length (v_V s)) (v_transcript s)) s) = Done (Ok s2) ->
  exists two labels, v_transcript s2 = session_log t0 (v_V s) pf two labels.
Proof.
  intros E1 E2. apply vrun_phase1_log in E1 as (Vs & EV & ET). simpl in EV. rewrite EV in *.
  assert (Ef : first_phase_transcript pf (length Vs) (v_transcript s) =
    t0 ++ TMessage "dom-sep" (bytes_of_string "r1cs v1") :: map msg_V Vs ++
    [TMessage "m" (le_bytes 8 (Z.of_nat (length Vs))); TMessage "A_I1" (g1_bytes (A_I1 pf));
     TMessage "A_O1" (g1_bytes (A_O1 pf)); TMessage "S1" (g1_bytes (S1 pf))]).
  { unfold first_phase_transcript. rewrite ET. unfold verifier_new, r1cs_domain_sep, commit_point, append_u64, append_message.
    cbn [v_transcript]. rewrite <- !app_assoc. reflexivity. }
  unfold verifier_create_randomized_constraints in E2. cbn [v_with_pending v_with_transcript v_deferred v_transcript] in E2.
  rewrite Ef in E2. destruct (v_deferred s).
  - injection E2 as <-. exists false, []. cbn [v_with_transcript v_transcript].
    unfold session_log, r1cs_1phase_domain_sep, append_message. rewrite <- !app_assoc. cbn. rewrite <- !app_assoc. reflexivity.
  - apply verifier_callbacks_log in E2 as (ls & E2). exists true, ls.
    rewrite E2. cbn [v_with_deferred v_with_transcript v_transcript].
    unfold session_log, r1cs_2phase_domain_sep, append_message. rewrite <- !app_assoc. cbn. rewrite <- !app_assoc. reflexivity.
Qed.

(** *** Reading it back *)
Lemma split_unique {A} (p : A -> Prop) (l l' : list A) a a' r r' :
  Forall p l -> Forall p l' -> ~ p a -> ~ p a' -> l ++ a :: r = l' ++ a' :: r' -> l = l' /\ a = a' /\ r = r'.
Proof.
  intros Hl; revert l'; induction Hl as [|x l Hx Hl IH]; intros l' Hl' Na Na' E.
  - destruct l' as [|x' l']; simpl in E; [injection E as -> ->; auto|].
    injection E as <- _. inversion Hl'; contradiction.
  - destruct Hl' as [|x' l' Hx' Hl']; simpl in E; injection E as E1 E2.
    + subst. contradiction.
    + destruct (IH l' Hl' Na Na' E2) as (-> & -> & ->). subst. auto.
Qed.

Context {EncOK : EncodingOk P}.

Lemma map_msg_V_inj V V' : map msg_V V = map msg_V V' -> V = V'.
Proof.
  revert V'; induction V as [|x V IH]; destruct V' as [|x' V']; try discriminate; [reflexivity|].
  cbn [map]. intros E. injection E as E1 E2. f_equal; [apply g1_bytes_inj; assumption|apply IH; exact E2].
Qed.

(** events after which the reading continues *)
Definition is_V (e : tevent) : Prop := exists m, e = TMessage "V" m.
Definition is_chal (e : tevent) : Prop := exists l n, e = TChallenge l n.

Lemma session_read t0 V V' pf pf' two two' ls ls' m m' r r' :
  session_log t0 V pf two ls ++ TMessage "A_I2" m :: r = session_log t0 V' pf' two' ls' ++ TMessage "A_I2" m' :: r' ->
  V = V' /\ A_I1 pf = A_I1 pf' /\ A_O1 pf = A_O1 pf' /\ S1 pf = S1 pf' /\ m = m' /\ r = r'.
Proof.
  unfold session_log. rewrite <- !app_assoc. intros E. apply app_inv_head in E. cbn [app] in E.
  injection E as E. rewrite <- !app_assoc in E. cbn [app] in E.
  apply (split_unique is_V) in E.
  - destruct E as (EV & Em & E). apply map_msg_V_inj in EV. unfold phase_sep in E. injection E as E1 E2 E3 _ E4.
    apply g1_bytes_inj in E1. apply g1_bytes_inj in E2. apply g1_bytes_inj in E3.
    apply (split_unique is_chal) in E4.
    + destruct E4 as (_ & E4 & E5). injection E4 as E4. auto 10.
    + apply Forall_map. apply Forall_forall. intros x _. eexists _, _. reflexivity.
    + apply Forall_map. apply Forall_forall. intros x _. eexists _, _. reflexivity.
    + intros (? & ? & X). discriminate.
    + intros (? & ? & X). discriminate.
  - apply Forall_map. apply Forall_forall. intros x _. eexists. reflexivity.
  - apply Forall_map. apply Forall_forall. intros x _. eexists. reflexivity.
  - intros (? & X). discriminate.
  - intros (? & X). discriminate.
Qed.

Lemma read_y t0 V V' pf pf' two two' ls ls' r r' :
  at_y (session_log t0 V pf two ls) pf ++ r = at_y (session_log t0 V' pf' two' ls') pf' ++ r' ->
  V = V' /\ same_first pf pf' /\ r = r'.
Proof.
  unfold at_y. rewrite <- !app_assoc. cbn [app]. intros E.
  apply session_read in E as (EV & E1 & E2 & E3 & E4 & E5). injection E5 as E5 E6 E7.
  apply g1_bytes_inj in E4. apply g1_bytes_inj in E5. apply g1_bytes_inj in E6. unfold same_first. auto 10.
Qed.

Lemma read_u t0 V V' pf pf' two two' ls ls' r r' :
  at_u (session_log t0 V pf two ls) pf ++ r = at_u (session_log t0 V' pf' two' ls') pf' ++ r' ->
  V = V' /\ same_first pf pf' /\ same_second pf pf' /\ r = r'.
Proof.
  unfold at_u, at_z. rewrite <- !app_assoc. cbn [app]. intros E.
  apply read_y in E as (EV & Hf & E). injection E as E1 E2 E3 E4 E5 E6.
  apply g1_bytes_inj in E1. apply g1_bytes_inj in E2. apply g1_bytes_inj in E3. apply g1_bytes_inj in E4. apply g1_bytes_inj in E5.
  unfold same_second. auto 10.
Qed.

Lemma read_w t0 V V' pf pf' two two' ls ls' r r' :
  at_w (session_log t0 V pf two ls) pf ++ r = at_w (session_log t0 V' pf' two' ls') pf' ++ r' ->
  V = V' /\ same_first pf pf' /\ same_second pf pf' /\ same_third pf pf' /\ r = r'.
Proof.
  unfold at_w, at_x. rewrite <- !app_assoc. cbn [app]. intros E.
  apply read_u in E as (EV & Hf & Hs & E). injection E as E1 E2 E3 E4.
  apply fe_bytes_inj in E1. apply fe_bytes_inj in E2. apply fe_bytes_inj in E3.
  unfold same_third. auto 10.
Qed.

Lemma read_rounds rs : forall rs' r r',
  (forall m rest, r <> TMessage "L" m :: rest) -> (forall m rest, r' <> TMessage "L" m :: rest) ->
  flat_map round_log rs ++ r = flat_map round_log rs' ++ r' -> rs = rs' /\ r = r'.
Proof.
  induction rs as [|[L R] rs IH]; destruct rs' as [|[L' R'] rs']; intros r r' N N' E; simpl in E.
  - auto.
  - subst r. exfalso. eapply N. reflexivity.
  - subst r'. exfalso. eapply N'. reflexivity.
  - injection E as E1 E2 E3. apply g1_bytes_inj in E1. apply g1_bytes_inj in E2.
    destruct (IH rs' r r' N N' E3) as [-> ->]. subst. auto.
Qed.

Lemma read_round_chal rs : forall rs' L R L' R',
  flat_map round_log rs ++ [TMessage "L" (g1_bytes L); TMessage "R" (g1_bytes R)] =
  flat_map round_log rs' ++ [TMessage "L" (g1_bytes L'); TMessage "R" (g1_bytes R')] -> rs = rs' /\ L = L' /\ R = R'.
Proof.
  induction rs as [|[L0 R0] rs IH]; destruct rs' as [|[L1 R1] rs']; intros L R L' R' E; simpl in E.
  - injection E as E1 E2. apply g1_bytes_inj in E1. apply g1_bytes_inj in E2. auto.
  - discriminate.
  - discriminate.
  - injection E as E1 E2 E3. apply g1_bytes_inj in E1. apply g1_bytes_inj in E2.
    destruct (IH rs' L R L' R' E3) as (-> & -> & ->). subst. auto.
Qed.

Section Two.
Context (W W' : world) {A A' : Type} (m : vprog A) (m' : vprog A') (t0 : transcript) (a : A) (a' : A')
  (s s' s2 s2' : verifier) (pf pf' : r1cs_proof).
Hypothesis R1 : vrun W false m (verifier_new t0) = Done (a, s).
Hypothesis R1' : vrun W' false m' (verifier_new t0) = Done (a', s').
Hypothesis R2 : verifier_create_randomized_constraints W
    (v_with_transcript (first_phase_transcript pf (length (v_V s)) (v_transcript s)) s) = Done (Ok s2).
Hypothesis R2' : verifier_create_randomized_constraints W'
    (v_with_transcript (first_phase_transcript pf' (length (v_V s')) (v_transcript s')) s') = Done (Ok s2').
Let t := v_transcript s2.
Let t' := v_transcript s2'.

Theorem bind_y : at_y t pf = at_y t' pf' -> v_V s = v_V s' /\ same_first pf pf'.
Proof.
  destruct (verifier_session_log _ _ _ _ _ _ _ R1 R2) as (two & ls & E).
  destruct (verifier_session_log _ _ _ _ _ _ _ R1' R2') as (two' & ls' & E').
  unfold t, t'. rewrite E, E'. intros X.
  rewrite <- (app_nil_r (at_y _ pf)), <- (app_nil_r (at_y _ pf')) in X. apply read_y in X. tauto.
Qed.
Theorem bind_u : at_u t pf = at_u t' pf' -> v_V s = v_V s' /\ same_first pf pf' /\ same_second pf pf'.
Proof.
  destruct (verifier_session_log _ _ _ _ _ _ _ R1 R2) as (two & ls & E).
  destruct (verifier_session_log _ _ _ _ _ _ _ R1' R2') as (two' & ls' & E').
  unfold t, t'. rewrite E, E'. intros X.
  rewrite <- (app_nil_r (at_u _ pf)), <- (app_nil_r (at_u _ pf')) in X. apply read_u in X. tauto.
Qed.
Theorem bind_w : at_w t pf = at_w t' pf' -> v_V s = v_V s' /\ same_first pf pf' /\ same_second pf pf' /\ same_third pf pf'.
Proof.
  destruct (verifier_session_log _ _ _ _ _ _ _ R1 R2) as (two & ls & E).
  destruct (verifier_session_log _ _ _ _ _ _ _ R1' R2') as (two' & ls' & E').
  unfold t, t'. rewrite E, E'. intros X.
  rewrite <- (app_nil_r (at_w _ pf)), <- (app_nil_r (at_w _ pf')) in X. apply read_w in X. tauto.
Qed.
Theorem bind_round N N' rs rs' L L' R R' : at_round N rs L R t pf = at_round N' rs' L' R' t' pf' ->
  v_V s = v_V s' /\ same_first pf pf' /\ same_second pf pf' /\ same_third pf pf' /\ rs = rs' /\ L = L' /\ R = R'.
Proof.
  destruct (verifier_session_log _ _ _ _ _ _ _ R1 R2) as (two & ls & E).
  destruct (verifier_session_log _ _ _ _ _ _ _ R1' R2') as (two' & ls' & E').
  unfold t, t'. rewrite E, E'. unfold at_round, after_rounds. rewrite <- !app_assoc. cbn [app]. intros X.
  apply read_w in X as (E1 & E2 & E3 & E4 & X). revert X. generalize (le_bytes 8 (Z.of_nat N)) (le_bytes 8 (Z.of_nat N')). intros nb nb' X. injection X as _ X. apply read_round_chal in X. tauto.
Qed.
Theorem bind_final N N' rs rs' : after_rounds N rs t pf = after_rounds N' rs' t' pf' ->
  v_V s = v_V s' /\ same_first pf pf' /\ same_second pf pf' /\ same_third pf pf' /\ rs = rs'.
Proof.
  destruct (verifier_session_log _ _ _ _ _ _ _ R1 R2) as (two & ls & E).
  destruct (verifier_session_log _ _ _ _ _ _ _ R1' R2') as (two' & ls' & E').
  unfold t, t'. rewrite E, E'. unfold after_rounds. cbn [app]. intros X.
  apply read_w in X as (E1 & E2 & E3 & E4 & X). revert X. generalize (le_bytes 8 (Z.of_nat N)) (le_bytes 8 (Z.of_nat N')). intros nb nb' X. injection X as _ X.
  rewrite <- (app_nil_r (flat_map round_log rs)), <- (app_nil_r (flat_map round_log rs')) in X.
  apply read_rounds in X; [tauto|discriminate|discriminate].
Qed.
End Two.
End LogProofs.
