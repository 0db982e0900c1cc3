(** The MiMC and Poseidon circuits: honest runs. *)
From Coq Require Import ZArith String List Lia Bool Ring Field Arith.
From Verif.Base Require Import Outcome Fp Params Algebra.
From Verif.Model Require Import Transcript LinComb Prog VectorPoly IPP Prover Verifier Gadgets Hash.
From Verif.Spec Require Import R1CS Sim Session Protocol Verdict Gadget HashSpec.
From Verif.Proofs Require Import IPPProofs LinCombProofs RunProofs GadgetTools GadgetBasic GadgetComplete GadgetPrograms HashTools HashSound.
Import ListNotations.

Lemma foldM_seq_step {S} (f : S -> nat -> outcome S) n s s' j : foldM f (seq 0 n) s = Done s' -> (j < n)%nat ->
  exists s1 s2, foldM f (seq 0 j) s = Done s1 /\ f s1 j = Done s2 /\ foldM f (seq 0 (Datatypes.S j)) s = Done s2.
Proof.
  intros E Hj. replace n with (Datatypes.S j + (n - Datatypes.S j))%nat in E by lia. rewrite seq_app in E.
  apply foldM_prefix in E as (s2 & E & _). rewrite E. rewrite foldM_seq_S in E.
  destruct (foldM f (seq 0 j) s) as [s1|]; [|discriminate]. exists s1, s2. auto.
Qed.

(** the sum of the first [n] values of [k] *)
Fixpoint sumk (k : nat -> nat) (n : nat) : nat :=
  match n with O => O | S m => k O + sumk (fun i => k (S i)) m end.

Lemma sumk_last c n : sumk (fun i => if Nat.eqb i n then c else O) (S n) = c.
Proof. induction n as [|n IH]; [cbn; lia|]. change (0 + sumk (fun i => if Nat.eqb i n then c else O) (S n) = c)%nat. rewrite IH. reflexivity. Qed.

Section Complete.
Context {P : Params} {OK : ParamsOk P}.
Local Open Scope fe_scope.
Add Field FFhc : (Fp_field_theory modulus modulus_prime).

(** *** Coefficients *)
Lemma coeff_fe_mul v c l : coeff v (fe_mul_lc c l) = c * coeff v l.
Proof.
  induction l as [|[w d] t IH]; cbn [fe_mul_lc map coeff]; [ring|]. fold (fe_mul_lc c t). rewrite IH.
  destruct (var_eqb v w); ring.
Qed.
Lemma lc_same_mul c l l' : lc_same l l' -> lc_same (fe_mul_lc c l) (fe_mul_lc c l').
Proof.
  intros [H1 H2]. split; intros v.
  - rewrite !coeff_fe_mul, H1. reflexivity.
  - assert (E : forall l, map fst (fe_mul_lc c l) = map fst l).
    { intros m. unfold fe_mul_lc. rewrite map_map. apply map_ext. intros []; reflexivity. }
    rewrite !E. apply H2.
Qed.
Lemma coeff_neg v l : coeff v (lc_neg l) = - coeff v l.
Proof. induction l as [|[w d] t IH]; cbn [lc_neg map coeff]; [ring|]. fold (lc_neg t). rewrite IH. destruct (var_eqb v w); ring. Qed.
Lemma lc_same_neg l l' : lc_same l l' -> lc_same (lc_neg l) (lc_neg l').
Proof.
  intros [H1 H2]. split; intros v.
  - rewrite !coeff_neg, H1. reflexivity.
  - assert (E : forall l, map fst (lc_neg l) = map fst l).
    { intros m. unfold lc_neg. rewrite map_map. apply map_ext. intros []; reflexivity. }
    rewrite !E. apply H2.
Qed.
Lemma lc_same_add a b a' b' : lc_same a a' -> lc_same b b' -> lc_same (lc_add a b) (lc_add a' b').
Proof. apply lc_same_app. Qed.
Lemma lc_same_sub a b a' b' : lc_same a a' -> lc_same b b' -> lc_same (lc_sub a b) (lc_sub a' b').
Proof. intros H1 H2. apply lc_same_app; [exact H1|]. apply (lc_same_neg _ _ H2). Qed.
Lemma lc_same_var_add v b b' : lc_same b b' -> lc_same (var_add_lc v b) (var_add_lc v b').
Proof. intros H. apply lc_same_app; [apply lc_same_refl|exact H]. Qed.

(** lists of linear combinations of the prover and of the verifier, with values *)
Definition rels (ps : prover) (ls ls' : list lc) (xs : list F) : Prop :=
  Forall2 lc_same ls ls' /\ Forall2 (lc_has ps) ls xs.

Lemma rels_grew k r ps ps' ls ls' xs : grew k r ps ps' -> rels ps ls ls' xs -> rels ps' ls ls' xs.
Proof.
  intros Hg [H1 H2]. split; [exact H1|]. clear H1. induction H2; constructor; [eapply lc_has_grew; eassumption|assumption].
Qed.
Lemma rels_nil ps : rels ps [] [] [].
Proof. split; constructor. Qed.
Lemma rels_cons ps l l' x ls ls' xs : lc_same l l' -> lc_has ps l x -> rels ps ls ls' xs -> rels ps (l :: ls) (l' :: ls') (x :: xs).
Proof. intros H1 H2 [H3 H4]. split; constructor; assumption. Qed.
Lemma rels_app ps ls1 ls1' xs1 ls2 ls2' xs2 : rels ps ls1 ls1' xs1 -> rels ps ls2 ls2' xs2 ->
  rels ps (ls1 ++ ls2) (ls1' ++ ls2') (xs1 ++ xs2).
Proof. intros [H1 H2] [H3 H4]. split; apply Forall2_app; assumption. Qed.
Lemma rels_snoc ps l l' x ls ls' xs : lc_same l l' -> lc_has ps l x -> rels ps ls ls' xs ->
  rels ps (ls ++ [l]) (ls' ++ [l']) (xs ++ [x]).
Proof. intros. apply rels_app; [assumption|]. apply rels_cons; auto. apply rels_nil. Qed.
Lemma rels_len ps ls ls' xs : rels ps ls ls' xs -> length ls = length xs /\ length ls' = length xs.
Proof. intros [H1 H2]. apply forall2_len in H1, H2. split; congruence. Qed.
Lemma rels_index ps ls ls' xs i x : rels ps ls ls' xs -> index xs i = Done x ->
  exists l l', index ls i = Done l /\ index ls' i = Done l' /\ lc_same l l' /\ lc_has ps l x.
Proof.
  intros [H1 H2] E. apply forall2_flip in H2. destruct (forall2_index _ _ _ _ _ H2 E) as (l & El & Hl).
  destruct (forall2_index _ _ _ _ _ H1 El) as (l' & El' & Hs). exists l, l'. auto.
Qed.
Lemma rels_vars ps vars xs : Forall2 (has_value ps) vars xs -> rels ps (map lc_of_var vars) (map lc_of_var vars) xs.
Proof. induction 1; [apply rels_nil|]. apply rels_cons; [apply lc_same_refl|apply lc_has_var; assumption|assumption]. Qed.
Lemma rels_skipn ps ls ls' xs n : rels ps ls ls' xs -> rels ps (skipn n ls) (skipn n ls') (skipn n xs).
Proof.
  revert ls ls' xs. induction n as [|n IH]; intros ls ls' xs H; [exact H|].
  destruct H as [H1 H2]. destruct H2; inversion H1; subst; [apply rels_nil|]. apply IH. split; assumption.
Qed.

Section Fixed.
Context (W W' : world) (ph : bool).
Local Notation both := (both W W' ph).

(** loops with a cost that depends on the position *)
Lemma both_try_fold_cost r {A A' T T'} (f : T -> A -> pprog (result T)) (f' : T' -> A' -> vprog (result T')) l l' :
  forall k ps vs st st' (I : nat -> T -> T' -> prover -> Prop),
  length l = length l' ->
  (forall j x x' st st' ps' vs', nth_error l j = Some x -> nth_error l' j = Some x' ->
     grew (sumk k j) (j * r) ps ps' -> I j st st' ps' -> both (k j) r (f st x) (f' st' x') ps' vs'
       (fun a b ps2 => exists st2 st2', a = Ok st2 /\ b = Ok st2' /\ I (S j) st2 st2' ps2)) ->
  (sync_base ps vs -> I O st st' ps) ->
  both (sumk k (length l)) (length l * r) (p_try_fold f l st) (p_try_fold f' l' st') ps vs
    (fun a b ps2 => exists st2 st2', a = Ok st2 /\ b = Ok st2' /\ I (length l) st2 st2' ps2).
Proof.
  revert l'. induction l as [|x t IH]; intros l' k ps vs st st' I HL Hf H0; destruct l' as [|x' t']; try discriminate HL.
  - cbn [p_try_fold length Nat.mul sumk]. intros Hh Hs. apply both_ret; auto. exists st, st'. auto.
  - cbn [p_try_fold length Nat.mul sumk]. intros Hh Hs. generalize Hh Hs.
    match goal with |- honest _ -> sync_base _ _ -> ?X => change (both (k O + sumk (fun i => k (S i)) (length t)) (r + length t * r)
      (ptry (f st x) (fun s' => p_try_fold f t s')) (ptry (f' st' x') (fun s' => p_try_fold f' t' s')) ps vs
      (fun a b ps2 => exists st2 st2', a = Ok st2 /\ b = Ok st2' /\ I (S (length t)) st2 st2' ps2)) end.
    eapply both_try.
    + apply (Hf O x x' st st' ps vs); auto. apply grew_refl. apply (sy_wf _ _ Hs).
    + intros a b ps1 vs1 Hg H1. apply (IH t' (fun i => k (S i)) ps1 vs1 a b (fun j => I (S j))); [simpl in HL; lia| |auto].
      intros j y y' s2 s2' ps2 vs2 E E' Hg2. apply (Hf (S j) y y' s2 s2' ps2 vs2); [exact E|exact E'|].
      exact (grew_trans (k O) r (sumk (fun i => k (S i)) j) (j * r) _ _ _ Hg Hg2).
Qed.

(** *** MiMC *)
Lemma enforce_mimc_both l l' r r' n constants x y out ps vs : lc_same l l' -> lc_same r r' -> lc_has ps l x -> lc_has ps r y ->
  mimc x y (firstn n constants) n = Done out ->
  both (n * 2) 0 (enforce_mimc_2_inputs l r n constants) (enforce_mimc_2_inputs l' r' n constants) ps vs
    (fun a b ps' => exists o o', a = Ok o /\ b = Ok o' /\ lc_same o o' /\ lc_has ps' o out).
Proof.
  intros Sl Sr Hl Hr E. unfold enforce_mimc_2_inputs. rewrite mimc_eq, firstn_length in E.
  destruct (Nat.eqb_spec (Nat.min n (length constants)) n) as [Hn|]; [|discriminate].
  rewrite mimc_loop_firstn in E by lia.
  destruct (foldM (mimc_loop constants) (seq 0 n) (x, y)) as [[xo yo]|] eqn:EL; [|discriminate]. injection E as ->.
  eapply both_cost.
  { eapply both_bind; [eapply (both_fold W W' ph 2 0 _ _ _ _ ps vs _ _
      (fun j st st' ps' => lc_same (fst st) (fst st') /\ lc_same (snd st) (snd st') /\ exists a b,
         foldM (mimc_loop constants) (seq 0 j) (x, y) = Done (a, b) /\ lc_has ps' (fst st) a /\ lc_has ps' (snd st) b))|].
    - reflexivity.
    - intros j i i' [lv rv] [lv' rv'] ps1 vs1 Hi Hi' Hg (S1 & S2 & a & b & E & H1 & H2). cbn [fst snd] in *.
      apply nth_error_seq0 in Hi as [-> Hj]. apply nth_error_seq0 in Hi' as [-> _].
      rewrite (index_ok constants j 0) by lia. cbn [p_lift pbind].
      eapply b_multiply; [apply lc_same_add; [exact S1|apply lc_same_refl]|apply lc_same_add; [exact S1|apply lc_same_refl]|lch0|lch0|].
      intros ps2 vs2 vl vr vo Hg2 V1 V2 V3. carry Hg2.
      eapply b_multiply; [apply lc_same_refl|apply lc_same_refl|lch0|lch0|].
      intros ps3 vs3 vl' vr' vo' Hg3 V1' V2' V3'. carry Hg3.
      apply both_ret. cbn [fst snd]. split; [apply lc_same_var_add; exact S2|]. split; [exact S1|].
      do 2 eexists. split; [rewrite foldM_seq_S, E; cbn [obind mimc_loop]; rewrite (index_ok constants j 0) by lia; reflexivity|].
      split; [|exact H1]. lch. ring.
    - intros _. cbn [fst snd]. split; [exact Sl|]. split; [exact Sr|]. exists x, y. auto.
    - intros [lv rv] [lv' rv'] ps1 vs1 Hg (S1 & S2 & a & b & E & H1 & H2). cbn [fst snd] in *. rewrite seq_length in E.
      rewrite EL in E. injection E as -> ->. apply both_ret. exists lv, lv'. auto. }
  all: rewrite seq_length; lia.
Qed.

Notation oks := (fun a b _ => a = Ok tt /\ b = Ok tt).

Lemma scalar_both {A B} k r l l' x (f : unit -> pprog A) (f' : unit -> vprog B) ps vs Q :
  lc_same l l' -> lc_has ps l x ->
  (forall ps' vs', grew 0 0 ps ps' -> both k r (f tt) (f' tt) ps' vs' Q) ->
  both k r (pbind (constrain_lc_with_scalar l x) f) (pbind (constrain_lc_with_scalar l' x) f') ps vs Q.
Proof.
  intros Hs Hl H. apply b_constrain; [apply lc_same_sub; [exact Hs|apply lc_same_refl]| |exact H]. lch. ring.
Qed.

Lemma mimc_gadget_both vl vr x y n constants image ol orr ol' or' ps vs : has_value ps vl x -> has_value ps vr y ->
  mimc x y (firstn n constants) n = Done image ->
  both (n * 2) 0 (mimc_gadget (Quantity vl ol) (Quantity vr orr) n constants image)
    (mimc_gadget (Quantity vl ol') (Quantity vr or') n constants image) ps vs oks.
Proof.
  intros H1 H2 E. unfold mimc_gadget. cbn [q_var]. eapply both_cost.
  { eapply both_try.
    - eapply both_conseq; [eapply enforce_mimc_both; [apply lc_same_refl|apply lc_same_refl|lch0|lch0|exact E]|].
      intros a b ps1 Hg (o & o' & -> & -> & Ho). exists o, o'. repeat (split; [reflexivity|]). exact Ho.
    - intros o o' ps1 vs1 Hg [S1 Ho]. apply scalar_both; [exact S1|exact Ho|]. intros ps2 vs2 _. apply both_ok. }
  all: lia.
Qed.

(** *** Poseidon *)
Context (p : poseidon_params) (sbox : sbox_type) (Hsbox : sbox <> Inverse).

(** multipliers per S-box *)
Definition sbox_cost (sb : sbox_type) : nat := match sb with Cube => 2 | Inverse => 2 | Quint => 3 end.
Local Notation c := (sbox_cost sbox).

Lemma sbox_both l l' key x ps vs : lc_same l l' -> lc_has ps l x ->
  both c 0 (synthesize_sbox sbox l key) (synthesize_sbox sbox l' key) ps vs
    (fun a b ps' => exists v, a = Ok v /\ b = Ok v /\ has_value ps' v (apply_sbox sbox (x + key))).
Proof.
  intros Hs Hl. destruct sbox; [|contradiction|]; cbn [synthesize_sbox sbox_cost].
  - unfold synthesize_cube_sbox.
    eapply b_multiply; [apply lc_same_add; [exact Hs|apply lc_same_refl]|apply lc_same_add; [exact Hs|apply lc_same_refl]|lch0|lch0|].
    intros ps1 vs1 vl vr vo Hg V1 V2 V3. carry Hg.
    eapply b_multiply; [apply lc_same_refl|apply lc_same_refl|lch0|lch0|]. intros ps2 vs2 vl' vr' vo' Hg2 V1' V2' V3'. carry Hg2.
    apply both_ret. exists vo'. repeat (split; [reflexivity|]). cbn [apply_sbox]. exact V3'.
  - unfold synthesize_quint_sbox.
    eapply b_multiply; [apply lc_same_add; [exact Hs|apply lc_same_refl]|apply lc_same_add; [exact Hs|apply lc_same_refl]|lch0|lch0|].
    intros ps1 vs1 vl vr vo Hg V1 V2 V3. carry Hg.
    eapply b_multiply; [apply lc_same_refl|apply lc_same_refl|lch0|lch0|]. intros ps2 vs2 vl' vr' vo' Hg2 V1' V2' V3'. carry Hg2.
    eapply b_multiply; [apply lc_same_refl|apply lc_same_refl|lch0|lch0|]. intros ps3 vs3 vl'' vr'' vo'' Hg3 V1'' V2'' V3''. carry Hg3.
    apply both_ret. exists vo''. repeat (split; [reflexivity|]). cbn [apply_sbox]. exact V3''.
Qed.

Lemma column_split M i outs outs' l : forall (acc z : lc * lc),
  foldM (fun (acc : lc * lc) j => obind (index M j) (fun row => obind (index row i) (fun m =>
        obind (index outs j) (fun s => obind (index outs' j) (fun s' =>
          Done (lc_add (fst acc) (fe_mul_lc m s), lc_add (snd acc) (fe_mul_lc m s'))))))) l acc = Done z ->
  foldM (fun (acc : lc) j => obind (index M j) (fun row => obind (index row i) (fun m =>
        obind (index outs j) (fun s => Done (lc_add acc (fe_mul_lc m s)))))) l (fst acc) = Done (fst z) /\
  foldM (fun (acc : lc) j => obind (index M j) (fun row => obind (index row i) (fun m =>
        obind (index outs' j) (fun s => Done (lc_add acc (fe_mul_lc m s)))))) l (snd acc) = Done (snd z).
Proof.
  induction l as [|j t IH]; intros acc z Ez; cbn [foldM] in Ez |- *; [injection Ez as <-; auto|].
  destruct (index M j) as [row|]; [|discriminate]. cbn [obind] in *.
  destruct (index row i) as [m|]; [|discriminate]. cbn [obind] in *.
  destruct (index outs j) as [s|]; [|discriminate]. cbn [obind] in *.
  destruct (index outs' j) as [s'|]; [|discriminate]. cbn [obind] in *. exact (IH _ z Ez).
Qed.

Lemma linear_layer_both ps outs outs' xs ys : length xs = width p -> rels ps outs outs' xs -> linear_layer p xs = Done ys ->
  exists ls ls', apply_linear_layer p outs = Done ls /\ apply_linear_layer p outs' = Done ls' /\ rels ps ls ls' ys.
Proof.
  intros HL Hr E. unfold linear_layer in E. destruct (rels_len _ _ _ _ Hr) as [L1 L2].
  unfold apply_linear_layer. rewrite L1, L2, HL.
  match goal with |- exists ls ls', mapM ?f ?sq = _ /\ mapM ?f' _ = _ /\ _ =>
    assert (H : exists zs, mapM (fun i => obind (f i) (fun l => obind (f' i) (fun l' => Done (l, l')))) sq = Done zs /\
      Forall2 (fun y z => lc_same (fst z) (snd z) /\ lc_has ps (fst z) y) ys zs);
    set (ff := f) in *; set (ff' := f') in * end.
  - eapply mapM_rel; [|exact E]. intros i y Hi Ey. cbv beta in Ey.
    assert (Hz : exists z, foldM (fun (acc : lc * lc) j => obind (index (MDS_matrix p) j) (fun row => obind (index row i) (fun m =>
        obind (index outs j) (fun s => obind (index outs' j) (fun s' =>
          Done (lc_add (fst acc) (fe_mul_lc m s), lc_add (snd acc) (fe_mul_lc m s'))))))) (seq 0 (width p)) ([], []) = Done z /\
        (lc_same (fst z) (snd z) /\ lc_has ps (fst z) y)).
    { eapply (foldM_rel (fun (y : F) (z : lc * lc) => lc_same (fst z) (snd z) /\ lc_has ps (fst z) y)); [| |exact Ey].
      2:{ split; [apply lc_same_refl|apply lc_has_nil]. }
      intros acc [z z'] j acc' Hj [Hz Hv] Ea. cbn [fst snd] in *. cbv beta in Ea |- *.
      destruct (index xs j) as [s|] eqn:Es; [|discriminate]. cbn [obind] in Ea.
      destruct (rels_index _ _ _ _ _ _ Hr Es) as (o & o' & -> & -> & So & Ho).
      destruct (index (MDS_matrix p) j) as [row|]; [|discriminate]. cbn [obind] in Ea |- *.
      destruct (index row i) as [m|]; [|discriminate]. cbn [obind] in Ea |- *. injection Ea as <-.
      eexists. split; [reflexivity|]. cbn [fst snd]. split.
      - apply lc_same_add; [exact Hz|apply lc_same_mul; exact So].
      - lch. ring. }
    destruct Hz as (z & Ez & Hz). exists z. split; [|exact Hz].
    assert (Hf : ff i = Done (fst z) /\ ff' i = Done (snd z)).
    { exact (column_split _ i _ _ _ _ _ Ez). }
    destruct Hf as [Hf1 Hf2]. cbv beta. unfold ff, ff' in Hf1, Hf2. cbv beta in Hf1, Hf2. rewrite Hf1. cbn [obind]. rewrite Hf2. cbn [obind]. destruct z; reflexivity.
  - destruct H as (zs & Ez & Hz). exists (map fst zs), (map snd zs).
    assert (Hf : mapM ff (seq 0 (width p)) = Done (map fst zs) /\ mapM ff' (seq 0 (width p)) = Done (map snd zs)).
    { clear Hz E. revert zs Ez. generalize (seq 0 (width p)). induction l as [|j t IH]; intros zs Ez; cbn [mapM] in Ez |- *.
      - injection Ez as <-. auto.
      - destruct (ff j) as [a|]; [|discriminate]. cbn [obind] in *. destruct (ff' j) as [b|]; [|discriminate]. cbn [obind] in *.
        match type of Ez with obind ?m _ = _ => destruct m as [zs'|]; [|discriminate] end. cbn [obind] in Ez. injection Ez as <-.
        destruct (IH zs' eq_refl) as [-> ->]. auto. }
    destruct Hf as [-> ->]. repeat (split; [reflexivity|]). split.
    + clear - Hz. induction Hz as [|y z ys zs [H1 H2] _ IH]; cbn [map]; constructor; auto.
    + clear - Hz. induction Hz as [|y z ys zs [H1 H2] _ IH]; cbn [map]; constructor; auto.
Qed.

Definition rounds_rel (ps : prover) (st st' : list lc * nat) (nst : list F * nat) : Prop :=
  length (fst nst) = width p /\ rels ps (fst st) (fst st') (fst nst) /\ snd st = snd nst /\ snd st' = snd nst.

Lemma full_round_both st st' nst nst' i ps vs : rounds_rel ps st st' nst -> full_round p sbox nst i = Done nst' ->
  both (width p * c) 0 (full_round_constraints p sbox st i) (full_round_constraints p sbox st' i) ps vs
    (fun a b ps' => exists s2 s2', a = Ok s2 /\ b = Ok s2' /\ rounds_rel ps' s2 s2' nst').
Proof.
  destruct st as [ins off], st' as [ins' off'], nst as [xs off0]. intros (HL & Hr & E1 & E2) E. cbn [fst snd] in *. subst off off'.
  unfold full_round in E. destruct (foldM (full_sbox_step p sbox) (seq 0 (width p)) (xs, off0)) as [[ys o]|] eqn:EF; [|discriminate].
  cbn [obind] in E. destruct (linear_layer p ys) as [zs|] eqn:EL; [|discriminate]. injection E as <-.
  unfold full_round_constraints. eapply both_cost.
  { eapply both_try; [eapply (both_try_fold W W' ph c 0 _ _ _ _ ps vs _ _
      (fun j st st' ps' => exists ws, length ws = j /\ rels ps' (fst st) (fst st') ws /\ snd st = snd st' /\
        foldM (full_sbox_step p sbox) (seq 0 j) (xs, off0) = Done (ws ++ skipn j xs, snd st)))|].
    - reflexivity.
    - intros j i1 i2 [outs o1] [outs' o1'] ps1 vs1 Hi Hi' Hg (ws & Hw & Hr1 & Eo & Ej). cbn [fst snd] in *. subst o1'.
      apply nth_error_seq0 in Hi as [-> Hj]. apply nth_error_seq0 in Hi' as [-> _].
      destruct (foldM_seq_step _ _ _ _ j EF Hj) as (s1 & s2 & E1 & E2 & E3). rewrite Ej in E1. injection E1 as <-.
      unfold full_sbox_step in E2. rewrite (skipn_nth_cons xs j 0) in E2 by lia. rewrite (index_app' ws _ _ j Hw) in E2. cbn [obind] in E2.
      destruct (index (round_keys p) o1) as [key|] eqn:Ek; [|discriminate]. cbn [obind] in E2. rewrite (set_nth_app' ws _ _ _ j Hw) in E2.
      cbn [obind] in E2. injection E2 as <-.
      unfold full_sbox_constraints. rewrite Ek. cbn [p_lift pbind].
      apply (rels_grew _ _ _ _ _ _ _ Hg) in Hr.
      destruct (rels_index ps1 ins ins' xs j (nth j xs 0) Hr) as (l & l' & -> & -> & Sl & Hl); [apply index_ok; lia|]. cbn [p_lift pbind].
      eapply both_cost; [eapply both_try with (k2 := O) (r2 := O) (Q := fun v v' ps2 => v = v' /\ has_value ps2 v (apply_sbox sbox (nth j xs 0 + key)))|..].
      + eapply both_conseq; [apply sbox_both; [exact Sl|exact Hl]|]. intros a b ps2 Hg2 (v & -> & -> & Hv). exists v, v.
        do 3 (split; [reflexivity|]). exact Hv.
      + intros v v' ps2 vs2 Hg2 [<- Hv]. apply both_ret. do 2 eexists. split; [reflexivity|]. split; [reflexivity|]. cbn [fst snd].
        exists (ws ++ [apply_sbox sbox (nth j xs 0 + key)]). split; [rewrite app_length; cbn; lia|].
        split; [apply rels_snoc; [apply lc_same_refl|apply lc_has_var; exact Hv|apply (rels_grew _ _ _ _ _ _ _ Hg2); exact Hr1]|].
        split; [reflexivity|]. rewrite E3, <- app_assoc. reflexivity.
      + lia.
      + lia.
    - intros _. exists []. split; [reflexivity|]. split; [apply rels_nil|]. split; reflexivity.
    - intros [outs o1] [outs' o1'] ps1 vs1 Hg (ws & Hw & Hr1 & Eo & Ej). cbn [fst snd] in *. subst o1'.
      rewrite seq_length in Hw, Ej. rewrite EF in Ej. rewrite (skipn_all2 xs), app_nil_r in Ej by lia. injection Ej as -> ->.
      destruct (linear_layer_both ps1 outs outs' ws zs Hw Hr1 EL) as (ls & ls' & -> & -> & Hr2). cbn [p_lift pbind].
      apply both_ret. do 2 eexists. split; [reflexivity|]. split; [reflexivity|]. split; [|split; [exact Hr2|split; reflexivity]].
      cbn [fst]. apply mapM_length in EL. rewrite seq_length in EL. exact EL. }
  all: rewrite seq_length; lia.
Qed.

Lemma simplify_all_both ls ls' xs ps vs : rels ps ls ls' xs ->
  both 0 0 (p_fold (fun input_vars l => pbind (p_simplify l) (fun l => PRet (input_vars ++ [l]))) ls [])
    (p_fold (fun input_vars l => pbind (p_simplify l) (fun l => PRet (input_vars ++ [l]))) ls' []) ps vs
    (fun a b ps' => rels ps' a b xs).
Proof.
  intros Hr. destruct (rels_len _ _ _ _ Hr) as [L1 L2]. eapply both_cost.
  { eapply both_conseq; [eapply (both_fold W W' ph 0 0 _ _ ls ls' ps vs [] [] (fun j a b ps' => rels ps' a b (firstn j xs)))|].
    - congruence.
    - intros j l l' a b ps1 vs1 Hl Hl' Hg Ha. apply (rels_grew _ _ _ _ _ _ _ Hg) in Hr.
      assert (Hj : (j < length xs)%nat) by (rewrite <- L1; apply nth_error_Some; congruence).
      destruct (rels_index ps1 ls ls' xs j (nth j xs 0) Hr) as (m & m' & Em & Em' & Sm & Hm); [apply index_ok; exact Hj|].
      unfold index in Em, Em'. rewrite Hl in Em. rewrite Hl' in Em'. injection Em as <-. injection Em' as <-.
      apply b_simplify; [exact Sm|]. intros m m' ps2 vs2 Hg2 S1 S2. apply both_ret.
      rewrite (firstn_S_nth xs j 0) by exact Hj. apply rels_snoc; [exact S2| |apply (rels_grew _ _ _ _ _ _ _ Hg2); exact Ha].
      eapply lc_has_same; [exact S1|]. apply (lc_has_grew _ _ _ _ _ _ Hg2). exact Hm.
    - intros _. apply rels_nil.
    - cbv beta. intros a b ps1 Hg Ha. rewrite firstn_all2 in Ha by lia. exact Ha. }
  all: lia.
Qed.

Lemma partial_round_both st st' nst nst' i ps vs : rounds_rel ps st st' nst -> partial_round p sbox nst i = Done nst' ->
  both c 0 (partial_round_constraints p sbox st i) (partial_round_constraints p sbox st' i) ps vs
    (fun a b ps' => exists s2 s2', a = Ok s2 /\ b = Ok s2' /\ rounds_rel ps' s2 s2' nst').
Proof.
  destruct st as [ins off], st' as [ins' off'], nst as [xs off0]. intros (HL & Hr & E1 & E2) E. cbn [fst snd] in *. subst off off'.
  unfold partial_round in E. destruct (foldM (add_key_step p) (seq 0 (width p)) (xs, off0)) as [[ys o]|] eqn:EF; [|discriminate].
  cbn [obind] in E. destruct (index ys (width p - 1)) as [x|] eqn:Ex; [|discriminate]. cbn [obind] in E.
  destruct (set_nth ys (width p - 1) (apply_sbox sbox x)) as [ys'|] eqn:Ey; [|discriminate]. cbn [obind] in E.
  destruct (linear_layer p ys') as [zs|] eqn:EL; [|discriminate]. injection E as <-.
  (* the state after the keys are added *)
  assert (Hstep : forall j, (j <= width p)%nat -> exists ws o1, length ws = j /\
    foldM (add_key_step p) (seq 0 j) (xs, off0) = Done (ws ++ skipn j xs, o1)).
  { induction j as [|j IH]; intros Hj; [exists [], off0; split; reflexivity|].
    destruct IH as (ws & o1 & Hw & Ej); [lia|]. destruct (foldM_seq_step _ _ _ _ j EF) as (s1 & s2 & F1 & F2 & F3); [lia|].
    rewrite Ej in F1. injection F1 as <-. unfold add_key_step in F2. rewrite (skipn_nth_cons xs j 0) in F2 by lia.
    rewrite (index_app' ws _ _ j Hw) in F2. cbn [obind] in F2. destruct (index (round_keys p) o1) as [key|]; [|discriminate]. cbn [obind] in F2.
    rewrite (set_nth_app' ws _ _ _ j Hw) in F2. injection F2 as <-. exists (ws ++ [nth j xs 0 + key]), (S o1).
    split; [rewrite app_length; cbn; lia|]. rewrite F3, <- app_assoc. reflexivity. }
  destruct (Hstep (width p) (le_n _)) as (ys0 & o0 & Hys & E0). rewrite EF, (skipn_all2 xs), app_nil_r in E0 by lia.
  injection E0 as <- <-. clear Hstep.
  assert (Hw : (0 < width p)%nat). { destruct (width p) eqn:Ew; [|lia]. destruct ys; [discriminate Ex|discriminate Hys]. }
  set (kk := fun i => if Nat.eqb i (width p - 1) then c else O).
  assert (Hk : sumk kk (width p) = c). { unfold kk. transitivity (sumk (fun i => if Nat.eqb i (width p - 1) then c else O) (S (width p - 1))); [f_equal; lia|apply sumk_last]. }
  unfold partial_round_constraints. eapply both_cost.
  { eapply both_try; [eapply (both_try_fold_cost 0 _ _ _ _ kk ps vs _ _
      (fun j st st' ps' => exists ws ws', length ws = j /\ length ws' = j /\ rels ps' (fst st) (fst st') ws' /\ snd st = snd st' /\
        foldM (add_key_step p) (seq 0 j) (xs, off0) = Done (ws ++ skipn j xs, snd st) /\
        ((j < width p)%nat -> ws' = ws) /\ (j = width p -> set_nth ws (width p - 1) (apply_sbox sbox x) = Done ws')))|].
    - reflexivity.
    - intros j i1 i2 [outs o1] [outs' o1'] ps1 vs1 Hi Hi' Hg (ws & ws' & Hl1 & Hl2 & Hr1 & Eo & Ej & Hlt & _). cbn [fst snd] in *. subst o1'.
      apply nth_error_seq0 in Hi as [-> Hj]. apply nth_error_seq0 in Hi' as [-> _]. specialize (Hlt Hj). subst ws'.
      destruct (foldM_seq_step _ _ _ _ j EF Hj) as (s1 & s2 & E1 & E2 & E3). rewrite Ej in E1. injection E1 as <-.
      unfold add_key_step in E2. rewrite (skipn_nth_cons xs j 0) in E2 by lia. rewrite (index_app' ws _ _ j Hl1) in E2. cbn [obind] in E2.
      destruct (index (round_keys p) o1) as [key|] eqn:Ek; [|discriminate]. cbn [obind] in E2. rewrite (set_nth_app' ws _ _ _ j Hl1) in E2.
      cbn [obind] in E2. injection E2 as <-.
      unfold partial_sbox_constraints. rewrite Ek. cbn [p_lift pbind].
      apply (rels_grew _ _ _ _ _ _ _ Hg) in Hr.
      destruct (rels_index ps1 ins ins' xs j (nth j xs 0) Hr) as (l & l' & -> & -> & Sl & Hl); [apply index_ok; lia|]. cbn [p_lift pbind].
      unfold kk at 1. destruct (Nat.eqb_spec j (width p - 1)) as [Hlast|Hnot].
      + assert (Hx : x = nth j xs 0 + key).
        { replace (S j) with (width p) in E3 by lia. rewrite EF in E3.
          apply (f_equal (fun r => match r with Done (l, _) => nth j l 0 | Panic => 0 end)) in E3. cbv beta iota in E3.
          rewrite app_nth2, Hl1, Nat.sub_diag in E3 by lia. cbn [nth] in E3. rewrite <- E3, Hlast.
          apply (index_inv _ _ _ 0) in Ex as [_ Ex]. exact Ex. }
        eapply both_cost; [eapply both_try with (k2 := O) (r2 := O) (Q := fun v v' ps2 => v = v' /\ has_value ps2 v (apply_sbox sbox (nth j xs 0 + key)))|..].
        * eapply both_conseq; [apply sbox_both; [exact Sl|exact Hl]|]. intros a b ps2 Hg2 (v & -> & -> & Hv). exists v, v.
          do 3 (split; [reflexivity|]). exact Hv.
        * intros v v' ps2 vs2 Hg2 [<- Hv]. apply both_ret. do 2 eexists. split; [reflexivity|]. split; [reflexivity|]. cbn [fst snd].
          exists (ws ++ [nth j xs 0 + key]), (ws ++ [apply_sbox sbox (nth j xs 0 + key)]).
          split; [rewrite app_length; cbn; lia|]. split; [rewrite app_length; cbn; lia|].
          split; [apply rels_snoc; [apply lc_same_refl|apply lc_has_var; exact Hv|apply (rels_grew _ _ _ _ _ _ _ Hg2); exact Hr1]|].
          split; [reflexivity|]. split; [rewrite E3, <- app_assoc; reflexivity|]. split; [lia|]. intros _.
          rewrite <- Hlast, (set_nth_app' ws _ _ _ j Hl1), Hx. reflexivity.
        * lia.
        * lia.
      + apply both_ret. do 2 eexists. split; [reflexivity|]. split; [reflexivity|]. cbn [fst snd].
        exists (ws ++ [nth j xs 0 + key]), (ws ++ [nth j xs 0 + key]).
        split; [rewrite app_length; cbn; lia|]. split; [rewrite app_length; cbn; lia|].
        split; [apply rels_snoc; [apply lc_same_add; [exact Sl|apply lc_same_refl]|lch0|exact Hr1]|].
        split; [reflexivity|]. split; [rewrite E3, <- app_assoc; reflexivity|]. split; [reflexivity|lia].
    - intros _. exists [], []. repeat (split; [reflexivity|]). split; [apply rels_nil|]. split; [reflexivity|]. split; [reflexivity|]. split; [reflexivity|lia].
    - intros [outs o1] [outs' o1'] ps1 vs1 Hg (ws & ws' & Hl1 & Hl2 & Hr1 & Eo & Ej & _ & Hlast). cbn [fst snd] in *. subst o1'.
      rewrite seq_length in *. specialize (Hlast eq_refl). rewrite EF in Ej. rewrite (skipn_all2 xs), app_nil_r in Ej by lia.
      injection Ej as -> ->. rewrite Ey in Hlast. injection Hlast as ->.
      destruct (linear_layer_both ps1 outs outs' ws' zs Hl2 Hr1 EL) as (ls & ls' & -> & -> & Hr2). cbn [p_lift pbind].
      eapply both_bind with (k2 := O) (r2 := O); [apply simplify_all_both; exact Hr2|]. intros a b ps2 vs2 Hg2 Hr3. apply both_ret.
      do 2 eexists. split; [reflexivity|]. split; [reflexivity|]. split; [|split; [exact Hr3|split; reflexivity]].
      cbn [fst]. apply mapM_length in EL. rewrite seq_length in EL. exact EL. }
  all: rewrite ?seq_length; lia.
Qed.

Lemma rounds_both k (f : list F * nat -> nat -> outcome (list F * nat)) (g : list lc * nat -> nat -> pprog (result (list lc * nat)))
  (g' : list lc * nat -> nat -> vprog (result (list lc * nat))) n st st' nst nst' ps vs :
  (forall st st' nst nst' i ps vs, rounds_rel ps st st' nst -> f nst i = Done nst' ->
    both k 0 (g st i) (g' st' i) ps vs (fun a b ps' => exists s2 s2', a = Ok s2 /\ b = Ok s2' /\ rounds_rel ps' s2 s2' nst')) ->
  rounds_rel ps st st' nst -> foldM f (seq 0 n) nst = Done nst' ->
  both (n * k) 0 (p_try_fold g (seq 0 n) st) (p_try_fold g' (seq 0 n) st') ps vs
    (fun a b ps' => exists s2 s2', a = Ok s2 /\ b = Ok s2' /\ rounds_rel ps' s2 s2' nst').
Proof.
  intros Hf H0 E. eapply both_cost.
  { eapply both_conseq; [eapply (both_try_fold W W' ph k 0 _ _ (seq 0 n) (seq 0 n) ps vs st st'
      (fun j st st' ps' => exists nst1, rounds_rel ps' st st' nst1 /\ foldM f (seq 0 j) nst = Done nst1))|].
    - reflexivity.
    - intros j i i' s1 s1' ps1 vs1 Hi Hi' Hg (nst1 & Hr & Ej). apply nth_error_seq0 in Hi as [-> Hj]. apply nth_error_seq0 in Hi' as [-> _].
      destruct (foldM_seq_step _ _ _ _ j E Hj) as (n1 & n2 & E1 & E2 & E3). rewrite Ej in E1. injection E1 as <-.
      eapply both_conseq; [apply (Hf _ _ _ _ _ _ _ Hr E2)|]. intros a b ps2 Hg2 (s2 & s2' & -> & -> & Hr2).
      exists s2, s2'. repeat (split; [reflexivity|]). exists n2. auto.
    - intros _. exists nst. split; [exact H0|reflexivity].
    - cbv beta. intros a b ps1 Hg (s2 & s2' & -> & -> & n1 & Hr & E1). rewrite seq_length in E1. rewrite E in E1. injection E1 as <-.
      exists s2, s2'. auto. }
  all: rewrite seq_length; lia.
Qed.

(** multipliers of a permutation *)
Definition permutation_cost : nat :=
  (full_rounds_beginning p * (width p * c) + (partial_rounds p * c + full_rounds_end p * (width p * c)))%nat.

Lemma permutation_both ins ins' xs out ps vs : rels ps ins ins' xs -> Poseidon_permutation p sbox xs = Done out ->
  both permutation_cost 0 (Poseidon_permutation_constraints p sbox ins) (Poseidon_permutation_constraints p sbox ins') ps vs
    (fun a b ps' => exists o o', a = Ok o /\ b = Ok o' /\ rels ps' o o' out).
Proof.
  intros Hr E. destruct (rels_len _ _ _ _ Hr) as [L1 L2]. unfold Poseidon_permutation in E.
  destruct (Nat.eqb_spec (length xs) (width p)) as [HL|]; [|discriminate]. cbn [assertb obind] in E.
  destruct (foldM (full_round p sbox) (seq 0 (full_rounds_beginning p)) (xs, O)) as [n1|] eqn:E1; [|discriminate]. cbn [obind] in E.
  destruct (foldM (partial_round p sbox) (seq 0 (partial_rounds p)) n1) as [n2|] eqn:E2; [|discriminate]. cbn [obind] in E.
  destruct (foldM (full_round p sbox) (seq 0 (full_rounds_end p)) n2) as [[n3 o3]|] eqn:E3; [|discriminate]. injection E as ->.
  unfold Poseidon_permutation_constraints. rewrite L1, L2, HL, Nat.eqb_refl. cbn [assertb p_lift pbind].
  unfold permutation_cost. eapply both_cost.
  { eapply both_try.
    { eapply (rounds_both (width p * c)); [intros; eapply full_round_both; eassumption| |exact E1].
      split; [exact HL|]. split; [exact Hr|]. split; reflexivity. }
    intros s1 s1' ps1 vs1 Hg1 Hr1. eapply both_try.
    { eapply (rounds_both c); [intros; eapply partial_round_both; eassumption|exact Hr1|exact E2]. }
    intros s2 s2' ps2 vs2 Hg2 Hr2. eapply both_try with (k2 := O) (r2 := O).
    { eapply (rounds_both (width p * c)); [intros; eapply full_round_both; eassumption|exact Hr2|exact E3]. }
    intros [iv o] [iv' o'] ps3 vs3 Hg3 (_ & Hr3 & _). apply both_ret. cbn [fst] in Hr3. exists iv, iv'. auto. }
  all: lia.
Qed.

Lemma hash_2_both l l' r r' s s' x y ps vs out : lc_same l l' -> lc_same r r' -> lc_same s s' ->
  lc_has ps l x -> lc_has ps r y -> lc_has ps s 0 -> Poseidon_hash_2 p sbox x y = Done out ->
  both permutation_cost 0 (Poseidon_hash_2_constraints p sbox l r [s]) (Poseidon_hash_2_constraints p sbox l' r' [s']) ps vs
    (fun a b ps' => exists o o', a = Ok o /\ b = Ok o' /\ lc_same o o' /\ lc_has ps' o out).
Proof.
  intros Sl Sr Ss Hl Hr Hs E. unfold Poseidon_hash_2 in E. change (fe_of ZERO_CONST) with (0 : F) in E.
  destruct (Poseidon_permutation p sbox _) as [o|] eqn:EP; [|discriminate].
  assert (HL : width p = 3%nat).
  { unfold Poseidon_permutation in EP. cbn [length] in EP. destruct (Nat.eqb_spec 3 (width p)); [auto|discriminate]. }
  cbn [obind] in E. unfold Poseidon_hash_2_constraints. rewrite HL. cbn [length Nat.sub Nat.eqb assertb p_lift pbind index nth_error of_option app skipn].
  eapply both_cost; [eapply both_try with (k2 := O) (r2 := O)|..].
  - eapply permutation_both; [|exact EP]. apply rels_cons; [exact Ss|exact Hs|]. apply rels_cons; [exact Sl|exact Hl|].
    apply rels_cons; [exact Sr|exact Hr|apply rels_nil].
  - intros a b ps1 vs1 Hg H1. destruct (rels_index _ _ _ _ _ _ H1 E) as (m & m' & -> & -> & Sm & Hm). cbn [p_lift pbind].
    apply both_ret. exists m, m'. auto.
  - lia.
  - lia.
Qed.

Lemma hash_4_both ins ins' s s' xs ps vs out : rels ps ins ins' xs -> lc_same s s' -> lc_has ps s 0 ->
  Poseidon_hash_4 p sbox xs = Done out ->
  both permutation_cost 0 (Poseidon_hash_4_constraints p sbox ins [s]) (Poseidon_hash_4_constraints p sbox ins' [s']) ps vs
    (fun a b ps' => exists o o', a = Ok o /\ b = Ok o' /\ lc_same o o' /\ lc_has ps' o out).
Proof.
  intros Hi Ss Hs E. unfold Poseidon_hash_4 in E. change (fe_of ZERO_CONST) with (0 : F) in E.
  destruct (Nat.eqb_spec (length xs) 4) as [HL4|]; [|discriminate]. cbn [assertb obind] in E.
  destruct (Poseidon_permutation p sbox _) as [o|] eqn:EP; [|discriminate].
  assert (HL : width p = 5%nat).
  { unfold Poseidon_permutation in EP. cbn [length app] in EP. rewrite HL4 in EP. destruct (Nat.eqb_spec 5 (width p)); [auto|discriminate]. }
  destruct (rels_len _ _ _ _ Hi) as [L1 L2].
  cbn [obind] in E. unfold Poseidon_hash_4_constraints. rewrite HL, L1, L2, HL4.
  cbn [length Nat.sub Nat.eqb assertb p_lift pbind index nth_error of_option app skipn].
  eapply both_cost; [eapply both_try with (k2 := O) (r2 := O)|..].
  - eapply permutation_both; [|exact EP]. apply rels_cons; [exact Ss|exact Hs|]. rewrite !app_nil_r. exact Hi.
  - intros a b ps1 vs1 Hg H1. destruct (rels_index _ _ _ _ _ _ H1 E) as (m & m' & -> & -> & Sm & Hm). cbn [p_lift pbind].
    apply both_ret. exists m, m'. auto.
  - lia.
  - lia.
Qed.

Lemma hash_8_both ins ins' s s' xs ps vs out : rels ps ins ins' xs -> lc_same s s' -> lc_has ps s 0 ->
  Poseidon_hash_8 p sbox xs = Done out ->
  both permutation_cost 0 (Poseidon_hash_8_constraints p sbox ins s) (Poseidon_hash_8_constraints p sbox ins' s') ps vs
    (fun a b ps' => exists o o', a = Ok o /\ b = Ok o' /\ lc_same o o' /\ lc_has ps' o out).
Proof.
  intros Hi Ss Hs E. unfold Poseidon_hash_8 in E. change (fe_of ZERO_CONST) with (0 : F) in E.
  destruct (Nat.eqb_spec (length xs) 8) as [HL4|]; [|discriminate]. cbn [assertb obind] in E.
  destruct (Poseidon_permutation p sbox _) as [o|] eqn:EP; [|discriminate].
  destruct (rels_len _ _ _ _ Hi) as [L1 L2].
  cbn [obind] in E. unfold Poseidon_hash_8_constraints. rewrite L1, L2, HL4.
  cbn [Nat.eqb assertb p_lift pbind app].
  eapply both_cost; [eapply both_try with (k2 := O) (r2 := O)|..].
  - eapply permutation_both; [|exact EP]. apply rels_cons; [exact Ss|exact Hs|exact Hi].
  - intros a b ps1 vs1 Hg H1. destruct (rels_index _ _ _ _ _ _ H1 E) as (m & m' & -> & -> & Sm & Hm). cbn [p_lift pbind].
    apply both_ret. exists m, m'. auto.
  - lia.
  - lia.
Qed.
End Fixed.
End Complete.
