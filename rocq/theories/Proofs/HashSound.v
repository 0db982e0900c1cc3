(** The MiMC and Poseidon circuits: what they force. *)
From Coq Require Import ZArith String List Lia Bool Ring Field Arith.
From Verif.Base Require Import Outcome Fp Params Algebra.
From Verif.Model Require Import Transcript LinComb Prog VectorPoly IPP Prover Verifier Gadgets Hash.
From Verif.Spec Require Import R1CS Sim Session Protocol Verdict Gadget HashSpec.
From Verif.Proofs Require Import IPPProofs LinCombProofs RunProofs GadgetTools GadgetBasic GadgetPrograms HashTools.
Import ListNotations.

Section Sound.
Context {P : Params} {OK : ParamsOk P}.
Local Open Scope fe_scope.
Add Field FFhs : (Fp_field_theory modulus modulus_prime).
Context (W : world) (ph : bool) (asg : assignment).
Local Notation val := (var_value asg).
Local Notation lval := (lc_value asg).
Local Notation okspec := (okspec W ph asg).
Local Notation vspec := (vspec W ph asg).

(** *** MiMC *)
Lemma enforce_mimc_sound l r n constants s :
  okspec s (enforce_mimc_2_inputs l r n constants) (fun out s' => vkeep s s' /\
    mimc (lval l) (lval r) (firstn n constants) n = Done (lval out)).
Proof.
  unfold enforce_mimc_2_inputs.
  eapply ok_bind; [apply (vspec_fold W ph asg _ (fun j st s' => vkeep s s' /\ (j <= length constants)%nat /\
     foldM (mimc_loop constants) (seq 0 j) (lval l, lval r) = Done (lval (fst st), lval (snd st))))|].
  - intros j i [lv rv] s1 Hi (K & _ & E). apply nth_error_seq0 in Hi as [-> Hj].
    apply vspec_bind, vspec_lift. intros c Ec. destruct (index_inv _ _ _ 0 Ec) as [Hc _].
    apply vspec_bind, vspec_multiply. intros s2 vl vr vo K2 E1 _ E2.
    apply vspec_bind, vspec_multiply. intros s3 vl' vr' vo' K3 _ _ E3. apply vspec_ret.
    split; [eauto using vkeep_trans|]. split; [lia|]. rewrite foldM_seq_S, E. cbn [obind fst snd mimc_loop]. rewrite Ec. cbn [obind].
    lcv E1. lcv E2. lcv E3. rewrite lc_value_var_add, E3, E1, E2. do 2 f_equal. cbn [var_value]. ring.
  - split; [apply vkeep_refl|]. split; [lia|reflexivity].
  - rewrite seq_length. intros [lv rv] s1 (K & Hn & E). apply ok_ret. split; [exact K|].
    rewrite mimc_eq, firstn_length, Nat.min_l, Nat.eqb_refl by exact Hn.
    rewrite mimc_loop_firstn, E by lia. reflexivity.
Qed.

Lemma scalar_sound l x s (f : unit -> vprog (result unit)) Q :
  (forall s', vkeep s s' -> lval l = x -> okspec s' (f tt) Q) ->
  okspec s (pbind (constrain_lc_with_scalar l x) f) Q.
Proof.
  intros H. apply ok_constrain. intros s' K E. lcv E. apply sub_zero_eq in E. apply H; assumption.
Qed.

Lemma mimc_gadget_sound l r n constants image s :
  okspec s (mimc_gadget l r n constants image) (fun _ s' => vkeep s s' /\
    mimc (val (q_var l)) (val (q_var r)) (firstn n constants) n = Done image).
Proof.
  unfold mimc_gadget. eapply ok_try; [apply enforce_mimc_sound|]. intros out s1 [K1 E].
  apply scalar_sound. intros s2 K2 Eo. apply ok_ret. split; [eauto using vkeep_trans|].
  rewrite !lc_value_of_var in E. rewrite E, Eo. reflexivity.
Qed.

(** *** Poseidon *)
Context (p : poseidon_params) (sbox : sbox_type) (Hsbox : sbox <> Inverse).

Lemma sbox_sound x k s :
  okspec s (synthesize_sbox sbox x k) (fun out s' => vkeep s s' /\ val out = apply_sbox sbox (lval x + k)).
Proof.
  destruct sbox; [|contradiction|]; cbn [synthesize_sbox].
  - unfold synthesize_cube_sbox.
    apply ok_multiply. intros s1 i ? sqr K1 E1 _ E2. apply ok_multiply. intros s2 ? ? cube K2 _ _ E3.
    apply ok_ret. split; [eauto using vkeep_trans|]. lcv E1. lcv E2. lcv E3. rewrite E3, E1, E2. cbn. ring.
  - unfold synthesize_quint_sbox.
    apply ok_multiply. intros s1 i ? sqr K1 E1 _ E2. apply ok_multiply. intros s2 ? ? qr K2 _ _ E3.
    apply ok_multiply. intros s3 ? ? qi K3 _ _ E4.
    apply ok_ret. split; [eauto using vkeep_trans|]. lcv E1. lcv E2. lcv E3. lcv E4. rewrite E4, E3, E1, E2. cbn. ring.
Qed.

(** the linear layer commutes with taking values *)
Lemma linear_layer_sound outs ls : length outs = width p -> apply_linear_layer p outs = Done ls ->
  linear_layer p (map lval outs) = Done (map lval ls).
Proof.
  intros HL E. unfold apply_linear_layer in E. unfold linear_layer. rewrite HL in E.
  match goal with |- mapM ?g ?sq = _ =>
    assert (H : exists cs, mapM g sq = Done cs /\ Forall2 (fun (l : lc) (x : F) => x = lval l) ls cs) end.
  2:{ destruct H as (cs & Ec & Hcs). rewrite Ec. f_equal. apply forall2_map_eq in Hcs. exact Hcs. }
  eapply mapM_rel; [|exact E]. intros i l Hi El. cbv beta.
  eapply (foldM_rel (fun (l : lc) (x : F) => x = lval l)); [| |exact El]; [|reflexivity].
  intros acc y j acc' Hj -> Ea. cbv beta in Ea |- *. destruct (index (MDS_matrix p) j) as [row|] eqn:E1; [|discriminate].
  cbn [obind] in Ea. destruct (index row i) as [m|] eqn:E2; [|discriminate]. cbn [obind] in Ea.
  destruct (index outs j) as [o|] eqn:E3; [|discriminate]. cbn [obind] in Ea. injection Ea as <-.
  destruct (forall2_index _ _ _ _ _ (forall2_of_map lval outs) E3) as (b & -> & ->). cbn [obind]. rewrite ?E1. cbn [obind]. rewrite E2. cbn [obind].
  eexists. split; [reflexivity|]. rewrite lc_value_add, lc_value_fe_mul. ring.
Qed.

Lemma linear_layer_len outs ls : apply_linear_layer p outs = Done ls -> length ls = length outs.
Proof. intros E. apply mapM_length in E. rewrite seq_length in E. exact E. Qed.

Lemma full_sbox_layer_sound ins off s : length ins = width p ->
  okspec s (p_try_fold (full_sbox_constraints p sbox ins) (seq 0 (width p)) ([], off)) (fun st s' => vkeep s s' /\
    length (fst st) = width p /\
    foldM (full_sbox_step p sbox) (seq 0 (width p)) (map lval ins, off) = Done (map lval (fst st), snd st)).
Proof.
  intros HL. eapply ok_conseq; [apply (ok_try_fold W ph asg _ (fun j st s' => vkeep s s' /\
     length (fst st) = j /\ foldM (full_sbox_step p sbox) (seq 0 j) (map lval ins, off) =
       Done (map lval (fst st) ++ skipn j (map lval ins), snd st)))|].
  - intros j i [outs o] s1 Hi (K & Hl & E). apply nth_error_seq0 in Hi as [-> Hj]. cbn [fst snd] in *.
    unfold full_sbox_constraints. apply ok_lift. intros k Ek. apply ok_lift. intros x Ex.
    eapply ok_try; [apply sbox_sound|]. intros out s2 [K2 Ho]. apply ok_ret. cbn [fst snd].
    split; [eauto using vkeep_trans|]. split; [rewrite app_length; cbn; lia|].
    rewrite foldM_seq_S, E. cbn [obind]. unfold full_sbox_step.
    assert (Lm : length (map lval outs) = j) by (rewrite map_length; exact Hl).
    rewrite (skipn_nth_cons _ j 0) by (rewrite map_length; lia).
    rewrite (index_app' _ _ _ j Lm). cbn [obind]. rewrite Ek. cbn [obind].
    rewrite (set_nth_app' _ _ _ _ j Lm). cbn [obind]. rewrite map_app, <- app_assoc. cbn [map app].
    rewrite lc_value_of_var, Ho. do 5 f_equal.
    apply (index_inv _ _ _ x) in Ex as [_ ->]. rewrite (nth_indep _ 0 (lval x)) by (rewrite map_length; lia).
    rewrite map_nth; reflexivity.
  - split; [apply vkeep_refl|]. split; reflexivity.
  - rewrite seq_length. intros [outs o] s1 (K & Hl & E). split; [exact K|]. split; [exact Hl|]. rewrite E.
    rewrite (skipn_all2 (map lval ins)), app_nil_r by (rewrite map_length; lia). reflexivity.
Qed.

Lemma full_round_sound ins off i s : length ins = width p ->
  okspec s (full_round_constraints p sbox (ins, off) i) (fun st s' => vkeep s s' /\ length (fst st) = width p /\
    full_round p sbox (map lval ins, off) i = Done (map lval (fst st), snd st)).
Proof.
  intros HL. unfold full_round_constraints. eapply ok_try; [apply full_sbox_layer_sound; exact HL|].
  intros [outs o] s1 (K & Hl & E). cbn [fst snd] in *. apply ok_lift. intros ls El. apply ok_ret. split; [exact K|].
  cbn [fst snd]. split; [rewrite (linear_layer_len _ _ El); exact Hl|].
  unfold full_round. rewrite E. cbn [obind]. rewrite (linear_layer_sound _ _ Hl El). reflexivity.
Qed.

Lemma simplify_all_sound ls s : vspec s (p_fold (fun input_vars l => pbind (p_simplify l) (fun l => PRet (input_vars ++ [l]))) ls [])
  (fun out s' => vkeep s s' /\ length out = length ls /\ map lval out = map lval ls).
Proof.
  eapply vspec_conseq; [apply (vspec_fold W ph asg _ (fun j out s' => vkeep s s' /\ length out = j /\ map lval out = map lval (firstn j ls)))|].
  - intros j l out s1 Hl (K & Hlen & E). apply vspec_bind. intros m s2 Em Hs. unfold p_simplify in Em. cbn in Em. injection Em as <- <-.
    apply vspec_ret. split; [eapply vkeep_trans; [exact K|split; reflexivity]|].
    assert (Hj : (j < length ls)%nat) by (apply nth_error_Some; congruence).
    split; [rewrite app_length; cbn; lia|]. rewrite (firstn_S_nth ls j l) by exact Hj. rewrite !map_app, E. f_equal. cbn [map]. apply (f_equal (fun z => [z])).
    rewrite (nth_error_nth _ _ _ Hl). rewrite <- (lc_accumulate_value asg l). symmetry. apply lc_value_perm. apply permute_perm.
  - split; [apply vkeep_refl|]. split; reflexivity.
  - intros out s1 (K & Hl & E). rewrite firstn_all in E. auto.
Qed.

Lemma partial_sbox_layer_sound ins off s : length ins = width p -> (0 < width p)%nat ->
  okspec s (p_try_fold (partial_sbox_constraints p sbox ins) (seq 0 (width p)) ([], off)) (fun st s' => vkeep s s' /\
    length (fst st) = width p /\ exists xs x, length xs = (width p - 1)%nat /\
    foldM (add_key_step p) (seq 0 (width p)) (map lval ins, off) = Done (xs ++ [x], snd st) /\
    map lval (fst st) = xs ++ [apply_sbox sbox x]).
Proof.
  intros HL Hw. eapply ok_conseq; [apply (ok_try_fold W ph asg _ (fun j st s' => vkeep s s' /\
     length (fst st) = j /\ exists ys, foldM (add_key_step p) (seq 0 j) (map lval ins, off) =
       Done (ys ++ skipn j (map lval ins), snd st) /\
     ((j < width p)%nat -> map lval (fst st) = ys) /\
     (j = width p -> exists xs x, length xs = (width p - 1)%nat /\ ys = xs ++ [x] /\ map lval (fst st) = xs ++ [apply_sbox sbox x])))|].
  - intros j i [outs o] s1 Hi (K & Hl & ys & E & Hlt & _). apply nth_error_seq0 in Hi as [-> Hj]. cbn [fst snd] in *.
    specialize (Hlt Hj). subst ys.
    assert (Lm : length (map lval outs) = j) by (rewrite map_length; exact Hl).
    unfold partial_sbox_constraints. apply ok_lift. intros k Ek. apply ok_lift. intros x Ex.
    assert (Hx : nth j (map lval ins) 0 = lval x).
    { apply (index_inv _ _ _ x) in Ex as [_ ->]. rewrite (nth_indep _ 0 (lval x)) by (rewrite map_length; lia). apply map_nth. }
    assert (E' : foldM (add_key_step p) (seq 0 (S j)) (map lval ins, off) =
       Done ((map lval outs ++ [lval x + k]) ++ skipn (S j) (map lval ins), S o)).
    { rewrite foldM_seq_S, E. cbn [obind]. unfold add_key_step.
      rewrite (skipn_nth_cons _ j 0) by (rewrite map_length; lia).
      rewrite (index_app' _ _ _ j Lm). cbn [obind]. rewrite Ek. cbn [obind].
      rewrite (set_nth_app' _ _ _ _ j Lm). cbn [obind]. rewrite <- app_assoc, Hx. reflexivity. }
    destruct (Nat.eqb_spec j (width p - 1)) as [Hlast|Hnot].
    + eapply ok_try; [apply sbox_sound|]. intros out s2 [K2 Ho]. apply ok_ret. cbn [fst snd].
      split; [eauto using vkeep_trans|]. split; [rewrite app_length; cbn; lia|].
      eexists. split; [exact E'|]. split; [lia|]. intros _. exists (map lval outs), (lval x + k).
      split; [lia|]. split; [reflexivity|]. rewrite map_app. cbn [map]. rewrite lc_value_of_var, Ho. reflexivity.
    + apply ok_ret. cbn [fst snd]. split; [exact K|]. split; [rewrite app_length; cbn; lia|].
      eexists. split; [exact E'|]. split; [|lia]. intros _. rewrite map_app. cbn [map]. rewrite lc_value_add, lc_value_of_fe. reflexivity.
  - split; [apply vkeep_refl|]. split; [reflexivity|]. exists []. split; [reflexivity|]. split; [reflexivity|lia].
  - rewrite seq_length. intros [outs o] s1 (K & Hl & ys & E & _ & H). destruct (H eq_refl) as (xs & x & Hxs & -> & Eo).
    split; [exact K|]. split; [exact Hl|]. exists xs, x. split; [exact Hxs|]. split; [|exact Eo].
    rewrite E, (skipn_all2 (map lval ins)), app_nil_r by (rewrite map_length; lia). reflexivity.
Qed.

Lemma partial_round_sound ins off i s : length ins = width p -> (0 < width p)%nat ->
  okspec s (partial_round_constraints p sbox (ins, off) i) (fun st s' => vkeep s s' /\ length (fst st) = width p /\
    partial_round p sbox (map lval ins, off) i = Done (map lval (fst st), snd st)).
Proof.
  intros HL Hw. unfold partial_round_constraints. eapply ok_try; [apply partial_sbox_layer_sound; assumption|].
  intros [outs o] s1 (K & Hl & xs & x & Hxs & E & Eo). cbn [fst snd] in *. apply ok_lift. intros ls El.
  eapply ok_bind; [apply simplify_all_sound|]. intros out s2 (K2 & Hl2 & E2). apply ok_ret. split; [eauto using vkeep_trans|].
  cbn [fst snd]. split; [rewrite Hl2, (linear_layer_len _ _ El); exact Hl|].
  unfold partial_round. rewrite E. cbn [obind]. rewrite (index_app' xs _ _ _ Hxs). cbn [obind].
  rewrite (set_nth_app' xs _ _ _ _ Hxs). cbn [obind]. rewrite <- Eo, (linear_layer_sound _ _ Hl El), E2. reflexivity.
Qed.

Lemma rounds_sound (f : list F * nat -> nat -> outcome (list F * nat)) (g : list lc * nat -> nat -> vprog (result (list lc * nat)))
  n ins off s :
  (forall ins off i s, length ins = width p -> okspec s (g (ins, off) i) (fun st s' => vkeep s s' /\ length (fst st) = width p /\
     f (map lval ins, off) i = Done (map lval (fst st), snd st))) ->
  length ins = width p ->
  okspec s (p_try_fold g (seq 0 n) (ins, off)) (fun st s' => vkeep s s' /\ length (fst st) = width p /\
    foldM f (seq 0 n) (map lval ins, off) = Done (map lval (fst st), snd st)).
Proof.
  intros Hg HL. eapply ok_conseq; [apply (ok_try_fold W ph asg _ (fun j st s' => vkeep s s' /\ length (fst st) = width p /\
     foldM f (seq 0 j) (map lval ins, off) = Done (map lval (fst st), snd st)))|].
  - intros j i [l o] s1 Hi (K & Hl & E). apply nth_error_seq0 in Hi as [-> _]. cbn [fst snd] in *.
    eapply ok_conseq; [apply Hg; exact Hl|]. intros [l2 o2] s2 (K2 & Hl2 & E2). cbn [fst snd] in *.
    split; [eauto using vkeep_trans|]. split; [exact Hl2|]. rewrite foldM_seq_S, E. exact E2.
  - split; [apply vkeep_refl|]. split; [exact HL|reflexivity].
  - rewrite seq_length. auto.
Qed.

Lemma permutation_sound ins s : (0 < length ins)%nat \/ partial_rounds p = O ->
  okspec s (Poseidon_permutation_constraints p sbox ins) (fun out s' => vkeep s s' /\ length out = width p /\
    Poseidon_permutation p sbox (map lval ins) = Done (map lval out)).
Proof.
  intros Hw. unfold Poseidon_permutation_constraints. apply ok_lift. intros [] Ea.
  assert (HL : length ins = width p). { unfold assertb in Ea. destruct (Nat.eqb_spec (length ins) (width p)); [assumption|discriminate]. }
  rewrite HL in Hw.
  eapply ok_try; [apply (rounds_sound (full_round p sbox)); [intros; apply full_round_sound; assumption|exact HL]|].
  intros [l1 o1] s1 (K1 & L1 & E1). cbn [fst snd] in *.
  eapply ok_try.
  { instantiate (1 := fun st s' => vkeep s1 s' /\ length (fst st) = width p /\
      foldM (partial_round p sbox) (seq 0 (partial_rounds p)) (map lval l1, o1) = Done (map lval (fst st), snd st)).
    destruct Hw as [Hw|Hz].
    - apply (rounds_sound (partial_round p sbox)); [intros; apply partial_round_sound; assumption|exact L1].
    - rewrite Hz. cbn [seq p_try_fold foldM]. apply ok_ret. split; [apply vkeep_refl|]. auto. }
  intros [l2 o2] s2 (K2 & L2 & E2). cbn [fst snd] in *.
  eapply ok_try; [apply (rounds_sound (full_round p sbox)); [intros; apply full_round_sound; assumption|exact L2]|].
  intros [l3 o3] s3 (K3 & L3 & E3). cbn [fst snd] in *. apply ok_ret. split; [eauto using vkeep_trans|]. split; [exact L3|].
  unfold Poseidon_permutation. rewrite map_length, HL, Nat.eqb_refl. cbn [assertb obind]. rewrite E1. cbn [obind]. rewrite E2. cbn [obind].
  rewrite E3. reflexivity.
Qed.

Lemma hash_2_sound xl xr statics s :
  okspec s (Poseidon_hash_2_constraints p sbox xl xr statics) (fun out s' => vkeep s s' /\ exists s0 rest,
    statics = s0 :: rest /\ length statics = (width p - 2)%nat /\
    obind (Poseidon_permutation p sbox ([lval s0; lval xl; lval xr] ++ map lval rest)) (fun o => index o 1) = Done (lval out)).
Proof.
  unfold Poseidon_hash_2_constraints. apply ok_lift. intros [] Ea. apply ok_lift. intros s0 E0.
  assert (HL : length statics = (width p - 2)%nat). { unfold assertb in Ea. destruct (Nat.eqb_spec (length statics) (width p - 2)); [assumption|discriminate]. }
  destruct statics as [|s0' rest]; [discriminate|]. injection E0 as ->.
  eapply ok_try; [apply permutation_sound; left; cbn; lia|]. intros out s1 (K & L & E). apply ok_lift. intros o Eo. apply ok_ret.
  split; [exact K|]. exists s0, rest. split; [reflexivity|]. split; [exact HL|].
  cbn [app skipn map] in E |- *. rewrite E. cbn [obind].
  destruct (forall2_index _ _ _ _ _ (forall2_of_map lval out) Eo) as (b & -> & ->). reflexivity.
Qed.

Lemma hash_4_sound ins statics s :
  okspec s (Poseidon_hash_4_constraints p sbox ins statics) (fun out s' => vkeep s s' /\ length ins = 4%nat /\ exists s0 rest,
    statics = s0 :: rest /\ length statics = (width p - 4)%nat /\
    obind (Poseidon_permutation p sbox (lval s0 :: map lval ins ++ map lval rest)) (fun o => index o 1) = Done (lval out)).
Proof.
  unfold Poseidon_hash_4_constraints. apply ok_lift. intros [] Ea1. apply ok_lift. intros [] Ea. apply ok_lift. intros s0 E0.
  assert (HL1 : length ins = 4%nat). { unfold assertb in Ea1. destruct (Nat.eqb_spec (length ins) 4); [assumption|discriminate]. }
  assert (HL : length statics = (width p - 4)%nat). { unfold assertb in Ea. destruct (Nat.eqb_spec (length statics) (width p - 4)); [assumption|discriminate]. }
  destruct statics as [|s0' rest]; [discriminate|]. injection E0 as ->.
  eapply ok_try; [apply permutation_sound; left; cbn; lia|]. intros out s1 (K & L & E). apply ok_lift. intros o Eo. apply ok_ret.
  split; [exact K|]. split; [exact HL1|]. exists s0, rest. split; [reflexivity|]. split; [exact HL|].
  cbn [app skipn map] in E |- *. rewrite map_app in E. rewrite E. cbn [obind].
  destruct (forall2_index _ _ _ _ _ (forall2_of_map lval out) Eo) as (b & -> & ->). reflexivity.
Qed.

Lemma hash_8_sound ins zero s :
  okspec s (Poseidon_hash_8_constraints p sbox ins zero) (fun out s' => vkeep s s' /\ length ins = 8%nat /\
    obind (Poseidon_permutation p sbox (lval zero :: map lval ins)) (fun o => index o 1) = Done (lval out)).
Proof.
  unfold Poseidon_hash_8_constraints. apply ok_lift. intros [] Ea1.
  assert (HL1 : length ins = 8%nat). { unfold assertb in Ea1. destruct (Nat.eqb_spec (length ins) 8); [assumption|discriminate]. }
  eapply ok_try; [apply permutation_sound; left; cbn; lia|]. intros out s1 (K & L & E). apply ok_lift. intros o Eo. apply ok_ret.
  split; [exact K|]. split; [exact HL1|]. cbn [map app] in E. rewrite E. cbn [obind].
  destruct (forall2_index _ _ _ _ _ (forall2_of_map lval out) Eo) as (b & -> & ->). reflexivity.
Qed.
End Sound.
