(** Honest provers can answer all challenges: for every gadget there are trees of
    accepted proofs. *)
From Coq Require Import ZArith String List Lia Bool Ring Field Arith.
From Verif.Base Require Import Outcome Fp Params Algebra.
From Verif.Model Require Import Transcript LinComb Prog IPP Prover Verifier Gadgets Hash Merkle MerkleGadget Randomizer.
From Verif.Spec Require Import R1CS Session Protocol Gadget IPPSpec R1CSTree HashSpec MerkleSpec OpeningSpec RandomizerSpec Knowledge.
From Verif.Proofs Require Import LinCombProofs RunProofs ExtProofs FlattenProofs VerifyProofs CircuitProofs SyncMore CircuitMain
  GadgetTools GadgetPrograms GadgetMain
  HashTools HashSound HashComplete HashPrograms HashMain MerkleTools MerkleTree MerkleBind MerkleMain MerkleSound MerkleComplete MerkleOpen
  RandomizerMap RandomizerSound RandomizerComplete RandomizerMain HonestTree TreeCheck R1CSExtract.
Import ListNotations.

Section AnswerMain.
Context {P : Params} {OK : ParamsOk P}.
Local Open Scope fe_scope.
Add Field FFans : (Fp_field_theory modulus modulus_prime).

Lemma list_two (l : list F) : length l = 2%nat -> exists a b, l = [a; b].
Proof. destruct l as [|a [|b [|? ?]]]; try discriminate. eauto. Qed.
Lemma list_four (l : list F) : length l = 4%nat -> exists a b c d, l = [a; b; c; d].
Proof. destruct l as [|a [|b [|c [|d [|? ?]]]]]; try discriminate. eauto 8. Qed.

Lemma both_answers {A} W W' label g h (pp : pprog (result A)) vp (good : A -> Prop) k r comms :
  both W W' false k r pp (vp comms) (prover_new g h (transcript_new label)) (verifier_new (transcript_new label))
    (fun a b _ => a = Ok comms /\ b = Ok tt) ->
  good comms -> answers W W' label g h pp vp good.
Proof.
  intros Hb Hgood. set (t := transcript_new label) in *.
  destruct Hb as (a & s & b & vs & Ep & Ev & Hg & Hh & Hs & Hd & -> & ->);
    [intros l []|apply sync_base_new|].
  exists comms, s, vs. split; [exact Ep|]. split; [exact Hgood|]. split; [exact Ev|]. cbv zeta.
  intros G H j ys zs us xs ws cs HN HG HH ((Ly & Lz & Lu & Lx & Lw & Lc) & (Dy & Dz & Du & Dx & Dw & Dc) & Hnz).
  destruct (list_two ws Lw) as (w1 & w2 & ->). destruct (list_four cs Lc) as (c1 & c2 & c3 & c4 & ->).
  rewrite !Forall_app in Hnz. destruct Hnz as (Ny & Nu & Nw & Nc). cbn [map] in Dc.
  assert (Hc : forall c, In c [c1; c2; c3; c4] -> c <> 0) by (apply Forall_forall; exact Nc).
  assert (Hw : forall c, In c [w1; w2] -> c <> 0) by (apply Forall_forall; exact Nw).
  assert (Hw12 : w1 <> w2). { intros ->. inversion Dw as [|? ? Hn _]. apply Hn. left. reflexivity. }
  pose proof (sy_wf _ _ Hs) as Hwf. pose proof (sy_num_vars _ _ Hs) as En.
  pose proof (px_g _ _ (gr_ext _ _ _ _ Hg)) as Eg. pose proof (px_h _ _ (gr_ext _ _ _ _ Hg)) as Eh.
  cbn [p_g p_h prover_new] in Eg, Eh.
  assert (Hsame : Forall2 lc_same (p_constraints s) (v_constraints vs)) by exact (sy_constraints _ _ Hs).
  exists (honest_first h G H (v_num_vars vs) j (p_aL s) (p_aR s) (p_aO s) [] [] []).
  exists (honest_tree g h G H (v_num_vars vs) (v_num_vars vs) j (v_constraints vs) (p_v s) (p_v_blinding s)
            (p_aL s) (p_aR s) (p_aO s) [] [] [] [] (c1, c2, c3, c4) ys zs us xs w1 w2).
  rewrite HN in *.
  split; [|split; [|split]].
  - apply honest_tree_wf; try assumption; first [apply Hc; cbn [In]; tauto|apply Hw; cbn [In]; tauto].
  - rewrite (sy_V _ _ Hs). rewrite Eg, Eh. rewrite En in *.
    apply (honest_tree_accepted g h G H _ _ j (v_constraints vs) (p_v s) (p_v_blinding s));
      try assumption; try reflexivity; try (apply Hc; cbn [In]; tauto).
    + exact (pwf_vb _ Hwf).
    + exact (pwf_aR _ Hwf).
    + exact (pwf_aO _ Hwf).
    + eapply in_range_same_all; [exact Hsame|]. apply Forall_forall. intros l Hl. exact (lc_has_in_range s l 0 (Hh l Hl)).
    + split; [intros i Hi; exact (pwf_gate _ Hwf i Hi)|]. intros l' Hl.
      destruct (Forall2_in_r _ _ _ _ Hsame Hl) as (l & Hin & He & _).
      rewrite <- (lc_equiv_value _ l l' He). exact (proj2 (Hh l Hin)).
  - unfold honest_tree. rewrite map_map. cbn [y_chal]. apply map_id.
  - apply Forall_forall. intros yn Hy. apply in_map_iff in Hy as (y & <- & _). cbn [y_zs].
    rewrite map_map. cbn [z_chal honest_z]. apply map_id.
Qed.

(** *** the gadgets *)
Section Gadgets.
Context (W W' : world) (label : list Z) (g h : G1).

Lemma bounded_num_answers checks val randomness rng lower upper n :
  randomness <> None \/ rng = true -> (lower <= val <= upper)%Z ->
  (val - lower < 2 ^ Z.of_nat n)%Z -> (upper - val < 2 ^ Z.of_nat n)%Z ->
  answers W W' label g h (prove_bounded_num checks val randomness lower upper n rng) (verify_bounded_num checks lower upper n)
    (fun comms => nth_error comms 0 = Some (commit g h (fe_of val) (blinding W randomness 0))).
Proof. intros Hr Hv Ha Hb. eapply both_answers; [apply both_bounded_num; eassumption|reflexivity]. Qed.

Lemma non_zero_answers value randomness rng :
  randomness <> None \/ rng = true -> value <> 0 ->
  answers W W' label g h (prove_non_zero_val value randomness rng) verify_non_zero_val
    (fun comms => nth_error comms 0 = Some (commit g h value (blinding W randomness 0))).
Proof. intros Hr Hv. eapply both_answers; [apply both_non_zero_val; eassumption|reflexivity]. Qed.

Lemma set_membership_answers value randomness set rng :
  randomness <> None \/ rng = true -> In value set ->
  answers W W' label g h (prove_set_membership value randomness set rng) (verify_set_membership set)
    (fun comms => nth_error comms 0 = Some (commit g h value (blinding W randomness 0))).
Proof. intros Hr Hv. eapply both_answers; [apply both_set_membership; eassumption|reflexivity]. Qed.

Lemma set_membership_alt_answers value randomness set rng :
  randomness <> None \/ rng = true -> count_occ Z.eq_dec set value = 1%nat ->
  answers W W' label g h (prove_set_membership_alt value randomness set rng) (verify_set_membership_alt set)
    (fun comms => nth_error comms (length set) = Some (commit g h (fe_of value) (blinding W randomness (length set)))).
Proof.
  intros Hr Hv. eapply both_answers; [apply both_set_membership_alt; eassumption|].
  cbv beta zeta. rewrite nth_error_app2; unfold alt_bit_comms; rewrite !map_length, seq_length, ?map_length; [|lia].
  rewrite Nat.sub_diag. reflexivity.
Qed.

Lemma non_membership_answers value randomness set rng :
  randomness <> None \/ rng = true -> ~ In value set ->
  answers W W' label g h (prove_set_non_membership value randomness set rng) (verify_set_non_membership set)
    (fun comms => nth_error comms 0 = Some (commit g h value (blinding W randomness 0))).
Proof. intros Hr Hv. eapply both_answers; [apply both_non_membership; eassumption|reflexivity]. Qed.

Lemma mimc_answers x y randomness rng constants n :
  blindings_given randomness rng 2 -> (n <= length constants)%nat ->
  let image := mimc_value (firstn n constants) x y in
  answers W W' label g h (prove_mimc_preimage [x; y] randomness image constants n rng)
    (verify_mimc_preimage image constants n) (fun comms => comms = commit_all g h [x; y] (blindings W randomness 2)).
Proof.
  intros Hb Hn image.
  eapply both_answers; [apply (both_mimc_preimage W W' [x; y] randomness rng image n constants _ _ Hb)|reflexivity].
  exists x, y. split; [reflexivity|]. apply mimc_firstn'. exact Hn.
Qed.

Context (p : poseidon_params) (sbox : sbox_type) (Hp : params_ok p) (Hsbox : sbox <> Inverse).
Lemma hash_2_answers x y randomness rng :
  width p = 3%nat -> blindings_given randomness rng 2 ->
  let output := hash_value p sbox [x; y] in
  answers W W' label g h (prove_Poseidon_2 [x; y] randomness output p sbox rng)
    (verify_Poseidon_2 output p sbox g h) (fun comms => comms = commit_all g h [x; y] (blindings W randomness 2)).
Proof.
  intros Hw Hb output.
  eapply (both_answers W W' label g h _ (verify_Poseidon_2 output p sbox g h));
    [apply (both_Poseidon_2 W W' p sbox Hsbox [x; y] randomness rng output (prover_new g h (transcript_new label))
              (verifier_new (transcript_new label)) Hb)|reflexivity].
  exists x, y. split; [reflexivity|]. apply hash_2_native; assumption.
Qed.
Lemma hash_4_answers xs randomness rng :
  width p = 5%nat -> length xs = 4%nat -> blindings_given randomness rng 4 ->
  let output := hash_value p sbox xs in
  answers W W' label g h (prove_Poseidon_4 xs randomness output p sbox rng)
    (verify_Poseidon_4 output p sbox g h) (fun comms => comms = commit_all g h xs (blindings W randomness 4)).
Proof.
  intros Hw Hl Hb output.
  eapply (both_answers W W' label g h _ (verify_Poseidon_4 output p sbox g h));
    [apply (both_Poseidon_4 W W' p sbox Hsbox xs randomness rng output (prover_new g h (transcript_new label))
              (verifier_new (transcript_new label)) Hb Hl)|reflexivity].
  apply hash_4_native; assumption.
Qed.
Lemma hash_8_answers xs randomness rng :
  width p = 9%nat -> length xs = 8%nat -> blindings_given randomness rng 8 ->
  let output := hash_value p sbox xs in
  answers W W' label g h (prove_Poseidon_8 xs randomness output p sbox rng)
    (verify_Poseidon_8 output p sbox g h) (fun comms => comms = commit_all g h xs (blindings W randomness 8)).
Proof.
  intros Hw Hl Hb output.
  eapply (both_answers W W' label g h _ (verify_Poseidon_8 output p sbox g h));
    [apply (both_Poseidon_8 W W' p sbox Hsbox xs randomness rng output (prover_new g h (transcript_new label))
              (verifier_new (transcript_new label)) Hb Hl)|reflexivity].
  apply hash_8_native; assumption.
Qed.

Lemma leaf_4_answers leaf idx randomness rng proof depth :
  width p = 5%nat -> blindings_given randomness rng 2 ->
  Forall (fun s => length s = 3%nat) proof -> (length proof <= depth)%nat -> (depth * 2 <= 8 * modbytes)%nat ->
  (fval idx < 4 ^ Z.of_nat (length proof))%Z ->
  let root := climbed 4 (hash_value p sbox) (fval idx) leaf proof in
  answers W W' label g h (prove_leaf_inclusion_4_ary_merkle_tree leaf idx randomness proof root depth p sbox rng)
    (verify_leaf_inclusion_4_ary_merkle_tree root depth p sbox g h)
    (fun comms => firstn 2 comms = commit_all g h [leaf; idx] (blindings W randomness 2) /\ length comms = (2 + length (concat proof))%nat).
Proof.
  intros Hw Hb Ht Hd Hm Hi root.
  eapply (both_answers W W' label g h _ (verify_leaf_inclusion_4_ary_merkle_tree root depth p sbox g h));
    [apply (both_leaf_inclusion_4 W W' p sbox leaf idx randomness rng proof root depth (prover_new g h (transcript_new label))
              (verifier_new (transcript_new label)) Hp Hsbox Hw Hb Ht Hd Hm Hi eq_refl)|].
  pose proof (rands_length W randomness rng O 2 Hb) as Hr. cbn [p_nrand prover_new].
  change (blindings W randomness 2) with (rands_of W randomness 0 2). unfold opening_blindings.
  destruct (list_2 _ Hr) as (r1 & r2 & ->). cbn [app commit_all combine map firstn length p_g p_h prover_new]. split; [reflexivity|].
  rewrite map_length, combine_length, map_length, seq_length. lia.
Qed.
Lemma leaf_8_answers leaf idx randomness rng proof depth :
  width p = 9%nat -> blindings_given randomness rng 2 ->
  Forall (fun s => length s = 7%nat) proof -> (length proof <= depth)%nat -> (depth * 3 <= 8 * modbytes)%nat ->
  (fval idx < 8 ^ Z.of_nat (length proof))%Z ->
  let root := climbed 8 (hash_value p sbox) (fval idx) leaf proof in
  answers W W' label g h (prove_leaf_inclusion_8_ary_merkle_tree leaf idx randomness proof root depth p sbox rng)
    (verify_leaf_inclusion_8_ary_merkle_tree root depth p sbox g h)
    (fun comms => firstn 2 comms = commit_all g h [leaf; idx] (blindings W randomness 2) /\ length comms = (2 + length (concat proof))%nat).
Proof.
  intros Hw Hb Ht Hd Hm Hi root.
  eapply (both_answers W W' label g h _ (verify_leaf_inclusion_8_ary_merkle_tree root depth p sbox g h));
    [apply (both_leaf_inclusion_8 W W' p sbox leaf idx randomness rng proof root depth (prover_new g h (transcript_new label))
              (verifier_new (transcript_new label)) Hp Hsbox Hw Hb Ht Hd Hm Hi eq_refl)|].
  pose proof (rands_length W randomness rng O 2 Hb) as Hr. cbn [p_nrand prover_new].
  change (blindings W randomness 2) with (rands_of W randomness 0 2). unfold opening_blindings.
  destruct (list_2 _ Hr) as (r1 & r2 & ->). cbn [app commit_all combine map firstn length p_g p_h prover_new]. split; [reflexivity|].
  rewrite map_length, combine_length, map_length, seq_length. lia.
Qed.

Context {ENC : EncodingOk P}.
Theorem randomizer_answers d db0 us t db db0' us' t' db' indices :
  width p = 5%nat -> (d * 2 <= 8 * modbytes)%nat -> (0 < d)%nat ->
  let Hash := hash_value p Quint in
  let history := history (tree_4_new p) (tree_4_update p) in
  history d db0 us t db -> collision_free 4 Hash d us -> history d db0' us' t' db' -> collision_free 4 Hash d us' ->
  same_but_at d indices (after 4 d us) (after 4 d us') ->
  let original := map (fun idx => after 4 d us (leaf 4 d idx)) indices in
  answers W W' label g h (prove_randomizer t db t' db' indices original d p Quint)
    (verify_randomizer t' db' indices d p Quint g h)
    (fun comms => exists blindings, length blindings = length comms /\
       comms = commit_all g h (root t :: flat_map (fun idx => after 4 d us (leaf 4 d idx) ::
                                 concat (siblings 4 Hash (after 4 d us) d (leaf 4 d idx))) indices) blindings).
Proof.
  intros Hw Hd Hd0 Hash hist Hh Hc Hh' Hc' Hsame original.
  destruct (built p Hp Hw d Hd _ _ _ _ Hh Hc) as [Ht Hdb]. destruct (built p Hp Hw d Hd _ _ _ _ Hh' Hc') as [Ht' Hdb'].
  eapply (both_answers W W' label g h _ (verify_randomizer t' db' indices d p Quint g h));
    [apply (randomizer_both W W' p Hp Hw d Hd Hd0 (after 4 d us) t db Ht (built_get p Hp Hw d Hd _ _ _ _ Hh Hc) indices us' t' db' Ht' Hdb' Hsame
       (prover_new g h (transcript_new label)) (verifier_new (transcript_new label)))|].
  cbn [p_g p_h p_nrand prover_new]. eexists. apply and_comm. split; [rewrite Ht; reflexivity|].
  unfold commit_all. rewrite (map_length _ (combine _ _)), combine_length, map_length, seq_length. lia.
Qed.
End Gadgets.
End AnswerMain.
