(** The sizes of the gadgets that open Merkle trees. *)
From Coq Require Import ZArith String List Lia Arith.
From Verif.Base Require Import Outcome Fp Params Algebra.
From Verif.Model Require Import Transcript LinComb Prog IPP Prover Verifier Gadgets Hash Merkle MerkleGadget Randomizer.
From Verif.Spec Require Import CircuitSize.
From Verif.Proofs Require Import SizeTools SizeGadgets.
Import ListNotations.
Local Open Scope nat_scope.
Local Notation length := List.length.

Section Merkle.
Context {P : Params}.
Section Generic.
Context {CA CR : Type}.
Local Notation pg := (prog CA CR).
Local Notation any := (fun _ => True).

Lemma takesR_never {A} (m : pg (result A)) g r g' r' (R : A -> Prop) : takesR m g r (fun _ => False) -> takesR m g' r' R.
Proof. intros H k c. eapply cost_mono; [|apply H]. intros x k' c' Hx a Ea. destruct (Hx a Ea) as (_ & _ & []). Qed.

Lemma size_pop nodes : takes (pop_node nodes : pg _) 0 0 (fun x => S (length (fst x)) = length nodes).
Proof.
  unfold pop_node. change (takes (pbind (p_lift (vec_pop nodes)) (fun '(n, v) => PRet (n, lc_of_var v)) : pg _) (0 + 0) (0 + 0)
    (fun x => S (length (fst x)) = length nodes)).
  eapply takes_bind; [apply takes_lift|]. intros [n v] E. apply takes_ret. cbn.
  unfold vec_pop in E. destruct (rev nodes) as [|x t] eqn:Er; [discriminate|]. injection E as <- <-.
  rewrite rev_length. rewrite <- (rev_length nodes), Er. reflexivity.
Qed.

Lemma size_bit_constraints a : takesR (bit_constraints a : pg _) 2 2 any.
Proof. unfold bit_constraints. size_of; reflexivity. Qed.
Lemma size_children_4 b0 b0_1 b1 b1_1 N N1 N2 N3 : takes (children_4 b0 b0_1 b1 b1_1 N N1 N2 N3 : pg _) 22 22 any.
Proof. unfold children_4. size_of; reflexivity. Qed.
Lemma size_children_8 b0 b0_1 b1 b1_1 b2 b2_1 N N1 N2 N3 N4 N5 N6 N7 :
  takes (children_8 b0 b0_1 b1 b1_1 b2 b2_1 N N1 N2 N3 N4 N5 N6 N7 : pg _) 62 62 any.
Proof. unfold children_8. size_of; reflexivity. Qed.
Hint Resolve size_bit_constraints size_children_4 size_children_8 : size.

Ltac pop n E := eapply takes_bindR; [apply size_pop|intros [n ?] E; cbn [fst] in E].

Section Gadget.
Context (p : poseidon_params) (sbox : sbox_type).
Definition nodes_of (st : level_state) : list var := snd st.

(** levels: with [a] siblings each, as long as there are siblings *)
Section Levels.
Context {X : Type} (f : level_state -> X -> pg (result level_state)) (a g r : nat).
Hypothesis Ha : 0 < a.
Hypothesis f_stop : forall st x, nodes_of st = [] -> takesR (f st x) 0 0 (fun st' => nodes_of st' = []).
Hypothesis f_level : forall st x, nodes_of st <> [] -> takesR (f st x) g r (fun st' => length (nodes_of st') + a = length (nodes_of st)).

Lemma size_levels : forall l st,
  takesR (p_try_fold f l st) (Nat.min (length l) (length (nodes_of st) / a) * g) (Nat.min (length l) (length (nodes_of st) / a) * r) any.
Proof.
  induction l as [|x l IH]; intros st; cbn [p_try_fold length].
  - rewrite Nat.min_0_l. apply takesR_ret. exact I.
  - destruct (nodes_of st) as [|v t] eqn:En.
    + cbn [length]. rewrite (Nat.div_small 0 a Ha), Nat.min_0_r. eapply takesR_size.
      * eapply takesR_try; [apply f_stop; exact En|]. intros st' E'. specialize (IH st'). rewrite E' in IH. cbn [length] in IH.
        rewrite (Nat.div_small 0 a Ha), Nat.min_0_r in IH. exact IH.
      * reflexivity.
      * reflexivity.
    + rewrite <- En. assert (Hn : nodes_of st <> []) by (rewrite En; discriminate). clear v t En.
      destruct (le_lt_dec a (length (nodes_of st))) as [Hle|Hlt].
      * assert (Eq : length (nodes_of st) / a = S ((length (nodes_of st) - a) / a)).
        { replace (length (nodes_of st)) with (1 * a + (length (nodes_of st) - a)) at 1 by lia. rewrite Nat.div_add_l by lia. reflexivity. }
        rewrite Eq, <- Nat.succ_min_distr. eapply takesR_size.
        { eapply takesR_try; [apply f_level; exact Hn|]. intros st' E'. specialize (IH st').
          assert (E2 : length (nodes_of st') = length (nodes_of st) - a) by (cbv beta in E'; lia); rewrite E2 in IH. exact IH. }
        { reflexivity. }
        { reflexivity. }
      * apply (takesR_never _ (g + 0) (r + 0)). eapply takesR_try; [apply f_level; exact Hn|]. intros st' E'. exfalso. cbv beta in E'. lia.
Qed.
End Levels.

Lemma size_level_4 bytes statics st ij : nodes_of st <> [] ->
  takesR (level_4 p sbox bytes statics st ij : pg _) (26 + 2 * permutation_gates p sbox) (26 + permutation_rows p sbox)
    (fun st' => length (nodes_of st') + 3 = length (nodes_of st)).
Proof.
  destruct st as [[[prev cl] e] nodes]. destruct ij as [i j]. unfold nodes_of. cbn [snd]. intros Hn. unfold level_4.
  destruct nodes as [|v nodes]; [contradiction|]. set (ns := v :: nodes). eapply takesR_size.
  - eapply (takes_bindR _ _ 0 0 _ _ any).
    { destruct bytes; [|apply takes_ret; exact I]. size_of; reflexivity. }
    intros bit0 _. eapply takesR_try; [apply size_bit_constraints|]. intros [b0 b0_1] _.
    eapply (takes_bindR _ _ 0 0 _ _ any).
    { destruct bytes; [|apply takes_ret; exact I]. size_of; reflexivity. }
    intros bit1 _. eapply takesR_try; [apply size_bit_constraints|]. intros [b1 b1_1] _. cbv zeta.
    pop n3 E3. pop n2 E2. pop n1 E1. size_steps. cbn [snd]. lia.
  - lia.
  - lia.
Qed.

Lemma bytes_up m : m / 8 + (if Nat.eqb (m mod 8) 0 then 0 else 1) = (m + 7) / 8.
Proof.
  pose proof (Nat.div_mod m 8 ltac:(lia)) as E. pose proof (Nat.mod_upper_bound m 8 ltac:(lia)) as Hb.
  generalize dependent (m mod 8). generalize (m / 8). intros q t -> Hb. destruct (Nat.eqb_spec t 0) as [->|Ht].
  - replace (8 * q + 0 + 7) with (q * 8 + 7) by lia. rewrite Nat.div_add_l by lia. reflexivity.
  - replace (8 * q + t + 7) with ((q + 1) * 8 + (t - 1)) by lia. rewrite Nat.div_add_l by lia.
    rewrite (Nat.div_small (t - 1) 8) by lia. lia.
Qed.

Lemma size_merkle_4 depth root leaf idx nodes statics :
  takesR (vanilla_merkle_merkle_tree_4_verif_gadget p sbox depth root leaf idx nodes statics : pg _)
    (2 * (levels_4 depth (2 + length nodes) * (13 + permutation_gates p sbox)))
    (levels_4 depth (2 + length nodes) * (26 + permutation_rows p sbox) + 2) any.
Proof.
  unfold vanilla_merkle_merkle_tree_4_verif_gadget. cbv zeta. eapply takesR_size.
  - eapply takes_bindR; [apply takes_lift|]. intros size Es.
    assert (Esz : size = (depth * 2 + 7) / 8).
    { unfold get_byte_size, get_bit_count in Es. change (is_power_of_two 4) with true in Es. cbn [assertb obind] in Es.
      change (Nat.log2 4) with 2 in Es. apply (f_equal (fun o => match o with Done n => n | Panic => 0 end)) in Es.
      rewrite <- Es. apply bytes_up. }
    subst size.
    eapply takesR_try.
    + apply (size_levels (level_4 p sbox (allocated_leaf_index_to_bytes idx) (map (fun s => lc_of_var s) statics)) 3); [lia| |].
      * intros [[[prev cl] e] ns] [i j] En. cbn in En. subst ns. apply takesR_ret. reflexivity.
      * intros st x Hn. apply size_level_4. exact Hn.
    + intros [[[prev cl] e] ns] _. size_steps. exact I.
  - rewrite prod_length, !seq_length. cbn [nodes_of snd]. unfold levels_4. replace (2 + length nodes - 2) with (length nodes) by lia.
    rewrite (Nat.mul_comm _ 4). lia.
  - rewrite prod_length, !seq_length. cbn [nodes_of snd]. unfold levels_4. replace (2 + length nodes - 2) with (length nodes) by lia.
    rewrite (Nat.mul_comm _ 4). lia.
Qed.

Lemma size_level_8 octets zero st i : nodes_of st <> [] ->
  takesR (level_8 p sbox octets zero st i : pg _) (68 + 2 * permutation_gates p sbox) (68 + permutation_rows p sbox)
    (fun st' => length (nodes_of st') + 7 = length (nodes_of st)).
Proof.
  destruct st as [[[prev cl] e] nodes]. unfold nodes_of. cbn [snd]. intros Hn. unfold level_8.
  destruct nodes as [|v nodes]; [contradiction|]. set (ns := v :: nodes). eapply takesR_size.
  - eapply (takes_bindR _ _ 0 0 _ _ any).
    { destruct octets; [|apply takes_ret; exact I]. size_of; reflexivity. }
    intros [[bit0 bit1] bit2] _.
    eapply takesR_try; [apply size_bit_constraints|]. intros [b0 b0_1] _.
    eapply takesR_try; [apply size_bit_constraints|]. intros [b1 b1_1] _.
    eapply takesR_try; [apply size_bit_constraints|]. intros [b2 b2_1] _. cbv zeta.
    pop n7 E7. pop n6 E6. pop n5 E5. pop n4 E4. pop n3 E3. pop n2 E2. pop n1 E1. size_steps. cbn [snd]. lia.
  - lia.
  - lia.
Qed.

Lemma size_merkle_8 depth root leaf idx nodes zero :
  takesR (vanilla_merkle_merkle_tree_8_verif_gadget p sbox depth root leaf idx nodes zero : pg _)
    (2 * (levels_8 depth (2 + length nodes) * (34 + permutation_gates p sbox)))
    (levels_8 depth (2 + length nodes) * (68 + permutation_rows p sbox) + 2) any.
Proof.
  unfold vanilla_merkle_merkle_tree_8_verif_gadget. cbv zeta. eapply takesR_size.
  - eapply (takes_bindR _ _ 0 0 _ _ any).
    { destruct (q_assignment idx); [|apply takes_ret; exact I]. size_of; reflexivity. }
    intros octets _. eapply takes_bindR; [apply takes_lift|]. intros size Es.
    assert (Esz : (size + 2) / 3 = depth).
    { unfold get_bit_count in Es. change (is_power_of_two 8) with true in Es. cbn [assertb obind] in Es.
      change (Nat.log2 8) with 3 in Es. injection Es as <-. rewrite Nat.div_add_l by lia. rewrite (Nat.div_small 2 3) by lia. lia. }
    rewrite Esz. eapply takesR_try.
    + apply (size_levels (level_8 p sbox octets zero) 7); [lia| |].
      * intros [[[prev cl] e] ns] i En. cbn in En. subst ns. apply takesR_ret. reflexivity.
      * intros st x Hn. apply size_level_8. exact Hn.
    + intros [[[prev cl] e] ns] _. size_steps. exact I.
  - rewrite seq_length. cbn [nodes_of snd]. unfold levels_8. replace (2 + length nodes - 2) with (length nodes) by lia. lia.
  - rewrite seq_length. cbn [nodes_of snd]. unfold levels_8. replace (2 + length nodes - 2) with (length nodes) by lia. lia.
Qed.

(** *** The randomizer *)
Lemma repr_length base : forall n s, length (repr_digits base n s) = n.
Proof.
  induction n as [|n IH]; intros s; cbn [repr_digits]; [reflexivity|].
  destruct (Z.eqb s 0); [apply repeat_length|]. cbn [length]. rewrite IH. reflexivity.
Qed.
Lemma size_path idx d path : leaf_index_to_path 4 idx d = Done path -> length path = d.
Proof.
  unfold leaf_index_to_path, get_base_repr. destruct (get_byte_size d 4); [|discriminate]. cbn [obind].
  destruct (Nat.leb _ _); [|discriminate]. cbn [assertb obind]. intros [= <-]. rewrite rev_length. apply repr_length.
Qed.

Lemma size_presence statics st pos :
  takesR (presence_step p sbox statics st pos : pg _) (2 * permutation_gates p sbox) (permutation_rows p sbox) any.
Proof.
  unfold presence_step. destruct st as [nodes cur]. eapply takesR_size.
  - pop n2 E2. pop n1 E1. pop n0 E0. size_steps. exact I.
  - lia.
  - lia.
Qed.
Lemma size_read d orig new_root db indices vals proofs statics nodes i :
  takesR (read_step p sbox d orig new_root db indices vals proofs statics nodes i : pg _)
    (2 * (d * permutation_gates p sbox)) (d * permutation_rows p sbox + 1) any.
Proof.
  unfold read_step. eapply takesR_size.
  - eapply takes_bindR; [apply takes_lift|]. intros idx _. eapply takes_bindR; [apply takes_lift|]. intros pf _.
    eapply takes_bindR; [apply takes_lift|]. intros path Ep. apply size_path in Ep.
    eapply takes_bindR; [apply takes_lift|]. intros v _.
    eapply takesR_try.
    + assert (El : length (rev path) = d) by (rewrite rev_length; exact Ep).
      pose proof (takesR_fold (presence_step p sbox statics : _ -> _ -> pg _) (2 * permutation_gates p sbox) (permutation_rows p sbox) any
        (rev path) (pf, lc_of_var v) I (fun s a _ _ => size_presence statics s a)) as X.
      rewrite El in X. exact X.
    + intros [ns cur] _. size_steps. exact I.
  - lia.
  - lia.
Qed.
Lemma size_write_level d statics st j :
  takesR (write_level p sbox d statics st j : pg _) (2 * permutation_gates p sbox) (permutation_rows p sbox) any.
Proof. unfold write_level. destruct st as [[nodes l] path]. size_of; lia. Qed.
Lemma size_write d indices vals statics nodes i :
  takesR (write_step p sbox d indices vals statics nodes i : pg _) (2 * (d * permutation_gates p sbox)) (d * permutation_rows p sbox) any.
Proof.
  unfold write_step. eapply takesR_size.
  - eapply takes_bindR; [apply takes_lift|]. intros idx _. eapply takes_bindR; [apply takes_lift|]. intros v _.
    eapply takes_bindR; [apply takes_lift|]. intros path _.
    eapply takesR_try; [apply (takesR_fold _ (2 * permutation_gates p sbox) (permutation_rows p sbox) any); [exact I|]|].
    + intros s a _ _. apply size_write_level.
    + intros [[ns l] q] _. size_steps. exact I.
  - rewrite rev_length, seq_length. lia.
  - rewrite rev_length, seq_length. lia.
Qed.
Lemma size_randomizer d orig t db indices vals proofs statics :
  takesR (randomizer_gadget p sbox d orig t db indices vals proofs statics : pg _)
    (2 * (length indices * (2 * d * permutation_gates p sbox))) (length indices * (2 * d * permutation_rows p sbox + 1) + 1) any.
Proof.
  unfold randomizer_gadget. cbv zeta. eapply takesR_size.
  - eapply takes_bindR; [apply takes_lift|]. intros _ _. eapply takes_bindR; [apply takes_lift|]. intros _ _.
    eapply takesR_try; [apply (takesR_fold _ (2 * (d * permutation_gates p sbox)) (d * permutation_rows p sbox + 1) any); [exact I|]|].
    { intros s a _ _. apply size_read. }
    intros n1 _.
    eapply takesR_try; [apply (takesR_fold _ (2 * (d * permutation_gates p sbox)) (d * permutation_rows p sbox) any); [exact I|]|].
    { intros s a _ _. apply size_write. }
    intros n2 _. size_steps. exact I.
  - rewrite seq_length. nia.
  - rewrite seq_length. nia.
Qed.
End Gadget.
End Generic.
End Merkle.
#[export] Hint Resolve size_merkle_4 size_merkle_8 size_randomizer : size.
