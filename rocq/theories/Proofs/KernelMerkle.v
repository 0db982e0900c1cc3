(** The Merkle membership gadgets: their constraints determine the committed values. *)
From Coq Require Import ZArith String List Lia Bool Ring Field Arith.
From Verif.Base Require Import Outcome Fp Params Algebra.
From Verif.Model Require Import Transcript LinComb Prog IPP Prover Verifier Gadgets Hash Merkle MerkleGadget.
From Verif.Spec Require Import R1CS Protocol Gadget.
From Verif.Proofs Require Import LinCombProofs RunProofs ExtProofs GadgetTools GadgetBasic GadgetPrograms HashTools HashSound
  MerkleTools MerkleTree MerkleSound Recover KernelTools KernelGadgets KernelHash.
Import ListNotations.

Section KernelMerkle.
Context {P : Params} {OK : ParamsOk P}.
Local Open Scope fe_scope.
Add Field FFkm : (Fp_field_theory modulus modulus_prime).
Context (d : nat -> F) (W : world).
Local Notation dl := (delta_lc d).
Local Notation dv := (delta_var d).

Section Ph.
Context (ph : bool).
Local Notation okk := (okk d W ph).
Local Notation kspec := (kspec d W ph).

Lemma bit_constraints_k o s :
  okk s (bit_constraints o) (fun r s' => v_V s' = v_V s /\ inr s' (fst r) /\ inr s' (snd r) /\ dv (fst r) = 0 /\ dv (snd r) = 0) (fun _ => True).
Proof.
  unfold bit_constraints. apply okk_allocate_multiplier_k. intros s1 a b ou X1 V1 Ra Rb Ro Za Zb Zo.
  apply okk_constrain_k; [inl0|]. intros s2 X2 V2. kcarry X2.
  apply okk_constrain_k; [inl0|]. intros s3 X3 V3. kcarry X3. apply okk_ret; [|auto]. cbn [fst snd].
  split; [congruence|auto].
Qed.

Lemma pop_node_k {B} nodes s (f : list var * lc -> vprog (result B)) U K :
  (forall nodes' v, nodes = nodes' ++ [v] -> okk s (f (nodes', lc_of_var v)) U K) ->
  okk s (pbind (pop_node nodes) f) U K.
Proof.
  intros Hf. unfold pop_node. destruct (vec_pop nodes) as [[nodes' v]|] eqn:Ep; [|apply kspec_panic].
  exact (Hf nodes' v (vec_pop_inv _ _ _ Ep)).
Qed.

Ltac mult := apply kspec_multiply_k; [inl0|inl0|];
  let s' := fresh "s" in let X := fresh "X" in let V := fresh "V" in let vl := fresh "l" in let vr := fresh "r" in let vo := fresh "o" in
  let R1 := fresh "Ra" in let R2 := fresh "Rb" in let R3 := fresh "Rc" in let Z1 := fresh "Za" in let Z2 := fresh "Zb" in let Z3 := fresh "Zc" in
  intros s' vl vr vo X V R1 R2 R3 Z1 Z2 Z3; kcarry X; clear R1 R2 Z1 Z2.

Lemma children_4_k b0 b0_1 b1 b1_1 N N1 N2 N3 s : inr s b0 -> inr s b0_1 -> inr s b1 -> inr s b1_1 ->
  inl s N -> inl s N1 -> inl s N2 -> inl s N3 ->
  kspec s (children_4 b0 b0_1 b1 b1_1 N N1 N2 N3) (fun r s' => v_V s' = v_V s /\ Forall (inl s') r)
    (fun _ => dl N = 0 /\ dl N1 = 0 /\ dl N2 = 0 /\ dl N3 = 0).
Proof.
  intros A1 A2 A3 A4 B0 B1 B2 B3. unfold children_4. do 11 mult. apply kspec_ret.
  - split; [congruence|]. repeat (constructor; [inl0|]). constructor.
  - intros. auto.
Qed.

Lemma children_8_k b0 b0_1 b1 b1_1 b2 b2_1 N N1 N2 N3 N4 N5 N6 N7 s :
  inr s b0 -> inr s b0_1 -> inr s b1 -> inr s b1_1 -> inr s b2 -> inr s b2_1 ->
  inl s N -> inl s N1 -> inl s N2 -> inl s N3 -> inl s N4 -> inl s N5 -> inl s N6 -> inl s N7 ->
  kspec s (children_8 b0 b0_1 b1 b1_1 b2 b2_1 N N1 N2 N3 N4 N5 N6 N7) (fun r s' => v_V s' = v_V s /\ Forall (inl s') r)
    (fun _ => dl N = 0 /\ dl N1 = 0 /\ dl N2 = 0 /\ dl N3 = 0 /\ dl N4 = 0 /\ dl N5 = 0 /\ dl N6 = 0 /\ dl N7 = 0).
Proof.
  intros A1 A2 A3 A4 A5 A6 B0 B1 B2 B3 B4 B5 B6 B7. unfold children_8. do 31 mult. apply kspec_ret.
  - split; [congruence|]. repeat (constructor; [inl0|]). constructor.
  - intros. repeat (split; [assumption|]). assumption.
Qed.

(** *** the loop *)
Section Loop.
Context (k : nat) (Hk : (0 < k)%nat) (nodes0 : list var) (leaf idx zero : var) (s0 : verifier).

Definition rising (j : nat) (st : level_state) (s : verifier) : Prop :=
  let '(prev, ci, ex, nodes) := st in
  v_V s = v_V s0 /\ inl s prev /\ inl s ci /\ dl ci = - dv idx /\ Forall (inr s) nodes /\ inr s zero /\
  exists used, nodes0 = nodes ++ used /\ (nodes = [] \/ length used = (j * k)%nat) /\ (used = [] -> prev = lc_of_var leaf).
Definition risen (st : level_state) : Prop :=
  let '(_, _, _, nodes) := st in
  forall used, nodes0 = nodes ++ used -> used <> [] -> Forall (fun v => dv v = 0) used /\ dv leaf = 0 /\ dv zero = 0.

Lemma rising_skip j prev ci ex s : rising j (prev, ci, ex, []) s -> rising (S j) (prev, ci, ex, []) s.
Proof.
  intros (A & B & C & D & E & E' & used & U1 & _ & U3). repeat (split; [assumption|]). exists used. auto.
Qed.
Lemma rising_step j prev ci ex nodes nodes' s prev' ci' ex' s' :
  rising j (prev, ci, ex, nodes ++ nodes') s -> vext s s' -> v_V s' = v_V s -> length nodes' = k ->
  inl s' prev' -> inl s' ci' -> dl ci' = dl ci -> rising (S j) (prev', ci', ex', nodes) s'.
Proof.
  intros (A & B & C & D & E & E' & used & U1 & U2 & U3) X V HL Rp Rc Zc. split; [congruence|]. split; [assumption|]. split; [assumption|].
  split; [congruence|]. kcarry X. split; [apply Forall_app in E as [E _]; exact E|]. split; [exact E'|]. exists (nodes' ++ used).
  split; [rewrite U1, <- app_assoc; reflexivity|]. destruct U2 as [U2|U2].
  - apply app_eq_nil in U2 as [_ ->]. cbn in HL. lia.
  - split; [right; rewrite app_length, HL, U2; cbn; lia|]. intros Hn. apply app_eq_nil in Hn as [-> _]. cbn in HL. lia.
Qed.
Lemma risen_step j prev ci ex nodes nodes' s prev' ci' ex' :
  rising j (prev, ci, ex, nodes ++ nodes') s -> Forall (fun v => dv v = 0) nodes' -> dl prev = 0 -> dv zero = 0 ->
  risen (prev, ci, ex, nodes ++ nodes') -> risen (prev', ci', ex', nodes).
Proof.
  intros (_ & _ & _ & _ & _ & _ & used & U1 & U2 & U3) Z Zp Zz HR used' HU Hne.
  assert (used' = nodes' ++ used).
  { rewrite U1, <- app_assoc in HU. apply app_inv_head in HU. congruence. }
  subst used'. destruct used as [|u used].
  - rewrite app_nil_r. split; [exact Z|]. split; [|exact Zz]. specialize (U3 eq_refl). rewrite U3, dl_var in Zp. exact Zp.
  - destruct (HR (u :: used) U1 ltac:(discriminate)) as (H1 & H2 & H3). split; [apply Forall_app; auto|auto].
Qed.
End Loop.

Context (p : poseidon_params) (sbox : sbox_type) (Hsbox : sbox <> Inverse) (Hf : (0 < full_rounds_beginning p)%nat).

Ltac bits := eapply okk_try; [apply bit_constraints_k|];
  let b := fresh "b" in let b' := fresh "b'" in let s := fresh "s" in let X := fresh "X" in let V := fresh "V" in
  let R1 := fresh "R" in let R2 := fresh "R" in let Z1 := fresh "Z" in let Z2 := fresh "Z" in
  intros [b b'] s X (V & R1 & R2 & Z1 & Z2); cbn [fst snd] in *; kcarry X.

Lemma Forall_inl_split s (a b : list lc) : Forall (inl s) (a ++ b) -> Forall (inl s) a /\ Forall (inl s) b.
Proof. apply Forall_app. Qed.

Lemma level_4_k nodes0 leaf idx zero s0 j bytes st ij s : bytes = None -> rising 3 nodes0 leaf idx zero s0 j st s ->
  okk s (level_4 p sbox bytes [lc_of_var zero] st ij) (rising 3 nodes0 leaf idx zero s0 (S j))
    (fun st' => risen nodes0 leaf zero st -> risen nodes0 leaf zero st').
Proof.
  intros -> Hr. destruct st as [[[prev ci] ex] nodes], ij as [i0 j0]. unfold level_4.
  destruct nodes as [|n0 nodes]; [apply okk_ret; [apply rising_skip; exact Hr|auto]|].
  remember (n0 :: nodes) as nn. clear Heqnn.
  pose proof Hr as (_ & Rp & Rci & Zci & Rn & Rz & _). cbn [pbind]. bits. cbn [pbind]. bits.
  apply pop_node_k. intros nodes3 v3 ->. apply pop_node_k. intros nodes2 v2 ->. apply pop_node_k. intros nodes1 v1 ->.
  rewrite <- !app_assoc in Hr, Rn. rewrite <- !app_assoc. cbn [app] in Hr, Rn |- *. apply Forall_app in Rn as [Rn1 Rn2]. inversion Rn2 as [|? ? Rv1 Rn3]; subst. inversion Rn3 as [|? ? Rv2 Rn4]; subst.
  inversion Rn4 as [|? ? Rv3 _]; subst.
  eapply okk_bind; [apply children_4_k; inl0|]. intros ins s3 X3 (V3 & Ri). kcarry X3.
  eapply okk_try; [apply hash_4_k; [exact Hsbox|exact Ri|constructor; [inl0|constructor]]|]. intros out s4 X4 (V4 & Ro & _). kcarry X4.
  eapply okk_bind; [apply kspec_simplify; exact Ro|]. intros m s5 X5 (V5 & Rm & _). kcarry X5. apply okk_ret.
  - eapply (rising_step 3 ltac:(lia) _ _ _ _ _ j prev ci ex nodes1 [v1; v2; v3] s); [exact Hr| | | | | |].
    + eauto 6 using vext_trans.
    + congruence.
    + reflexivity.
    + exact Rm.
    + inl0.
    + rewrite !dl_app. cbn [delta_lc]. rewrite Z, Z1. ring.
  - intros _ Hz (Zn & Z1' & Z2' & Z3') _ _ HR. specialize (Hz Hf). unfold zero_all in Hz. apply Forall_app in Hz as [_ Hz]. inversion Hz as [|? ? Hz0 _]; subst.
    rewrite dl_var in Hz0, Z1', Z2', Z3'.
    eapply (risen_step 3 nodes0 leaf idx zero s0 j prev ci ex nodes1 [v1; v2; v3] s); try assumption.
    repeat (constructor; [assumption|]). constructor.
Qed.

Lemma level_8_k nodes0 leaf idx zero s0 j octets st i0 s : octets = None -> rising 7 nodes0 leaf idx zero s0 j st s ->
  okk s (level_8 p sbox octets zero st i0) (rising 7 nodes0 leaf idx zero s0 (S j))
    (fun st' => risen nodes0 leaf zero st -> risen nodes0 leaf zero st').
Proof.
  intros -> Hr. destruct st as [[[prev ci] ex] nodes]. unfold level_8.
  destruct nodes as [|n0 nodes]; [apply okk_ret; [apply rising_skip; exact Hr|auto]|].
  remember (n0 :: nodes) as nn. clear Heqnn.
  pose proof Hr as (_ & Rp & Rci & Zci & Rn & Rz & _). cbn [pbind]. bits. bits. bits.
  apply pop_node_k. intros nodes7 v7 ->. apply pop_node_k. intros nodes6 v6 ->. apply pop_node_k. intros nodes5 v5 ->.
  apply pop_node_k. intros nodes4 v4 ->. apply pop_node_k. intros nodes3 v3 ->. apply pop_node_k. intros nodes2 v2 ->.
  apply pop_node_k. intros nodes1 v1 ->.
  rewrite <- !app_assoc in Hr, Rn. rewrite <- !app_assoc. cbn [app] in Hr, Rn |- *. apply Forall_app in Rn as [Rn1 Rn].
  inversion Rn as [|? ? Rv1 RnA]; subst. clear Rn. inversion RnA as [|? ? Rv2 Rn]; subst. clear RnA.
  inversion Rn as [|? ? Rv3 RnA]; subst. clear Rn. inversion RnA as [|? ? Rv4 Rn]; subst. clear RnA.
  inversion Rn as [|? ? Rv5 RnA]; subst. clear Rn. inversion RnA as [|? ? Rv6 Rn]; subst. clear RnA.
  inversion Rn as [|? ? Rv7 RnA]; subst. clear Rn RnA.
  eapply okk_bind; [apply children_8_k; inl0|]. intros ins t3 Y3 (W3 & Ri). kcarry Y3.
  eapply okk_try; [apply hash_8_k; [exact Hsbox|exact Ri|inl0]|]. intros out t4 Y4 (W4 & Ro & _). kcarry Y4.
  eapply okk_bind; [apply kspec_simplify; exact Ro|]. intros m t5 Y5 (W5 & Rm & _). kcarry Y5. apply okk_ret.
  - eapply (rising_step 7 ltac:(lia) _ _ _ _ _ j prev ci ex nodes1 [v1; v2; v3; v4; v5; v6; v7] s); [exact Hr| | | | | |].
    + eauto 8 using vext_trans.
    + congruence.
    + reflexivity.
    + exact Rm.
    + inl0.
    + rewrite !dl_app. cbn [delta_lc]. rewrite Z, Z1, Z3. ring.
  - intros _ Hz (Zn & Q1 & Q2 & Q3 & Q4 & Q5 & Q6 & Q7) _ _ _ HR. specialize (Hz Hf). unfold zero_all in Hz. inversion Hz as [|? ? Hz0 _]; subst.
    rewrite dl_var in Hz0, Q1, Q2, Q3, Q4, Q5, Q6, Q7.
    eapply (risen_step 7 nodes0 leaf idx zero s0 j prev ci ex nodes1 [v1; v2; v3; v4; v5; v6; v7] s); try assumption.
    repeat (constructor; [assumption|]). constructor.
Qed.

Lemma end_k k nodes0 leaf idx zero s0 j root st s : (0 < k)%nat -> nodes0 <> [] -> (length nodes0 <= j * k)%nat ->
  rising k nodes0 leaf idx zero s0 j st s ->
  okk s (let '(prev_hash, constraint_leaf_index, _, _) := st in
         pbind (cs_constrain constraint_leaf_index) (fun _ => pbind (constrain_lc_with_scalar prev_hash root) (fun _ => PRet (Ok tt))))
    (fun _ s' => v_V s' = v_V s0)
    (fun _ => risen nodes0 leaf zero st -> dv leaf = 0 /\ dv idx = 0 /\ Forall (fun v => dv v = 0) nodes0 /\ dv zero = 0).
Proof.
  intros Hk Hne HL Hr. destruct st as [[[prev ci] ex] nodes]. pose proof Hr as (V & Rp & Rci & Zci & Rn & Rz & used & U1 & U2 & U3).
  apply okk_constrain_k; [inl0|]. intros s1 X1 V1. kcarry X1. apply scalar_k; [assumption|]. intros s2 X2 V2.
  apply okk_ret; [congruence|]. intros _ E HR.
  assert (Hnil : nodes = []).
  { destruct U2 as [U2|U2]; [exact U2|]. destruct nodes; [reflexivity|]. exfalso. rewrite U1, app_length in HL. cbn in HL. lia. }
  subst nodes. cbn [app] in U1. destruct (HR used U1) as (H1 & H2 & H3); [congruence|].
  split; [exact H2|]. split; [transitivity (- dl ci); [rewrite Zci; ring|rewrite E; ring]|]. split; [rewrite U1; exact H1|exact H3].
Qed.

Lemma merkle_4_k depth root leaf q nodes zero s : q_assignment q = None -> nodes <> [] ->
  (length nodes <= 3 * (4 * ((depth * 2 + 7) / 8)))%nat ->
  inr s leaf -> inr s (q_var q) -> Forall (inr s) nodes -> inr s zero ->
  okk s (vanilla_merkle_merkle_tree_4_verif_gadget p sbox depth root leaf q nodes [zero]) (fun _ s' => v_V s' = v_V s)
    (fun _ => dv leaf = 0 /\ dv (q_var q) = 0 /\ Forall (fun v => dv v = 0) nodes /\ dv zero = 0).
Proof.
  intros Hq Hne HL Rl Rq Rn Rz. unfold vanilla_merkle_merkle_tree_4_verif_gadget, allocated_leaf_index_to_bytes. rewrite Hq. cbn [option_map map].
  apply okk_lift_k. intros bs Eb. pose proof (byte_size_done depth 2) as Eb2. cbn [Nat.pow Nat.mul Nat.add] in Eb2. rewrite Eb2 in Eb. clear Eb2. assert (Eb3 : ((depth * 2 + 7) / 8)%nat = bs) by congruence. clear Eb. rename Eb3 into Eb. rewrite <- levels_4, Eb in HL. clear Eb.
  eapply okk_try; [apply (okk_try_fold d W ph _ (fun j st s' => rising 3 nodes leaf (q_var q) zero s j st s') (fun _ st => risen nodes leaf zero st))|..].
  - intros j ij st s1 _ Hr. apply level_4_k; [reflexivity|exact Hr].
  - split; [reflexivity|]. split; [inl0|]. split; [inl0|]. split; [cbn; ring|]. split; [assumption|]. split; [assumption|].
    exists []. rewrite app_nil_r. auto.
  - intros used HU Hn. exfalso. rewrite <- (app_nil_r nodes) in HU at 1. apply app_inv_head in HU. congruence.
  - intros st s1 X Hr. apply (end_k 3 nodes leaf (q_var q) zero s _ root st s1) in Hr; [|lia|exact Hne|rewrite Nat.mul_comm; exact HL].
    destruct st as [[[prev ci] ex] rest]. exact Hr.
Qed.

Lemma merkle_8_k depth root leaf q nodes zero s : q_assignment q = None -> nodes <> [] ->
  (length nodes <= 7 * depth)%nat ->
  inr s leaf -> inr s (q_var q) -> Forall (inr s) nodes -> inr s zero ->
  okk s (vanilla_merkle_merkle_tree_8_verif_gadget p sbox depth root leaf q nodes zero) (fun _ s' => v_V s' = v_V s)
    (fun _ => dv leaf = 0 /\ dv (q_var q) = 0 /\ Forall (fun v => dv v = 0) nodes /\ dv zero = 0).
Proof.
  intros Hq Hne HL Rl Rq Rn Rz. unfold vanilla_merkle_merkle_tree_8_verif_gadget. rewrite Hq. cbn [pbind].
  apply okk_lift_k. intros bs Eb. unfold get_bit_count in Eb. cbn [is_power_of_two] in Eb.
  assert (Ebs : bs = (depth * 3)%nat) by (cbn in Eb; congruence). clear Eb.
  assert (El : length (seq 0 ((bs + 2) / 3)) = depth).
  { rewrite seq_length, Ebs. symmetry. apply (Nat.div_unique _ 3 depth 2); lia. }
  rewrite <- El in HL. revert HL. generalize (seq 0 ((bs + 2) / 3)). intros lv HL. clear El Ebs bs.
  eapply okk_try; [apply (okk_try_fold d W ph _ (fun j st s' => rising 7 nodes leaf (q_var q) zero s j st s') (fun _ st => risen nodes leaf zero st))|..].
  - intros j ij st s1 _ Hr. apply level_8_k; [reflexivity|exact Hr].
  - split; [reflexivity|]. split; [inl0|]. split; [inl0|]. split; [cbn; ring|]. split; [assumption|]. split; [assumption|].
    exists []. rewrite app_nil_r. auto.
  - intros used HU Hn. exfalso. rewrite <- (app_nil_r nodes) in HU at 1. apply app_inv_head in HU. congruence.
  - intros st s1 X Hr. apply (end_k 7 nodes leaf (q_var q) zero s _ root st s1) in Hr; [|lia|exact Hne|rewrite Nat.mul_comm; exact HL].
    destruct st as [[[prev ci] ex] rest]. exact Hr.
Qed.
End Ph.

(** *** the verifying functions *)
Local Notation okk := (okk d W false).
Local Notation kspec := (kspec d W false).

Lemma firstn_snoc {A} j (c : A) l : nth_error l j = Some c -> firstn j l ++ [c] = firstn (S j) l.
Proof.
  revert l. induction j as [|j IH]; intros [|a l] H; cbn in H; try discriminate H.
  - injection H as ->. reflexivity.
  - cbn [firstn app]. f_equal. exact (IH l H).
Qed.

Lemma drain_k comms s :
  kspec s (commit_drain comms) (fun vars s' => vars = map VCommitted (seq (length (v_V s)) (length comms)) /\
    v_V s' = v_V s ++ comms /\ Forall (inr s') vars) (fun _ => True).
Proof.
  unfold commit_drain. eapply kspec_conseq; [apply (kspec_fold d W false _ (fun j vars s' => vars = map VCommitted (seq (length (v_V s)) j) /\
    v_V s' = v_V s ++ firstn j comms /\ length (v_V s') = (length (v_V s) + j)%nat /\ Forall (inr s') vars) (fun _ _ => True))|..].
  - intros j c vars s1 Hc (E & HC & HV & HR). apply kspec_commit_k. intros s2 X2 V2 R2. kcarry X2. rewrite HV in *. apply kspec_ret; [|auto].
    split; [rewrite E, seq_S, map_app; reflexivity|].
    split; [rewrite V2, HC, <- app_assoc; f_equal; exact (firstn_snoc _ _ _ Hc)|].
    split; [rewrite V2, app_length, HV; cbn; lia|]. apply Forall_app. split; [exact HR|]. constructor; [exact R2|constructor].
  - cbn [firstn]. rewrite app_nil_r. split; [reflexivity|]. split; [reflexivity|]. split; [lia|constructor].
  - exact I.
  - intros vars s1 X (E & HC & _ & HR). rewrite firstn_all in HC. auto.
  - auto.
Qed.

Context (p : poseidon_params) (sbox : sbox_type) (Hsbox : sbox <> Inverse) (Hf : (0 < full_rounds_beginning p)%nat).

Lemma all_committed b n : d b = 0 -> d (b + 1)%nat = 0 -> Forall (fun v => dv v = 0) (map VCommitted (seq (b + 2) n)) -> d (b + 2 + n)%nat = 0 ->
  forall j, (j < 3 + n)%nat -> d (b + j)%nat = 0.
Proof.
  intros H0 H1 H H2. apply committed_zero. replace (3 + n)%nat with (2 + (n + 1))%nat by lia. cbn [Nat.add seq map].
  replace (S (S b)) with (b + 2)%nat by lia. replace (S b) with (b + 1)%nat by lia.
  constructor; [exact H0|]. constructor; [exact H1|]. rewrite Nat.add_1_r, seq_S, map_app. apply Forall_app. split; [exact H|]. constructor; [exact H2|constructor].
Qed.

Lemma leaf_4_determines root depth g h comms : (2 < length comms)%nat -> (length comms <= 2 + 3 * (4 * ((depth * 2 + 7) / 8)))%nat ->
  determines d W (1 + length comms) (comms ++ [commit g h 0 0]) (verify_leaf_inclusion_4_ary_merkle_tree root depth p sbox g h comms).
Proof.
  intros H1 H2 s. unfold verify_leaf_inclusion_4_ary_merkle_tree.
  apply okk_remove0. intros c1 l1 L1. apply okk_commit_k. intros s1 X1 V1 R1.
  apply okk_remove0. intros c2 l2 L2. apply okk_commit_k. intros s2 X2 V2 R2. kcarry X2. subst.
  eapply okk_bind; [apply drain_k|]. intros vars s3 X3 (-> & V3 & R3). kcarry X3.
  eapply okk_bind; [apply static_k|]. intros st s4 X4 (-> & V4 & R4). kcarry X4. inversion R4 as [|? ? Rz _]; subst.
  set (b := length (v_V s)) in *.
  assert (N1 : length (v_V s1) = (b + 1)%nat) by (rewrite V1, app_length; reflexivity).
  assert (N2 : length (v_V s2) = (b + 2)%nat) by (rewrite V2, app_length, N1; cbn [length]; lia).
  assert (N3 : length (v_V s3) = (b + 2 + length l2)%nat) by (rewrite V3, app_length, N2; reflexivity).
  rewrite ?N1, ?N2, ?N3 in *. cbn [length] in *.
  eapply okk_try; [apply merkle_4_k; try assumption; [reflexivity| |]|].
  - destruct l2; [cbn in H1; lia|discriminate].
  - rewrite map_length, seq_length. cbn [length] in H2. lia.
  - intros [] s5 X5 V5. apply okk_ret.
    + split; [rewrite V5, V4, V3, V2, V1, <- !app_assoc; reflexivity|]. rewrite app_length. cbn [length]. lia.
    + cbn [q_var delta_var]. intros (E1 & E2 & E3 & E4) _ _. apply all_committed; assumption.
Qed.

Lemma leaf_8_determines root depth g h comms : (2 < length comms)%nat -> (length comms <= 2 + 7 * depth)%nat ->
  determines d W (1 + length comms) (comms ++ [commit g h 0 0]) (verify_leaf_inclusion_8_ary_merkle_tree root depth p sbox g h comms).
Proof.
  intros H1 H2 s. unfold verify_leaf_inclusion_8_ary_merkle_tree.
  apply okk_remove0. intros c1 l1 L1. apply okk_commit_k. intros s1 X1 V1 R1.
  apply okk_remove0. intros c2 l2 L2. apply okk_commit_k. intros s2 X2 V2 R2. kcarry X2. subst.
  eapply okk_bind; [apply drain_k|]. intros vars s3 X3 (-> & V3 & R3). kcarry X3.
  eapply okk_bind; [apply static_k|]. intros st s4 X4 (-> & V4 & R4). kcarry X4. inversion R4 as [|? ? Rz _]; subst.
  apply okk_lift_k. intros zero Ez. injection Ez as <-.
  set (b := length (v_V s)) in *.
  assert (N1 : length (v_V s1) = (b + 1)%nat) by (rewrite V1, app_length; reflexivity).
  assert (N2 : length (v_V s2) = (b + 2)%nat) by (rewrite V2, app_length, N1; cbn [length]; lia).
  assert (N3 : length (v_V s3) = (b + 2 + length l2)%nat) by (rewrite V3, app_length, N2; reflexivity).
  rewrite ?N1, ?N2, ?N3 in *. cbn [length] in *.
  eapply okk_try; [apply merkle_8_k; try assumption; [reflexivity| |]|].
  - destruct l2; [cbn in H1; lia|discriminate].
  - rewrite map_length, seq_length. cbn [length] in H2. lia.
  - intros [] s5 X5 V5. apply okk_ret.
    + split; [rewrite V5, V4, V3, V2, V1, <- !app_assoc; reflexivity|]. rewrite app_length. cbn [length]. lia.
    + cbn [q_var delta_var]. intros (E1 & E2 & E3 & E4) _ _. apply all_committed; assumption.
Qed.
End KernelMerkle.
