(** The randomizer: its constraints determine the committed values. *)
From Coq Require Import ZArith String List Lia Bool Ring Field Arith.
From Verif.Base Require Import Outcome Fp Params Algebra.
From Verif.Model Require Import Transcript LinComb Prog IPP Prover Verifier Gadgets Hash Merkle MerkleGadget Randomizer.
From Verif.Spec Require Import R1CS Protocol Gadget MerkleSpec RandomizerSpec.
From Verif.Proofs Require Import LinCombProofs RunProofs ExtProofs GadgetTools GadgetBasic GadgetPrograms HashTools HashSound
  MerkleTools MerkleTree MerkleSound RandomizerMap RandomizerSound Recover KernelTools KernelGadgets KernelHash KernelMerkle.
Import ListNotations.

Section KernelRandomizer.
Context {P : Params} {OK : ParamsOk P}.
Local Open Scope fe_scope.
Add Field FFkr : (Fp_field_theory modulus modulus_prime).
Context (d : nat -> F) (W : world).
Local Notation dl := (delta_lc d).
Local Notation dv := (delta_var d).
Context (p : poseidon_params) (sbox : sbox_type) (Hsbox : sbox <> Inverse)
  (Hf : (0 < full_rounds_beginning p)%nat) (He : (0 < full_rounds_end p)%nat).
Context (depth : nat) (Hdepth : (depth * 2 <= 8 * modbytes)%nat).

Section Ph.
Context (ph : bool).
Local Notation okk := (okk d W ph).
Local Notation kspec := (kspec d W ph).

Lemma path_length idx path : leaf_index_to_path 4 idx depth = Done path -> length path = depth.
Proof. intros E. rewrite (path_of depth Hdepth idx path E), map_length, rev_length, seq_length. reflexivity. Qed.

(** *** reading *)
Section Presence.
Context (nodes0 : list var) (leaf zero : var) (s0 : verifier).
Definition present_k (j : nat) (st : list var * lc) (s : verifier) : Prop :=
  v_V s = v_V s0 /\ inl s (snd st) /\ Forall (inr s) (fst st) /\ inr s zero /\ ((0 < j)%nat -> dl (snd st) = 0) /\
  (j = O -> snd st = lc_of_var leaf) /\ exists used, nodes0 = fst st ++ used /\ length used = (j * 3)%nat.
Definition present_j (j : nat) (st : list var * lc) : Prop :=
  (forall used, nodes0 = fst st ++ used -> Forall (fun v => dv v = 0) used) /\ ((0 < j)%nat -> dv leaf = 0 /\ dv zero = 0).

Lemma presence_step_k j st pos s : present_k j st s ->
  okk s (presence_step p sbox [lc_of_var zero] st pos) (present_k (S j)) (fun st' => present_j j st -> present_j (S j) st').
Proof.
  destruct st as [nodes cur]. intros (V & Rc & Rn & Rz & Z & E0 & used & En & Hl). cbn [fst snd] in *. unfold presence_step.
  apply pop_node_k. intros nodes3 v3 ->. apply pop_node_k. intros nodes2 v2 ->. apply pop_node_k. intros nodes1 v1 ->.
  rewrite <- !app_assoc in *. cbn [app] in *. apply Forall_app in Rn as [Rn1 Rn]. inversion Rn as [|? ? Rv1 RnA]; subst. clear Rn.
  inversion RnA as [|? ? Rv2 Rn]; subst. clear RnA. inversion Rn as [|? ? Rv3 RnA]; subst. clear Rn RnA.
  apply okk_lift_k. intros ins Ei. unfold vec_insert in Ei. destruct (Nat.leb _ _) in Ei; [|discriminate]. injection Ei as <-.
  set (l3 := [lc_of_var v1; lc_of_var v2; lc_of_var v3]).
  assert (R3 : Forall (inl s) l3) by (repeat (constructor; [inl0|]); constructor).
  assert (R3' : Forall (inl s) (firstn pos l3 ++ cur :: skipn pos l3)).
  { rewrite <- (firstn_skipn pos l3) in R3. apply Forall_app in R3 as [A B]. apply Forall_app. split; [exact A|]. constructor; assumption. }
  eapply okk_try; [apply hash_4_k; [exact Hsbox|exact R3'|constructor; [inl0|constructor]]|]. intros out s4 X4 (V4 & Ro & Zo). kcarry X4.
  apply okk_ret.
  - split; [congruence|]. cbn [fst snd]. split; [exact Ro|]. split; [exact Rn1|]. split; [exact Rz|]. split; [auto|]. split; [discriminate|].
    exists ([v1; v2; v3] ++ used). split; [exact En|]. rewrite app_length, Hl. cbn. lia.
  - intros Hz (HJ & HJ'). cbn [fst snd] in *. specialize (Hz Hf). unfold zero_all in Hz. apply Forall_app in Hz as [Hz Hzz]. apply Forall_app in Hz as [A B].
    inversion B as [|? ? Bc B']; subst. assert (Z3 : Forall (fun l => dl l = 0) l3) by (rewrite <- (firstn_skipn pos l3); apply Forall_app; auto).
    assert (Z3' : Forall (fun v => dv v = 0) [v1; v2; v3]). { apply (zero_all_vars d [v1; v2; v3]). exact Z3. }
    split.
    + intros used' Eu. rewrite En in Eu. apply app_inv_head in Eu. subst used'. apply (Forall_app _ [v1; v2; v3] used). split; [exact Z3'|].
      apply HJ. rewrite <- app_assoc. exact En.
    + intros _. split; [|inversion Hzz as [|? ? Hz1 _]; subst; rewrite dl_var in Hz1; exact Hz1].
      destruct j as [|j]; [|apply HJ'; lia]. rewrite (E0 eq_refl), dl_var in Bc. exact Bc.
Qed.
End Presence.

(** the map holds combinations of existing variables *)
Definition mapped (s : verifier) (n : node_map) : Prop := Forall (fun e => inl s (snd e)) n.
Lemma mapped_ext s s' n : vext s s' -> mapped s n -> mapped s' n.
Proof. intros X. apply Forall_impl. intros e. apply inl_ext, X. Qed.
Lemma mapped_insert s k l n : inl s l -> mapped s n -> mapped s (map_insert k l n).
Proof. intros H1 H2. constructor; assumption. Qed.
Lemma mapped_get s n k l : mapped s n -> map_get n k = Some l -> inl s l.
Proof.
  induction n as [|[k' v] t IH]; cbn; intros H E; [discriminate|]. inversion H as [|? ? H1 H2]; subst. destruct (path_eqb k' k); [injection E as <-; exact H1|exact (IH H2 E)].
Qed.
Lemma mapped_children s prefix cs n : mapped s n -> mapped s (insert_children prefix cs n).
Proof.
  unfold insert_children. generalize (combine (seq 0 (length cs)) cs). intros l. revert n.
  induction l as [|[k c] t IH]; cbn [fold_left]; intros n H; [exact H|]. apply IH. destruct (map_get n (prefix ++ [k])); [exact H|].
  apply mapped_insert; [inl0|exact H].
Qed.
Lemma mapped_collect s root db path n n' : mapped s n -> collect_path root db path n = Done n' -> mapped s n'.
Proof.
  unfold collect_path. generalize (@nil nat). revert root n. induction path as [|c t IH]; intros root n pre H E.
  - cbn in E. injection E as <-. exact H.
  - cbn [foldM] in E. destruct (collect_step db (n, root, pre) c) as [[[n1 r1] p1]|] eqn:Es; [|discriminate]. cbn [obind] in E.
    apply IH in E; [exact E|]. unfold collect_step in Es. destruct (unwrap_result (db_get db (fe_bytes root))) as [ch|]; [|discriminate].
    cbn [obind] in Es. destruct (index ch c) as [x|]; [|discriminate]. cbn [obind] in Es. injection Es as <- <- <-. apply mapped_children, H.
Qed.
Lemma mapped_level s n path j out : mapped s n -> nodes_at_level n path j = Done out -> Forall (inl s) out.
Proof.
  intros H. unfold nodes_at_level.
  assert (Hg : forall sq acc out, Forall (inl s) acc -> foldM (fun acc k => obind (index path j) (fun p =>
     if Nat.eqb p k then Done acc else obind (set_nth path j k) (fun key => obind (of_option (map_get n key)) (fun l => Done (acc ++ [l]))))) sq acc = Done out ->
     Forall (inl s) out).
  { clear out. intros sq. induction sq as [|k t IH]; intros acc out Ha E; [injection E as <-; exact Ha|]. cbn [foldM] in E.
    destruct (index path j) as [q|]; [|discriminate]. cbn [obind] in E. destruct (Nat.eqb q k); [cbn [obind] in E; apply (IH acc); assumption|].
    destruct (set_nth path j k) as [key|]; [|discriminate]. cbn [obind] in E. destruct (map_get n key) as [l|] eqn:El; [|discriminate]. cbn [obind of_option] in E.
    apply IH in E; [exact E|]. apply Forall_app. split; [exact Ha|]. constructor; [exact (mapped_get _ _ _ _ H El)|constructor]. }
  apply Hg. constructor.
Qed.

Section Loops.
Context (root zero : var) (indices : list F) (vals : list var) (proofs : list (list var)) (new_root : F) (new_db : @hash_db (list F)).
Context (s0 : verifier).
Definition inputs_in (s : verifier) : Prop := v_V s = v_V s0 /\ inr s root /\ inr s zero /\ Forall (inr s) vals /\ Forall (Forall (inr s)) proofs.
Lemma inputs_in_ext s s' : vext s s' -> v_V s' = v_V s -> inputs_in s -> inputs_in s'.
Proof.
  intros X V (A & B & C & D & E). kcarry X. split; [congruence|]. repeat (split; [assumption|]).
  revert E. apply Forall_impl. intros l. apply Forall_inr_ext, X.
Qed.

Lemma read_step_k n i s : inputs_in s -> mapped s n ->
  okk s (read_step p sbox depth root new_root new_db indices vals proofs [lc_of_var zero] n i)
    (fun n' s' => inputs_in s' /\ mapped s' n')
    (fun _ => (0 < depth)%nat -> forall v pr, nth_error vals i = Some v -> nth_error proofs i = Some pr -> length pr = (depth * 3)%nat ->
       dv v = 0 /\ Forall (fun x => dv x = 0) pr /\ dv zero = 0 /\ dv root = 0).
Proof.
  intros Hin Hm. unfold read_step. apply okk_lift_k. intros idx _. apply okk_lift_k. intros pr Epr. apply okk_lift_k. intros path Ep.
  apply okk_lift_k. intros v Ev. pose proof Hin as (V & Rr & Rz & Rv & Rp).
  pose proof (Forall_index _ _ _ _ Rv Ev) as Rv1. pose proof (Forall_index _ _ _ _ Rp Epr) as Rp1.
  assert (Hpl : length (rev path) = depth) by (rewrite rev_length; exact (path_length _ _ Ep)).
  eapply okk_try; [apply (okk_try_fold d W ph _ (present_k pr v zero s) (present_j pr v zero))|..].
  - intros j x st s1 _ Hj. apply presence_step_k. exact Hj.
  - split; [reflexivity|]. cbn [fst snd]. split; [inl0|]. split; [exact Rp1|]. split; [exact Rz|]. split; [intros Hlt; lia|].
    split; [reflexivity|]. exists []. rewrite app_nil_r. auto.
  - split; [|intros Hlt; lia]. cbn [fst]. intros used E. rewrite <- (app_nil_r pr) in E at 1. apply app_inv_head in E. subst used. constructor.
  - rewrite Hpl. intros [rest cur] s1 X1 (V1 & Rc & Rn & Rz1 & Zc & _ & used & En & Hl). cbn [fst snd] in *.
    apply (inputs_in_ext _ _ X1 V1) in Hin. apply (mapped_ext _ _ _ X1) in Hm. pose proof Hin as (_ & Rr1 & _).
    apply okk_constrain_k; [inl0|]. intros s2 X2 V2. apply (inputs_in_ext _ _ X2 V2) in Hin. apply (mapped_ext _ _ _ X2) in Hm.
    apply okk_lift_k. intros n' En'. apply okk_ret; [split; [exact Hin|exact (mapped_collect _ _ _ _ _ _ Hm En')]|].
    intros E (HJ & HJ') Hd v' pr' Hv' Hpr' Hlen. cbn [fst snd] in *.
    unfold index in Ev, Epr. rewrite Hv' in Ev. rewrite Hpr' in Epr. injection Ev as <-. injection Epr as <-.
    assert (rest = []). { destruct rest; [reflexivity|]. exfalso. rewrite En, app_length, Hl in Hlen. cbn in Hlen. lia. }
    subst rest. cbn [app] in En. destruct (HJ' Hd) as [Zl Zz]. split; [exact Zl|]. split; [rewrite En; apply HJ; exact En|]. split; [exact Zz|].
    dlv E. rewrite (Zc Hd) in E. transitivity (- (0 - dv root)); [ring|rewrite E; ring].
Qed.

Lemma write_step_k n i s : inputs_in s -> mapped s n ->
  okk s (write_step p sbox depth indices vals [lc_of_var zero] n i) (fun n' s' => inputs_in s' /\ mapped s' n') (fun _ => True).
Proof.
  intros Hin Hm. unfold write_step. apply okk_lift_k. intros idx _. apply okk_lift_k. intros v Ev. apply okk_lift_k. intros path Ep.
  pose proof Hin as (V & Rr & Rz & Rv & Rp). pose proof (Forall_index _ _ _ _ Rv Ev) as Rv1.
  eapply okk_try; [apply (okk_try_fold d W ph _ (fun _ st s' => inputs_in s' /\ mapped s' (fst (fst st)) /\ inl s' (snd (fst st))) (fun _ _ => True))|..].
  - intros j x [[n1 cur] path1] s1 _ (Hin1 & Hm1 & Rc). cbn [fst snd] in *. unfold write_level.
    apply okk_lift_k. intros lv Elv. apply okk_lift_k. intros q _. apply okk_lift_k. intros ins Ei.
    unfold vec_insert in Ei. destruct (Nat.leb _ _) in Ei; [|discriminate]. injection Ei as <-.
    pose proof (mapped_level _ _ _ _ _ Hm1 Elv) as R3.
    assert (R3' : Forall (inl s1) (firstn q lv ++ cur :: skipn q lv)).
    { rewrite <- (firstn_skipn q lv) in R3. apply Forall_app in R3 as [A B]. apply Forall_app. split; [exact A|]. constructor; assumption. }
    pose proof Hin1 as (_ & _ & Rz1 & _).
    assert (Hm2 : mapped s1 (if Nat.eqb x (depth - 1) then map_insert path1 cur n1 else n1)).
    { destruct (Nat.eqb _ _); [apply mapped_insert; assumption|exact Hm1]. }
    eapply okk_try; [apply hash_4_k; [exact Hsbox|exact R3'|constructor; [inl0|constructor]]|]. intros out s4 X4 (V4 & Ro & _).
    apply (inputs_in_ext _ _ X4 V4) in Hin1. apply (mapped_ext _ _ _ X4) in Hm2.
    apply okk_lift_k. intros path2 _. apply okk_ret; [|auto]. cbn [fst snd]. split; [exact Hin1|]. split; [apply mapped_insert; assumption|exact Ro].
  - cbn [fst snd]. split; [exact Hin|]. split; [exact Hm|inl0].
  - exact I.
  - intros [[n1 cur] path1] s1 X1 (Hin1 & Hm1 & _). cbn [fst snd] in *. apply okk_ret; auto.
Qed.

End Loops.

Lemma randomizer_k root zero indices vals proofs t db s : inputs_in root zero vals proofs s s ->
  okk s (randomizer_gadget p sbox depth root t db indices vals proofs [zero]) (fun _ s' => v_V s' = v_V s)
    (fun _ => (0 < depth)%nat -> indices <> [] -> length proofs = length indices -> Forall (fun pr => length pr = (depth * 3)%nat) proofs ->
       dv root = 0 /\ dv zero = 0 /\ Forall (fun x => dv x = 0) vals /\ Forall (Forall (fun x => dv x = 0)) proofs).
Proof.
  intros Hin. unfold randomizer_gadget. apply okk_lift_k. intros [] _. apply okk_lift_k. intros [] El. cbn [map].
  assert (Hlen : length indices = length vals). { unfold assertb in El. destruct (Nat.eqb_spec (length indices) (length vals)); [assumption|discriminate]. }
  eapply okk_try; [apply (okk_try_fold d W ph _ (fun _ n s' => inputs_in root zero vals proofs s s' /\ mapped s' n)
    (fun j _ => (0 < depth)%nat -> forall i v pr, (i < j)%nat -> nth_error vals i = Some v -> nth_error proofs i = Some pr ->
       length pr = (depth * 3)%nat -> dv v = 0 /\ Forall (fun x => dv x = 0) pr /\ dv zero = 0 /\ dv root = 0))|..].
  - intros j x n s1 Hx [Hi Hm]. apply nth_error_seq0 in Hx as [-> _]. eapply okk_conseq; [apply read_step_k; eassumption|auto|].
    cbn beta. intros _ HK HJ Hd i v pr Hlt Ev Epr Hp. destruct (Nat.eq_dec i j) as [->|Hne]; [exact (HK Hd v pr Ev Epr Hp)|].
    apply (HJ Hd i v pr); [lia|assumption..].
  - split; [exact Hin|]. apply mapped_insert; [inl0|constructor].
  - intros _ i v pr Hlt. lia.
  - rewrite ?seq_length. intros n s1 X1 (Hin1 & Hm1).
    eapply okk_try; [apply (okk_try_fold d W ph _ (fun _ n s' => inputs_in root zero vals proofs s s' /\ mapped s' n) (fun _ _ => True))|..].
    + intros j x n2 s2 _ [Hi Hm]. eapply okk_conseq; [apply write_step_k; eassumption|auto|auto].
    + auto.
    + exact I.
    + intros n2 s2 X2 (Hin2 & Hm2). apply okk_lift_k. intros r Er. destruct (map_get n2 []) as [r'|] eqn:Eg; [|discriminate]. injection Er as ->.
      pose proof (mapped_get _ _ _ _ Hm2 Eg) as Rr. pose proof Hin2 as (V2 & Rroot & _). apply okk_constrain_k; [inl0|]. intros s3 X3 V3.
      apply okk_ret; [congruence|]. intros _ _ HJ Hd Hne Hp Hpl. specialize (HJ Hd).
      assert (Hall : forall i, (i < length indices)%nat -> exists v pr, nth_error vals i = Some v /\ nth_error proofs i = Some pr /\
        dv v = 0 /\ Forall (fun x => dv x = 0) pr /\ dv zero = 0 /\ dv root = 0).
      { intros i Hi. destruct (nth_error vals i) as [v|] eqn:Ev; [|apply nth_error_None in Ev; lia].
        destruct (nth_error proofs i) as [pr|] eqn:Epr; [|apply nth_error_None in Epr; lia]. exists v, pr. repeat (split; [reflexivity|]).
        apply (HJ i v pr Hi Ev Epr). rewrite Forall_forall in Hpl. apply Hpl. eapply nth_error_In, Epr. }
      destruct (Hall O) as (_ & _ & _ & _ & _ & _ & Zz & Zr). { destruct indices; [contradiction|cbn; lia]. }
      split; [exact Zr|]. split; [exact Zz|]. split; apply Forall_forall; intros x Hx; apply In_nth_error in Hx as [i Hi].
      * assert (Hlt : (i < length vals)%nat) by (apply nth_error_Some; congruence). destruct (Hall i ltac:(lia)) as (v & pr & Ev & _ & Zv & _). congruence.
      * assert (Hlt : (i < length proofs)%nat) by (apply nth_error_Some; congruence). destruct (Hall i ltac:(lia)) as (v & pr & _ & Epr & _ & Zp & _). congruence.
Qed.
End Ph.

(** *** the verifying function *)
Local Notation okk := (okk d W false).
Local Notation kspec := (kspec d W false).

Lemma commit_first_k n comms s :
  kspec s (commit_first n comms) (fun r s' => snd r = map VCommitted (seq (length (v_V s)) n) /\
    v_V s' ++ fst r = v_V s ++ comms /\ length (v_V s') = (length (v_V s) + n)%nat /\ Forall (inr s') (snd r)) (fun _ => True).
Proof.
  unfold commit_first. eapply kspec_conseq; [apply (kspec_fold d W false _ (fun j st s' => snd st = map VCommitted (seq (length (v_V s)) j) /\
    v_V s' ++ fst st = v_V s ++ comms /\ length (v_V s') = (length (v_V s) + j)%nat /\ Forall (inr s') (snd st)) (fun _ _ => True))|..].
  - intros j x [cs vars] s1 _ (E & HC & HV & HR). cbn [fst snd] in *. apply kspec_remove0. intros c t L. apply kspec_commit_k. intros s2 X2 V2 R2.
    kcarry X2. apply kspec_ret; [|auto]. cbn [fst snd]. rewrite HV in *. split; [rewrite E, seq_S, map_app; reflexivity|].
    split; [rewrite V2, <- app_assoc; cbn [app]; rewrite <- L; exact HC|].
    split; [rewrite V2, app_length, HV; cbn; lia|]. apply Forall_app. split; [exact HR|]. constructor; [exact R2|constructor].
  - cbn [fst snd]. split; [reflexivity|]. split; [reflexivity|]. split; [lia|constructor].
  - exact I.
  - rewrite ?seq_length. auto.
  - auto.
Qed.

Lemma Forall_inr2_ext s s' (l : list (list var)) : vext s s' -> Forall (Forall (inr s)) l -> Forall (Forall (inr s')) l.
Proof. intros X. apply Forall_impl. intros a. apply Forall_inr_ext, X. Qed.

Lemma randomizer_determines t db indices g h comms : (0 < depth)%nat -> indices <> [] ->
  let k := (1 + length indices * S (depth * 3))%nat in
  determines d W (k + 1) (firstn k comms ++ [commit g h 0 0]) (verify_randomizer t db indices depth p sbox g h comms).
Proof.
  intros Hd Hne k s. unfold verify_randomizer. apply okk_remove0. intros c1 l1 L1. apply okk_commit_k. intros s1 X1 V1 R1.
  set (b := length (v_V s)) in *. set (block := S (depth * 3)) in *.
  eapply okk_bind; [apply (kspec_fold d W false _ (fun j st s' =>
     v_V s' ++ fst (fst st) = v_V s ++ comms /\ length (v_V s') = (b + (1 + j * block))%nat /\ inr s' (VCommitted b) /\
     snd (fst st) = map (fun i => VCommitted (b + (1 + i * block))) (seq 0 j) /\ Forall (inr s') (snd (fst st)) /\
     snd st = map (fun i => map VCommitted (seq (b + (1 + i * block + 1)) (depth * 3))) (seq 0 j) /\ Forall (Forall (inr s')) (snd st)) (fun _ _ => True))|].
  - intros j x [[cs vs] ps] s2 _ (HC & HV & R0 & Ev & Rv & Ep & Rp). cbn [fst snd] in *.
    apply kspec_remove0. intros c l L. apply kspec_commit_k. intros s3 X3 V3 R3. kcarry X3. apply (Forall_inr2_ext _ _ _ X3) in Rp.
    eapply kspec_bind; [apply commit_first_k|]. intros [cs' ps'] s4 X4 (E4 & HC4 & HV4 & R4). cbn [fst snd] in *. kcarry X4. apply (Forall_inr2_ext _ _ _ X4) in Rp.
    apply kspec_ret; [|auto]. cbn [fst snd]. rewrite HV in *.
    assert (L3 : length (v_V s3) = (b + (1 + j * block + 1))%nat) by (rewrite V3, app_length, HV; cbn [length]; lia).
    split; [rewrite HC4, V3, <- app_assoc; cbn [app]; rewrite <- L; exact HC|].
    split; [rewrite HV4, L3; subst block; lia|]. split; [exact R0|].
    rewrite !seq_S, !map_app. split; [rewrite Ev; reflexivity|]. split; [apply Forall_app; split; [exact Rv|constructor; [exact R3|constructor]]|].
    split; [rewrite Ep, E4, L3; reflexivity|]. apply Forall_app. split; [exact Rp|]. constructor; [exact R4|constructor].
  - cbn [fst snd]. rewrite V1, L1, <- app_assoc. split; [reflexivity|]. split; [rewrite app_length; cbn [length]; subst b; lia|]. split; [exact R1|].
    repeat split; constructor.
  - exact I.
  - rewrite ?seq_length. intros [[cs vs] ps] s2 X2 (HC & HV & R0 & Ev & Rv & Ep & Rp). cbn [fst snd] in *. fold block in HV. 
    eapply okk_bind; [apply static_k|]. intros st s3 X3 (-> & V3 & R3). kcarry X3. apply (Forall_inr2_ext _ _ _ X3) in Rp. inversion R3 as [|? ? Rz _]; subst.
    eapply okk_try; [apply randomizer_k; split; [reflexivity|]; auto|]. intros [] s4 X4 V4. apply okk_ret.
    + destruct (taken_from _ _ _ _ _ HC HV) as [HT HL]. subst k. cbv zeta. split; [rewrite V4, V3, app_assoc; f_equal; exact HT|]. rewrite app_length, HL. reflexivity.
    + intros H _ _. rewrite !map_length, !seq_length in H. specialize (H Hd Hne eq_refl).
      destruct H as (Zr & Zz & Zv & Zp). { apply Forall_map, Forall_forall. intros i _. rewrite map_length, seq_length. reflexivity. }
      cbn [delta_var] in Zr, Zz. rewrite HV in Zz. intros j Hj.
      destruct (Nat.eq_dec j 0) as [->|Hj0]; [rewrite Nat.add_0_r; exact Zr|]. destruct (Nat.eq_dec j (1 + length indices * block)) as [->|Hjl]; [exact Zz|].
      assert (Hlt : (j - 1 < length indices * block)%nat) by (subst k; lia).
      set (i := ((j - 1) / block)%nat). set (r := ((j - 1) mod block)%nat).
      assert (Ei : (j - 1 = block * i + r)%nat) by (apply Nat.div_mod; subst block; lia).
      assert (Hr : (r < block)%nat) by (apply Nat.mod_upper_bound; subst block; lia).
      assert (Hi : (i < length indices)%nat).
      { apply Nat.div_lt_upper_bound; [subst block; lia|]. rewrite Nat.mul_comm. exact Hlt. }
      destruct (Nat.eq_dec r 0) as [Hr0|Hr0].
      * rewrite Forall_map, Forall_forall in Zv. specialize (Zv i ltac:(apply in_seq; lia)). cbn [delta_var] in Zv.
        replace j with (1 + i * block)%nat by lia. exact Zv.
      * rewrite Forall_map, Forall_forall in Zp. specialize (Zp i ltac:(apply in_seq; lia)). rewrite Forall_map, Forall_forall in Zp.
        specialize (Zp (b + j)%nat). cbn [delta_var] in Zp. apply Zp. apply in_seq. subst block. lia.
Qed.
End KernelRandomizer.
