(** The Merkle membership gadgets: what they force. *)
From Coq Require Import ZArith String List Lia Bool Ring Field Arith.
From Verif.Base Require Import Outcome Fp Params Algebra.
From Verif.Model Require Import Transcript LinComb Prog VectorPoly IPP Prover Verifier Gadgets Hash Merkle MerkleGadget.
From Verif.Spec Require Import R1CS Sim Session Protocol Verdict Gadget HashSpec MerkleSpec OpeningSpec.
From Verif.Proofs Require Import IPPProofs LinCombProofs RunProofs GadgetTools GadgetBasic GadgetPrograms
  HashTools HashSound HashPrograms HashMain NoCommit MerkleTools MerkleTree MerkleBind.
Import ListNotations.

(** *** One more level of a path *)
Section Levels.
Context {P : Params} {OK : ParamsOk P}.
Local Open Scope fe_scope.
Context (arity : nat) (Ha : (1 < arity)%nat) (H : list F -> F).
Local Notation A := (Z.of_nat arity).
Local Notation digit := (digit arity).

Fixpoint go_up (i : Z) (k : nat) (v : F) (proof : list (list F)) : F :=
  match proof with
  | [] => v
  | s :: proof => go_up i (S k) (H (firstn (digit i k) s ++ v :: skipn (digit i k) s)) proof
  end.

Lemma go_up_climb i proof : forall k v, go_up i k v proof = last (map H (climb arity H i k v proof)) v.
Proof.
  induction proof as [|s proof IH]; intros k v; [reflexivity|].
  cbn [go_up MerkleSpec.climb map]. rewrite IH.
  set (x := H _). destruct proof as [|s' proof]; [reflexivity|].
  cbn [MerkleSpec.climb map]. cbn [last]. set (y := H _).
  generalize (map H (climb arity H i (S (S k)) y proof)). intros l. revert y. induction l as [|z l IHl]; intros y; [reflexivity|].
  cbn [last] in *. destruct l; [reflexivity|]. apply IHl.
Qed.

Lemma go_up_app i p q : forall k v, go_up i k v (p ++ q) = go_up i (k + length p) (go_up i k v p) q.
Proof.
  induction p as [|s p IH]; intros k v; cbn [app go_up length]; [rewrite Nat.add_0_r; reflexivity|].
  rewrite IH. f_equal. lia.
Qed.

Lemma go_up_digits i i' p : forall k v, (forall j, (k <= j < k + length p)%nat -> digit i j = digit i' j) ->
  go_up i k v p = go_up i' k v p.
Proof.
  induction p as [|s p IH]; intros k v Hd; [reflexivity|]. cbn [go_up length] in *. rewrite (Hd k) by lia.
  apply IH. intros j Hj. apply Hd. lia.
Qed.

Lemma digit_top i d l : (0 <= i < A ^ Z.of_nat l)%Z -> (d < arity)%nat -> digit (i + Z.of_nat d * A ^ Z.of_nat l) l = d.
Proof.
  intros Hi Hd. unfold MerkleSpec.digit. rewrite Z.div_add by (pose proof (pow_pos arity Ha l); lia).
  rewrite Z.div_small by exact Hi. rewrite Z.add_0_l, Z.mod_small by lia. apply Nat2Z.id.
Qed.

Lemma digit_below i d l k : (0 <= i < A ^ Z.of_nat l)%Z -> (k < l)%nat -> digit (i + Z.of_nat d * A ^ Z.of_nat l) k = digit i k.
Proof.
  intros Hi Hk. rewrite <- (digit_mod arity Ha _ l k Hk).
  rewrite Z.mod_add by (pose proof (pow_pos arity Ha l); lia). rewrite Z.mod_small by exact Hi. reflexivity.
Qed.

Lemma add_range i d l : (0 <= i < A ^ Z.of_nat l)%Z -> (d < arity)%nat ->
  (0 <= i + Z.of_nat d * A ^ Z.of_nat l < A ^ Z.of_nat (S l))%Z.
Proof. intros Hi Hd. rewrite (pow_S arity Ha). nia. Qed.

Lemma add_level i d v sibs s : (0 <= i < A ^ Z.of_nat (length sibs))%Z -> (d < arity)%nat ->
  go_up (i + Z.of_nat d * A ^ Z.of_nat (length sibs)) 0 v (sibs ++ [s])
  = H (firstn d s ++ go_up i 0 v sibs :: skipn d s).
Proof.
  intros Hi Hd. rewrite go_up_app. cbn [Nat.add go_up]. rewrite digit_top by assumption.
  rewrite (go_up_digits _ i); [reflexivity|]. intros j Hj. apply digit_below; [exact Hi|lia].
Qed.
End Levels.

Section Sound.
Context {P : Params} {OK : ParamsOk P}.
Local Open Scope fe_scope.
Add Field FFms : (Fp_field_theory modulus modulus_prime).
Context (W : world) (ph : bool) (asg : assignment).
Local Notation val := (var_value asg).
Local Notation lval := (lc_value asg).
Local Notation okspec := (okspec W ph asg).
Local Notation vspec := (vspec W ph asg).

(** *** Bits *)
Definition bit_vars (d : nat) (b b_1 : var) : Prop :=
  (d < 2)%nat /\ val b = fe_of (Z.of_nat d) /\ val b_1 = 1 - fe_of (Z.of_nat d).

Lemma bit_constraints_sound o s :
  okspec s (bit_constraints o) (fun r s' => vkeep s s' /\ exists d, bit_vars d (fst r) (snd r)).
Proof.
  unfold bit_constraints. apply ok_allocate_multiplier. intros s1 b b1 out K1 Eo.
  apply ok_constrain. intros s2 K2 E1. apply ok_constrain. intros s3 K3 E2. apply ok_ret.
  split; [eauto using vkeep_trans|]. cbn [fst snd]. lcv E1. lcv E2. rewrite Eo in E1.
  assert (E : val b1 = 1 - val b) by (apply sub_zero_eq; rewrite <- E2; ring).
  assert (Ep : val b * (1 - val b) = 0) by (rewrite <- E, <- E1; ring).
  apply F_mul_integral in Ep as [Eb|Eb].
  - exists 0%nat. split; [lia|]. rewrite E, Eb. split; reflexivity.
  - exists 1%nat. split; [lia|]. assert (Eb' : val b = 1) by (symmetry; apply sub_zero_eq; exact Eb).
    rewrite E, Eb'. split; reflexivity.
Qed.

Lemma pop_node_sound {B} nodes s (f : list var * lc -> vprog (result B)) Q :
  (forall nodes' v, nodes = nodes' ++ [v] -> okspec s (f (nodes', lc_of_var v)) Q) ->
  okspec s (pbind (pop_node nodes) f) Q.
Proof.
  intros Hf. unfold pop_node. intros a s' E. rewrite vrun_bind in E.
  destruct (vec_pop nodes) as [[nodes' v]|] eqn:Ep; [|discriminate E]. cbn in E.
  apply (Hf nodes' v (vec_pop_inv _ _ _ Ep)). exact E.
Qed.

(** *** The children *)
Definition insert_at {T} (d : nat) (x : T) (l : list T) : list T := firstn d l ++ x :: skipn d l.

Ltac mult := apply vspec_bind, vspec_multiply;
  let s' := fresh "s" in let K := fresh "K" in let E := fresh "E" in let vl := fresh "l" in let vr := fresh "r" in let vo := fresh "o" in
  intros s' vl vr vo K _ _ E; lcv E.

Lemma children_4_sound d0 d1 b0 b0_1 b1 b1_1 N N1 N2 N3 s : bit_vars d0 b0 b0_1 -> bit_vars d1 b1 b1_1 ->
  vspec s (children_4 b0 b0_1 b1 b1_1 N N1 N2 N3) (fun r s' => vkeep s s' /\
    map lval r = insert_at (2 * d1 + d0) (lval N) [lval N1; lval N2; lval N3]).
Proof.
  intros (Hd0 & B0 & B0') (Hd1 & B1 & B1'). unfold children_4. do 11 mult.
  apply vspec_ret. split; [repeat (eapply vkeep_trans; [eassumption|]); apply vkeep_refl|].
  cbn [map]. repeat rewrite ?lc_value_sub, ?lc_value_add, ?lc_value_var_sub, ?lc_value_var_add, ?lc_value_of_var.
  cbn [var_value] in *.
  repeat match goal with E : val ?o = _ |- _ => rewrite E in *; clear E end.
  assert (C0 : d0 = 0%nat \/ d0 = 1%nat) by lia. assert (C1 : d1 = 0%nat \/ d1 = 1%nat) by lia.
  destruct C0 as [-> | ->], C1 as [-> | ->]; cbn [Z.of_nat Pos.of_succ_nat Nat.mul Nat.add insert_at firstn skipn app];
    rewrite ?fe_of_0, ?fe_of_1; repeat f_equal; ring.
Qed.

Lemma children_8_sound d0 d1 d2 b0 b0_1 b1 b1_1 b2 b2_1 N N1 N2 N3 N4 N5 N6 N7 s :
  bit_vars d0 b0 b0_1 -> bit_vars d1 b1 b1_1 -> bit_vars d2 b2 b2_1 ->
  vspec s (children_8 b0 b0_1 b1 b1_1 b2 b2_1 N N1 N2 N3 N4 N5 N6 N7) (fun r s' => vkeep s s' /\
    map lval r = insert_at (4 * d2 + 2 * d1 + d0) (lval N)
      [lval N1; lval N2; lval N3; lval N4; lval N5; lval N6; lval N7]).
Proof.
  intros (Hd0 & B0 & B0') (Hd1 & B1 & B1') (Hd2 & B2 & B2'). unfold children_8. do 31 mult.
  apply vspec_ret. split; [repeat (eapply vkeep_trans; [eassumption|]); apply vkeep_refl|].
  cbn [map]. repeat rewrite ?lc_value_sub, ?lc_value_add, ?lc_value_var_sub, ?lc_value_var_add, ?lc_value_of_var.
  cbn [var_value] in *.
  repeat match goal with E : val ?o = _ |- _ => rewrite E in *; clear E end.
  assert (C0 : d0 = 0%nat \/ d0 = 1%nat) by lia. assert (C1 : d1 = 0%nat \/ d1 = 1%nat) by lia.
  assert (C2 : d2 = 0%nat \/ d2 = 1%nat) by lia.
  destruct C0 as [-> | ->], C1 as [-> | ->], C2 as [-> | ->];
    cbn [Z.of_nat Pos.of_succ_nat Nat.mul Nat.add insert_at firstn skipn app];
    rewrite ?fe_of_0, ?fe_of_1; repeat f_equal; ring.
Qed.

(** *** The loop *)
Section Loop.
Context (arity : nat) (Ha : (1 < arity)%nat) (H : list F -> F) (nodes0 : list F) (v x : F).
Local Notation A := (Z.of_nat arity).

Definition climbing (j : nat) (st : level_state) : Prop :=
  let '(prev, ci, ex, nodes) := st in
  exists sibs i, (nodes = [] \/ length sibs = j) /\ (length sibs <= j)%nat /\
    Forall (fun s => length s = (arity - 1)%nat) sibs /\
    nodes0 = map val nodes ++ concat (rev sibs) /\
    (0 <= i < A ^ Z.of_nat (length sibs))%Z /\
    lval prev = go_up arity H i 0 v sibs /\
    lval ci = fe_of i - x /\ ex = fe_of (A ^ Z.of_nat (length sibs))%Z.

Lemma climbing_skip j prev ci ex : climbing j (prev, ci, ex, []) -> climbing (S j) (prev, ci, ex, []).
Proof. intros (sibs & i & _ & Hl & Hr). exists sibs, i. split; [auto|]. split; [lia|exact Hr]. Qed.

Lemma climbing_step j prev ci ex nodes nodes' prev' ci' ex' s d :
  climbing j (prev, ci, ex, nodes ++ nodes') -> nodes' <> [] ->
  s = map val nodes' -> length s = (arity - 1)%nat -> (d < arity)%nat ->
  lval prev' = H (insert_at d (lval prev) s) ->
  lval ci' = lval ci + fe_of (Z.of_nat d) * ex -> ex' = ex * fe_of A ->
  climbing (S j) (prev', ci', ex', nodes).
Proof.
  intros (sibs & i & Hn & Hj & Ht & En & Hi & Ep & Ec & Ee) Hne Es Hs Hd Ep' Ec' Ee'.
  destruct Hn as [Hn|Hn]; [apply app_eq_nil in Hn as [_ Hn]; contradiction|].
  exists (sibs ++ [s]), (i + Z.of_nat d * A ^ Z.of_nat (length sibs))%Z.
  assert (El : length (sibs ++ [s]) = S (length sibs)) by (rewrite app_length; cbn; lia).
  rewrite El. split; [right; lia|]. split; [lia|].
  split; [apply Forall_app; split; [exact Ht|repeat constructor; exact Hs]|].
  split; [rewrite rev_app_distr; cbn [rev app concat]; rewrite En, map_app, Es, app_assoc; reflexivity|].
  split; [apply add_range; assumption|].
  split; [rewrite (add_level arity Ha) by assumption; rewrite Ep', Ep; reflexivity|].
  split.
  - rewrite Ec', Ec, Ee, fe_of_add, fe_of_mul. ring.
  - rewrite Ee', Ee, (pow_S arity Ha), fe_of_mul. ring.
Qed.

Lemma climbing_start prev ci nodes : nodes0 = map val nodes -> lval prev = v -> lval ci = - x ->
  climbing 0 (prev, ci, 1, nodes).
Proof.
  intros En Ev Ec. exists [], 0%Z. split; [right; reflexivity|]. split; [cbn; lia|]. split; [constructor|].
  split; [cbn; rewrite app_nil_r; exact En|]. split; [cbn; lia|]. split; [exact Ev|].
  split; [rewrite Ec, fe_of_0; ring|]. cbn [length Z.of_nat]. rewrite Z.pow_0_r. symmetry. apply fe_of_1.
Qed.

Lemma climbing_end j prev ci ex nodes root : climbing j (prev, ci, ex, nodes) -> lval ci = 0 -> lval prev = root ->
  opens arity H j root v x nodes0.
Proof.
  intros (sibs & i & Hn & Hj & Ht & En & Hi & Ep & Ec & Ee) E0 Er.
  exists (map val nodes), (rev sibs), i. rewrite rev_length. split; [exact En|].
  split; [apply Forall_rev; exact Ht|]. split; [exact Hj|].
  split; [destruct Hn as [-> |Hn]; [left; reflexivity|right; exact Hn]|]. split; [exact Hi|].
  split; [symmetry; apply sub_zero_eq; rewrite <- Ec; exact E0|].
  unfold climbed. rewrite rev_involutive, <- go_up_climb, <- Ep. exact Er.
Qed.
End Loop.

Section Gadget.
Context (p : poseidon_params) (sbox : sbox_type) (Hp : params_ok p) (Hsbox : sbox <> Inverse).
Local Notation Hash := (hash_value p sbox).

Lemma permuted_hash xs out :
  obind (Poseidon_permutation p sbox (0 :: xs)) (fun o => index o 1) = Done out -> Hash xs = out.
Proof.
  destruct (Poseidon_permutation p sbox (0 :: xs)) as [o|] eqn:E; [|discriminate]. cbn [obind]. intros Ei.
  pose proof (permutation_length_ok _ _ _ _ E) as Hl. rewrite permutation_native in E by assumption.
  injection E as <-. apply (index_inv _ _ _ 0) in Ei as [_ ->]. reflexivity.
Qed.

Ltac bits := eapply ok_try; [apply bit_constraints_sound|];
  let b := fresh "b" in let b' := fresh "b" in let s := fresh "s" in let d := fresh "d" in let K := fresh "K" in let B := fresh "B" in
  intros [b b'] s [K [d B]]; cbn [fst snd] in B.

Lemma level_4_sound nodes0 v x j bytes zero st ij s : bytes = None -> val zero = 0 -> climbing 4 Hash nodes0 v x j st ->
  okspec s (level_4 p sbox bytes [lc_of_var zero] st ij) (fun st' s' => vkeep s s' /\ climbing 4 Hash nodes0 v x (S j) st').
Proof.
  intros -> Hz Hc. destruct st as [[[prev ci] ex] nodes], ij as [i0 j0]. unfold level_4.
  destruct nodes as [|n0 nodes]; [apply ok_ret; split; [apply vkeep_refl|apply climbing_skip; [lia|exact Hc]]|].
  remember (n0 :: nodes) as nn. clear Heqnn.
  cbn [pbind]. bits. cbn [pbind]. bits.
  apply pop_node_sound. intros nodes3 v3 ->. apply pop_node_sound. intros nodes2 v2 ->. apply pop_node_sound. intros nodes1 v1 ->.
  eapply ok_bind; [apply (children_4_sound d d0); eassumption|]. intros ins s3 [K3 Ei].
  eapply ok_try; [apply hash_4_sound; exact Hsbox|]. intros out s4 (K4 & _ & s0' & rest & Est & _ & Eh).
  injection Est as <- <-. cbn [map] in Eh. rewrite app_nil_r, lc_value_of_var, Hz in Eh. apply permuted_hash in Eh.
  apply ok_simplify. intros m s5 K5 Em. apply ok_ret. split; [eauto 6 using vkeep_trans|].
  rewrite <- !app_assoc in Hc. cbn [app] in Hc.
  destruct B as (Hd & Bd & _), B0 as (Hd0 & Bd0 & _).
  eapply (climbing_step 4 ltac:(lia) Hash nodes0 v x j prev ci ex nodes1 [v1; v2; v3] _ _ _ _ (2 * d0 + d)%nat); try reflexivity.
  - exact Hc.
  - discriminate.
  - lia.
  - rewrite Em, <- Eh, Ei, !lc_value_of_var. reflexivity.
  - rewrite !lc_value_app. cbn [lc_value]. rewrite Bd, Bd0, Nat2Z.inj_add, Nat2Z.inj_mul, fe_of_add, fe_of_mul. cbn [Z.of_nat Pos.of_succ_nat Pos.succ]. ring.
Qed.

Lemma level_8_sound nodes0 v x j octets zero st i0 s : octets = None -> val zero = 0 -> climbing 8 Hash nodes0 v x j st ->
  okspec s (level_8 p sbox octets zero st i0) (fun st' s' => vkeep s s' /\ climbing 8 Hash nodes0 v x (S j) st').
Proof.
  intros -> Hz Hc. destruct st as [[[prev ci] ex] nodes]. unfold level_8.
  destruct nodes as [|n0 nodes]; [apply ok_ret; split; [apply vkeep_refl|apply climbing_skip; [lia|exact Hc]]|].
  remember (n0 :: nodes) as nn. clear Heqnn.
  cbn [pbind]. bits. bits. bits.
  apply pop_node_sound. intros nodes7 v7 ->. apply pop_node_sound. intros nodes6 v6 ->. apply pop_node_sound. intros nodes5 v5 ->.
  apply pop_node_sound. intros nodes4 v4 ->. apply pop_node_sound. intros nodes3 v3 ->. apply pop_node_sound. intros nodes2 v2 ->.
  apply pop_node_sound. intros nodes1 v1 ->.
  eapply ok_bind; [apply (children_8_sound d d0 d1); eassumption|]. intros ins s3 [K3 Ei].
  eapply ok_try; [apply hash_8_sound; exact Hsbox|]. intros out s4 (K4 & _ & Eh).
  rewrite lc_value_of_var, Hz in Eh. apply permuted_hash in Eh.
  apply ok_simplify. intros m s5 K5 Em. apply ok_ret. split; [eauto 8 using vkeep_trans|].
  rewrite <- !app_assoc in Hc. cbn [app] in Hc.
  destruct B as (Hd & Bd & _), B0 as (Hd0 & Bd0 & _), B1 as (Hd1 & Bd1 & _).
  eapply (climbing_step 8 ltac:(lia) Hash nodes0 v x j prev ci ex nodes1 [v1; v2; v3; v4; v5; v6; v7] _ _ _ _ (4 * d1 + 2 * d0 + d)%nat); try reflexivity.
  - exact Hc.
  - discriminate.
  - lia.
  - rewrite Em, <- Eh, Ei, !lc_value_of_var. reflexivity.
  - rewrite !lc_value_app. cbn [lc_value]. rewrite Bd, Bd0, Bd1, !Nat2Z.inj_add, !Nat2Z.inj_mul, !fe_of_add, !fe_of_mul.
    cbn [Z.of_nat Pos.of_succ_nat Pos.succ]. ring.
Qed.

Lemma levels_4 depth : length (list_prod (seq 0 ((depth * 2 + 7) / 8)) (seq 0 4)) = (4 * ((depth * 2 + 7) / 8))%nat.
Proof. rewrite prod_length, !seq_length. lia. Qed.

Lemma merkle_4_sound depth root leaf q nodes zero s : q_assignment q = None -> val zero = 0 ->
  okspec s (vanilla_merkle_merkle_tree_4_verif_gadget p sbox depth root leaf q nodes [zero]) (fun _ _ =>
    opens 4 Hash (4 * ((depth * 2 + 7) / 8)) root (val leaf) (val (q_var q)) (map val nodes)).
Proof.
  intros Hq Hz. unfold vanilla_merkle_merkle_tree_4_verif_gadget, allocated_leaf_index_to_bytes. rewrite Hq. cbn [option_map map].
  apply ok_lift. intros bs Eb. pose proof (byte_size_done depth 2) as Eb2. cbn [Nat.pow Nat.mul Nat.add] in Eb2. rewrite Eb2 in Eb. clear Eb2. assert (Eb3 : ((depth * 2 + 7) / 8)%nat = bs) by congruence. clear Eb. rename Eb3 into Eb. rewrite <- levels_4, Eb. clear Eb.
  eapply ok_try; [apply (ok_try_fold W ph asg _ (fun j st s' => climbing 4 Hash (map val nodes) (val leaf) (val (q_var q)) j st))|].
  - intros j ij st s1 _ Hc. eapply ok_conseq; [apply level_4_sound; [reflexivity|exact Hz|exact Hc]|]. intros st' s' [_ Hc']. exact Hc'.
  - apply climbing_start; [lia|reflexivity|apply lc_value_of_var|]. cbn [lc_value]. ring.
  - intros [[[prev ci] ex] rest] s1 Hc. apply ok_constrain. intros s2 _ E0. unfold constrain_lc_with_scalar. apply ok_constrain.
    intros s3 _ Er. lcv Er. apply sub_zero_eq in Er. apply ok_ret. eapply climbing_end; (eassumption || lia).
Qed.

Lemma merkle_8_sound depth root leaf q nodes zero s : q_assignment q = None -> val zero = 0 ->
  okspec s (vanilla_merkle_merkle_tree_8_verif_gadget p sbox depth root leaf q nodes zero) (fun _ _ =>
    opens 8 Hash depth root (val leaf) (val (q_var q)) (map val nodes)).
Proof.
  intros Hq Hz. unfold vanilla_merkle_merkle_tree_8_verif_gadget. rewrite Hq. cbn [pbind].
  apply ok_lift. intros bs Eb. unfold get_bit_count in Eb. cbn [is_power_of_two] in Eb.
  assert (Ebs : bs = (depth * 3)%nat) by (cbn in Eb; congruence). clear Eb.
  assert (El : length (seq 0 ((bs + 2) / 3)) = depth).
  { rewrite seq_length, Ebs. symmetry. apply (Nat.div_unique _ 3 depth 2); lia. }
  rewrite <- El. generalize (seq 0 ((bs + 2) / 3)). intros lv. clear El Ebs bs.
  eapply ok_try; [apply (ok_try_fold W ph asg _ (fun j st s' => climbing 8 Hash (map val nodes) (val leaf) (val (q_var q)) j st))|].
  - intros j ij st s1 _ Hc. eapply ok_conseq; [apply level_8_sound; [reflexivity|exact Hz|exact Hc]|]. intros st' s' [_ Hc']. exact Hc'.
  - apply climbing_start; [lia|reflexivity|apply lc_value_of_var|]. cbn [lc_value]. ring.
  - intros [[[prev ci] ex] rest] s1 Hc. apply ok_constrain. intros s2 _ E0. unfold constrain_lc_with_scalar. apply ok_constrain.
    intros s3 _ Er. lcv Er. apply sub_zero_eq in Er. apply ok_ret. eapply climbing_end; (eassumption || lia).
Qed.
End Gadget.
End Sound.

(** *** The verifying functions *)
Section Verify.
Context {P : Params} {OK : ParamsOk P}.
Local Open Scope fe_scope.
Context (W : world).

Lemma drain_sound asg comms s :
  vspec W false asg s (commit_drain comms) (fun vars s' => vars = map VCommitted (seq (length (v_V s)) (length comms)) /\
    length (v_V s') = (length (v_V s) + length comms)%nat).
Proof.
  unfold commit_drain.
  eapply vspec_conseq; [apply (vspec_fold W false asg _ (fun j vars s' =>
     vars = map VCommitted (seq (length (v_V s)) j) /\ length (v_V s') = (length (v_V s) + j)%nat))|].
  - intros j c vars s1 Hx (E & HL). apply vspec_bind, vspec_commit. intros s2 P2 V2. apply vspec_ret.
    split; [rewrite E, seq_S, map_app, HL; reflexivity|]. rewrite V2, app_length. cbn [length]. lia.
  - split; [reflexivity|lia].
  - auto.
Qed.

Lemma drain_commits comms s a s' : vrun W false (commit_drain comms) s = Done (a, s') -> v_V s' = v_V s ++ comms.
Proof.
  unfold commit_drain.
  assert (Hd : forall s vars, vrun W false (p_fold (fun proof_vars c => pbind (cs_commit c) (fun v => PRet (proof_vars ++ [v]))) comms vars) s
    = Done (a, s') -> v_V s' = v_V s ++ comms); [|apply Hd].
  clear s. induction comms as [|c comms IH]; intros s vars E.
  - injection E as <- <-. rewrite app_nil_r. reflexivity.
  - cbn [p_fold pbind cs_commit vrun] in E. unfold verifier_commit in E. cbn [pbind] in E. apply IH in E. rewrite E. cbn. rewrite <- app_assoc. reflexivity.
Qed.

Context (p : poseidon_params) (sbox : sbox_type).

Local Opaque Poseidon_hash_4_constraints Poseidon_hash_8_constraints.

Lemma bits_keeps ph o : keepsV W ph (bit_constraints o).
Proof. unfold bit_constraints. keeps. Qed.
Lemma pop_keeps ph l : keepsV W ph (pop_node l).
Proof. unfold pop_node. keeps. Qed.
Lemma children_4_keeps ph b0 b0_1 b1 b1_1 N N1 N2 N3 : keepsV W ph (children_4 b0 b0_1 b1 b1_1 N N1 N2 N3).
Proof. unfold children_4. repeat (apply keeps_bind; [apply keeps_multiply|intros [[? ?] ?]]). apply keeps_ret. Qed.
Lemma children_8_keeps ph b0 b0_1 b1 b1_1 b2 b2_1 N N1 N2 N3 N4 N5 N6 N7 :
  keepsV W ph (children_8 b0 b0_1 b1 b1_1 b2 b2_1 N N1 N2 N3 N4 N5 N6 N7).
Proof. unfold children_8. repeat (apply keeps_bind; [apply keeps_multiply|intros [[? ?] ?]]). apply keeps_ret. Qed.
Local Opaque bit_constraints pop_node children_4 children_8.

Ltac keeps' := repeat match goal with
  | |- NoCommit.keepsV _ _ (PRet _) => apply keeps_ret
  | |- NoCommit.keepsV _ _ (ptry _ _) => apply keeps_try; [|intros ?]
  | |- NoCommit.keepsV _ _ (pbind _ _) => apply keeps_bind; [|intros ?]
  | |- NoCommit.keepsV _ _ (p_lift _) => apply keeps_lift
  | |- NoCommit.keepsV _ _ (cs_constrain _) => apply keeps_constrain
  | |- NoCommit.keepsV _ _ (constrain_lc_with_scalar _ _) => apply scalar_keeps
  | |- NoCommit.keepsV _ _ (p_simplify _) => apply keeps_simplify
  | |- NoCommit.keepsV _ _ (p_try_fold _ _ _) => apply keeps_try_fold; intros ? ?
  | |- NoCommit.keepsV _ _ (bit_constraints _) => apply bits_keeps
  | |- NoCommit.keepsV _ _ (pop_node _) => apply pop_keeps
  | |- NoCommit.keepsV _ _ (children_4 _ _ _ _ _ _ _ _) => apply children_4_keeps
  | |- NoCommit.keepsV _ _ (children_8 _ _ _ _ _ _ _ _ _ _ _ _ _ _) => apply children_8_keeps
  | |- NoCommit.keepsV _ _ (Poseidon_hash_4_constraints _ _ _ _) => apply hash_4_constraints_keeps
  | |- NoCommit.keepsV _ _ (Poseidon_hash_8_constraints _ _ _ _) => apply hash_8_constraints_keeps
  | |- NoCommit.keepsV _ _ (match ?x with _ => _ end) => destruct x
  end.

Lemma merkle_4_keeps ph depth root leaf q nodes statics :
  keepsV W ph (vanilla_merkle_merkle_tree_4_verif_gadget p sbox depth root leaf q nodes statics).
Proof. unfold vanilla_merkle_merkle_tree_4_verif_gadget, level_4. keeps'. Qed.
Lemma merkle_8_keeps ph depth root leaf q nodes zero :
  keepsV W ph (vanilla_merkle_merkle_tree_8_verif_gadget p sbox depth root leaf q nodes zero).
Proof. unfold vanilla_merkle_merkle_tree_8_verif_gadget, level_8. keeps'. Qed.
Local Opaque vanilla_merkle_merkle_tree_4_verif_gadget vanilla_merkle_merkle_tree_8_verif_gadget.

Ltac commits E :=
  let w := fresh "w" in let s := fresh "s" in let V := fresh "V" in
  apply commit_step in E as (w & s & V & E); cbn [remove0 pbind] in E.

(** the verifier commits to every commitment it is given, and to 0 *)
Lemma verify_leaf_4_commits root depth g h comms vs b vs' :
  vrun W false (verify_leaf_inclusion_4_ary_merkle_tree root depth p sbox g h comms) vs = Done (b, vs') ->
  v_V vs' = v_V vs ++ comms ++ [commit g h 0 0] /\ (2 <= length comms)%nat.
Proof.
  intros E. destruct comms as [|c1 [|c2 comms]]; [discriminate..|]. unfold verify_leaf_inclusion_4_ary_merkle_tree in E.
  cbn [remove0 pbind] in E. commits E. commits E.
  rewrite vrun_bind in E. destruct (vrun W false (commit_drain comms) s0) as [[vars s1]|] eqn:Ed; [|discriminate].
  apply drain_commits in Ed. cbn [obind] in E. unfold allocate_statics_for_verifier in E.
  cbn [pbind cs_commit vrun Nat.ltb Nat.leb length Nat.sub seq p_fold] in E. unfold verifier_commit in E.
  apply keeps_try in E; [|apply merkle_4_keeps|intros; apply keeps_ret].
  rewrite E. cbn. rewrite Ed, V0, V, <- !app_assoc. split; [reflexivity|lia].
Qed.
Lemma verify_leaf_8_commits root depth g h comms vs b vs' :
  vrun W false (verify_leaf_inclusion_8_ary_merkle_tree root depth p sbox g h comms) vs = Done (b, vs') ->
  v_V vs' = v_V vs ++ comms ++ [commit g h 0 0] /\ (2 <= length comms)%nat.
Proof.
  intros E. destruct comms as [|c1 [|c2 comms]]; [discriminate..|]. unfold verify_leaf_inclusion_8_ary_merkle_tree in E.
  cbn [remove0 pbind] in E. commits E. commits E.
  rewrite vrun_bind in E. destruct (vrun W false (commit_drain comms) s0) as [[vars s1]|] eqn:Ed; [|discriminate].
  apply drain_commits in Ed. cbn [obind] in E. unfold allocate_statics_for_verifier in E.
  cbn [pbind cs_commit vrun Nat.ltb Nat.leb length Nat.sub seq p_fold] in E. unfold verifier_commit in E.
  cbn [pbind app p_lift index nth_error of_option] in E.
  apply keeps_try in E; [|apply merkle_8_keeps|intros; apply keeps_ret].
  rewrite E. cbn. rewrite Ed, V0, V, <- !app_assoc. split; [reflexivity|lia].
Qed.

Context (Hp : params_ok p) (Hsbox : sbox <> Inverse).
Local Notation Hash := (hash_value p sbox).

Lemma forces_if {B} (m : vprog (result B)) vs (C : assignment -> Prop) (Q : assignment -> B -> Prop) :
  (forall s, C s -> okspec W false s vs m (fun b _ => Q s b)) -> forces W false m vs (fun s b => C s -> Q s b).
Proof. intros Hm b vs' s E Hs HC. exact (Hm s HC (Ok b) vs' E Hs b eq_refl). Qed.

Lemma verify_leaf_4_forces root depth g h comms vs :
  let n := length (v_V vs) in let k := length comms in
  forces W false (verify_leaf_inclusion_4_ary_merkle_tree root depth p sbox g h comms) vs (fun s _ =>
    as_committed s (n + k) = 0 ->
    opens 4 Hash (4 * ((depth * 2 + 7) / 8)) root (as_committed s n) (as_committed s (n + 1)) (committed s (n + 2) (k - 2))).
Proof.
  intros n k. apply (forces_if _ vs (fun s => as_committed s (n + k) = 0)). intros s E0. unfold verify_leaf_inclusion_4_ary_merkle_tree.
  apply ok_remove0. intros c1 l1 L1. apply ok_commit. intros s1 _ V1.
  apply ok_remove0. intros c2 l2 L2. apply ok_commit. intros s2 _ V2.
  eapply ok_bind; [apply drain_sound|]. intros vars s3 [-> V3]. eapply ok_bind; [apply static_sound|]. intros vars s4 ->.
  assert (Hn2 : length (v_V s2) = (n + 2)%nat) by (rewrite V2, V1, !app_length; cbn; unfold n; lia).
  assert (Hk : k = (length l2 + 2)%nat) by (unfold k; rewrite L1, L2; cbn; lia).
  eapply ok_try; [apply merkle_4_sound; [exact Hp|exact Hsbox|reflexivity|]|].
  - cbn [var_value]. rewrite V3, Hn2. replace (n + 2 + length l2)%nat with (n + k)%nat by lia. exact E0.
  - intros [] s5 Ho. apply ok_ret. cbn [q_var var_value] in Ho. rewrite map_committed, Hn2 in Ho.
    rewrite V1, app_length in Ho. cbn [length] in Ho. replace (k - 2)%nat with (length l2) by lia. exact Ho.
Qed.
Lemma verify_leaf_8_forces root depth g h comms vs :
  let n := length (v_V vs) in let k := length comms in
  forces W false (verify_leaf_inclusion_8_ary_merkle_tree root depth p sbox g h comms) vs (fun s _ =>
    as_committed s (n + k) = 0 ->
    opens 8 Hash depth root (as_committed s n) (as_committed s (n + 1)) (committed s (n + 2) (k - 2))).
Proof.
  intros n k. apply (forces_if _ vs (fun s => as_committed s (n + k) = 0)). intros s E0. unfold verify_leaf_inclusion_8_ary_merkle_tree.
  apply ok_remove0. intros c1 l1 L1. apply ok_commit. intros s1 _ V1.
  apply ok_remove0. intros c2 l2 L2. apply ok_commit. intros s2 _ V2.
  eapply ok_bind; [apply drain_sound|]. intros vars s3 [-> V3]. eapply ok_bind; [apply static_sound|]. intros vars s4 ->.
  apply ok_lift. intros zero Ez. injection Ez as <-.
  assert (Hn2 : length (v_V s2) = (n + 2)%nat) by (rewrite V2, V1, !app_length; cbn; unfold n; lia).
  assert (Hk : k = (length l2 + 2)%nat) by (unfold k; rewrite L1, L2; cbn; lia).
  eapply ok_try; [apply merkle_8_sound; [exact Hp|exact Hsbox|reflexivity|]|].
  - cbn [var_value]. rewrite V3, Hn2. replace (n + 2 + length l2)%nat with (n + k)%nat by lia. exact E0.
  - intros [] s5 Ho. apply ok_ret. cbn [q_var var_value] in Ho. rewrite map_committed, Hn2 in Ho.
    rewrite V1, app_length in Ho. cbn [length] in Ho. replace (k - 2)%nat with (length l2) by lia. exact Ho.
Qed.
End Verify.
