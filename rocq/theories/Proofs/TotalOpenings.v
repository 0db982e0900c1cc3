(** The gadgets that open Merkle trees end, or panic, on both sides. *)
From Coq Require Import ZArith String List Lia Arith Permutation Bool.
From Verif.Base Require Import Outcome Fp Params Algebra.
From Verif.Model Require Import Transcript LinComb Prog IPP Prover Verifier Gadgets Hash Merkle MerkleGadget.
From Verif.Spec Require Import R1CS HashSpec Compose CircuitSize Behaviour.
From Verif.Proofs Require Import MerkleTools MerkleComplete TotalTools TotalGadgets.
Import ListNotations.
Local Open Scope nat_scope.
Local Notation length := List.length.
Local Notation vr := var_in_range.
Local Notation lr := lc_in_range.

Section Openings.
Context {P : Params} {OK : ParamsOk P} {CA CR : Type} {Sd : side CA CR}.
Local Notation pg := (prog CA CR).
Local Notation any := (fun _ _ _ => True).

(** *** openings *)
Lemma fine_bits a n c : given a -> fineR (bit_constraints a) n c (fun x n c => vr n c (fst x) /\ vr n c (snd x)).
Proof. intros Ha. unfold bit_constraints. fsteps. cbn [fst snd]. split; rng_var. Qed.
Lemma fine_children_4 b0 b0' b1 b1' N N1 N2 N3 n c : vr n c b0 -> vr n c b0' -> vr n c b1 -> vr n c b1' ->
  lr n c N -> lr n c N1 -> lr n c N2 -> lr n c N3 ->
  fine (children_4 b0 b0' b1 b1' N N1 N2 N3) n c (fun xs n c => Forall (lr n c) xs /\ length xs = 4).
Proof. intros. unfold children_4. fsteps. split; [|reflexivity]. repeat (constructor; [rng|]). constructor. Qed.
Lemma fine_children_8 b0 b0' b1 b1' b2 b2' N N1 N2 N3 N4 N5 N6 N7 n c :
  vr n c b0 -> vr n c b0' -> vr n c b1 -> vr n c b1' -> vr n c b2 -> vr n c b2' ->
  lr n c N -> lr n c N1 -> lr n c N2 -> lr n c N3 -> lr n c N4 -> lr n c N5 -> lr n c N6 -> lr n c N7 ->
  fine (children_8 b0 b0' b1 b1' b2 b2' N N1 N2 N3 N4 N5 N6 N7) n c (fun xs n c => Forall (lr n c) xs /\ length xs = 8).
Proof. intros. unfold children_8. fsteps. split; [|reflexivity]. repeat (constructor; [rng|]). constructor. Qed.
Lemma fine_pop nodes n c : nodes <> [] -> Forall (vr n c) nodes ->
  fine (pop_node nodes) n c (fun x n' c' => Forall (vr n c) (fst x) /\ S (length (fst x)) = length nodes /\ lr n c (snd x) /\ n' = n /\ c' = c).
Proof.
  intros Hne H. destruct (exists_last Hne) as (t & x & ->). unfold pop_node.
  assert (E : vec_pop (t ++ [x]) = Done (t, x)) by (unfold vec_pop; rewrite rev_app_distr; cbn; rewrite rev_involutive; reflexivity).
  eapply fine_bind; [apply (fine_lift _ (t, x)), E|]. intros ? ? ? _ _ (-> & -> & ->). apply fine_ret. cbn [fst snd].
  apply Forall_app in H as [H1 H2]. inversion H2; subst. rewrite app_length. cbn [length]. split; [exact H1|]. split; [lia|]. split; [rng|auto].
Qed.
Lemma crash_pop n c : crash (pop_node []) n c.
Proof. exact I. Qed.

(** [k] nodes are left *)
Definition level_fine (k : nat) (st : level_state) (n c : nat) : Prop :=
  lr n c (fst (fst (fst st))) /\ lr n c (snd (fst (fst st))) /\ Forall (vr n c) (snd st) /\ length (snd st) = k.
Lemma level_mono k st n c n' c' : n <= n' -> c <= c' -> level_fine k st n c -> level_fine k st n' c'.
Proof.
  intros Hn Hc (H1 & H2 & H3 & H4). split; [apply (lr_mono n c); assumption|]. split; [apply (lr_mono n c); assumption|].
  split; [apply (Forall_vr_mono n c); assumption|exact H4].
Qed.

Ltac pop :=
  eapply fineR_bind; [apply fine_pop; [intros ->; cbn [length] in *; lia|eassumption]|];
  let t := fresh "t" in let N := fresh "N" in
  intros [t N] ? ? _ _ (? & ? & ? & -> & ->); cbn [fst snd] in *.
Ltac cpop :=
  let E := fresh "E" in
  match goal with |- crash (pbind (pop_node ?t) _) ?n ?c => destruct (Nat.eq_dec (length t) 0) as [E|E];
    [apply length_zero_iff_nil in E; subst t; apply crash_bind_l, crash_pop|] end;
  eapply crash_bind_r; [apply fine_pop; [intros ->; apply E; reflexivity|eassumption]|];
  let t := fresh "t" in let N := fresh "N" in
  intros [t N] ? ? _ _ (? & ? & ? & -> & ->); cbn [fst snd] in *.

(** the digits of the index, of which the [i]-th is looked up if they are known *)
Definition digits {A} (l : option (list A)) (i : nat) : Prop := given l /\ forall x, l = Some x -> i < length x.
Lemma fineR_digit {A B C} (l : option (list A)) i (f : A -> B) (k : option B -> pg (result C)) n c R : digits l i ->
  (forall x, given x -> fineR (k x) n c R) ->
  fineR (pbind (match l with Some l => pbind (p_lift (index l i)) (fun b => PRet (Some (f b))) | None => PRet None end) k) n c R.
Proof.
  intros [Hg Hi] H. destruct l as [l|]; cbn [pbind].
  - specialize (Hi l eq_refl). destruct (index_in l i Hi) as (x & E & _). rewrite E. cbn [p_lift pbind]. apply H. intros _. discriminate.
  - apply H. intros E. destruct (Hg E). reflexivity.
Qed.
Lemma crash_digit {A B C} (l : option (list A)) i (f : A -> B) (k : option B -> pg C) n c : digits l i ->
  (forall x, given x -> crash (k x) n c) ->
  crash (pbind (match l with Some l => pbind (p_lift (index l i)) (fun b => PRet (Some (f b))) | None => PRet None end) k) n c.
Proof.
  intros [Hg Hi] H. destruct l as [l|]; cbn [pbind].
  - specialize (Hi l eq_refl). destruct (index_in l i Hi) as (x & E & _). rewrite E. cbn [p_lift pbind]. apply H. intros _. discriminate.
  - apply H. intros E. destruct (Hg E). reflexivity.
Qed.

Lemma fineR_octet {A B C} (l : option (list A)) i (f g h : A -> B) (k : option B * option B * option B -> pg (result C)) n c R : digits l i ->
  (forall x y z, given x -> given y -> given z -> fineR (k (x, y, z)) n c R) ->
  fineR (pbind (match l with Some l => pbind (p_lift (index l i)) (fun b => PRet (Some (f b), Some (g b), Some (h b))) | None => PRet (None, None, None) end) k) n c R.
Proof.
  intros [Hg Hi] H. destruct l as [l|]; cbn [pbind].
  - specialize (Hi l eq_refl). destruct (index_in l i Hi) as (x & E & _). rewrite E. cbn [p_lift pbind]. apply H; intros _; discriminate.
  - apply H; intros E; destruct (Hg E); reflexivity.
Qed.
Lemma crash_octet {A B C} (l : option (list A)) i (f g h : A -> B) (k : option B * option B * option B -> pg C) n c : digits l i ->
  (forall x y z, given x -> given y -> given z -> crash (k (x, y, z)) n c) ->
  crash (pbind (match l with Some l => pbind (p_lift (index l i)) (fun b => PRet (Some (f b), Some (g b), Some (h b))) | None => PRet (None, None, None) end) k) n c.
Proof.
  intros [Hg Hi] H. destruct l as [l|]; cbn [pbind].
  - specialize (Hi l eq_refl). destruct (index_in l i Hi) as (x & E & _). rewrite E. cbn [p_lift pbind]. apply H; intros _; discriminate.
  - apply H; intros E; destruct (Hg E); reflexivity.
Qed.

Section Levels.
Context (p : poseidon_params) (sbox : sbox_type) (HP : params_ok p).

Lemma fine_level_4_none lb s st ij n c : level_fine 0 st n c -> fineR (level_4 p sbox lb [lc_of_var s] st ij) n c (level_fine 0).
Proof.
  intros H. destruct st as [[[prev idx] e] nodes]. destruct ij as [i j]. pose proof H as (_ & _ & _ & HL). cbn [snd] in HL.
  destruct nodes; [|discriminate]. unfold level_4. apply fineR_ret, H.
Qed.
Lemma fine_level_4 lb k s st ij n c : digits lb (fst ij) -> width p = 5 -> vr n c s -> level_fine (3 + k) st n c ->
  fineR (level_4 p sbox lb [lc_of_var s] st ij) n c (level_fine k).
Proof.
  intros Hg Hw Hs H. destruct st as [[[prev idx] e] nodes]. destruct ij as [i j]. destruct H as (H1 & H2 & H3 & H4). cbn [fst snd] in *.
  unfold level_4. destruct nodes as [|v0 nodes'] eqn:E; [discriminate|]. rewrite <- E in *. clear nodes' v0 E.
  cbn [fst] in Hg. apply fineR_digit; [exact Hg|]. intros d0 Hd0. eapply fineR_try; [apply fine_bits, Hd0|]. intros [b0 b0'] n1 c1 Hn1 Hc1 [Hb0 Hb0']. cbn [fst snd] in *.
  apply fineR_digit; [exact Hg|]. intros d1 Hd1. eapply fineR_try; [apply fine_bits, Hd1|]. intros [b1 b1'] n2 c2 Hn2 Hc2 [Hb1 Hb1']. cbn [fst snd] in *. cbv zeta.
  assert (H3' : Forall (vr n2 c2) nodes) by (eapply Forall_vr_mono; [| |exact H3]; lia).
  pop. pop. pop.
  eapply fineR_bind; [apply fine_children_4; rng|]. intros xs n3 c3 Hn3 Hc3 [Hx Hxl].
  eapply fineR_try; [apply (fine_hash_4 p sbox HP xs (lc_of_var s)); [exact Hw|exact Hx|exact Hxl|rng]|]. intros x n4 c4 Hn4 Hc4 Hx4. cbv beta in Hx4.
  eapply fineR_bind; [apply fine_simplify; exact Hx4|]. intros x' ? ? _ _ (Hx' & -> & ->). apply fineR_ret.
  split; cbn [fst snd]; [exact Hx'|]. split; [rng|]. split; [eapply Forall_vr_mono; [| |eassumption]; lia|lia].
Qed.
Lemma crash_level_4 lb k s st ij n c : digits lb (fst ij) -> level_fine k st n c -> 0 < k < 3 -> crash (level_4 p sbox lb [lc_of_var s] st ij) n c.
Proof.
  intros Hg H Hk. destruct st as [[[prev idx] e] nodes]. destruct ij as [i j]. destruct H as (H1 & H2 & H3 & H4). cbn [fst snd] in *.
  unfold level_4. destruct nodes as [|v0 nodes'] eqn:E; [cbn in H4; lia|]. rewrite <- E in *. clear nodes' v0 E.
  cbn [fst] in Hg. apply crash_digit; [exact Hg|]. intros d0 Hd0. eapply crash_try_r; [apply fine_bits, Hd0|]. intros [b0 b0'] n1 c1 Hn1 Hc1 [Hb0 Hb0']. cbn [fst snd] in *.
  apply crash_digit; [exact Hg|]. intros d1 Hd1. eapply crash_try_r; [apply fine_bits, Hd1|]. intros [b1 b1'] n2 c2 Hn2 Hc2 [Hb1 Hb1']. cbn [fst snd] in *. cbv zeta.
  assert (H3' : Forall (vr n2 c2) nodes) by (eapply Forall_vr_mono; [| |exact H3]; lia).
  cpop. cpop. cpop. lia.
Qed.
Lemma fine_level_8_none lb s st i n c : level_fine 0 st n c -> fineR (level_8 p sbox lb s st i) n c (level_fine 0).
Proof.
  intros H. destruct st as [[[prev idx] e] nodes]. pose proof H as (_ & _ & _ & HL). cbn [snd] in HL.
  destruct nodes; [|discriminate]. unfold level_8. apply fineR_ret, H.
Qed.
Lemma fine_level_8 lb k s st i n c : digits lb i -> width p = 9 -> vr n c s -> level_fine (7 + k) st n c ->
  fineR (level_8 p sbox lb s st i) n c (level_fine k).
Proof.
  intros Hg Hw Hs H. destruct st as [[[prev idx] e] nodes]. destruct H as (H1 & H2 & H3 & H4). cbn [fst snd] in *.
  unfold level_8. destruct nodes as [|v0 nodes'] eqn:E; [discriminate|]. rewrite <- E in *. clear nodes' v0 E.
  apply fineR_octet; [exact Hg|]. intros d0 d1 d2 Hd0 Hd1 Hd2. eapply fineR_try; [apply fine_bits, Hd0|]. intros [b0 b0'] n1 c1 Hn1 Hc1 [Hb0 Hb0']. cbn [fst snd] in *.
  eapply fineR_try; [apply fine_bits, Hd1|]. intros [b1 b1'] n2 c2 Hn2 Hc2 [Hb1 Hb1']. cbn [fst snd] in *.
  eapply fineR_try; [apply fine_bits, Hd2|]. intros [b2 b2'] n3 c3 Hn3 Hc3 [Hb2 Hb2']. cbn [fst snd] in *. cbv zeta.
  assert (H3' : Forall (vr n3 c3) nodes) by (eapply Forall_vr_mono; [| |exact H3]; lia).
  pop. pop. pop. pop. pop. pop. pop.
  eapply fineR_bind; [apply fine_children_8; rng|]. intros xs n4 c4 Hn4 Hc4 [Hx Hxl].
  eapply fineR_try; [apply (fine_hash_8 p sbox HP xs (lc_of_var s)); [exact Hw|exact Hx|exact Hxl|rng]|]. intros x n5 c5 Hn5 Hc5 Hx5. cbv beta in Hx5.
  eapply fineR_bind; [apply fine_simplify; exact Hx5|]. intros x' ? ? _ _ (Hx' & -> & ->). apply fineR_ret.
  split; cbn [fst snd]; [exact Hx'|]. split; [rng|]. split; [eapply Forall_vr_mono; [| |eassumption]; lia|lia].
Qed.
Lemma crash_level_8 lb k s st i n c : digits lb i -> level_fine k st n c -> 0 < k < 7 -> crash (level_8 p sbox lb s st i) n c.
Proof.
  intros Hg H Hk. destruct st as [[[prev idx] e] nodes]. destruct H as (H1 & H2 & H3 & H4). cbn [fst snd] in *.
  unfold level_8. destruct nodes as [|v0 nodes'] eqn:E; [cbn in H4; lia|]. rewrite <- E in *. clear nodes' v0 E.
  apply crash_octet; [exact Hg|]. intros d0 d1 d2 Hd0 Hd1 Hd2. eapply crash_try_r; [apply fine_bits, Hd0|]. intros [b0 b0'] n1 c1 Hn1 Hc1 [Hb0 Hb0']. cbn [fst snd] in *.
  eapply crash_try_r; [apply fine_bits, Hd1|]. intros [b1 b1'] n2 c2 Hn2 Hc2 [Hb1 Hb1']. cbn [fst snd] in *.
  eapply crash_try_r; [apply fine_bits, Hd2|]. intros [b2 b2'] n3 c3 Hn3 Hc3 [Hb2 Hb2']. cbn [fst snd] in *. cbv zeta.
  assert (H3' : Forall (vr n3 c3) nodes) by (eapply Forall_vr_mono; [| |exact H3]; lia).
  cpop. cpop. cpop. cpop. cpop. cpop. cpop. lia.
Qed.
End Levels.

(** a loop over the levels, [d] nodes for each *)
Section Loop.
Context {A : Type} (d : nat) (f : level_state -> A -> pg (result level_state)) (n0 c0 : nat) (ok : A -> Prop) (Hd : 0 < d)
  (Hnone : forall st a n c, level_fine 0 st n c -> fineR (f st a) n c (level_fine 0))
  (Hstep : forall k st a n c, ok a -> n0 <= n -> c0 <= c -> level_fine (d + k) st n c -> fineR (f st a) n c (level_fine k))
  (Hcrash : forall k st a n c, ok a -> level_fine k st n c -> 0 < k < d -> crash (f st a) n c).

Lemma div_step k : d <= k -> k / d = S ((k - d) / d).
Proof. intros H. replace k with (k - d + 1 * d) at 1 by lia. rewrite Nat.div_add by lia. lia. Qed.
Lemma mod_step k : d <= k -> k mod d = (k - d) mod d.
Proof. intros H. replace k with (k - d + 1 * d) at 1 by lia. rewrite Nat.mod_add by lia. reflexivity. Qed.

Lemma fine_levels l st k n c : Forall ok l -> n0 <= n -> c0 <= c -> level_fine k st n c -> k mod d = 0 \/ length l <= k / d ->
  fineR (p_try_fold f l st) n c (fun st n c => exists k, level_fine k st n c).
Proof.
  intros Hl Hn Hc Hst HL.
  eapply fineR_conv; [apply (fineR_fold f (fun rest st n c => Forall ok rest /\ exists k, level_fine k st n c /\ (k mod d = 0 \/ length rest <= k / d)))|].
  - split; [exact Hl|]. exists k. auto.
  - intros s a rest n' c' Hn' Hc' (Hok & k' & Hs & Hk). inversion Hok; subst. destruct (Nat.eq_dec k' 0) as [->|Hz].
    + eapply fineR_conv; [apply Hnone; exact Hs|]. intros s' n2 c2 _ _ Hs'. split; [assumption|]. exists 0. split; [exact Hs'|left; apply Nat.mod_0_l; lia].
    + assert (Hge : d <= k').
      { destruct (Nat.le_gt_cases d k') as [H|H]; [exact H|]. destruct Hk as [Hk|Hk].
        - rewrite Nat.mod_small in Hk by lia. lia.
        - rewrite Nat.div_small in Hk by lia. cbn [length] in Hk. lia. }
      eapply fineR_conv; [apply (Hstep (k' - d)); [assumption|lia|lia|replace (d + (k' - d)) with k' by lia; exact Hs]|].
      intros s' n2 c2 _ _ Hs'. split; [assumption|]. exists (k' - d). split; [exact Hs'|]. destruct Hk as [Hk|Hk].
      * left. rewrite <- mod_step by lia. exact Hk.
      * right. rewrite div_step in Hk by lia. cbn [length] in Hk. lia.
  - intros s n' c' _ _ (_ & k' & Hs & _). exists k'. exact Hs.
Qed.
Lemma crash_levels l st k n c : Forall ok l -> n0 <= n -> c0 <= c -> level_fine k st n c -> k mod d <> 0 -> k / d < length l ->
  crash (p_try_fold f l st) n c.
Proof.
  intros Hl Hn Hc Hst HL HL2.
  apply (crashR_fold f (fun rest st n c => Forall ok rest /\ exists k, level_fine k st n c /\ k mod d <> 0 /\ k / d < length rest)).
  - split; [exact Hl|]. exists k. auto.
  - intros s n' c' (_ & k' & _ & _ & H). cbn in H. lia.
  - intros s a rest n' c' Hn' Hc' (Hok & k' & Hs & Hm & Hk). inversion Hok; subst. destruct (Nat.le_gt_cases d k') as [H|H].
    + right. eapply fineR_conv; [apply (Hstep (k' - d)); [assumption|lia|lia|replace (d + (k' - d)) with k' by lia; exact Hs]|].
      intros s' n2 c2 _ _ Hs'. split; [assumption|]. exists (k' - d). split; [exact Hs'|]. split; [rewrite <- mod_step by lia; exact Hm|].
      rewrite div_step in Hk by lia. cbn [length] in Hk. lia.
    + left. apply (Hcrash k'); [assumption|exact Hs|]. rewrite Nat.mod_small in Hm by lia. lia.
Qed.
End Loop.

Lemma levels_4_number depth : exists b, get_byte_size depth 4 = Done b /\ b * 4 = 4 * ((depth * 2 + 7) / 8).
Proof.
  eexists. split; [reflexivity|]. change (Nat.log2 4) with 2.
  pose proof (Nat.div_mod (depth * 2) 8 ltac:(lia)) as E. pose proof (Nat.mod_upper_bound (depth * 2) 8 ltac:(lia)) as HB.
  set (x := depth * 2) in *. set (a := x / 8) in *. set (b := x mod 8) in *.
  destruct (Nat.eqb_spec b 0) as [Hb|Hb].
  - assert ((x + 7) / 8 = a) as ->; [|lia]. symmetry. apply (Nat.div_unique _ 8 _ 7); lia.
  - assert ((x + 7) / 8 = a + 1) as ->; [|lia]. symmetry. apply (Nat.div_unique _ 8 _ (b - 1)); lia.
Qed.
Lemma levels_8_number depth : exists b, get_bit_count depth 8 = Done b /\ (b + 2) / 3 = depth.
Proof.
  eexists. split; [reflexivity|]. change (Nat.log2 8) with 3. symmetry. apply (Nat.div_unique _ 3 _ 2); lia.
Qed.
Section Gadgets.
Context (p : poseidon_params) (sbox : sbox_type) (HP : params_ok p).

Lemma first_state nodes v i n c : Forall (vr n c) nodes -> vr n c v -> vr n c i ->
  level_fine (length nodes) (lc_of_var v, [(i, (- (1))%fe)], 1%fe, nodes) n c.
Proof. intros Hn Hv Hi. split; cbn [fst snd]; [rng|]. split; [rng|]. auto. Qed.

Lemma bytes_digits q b : given (q_assignment q) -> (q_assignment q <> None -> b <= modbytes) ->
  Forall (fun ij => digits (allocated_leaf_index_to_bytes q) (fst ij)) (list_prod (seq 0 b) (seq 0 4)).
Proof.
  intros Hg Hm. apply Forall_forall. intros [i j] Hin. apply in_prod_iff in Hin as [Hi _]. apply in_seq in Hi. cbn [fst].
  unfold allocated_leaf_index_to_bytes. split; [apply given_map, Hg|]. intros x E. destruct (q_assignment q) as [l|] eqn:Eq; [|discriminate].
  injection E as <-. rewrite length_le_bytes. specialize (Hm ltac:(discriminate)). lia.
Qed.
(** the digits to base 8 are all computed before the loop *)
Lemma octets_done (q : quantity) depth : (q_assignment q <> None -> (depth * 3 + 7) / 8 <= modbytes) ->
  exists l, match q_assignment q with Some x => pbind (p_lift (get_base_8_repr x depth)) (fun b => PRet (Some (rev b))) | None => PRet None end
    = (PRet l : pg (option (list nat))) /\ (given (q_assignment q) -> given l) /\ forall x, l = Some x -> length x = depth.
Proof.
  intros Hm. destruct (q_assignment q) as [x|].
  - specialize (Hm ltac:(discriminate)). unfold get_base_8_repr. pose proof (base_repr_done 3 ltac:(lia) x depth) as Er. cbn [Nat.pow Nat.mul Nat.add] in Er.
    rewrite (proj2 (Nat.leb_le _ _) Hm) in Er. rewrite Er. cbn [p_lift pbind]. eexists. split; [reflexivity|]. split; [intros _ _; discriminate|].
    intros y [= <-]. rewrite rev_length, map_length, rev_length, seq_length. reflexivity.
  - exists None. split; [reflexivity|]. split; [|discriminate]. intros H E. destruct (H E). reflexivity.
Qed.
Lemma crash_octets depth root v q nodes s n c x : q_assignment q = Some x -> modbytes < (depth * 3 + 7) / 8 ->
  crash (vanilla_merkle_merkle_tree_8_verif_gadget p sbox depth root v q nodes s) n c.
Proof.
  intros E Hm. unfold vanilla_merkle_merkle_tree_8_verif_gadget. rewrite E. unfold get_base_8_repr.
  pose proof (base_repr_done 3 ltac:(lia) x depth) as Er. cbn [Nat.pow Nat.mul Nat.add] in Er.
  rewrite (proj2 (Nat.leb_gt _ _) Hm) in Er. rewrite Er. exact I.
Qed.
Lemma fine_opening_4 depth root v q nodes s n c : width p = 5 -> vr n c v -> vr n c (q_var q) -> given (q_assignment q) -> (q_assignment q <> None -> (depth * 2 + 7) / 8 <= modbytes) -> vr n c s -> Forall (vr n c) nodes ->
  broken_level 4 (4 * ((depth * 2 + 7) / 8)) (length nodes) = false ->
  fineR (vanilla_merkle_merkle_tree_4_verif_gadget p sbox depth root v q nodes [s]) n c any.
Proof.
  intros Hw Hv Hi Hg Hm Hs Hn HB. unfold vanilla_merkle_merkle_tree_4_verif_gadget. cbn [map].
  destruct (levels_4_number depth) as (b & Eb & Hb).
  eapply fineR_bind; [apply (fine_lift _ b), Eb|]. intros ? ? ? _ _ (-> & -> & ->).
  eapply fineR_try; [apply (fine_levels 3 _ n c (fun ij => digits (allocated_leaf_index_to_bytes q) (fst ij))) with (k := length nodes)|].
  - lia.
  - intros. apply fine_level_4_none. assumption.
  - intros k st a n' c' Ha Hn' Hc'. apply fine_level_4; [exact HP|exact Ha|exact Hw|rng_var].
  - apply bytes_digits; [exact Hg|]. intros E. specialize (Hm E). lia.
  - lia.
  - lia.
  - apply first_state; assumption.
  - rewrite prod_length, !seq_length. unfold broken_level in HB. change (4 - 1) with 3 in HB. rewrite <- Hb in HB.
    apply andb_false_iff in HB as [HB|HB]; [right; apply Nat.ltb_ge in HB; exact HB|left].
    apply negb_false_iff, Nat.eqb_eq in HB. exact HB.
  - intros [[[prev idx] e] nd] n' c' Hn' Hc' (k & H1 & H2 & H3 & H4). cbn [fst snd] in *. fsteps. exact I.
Qed.
Lemma crash_opening_4 depth root v q nodes s n c : width p = 5 -> vr n c v -> vr n c (q_var q) -> given (q_assignment q) -> (q_assignment q <> None -> (depth * 2 + 7) / 8 <= modbytes) -> vr n c s -> Forall (vr n c) nodes ->
  broken_level 4 (4 * ((depth * 2 + 7) / 8)) (length nodes) = true ->
  crash (vanilla_merkle_merkle_tree_4_verif_gadget p sbox depth root v q nodes [s]) n c.
Proof.
  intros Hw Hv Hi Hg Hm Hs Hn HB. unfold vanilla_merkle_merkle_tree_4_verif_gadget. cbn [map].
  destruct (levels_4_number depth) as (b & Eb & Hb).
  eapply crash_bind_r; [apply (fine_lift _ b), Eb|]. intros ? ? ? _ _ (-> & -> & ->).
  unfold broken_level in HB. change (4 - 1) with 3 in HB. rewrite <- Hb in HB. apply andb_true_iff in HB as [HB1 HB2].
  apply Nat.ltb_lt in HB1. apply negb_true_iff, Nat.eqb_neq in HB2.
  apply crash_bind_l. apply (crash_levels 3 _ n c (fun ij => digits (allocated_leaf_index_to_bytes q) (fst ij))) with (k := length nodes).
  - lia.
  - intros k st a n' c' Ha Hn' Hc'. apply fine_level_4; [exact HP|exact Ha|exact Hw|rng_var].
  - intros k st a n' c' Ha H1 H2. apply (crash_level_4 p sbox _ k); assumption.
  - apply bytes_digits; [exact Hg|]. intros E. specialize (Hm E). lia.
  - lia.
  - lia.
  - apply first_state; assumption.
  - exact HB2.
  - rewrite prod_length, !seq_length. exact HB1.
Qed.
Lemma fine_opening_8 depth root v q nodes s n c : width p = 9 -> vr n c v -> vr n c (q_var q) -> given (q_assignment q) -> (q_assignment q <> None -> (depth * 3 + 7) / 8 <= modbytes) -> vr n c s -> Forall (vr n c) nodes ->
  broken_level 8 depth (length nodes) = false ->
  fineR (vanilla_merkle_merkle_tree_8_verif_gadget p sbox depth root v q nodes s) n c any.
Proof.
  intros Hw Hv Hi Hg Hm Hs Hn HB. unfold vanilla_merkle_merkle_tree_8_verif_gadget. destruct (octets_done q depth Hm) as (lb & El & Hl1 & Hl2). rewrite El. clear El. cbn [pbind].
  destruct (levels_8_number depth) as (b & Eb & Hb).
  eapply fineR_bind; [apply (fine_lift _ b), Eb|]. intros ? ? ? _ _ (-> & -> & ->).
  eapply fineR_try; [apply (fine_levels 7 _ n c (digits lb)) with (k := length nodes)|].
  - lia.
  - intros. apply fine_level_8_none. assumption.
  - intros k st a n' c' Ha Hn' Hc'. apply fine_level_8; [exact HP|exact Ha|exact Hw|rng_var].
  - apply Forall_forall. intros i Hin. apply in_seq in Hin. rewrite Hb in Hin. split; [apply Hl1, Hg|]. intros x E. rewrite (Hl2 x E). lia.
  - lia.
  - lia.
  - apply first_state; assumption.
  - rewrite seq_length, Hb. unfold broken_level in HB. change (8 - 1) with 7 in HB.
    apply andb_false_iff in HB as [HB|HB]; [right; apply Nat.ltb_ge in HB; exact HB|left].
    apply negb_false_iff, Nat.eqb_eq in HB. exact HB.
  - intros [[[prev idx] e] nd] n' c' Hn' Hc' (k & H1 & H2 & H3 & H4). cbn [fst snd] in *. fsteps. exact I.
Qed.
Lemma crash_opening_8 depth root v q nodes s n c : width p = 9 -> vr n c v -> vr n c (q_var q) -> given (q_assignment q) -> (q_assignment q <> None -> (depth * 3 + 7) / 8 <= modbytes) -> vr n c s -> Forall (vr n c) nodes ->
  broken_level 8 depth (length nodes) = true ->
  crash (vanilla_merkle_merkle_tree_8_verif_gadget p sbox depth root v q nodes s) n c.
Proof.
  intros Hw Hv Hi Hg Hm Hs Hn HB. unfold vanilla_merkle_merkle_tree_8_verif_gadget. destruct (octets_done q depth Hm) as (lb & El & Hl1 & Hl2). rewrite El. clear El. cbn [pbind].
  destruct (levels_8_number depth) as (b & Eb & Hb).
  eapply crash_bind_r; [apply (fine_lift _ b), Eb|]. intros ? ? ? _ _ (-> & -> & ->).
  unfold broken_level in HB. change (8 - 1) with 7 in HB. apply andb_true_iff in HB as [HB1 HB2].
  apply Nat.ltb_lt in HB1. apply negb_true_iff, Nat.eqb_neq in HB2.
  apply crash_bind_l. apply (crash_levels 7 _ n c (digits lb)) with (k := length nodes).
  - lia.
  - intros k st a n' c' Ha Hn' Hc'. apply fine_level_8; [exact HP|exact Ha|exact Hw|rng_var].
  - intros k st a n' c' Ha H1 H2. apply (crash_level_8 p sbox _ k); assumption.
  - apply Forall_forall. intros i Hin. apply in_seq in Hin. rewrite Hb in Hin. split; [apply Hl1, Hg|]. intros x E. rewrite (Hl2 x E). lia.
  - lia.
  - lia.
  - apply first_state; assumption.
  - exact HB2.
  - rewrite seq_length, Hb. exact HB1.
Qed.

End Gadgets.
End Openings.
