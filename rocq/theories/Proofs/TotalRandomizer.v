(** The verifying function of the randomizer ends. *)
From Coq Require Import ZArith String List Lia Arith Permutation Bool.
From Verif.Base Require Import Outcome Fp Params Algebra.
From Verif.Model Require Import Transcript LinComb Prog IPP Prover Verifier Gadgets Hash Merkle MerkleGadget Randomizer.
From Verif.Spec Require Import R1CS HashSpec MerkleSpec RandomizerSpec Compose CircuitSize Behaviour.
From Verif.Proofs Require Import MerkleTools MerkleTree RandomizerMap RandomizerSound TotalTools TotalGadgets TotalOpenings TotalVerify.
Import ListNotations.
Local Open Scope nat_scope.
Local Notation length := List.length.
Local Notation vr := var_in_range.
Local Notation lr := lc_in_range.

Section Randomizer.
Context {P : Params} {OK : ParamsOk P} {CA CR : Type} {Sd : side CA CR}.
Local Notation pg := (prog CA CR).
Local Notation any := (fun _ _ _ => True).
Context (p : poseidon_params) (HP : params_ok p) (Hw : width p = 5).
Context (H : list F -> F) (d : nat) (Hd : d * 2 <= 8 * modbytes).
Implicit Types comms : list G1.

(** the linear combinations in the map use existing variables *)
Definition ranged (n c : nat) (l l' : lc) (_ : F) : Prop := l' = l /\ lr n c l.
Lemma ranged_const n c x : ranged n c (lc_of_fe x) (lc_of_fe x) x.
Proof. split; [reflexivity|apply lr_fe]. Qed.
Lemma ranged_mono n c n' c' l l' x : n <= n' -> c <= c' -> ranged n c l l' x -> ranged n' c' l l' x.
Proof. intros Hn Hc [E Hl]. split; [exact E|]. apply (lr_mono n c); assumption. Qed.
Definition sound_map (n c : nat) (V : list nat -> F) (nd : node_map) : Prop := agree d (ranged n c) V nd nd.
Lemma map_mono n c n' c' V nd : n <= n' -> c <= c' -> sound_map n c V nd -> sound_map n' c' V nd.
Proof. intros Hn Hc. apply agree_impl. intros l l' x. apply ranged_mono; assumption. Qed.
(** the values do not matter *)
Lemma map_any n c V V' nd : sound_map n c V nd -> sound_map n c V' nd.
Proof. intros Ha k. specialize (Ha k). destruct (map_get nd k); [|exact I]. exact Ha. Qed.

Lemma insert_4 i (x : lc) a b e n c : i < 4 -> lr n c x -> lr n c a -> lr n c b -> lr n c e ->
  exists l, vec_insert i x [a; b; e] = Done l /\ Forall (lr n c) l /\ length l = 4.
Proof.
  intros Hi Hx Ha Hb He. destruct i as [|[|[|[|i]]]]; try lia; eexists; (split; [reflexivity|]); cbn [firstn skipn app]; (split; [repeat constructor; assumption|reflexivity]).
Qed.

Ltac pop :=
  eapply fineR_bind; [apply fine_pop; [intros ->; cbn [length] in *; lia|eassumption]|];
  let t := fresh "t" in let N := fresh "N" in
  intros [t N] ? ? _ _ (? & ? & ? & -> & ->); cbn [fst snd] in *.
Definition rising (k : nat) (st : list var * lc) (n c : nat) : Prop := length (fst st) = 3 * k /\ Forall (vr n c) (fst st) /\ lr n c (snd st).
Lemma fine_presence_step k s st pos n c : pos < 4 -> vr n c s -> rising (S k) st n c ->
  fineR (presence_step p Quint [lc_of_var s] st pos) n c (rising k).
Proof.
  intros Hpos Hs (H1 & H2 & H3). destruct st as [nodes cur]. cbn [fst snd] in *. unfold presence_step.
  pop. pop. pop.
  destruct (insert_4 pos cur N1 N0 N n c Hpos) as (l & El & Hl & Ll); try assumption. rewrite El. cbn [p_lift pbind].
  eapply fineR_try; [apply (fine_hash_4 p Quint HP l (lc_of_var s)); [exact Hw|exact Hl|exact Ll|rng]|].
  intros x n4 c4 Hn4 Hc4 Hx4. apply fineR_ret. split; [|split]; cbn [fst snd]; [lia| |exact Hx4].
  eapply Forall_vr_mono; [| |eassumption]; assumption.
Qed.
Lemma fine_presence s path nodes cur n c : Forall (fun x => x < 4) path -> vr n c s -> length nodes = 3 * length path ->
  Forall (vr n c) nodes -> lr n c cur ->
  fineR (p_try_fold (presence_step p Quint [lc_of_var s]) path (nodes, cur)) n c (fun st n c => lr n c (snd st)).
Proof.
  intros Hpath Hs HL Hn Hc.
  eapply fineR_conv; [apply (fineR_fold _ (fun rest st n c => Forall (fun x => x < 4) rest /\ vr n c s /\ rising (length rest) st n c))|].
  - split; [exact Hpath|]. split; [exact Hs|]. split; [exact HL|]. split; assumption.
  - intros st a rest n' c' Hn' Hc' (Q1 & Q2 & Q3). inversion Q1; subst.
    eapply fineR_conv; [apply (fine_presence_step (length rest)); [assumption|exact Q2|exact Q3]|].
    intros st' n2 c2 Hn2 Hc2 Hr. split; [assumption|]. split; [rng_var|exact Hr].
  - intros st n' c' _ _ (_ & _ & _ & _ & Hr). exact Hr.
Qed.

Section Loops.
Context (m : contents) (t : merkle_tree) (db : @hash_db (list F)).
Context (Ht : t = MerkleTree d (node 4 H m d 0)) (Hdb : db_has 2 H db m d).
Context (root zero : var) (indices : list F) (vals : list var) (proofs : list (list var)).
Context (HLv : length vals = length indices) (HLp : length proofs = length indices) (HLq : Forall (fun q => length q = 3 * d) proofs).

Lemma leaf_in4 idx : (0 <= leaf 4 d idx < 4 ^ Z.of_nat d)%Z.
Proof. exact (leaf_range 2 ltac:(lia) idx d). Qed.
Definition around' (nd : node_map) (idx : F) : Prop :=
  forall j c, j < d -> c < 4 -> present nd (pre d (leaf 4 d idx) (S j) ++ [c]).
Definition vars_ok (n c : nat) : Prop := vr n c root /\ vr n c zero /\ Forall (vr n c) vals /\ Forall (Forall (vr n c)) proofs.
Lemma vars_mono n c n' c' : n <= n' -> c <= c' -> vars_ok n c -> vars_ok n' c'.
Proof.
  intros Hn Hc (H1 & H2 & H3 & H4). split; [rng_var|]. split; [rng_var|]. split; [apply (Forall_vr_mono n c); assumption|].
  eapply Forall_impl; [|exact H4]. intros a. apply Forall_vr_mono; assumption.
Qed.

Definition reading (n c j : nat) (nd : node_map) : Prop :=
  sound_map n c (at_key d H m) nd /\ present nd [] /\ forall k, k < j -> around' nd (nth k indices 0%fe).
Lemma fine_read_step j nd n c : j < length indices -> vars_ok n c -> reading n c j nd ->
  fineR (read_step p Quint d root (Merkle.root t) db indices vals proofs [lc_of_var zero] nd j) n c (fun nd' n' c' => reading n' c' (S j) nd').
Proof.
  intros Hj (V1 & V2 & V3 & V4) (Ha & Hn & Hk). unfold read_step.
  rewrite (index_ok indices j 0%fe) by exact Hj. cbn [p_lift pbind].
  rewrite (index_ok proofs j []) by lia. cbn [p_lift pbind].
  pose proof (path_done 2 ltac:(lia) (nth j indices 0%fe) d Hd) as Ep. cbn [Nat.pow Nat.mul Nat.add] in Ep. rewrite Ep. cbn [p_lift pbind].
  rewrite (index_ok vals j VOne) by lia. cbn [p_lift pbind].
  set (i := leaf 4 d (nth j indices 0%fe)).
  eapply fineR_try.
  { apply fine_presence; [|exact V2| | |].
    - apply Forall_rev, Forall_map, Forall_forall. intros k _. apply digit_lt. lia.
    - rewrite rev_length, map_length, rev_length, seq_length. rewrite Forall_forall in HLq. apply HLq, nth_In. lia.
    - rewrite Forall_forall in V4. apply V4, nth_In. lia.
    - apply lr_var. rewrite Forall_forall in V3. apply V3, nth_In. lia. }
  intros [rest cur] n1 c1 Hn1 Hc1 Hcur. cbn [snd] in Hcur.
  apply fineR_constrain_k; [rng|]. rewrite Ht. cbn [Merkle.root].
  destruct (collect_path_agree d H (ranged n1 c1) (ranged_const n1 c1) i (leaf_in4 (nth j indices 0%fe)) db m nd nd Hdb (map_mono n c n1 c1 _ _ Hn1 Hc1 Ha))
    as (n2 & n2' & E1 & E2 & A2 & P2 & C2).
  rewrite E1 in E2. injection E2 as <-. rewrite E1. cbn [p_lift pbind]. apply fineR_ret.
  split; [exact A2|]. split; [apply P2; exact Hn|]. intros k Hlt.
  destruct (Nat.eq_dec k j) as [->|Hne]; [exact C2|]. intros j' c' Hj' Hc'. apply P2. apply (Hk k ltac:(lia)); assumption.
Qed.

Definition writing_ok (n c : nat) (nd : node_map) : Prop :=
  sound_map n c (at_key d H m) nd /\ present nd [] /\ forall k, k < length indices -> around' nd (nth k indices 0%fe).
Lemma fine_write_step j nd n c : j < length indices -> vars_ok n c -> writing_ok n c nd ->
  fineR (write_step p Quint d indices vals [lc_of_var zero] nd j) n c (fun nd' n' c' => writing_ok n' c' nd').
Proof.
  intros Hj (V1 & V2 & V3 & V4) (Ha & Hn & Hk). unfold write_step.
  rewrite (index_ok indices j 0%fe) by exact Hj. cbn [p_lift pbind].
  rewrite (index_ok vals j VOne) by lia. cbn [p_lift pbind].
  pose proof (path_done 2 ltac:(lia) (nth j indices 0%fe) d Hd) as Ep. cbn [Nat.pow Nat.mul Nat.add] in Ep. rewrite Ep. cbn [p_lift pbind].
  set (i := leaf 4 d (nth j indices 0%fe)). pose proof (leaf_in4 (nth j indices 0%fe)) as Hi. fold i in Hi.
  destruct (Nat.eq_dec d 0) as [Hd0|Hd0].
  { rewrite Hd0. cbn [seq rev p_try_fold ptry pbind]. apply fineR_ret. split; [exact Ha|split; [exact Hn|exact Hk]]. }
  eapply fineR_try; [apply (fineR_fold _ (fun rest (st : node_map * lc * list nat) n' c' => exists k, rest = rev (seq 0 (d - k)) /\ k <= d /\
    vr n' c' zero /\ writing d H (ranged n' c') i m 0%fe k st st /\ (forall key, present nd key -> present (fst (fst st)) key)))|].
  - exists 0. rewrite Nat.sub_0_r. split; [reflexivity|]. split; [lia|]. split; [exact V2|]. split; [|auto]. rewrite path_pre. apply writing_start.
    + exact Ha.
    + split; [reflexivity|]. apply lr_var. rewrite Forall_forall in V3. apply V3, nth_In. lia.
    + intros k c' Hk' Hc'. apply (Hk j Hj); assumption.
  - intros [[n1 l] q] x rest n' c' Hn' Hc' (k & Er & Hkd & Vz & Hwr & Hm).
    destruct (d - k) as [|r] eqn:Edk; [discriminate Er|]. rewrite rev_seq_S in Er. injection Er as -> ->.
    assert (Hlt : k < d) by lia. assert (Er : r = d - S k) by lia. rewrite Er.
    destruct (writing_inputs d H (ranged n' c') i Hi m 0%fe k n1 l q n1 l q Hlt Hwr)
      as (ls & ls' & a & b & e & g & a' & b' & e' & g' & xa & xb & xc & xe & E1 & _ & E2 & _ & E3 & _ & E4 & _ & E5 & [_ R1] & [_ R2] & [_ R3] & [_ R4]).
    unfold write_level. rewrite E1, E2. cbn [p_lift pbind]. rewrite E3. cbn [p_lift pbind].
    eapply fineR_try; [apply (fine_hash_4 p Quint HP [a; b; e; g] (lc_of_var zero)); [exact Hw|repeat constructor; assumption|reflexivity|rng]|].
    intros out n2 c2 Hn2 Hc2 Ho. rewrite E4. cbn [p_lift pbind]. apply fineR_ret. exists (S k). split; [reflexivity|]. split; [lia|]. split; [rng_var|].
    assert (Hwr2 : writing d H (ranged n2 c2) i m 0%fe k (n1, l, q) (n1, l, q)).
    { eapply writing_impl; [|exact Hwr]. intros u u' y. apply ranged_mono; assumption. }
    destruct (writing_next d H (ranged n2 c2) i Hi m 0%fe k n1 l q n1 l q out out Hlt Hwr2) as [N1 N2]; [split; [reflexivity|exact Ho]|].
    cbn zeta in N1, N2. split; [exact N1|]. cbn [fst]. intros key Hpk. apply N2. apply Hm. exact Hpk.
  - intros [[n1 l] q] n' c' Hn' Hc' (k & Er & Hkd & Vz & Hwr & Hm). cbn [fst] in Hm.
    assert (k = d) as ->. { destruct (d - k) eqn:E; [lia|]. rewrite rev_seq_S in Er. discriminate Er. }
    apply fineR_ret. split; [|split; [apply Hm; exact Hn|]].
    + apply writing_end in Hwr; [|lia]. exact (map_any _ _ _ _ _ Hwr).
    + intros k Hlt t' c2 Ht' Hc2. apply Hm. apply Hk; assumption.
Qed.

Lemma fine_randomizer_gadget n c : vars_ok n c ->
  fineR (randomizer_gadget p Quint d root t db indices vals proofs [zero]) n c any.
Proof.
  intros HV. unfold randomizer_gadget. rewrite Ht at 1. cbn [Merkle.depth]. rewrite Nat.eqb_refl, HLv, Nat.eqb_refl. cbn [assertb p_lift pbind map].
  eapply fineR_try; [apply (fineR_fold _ (fun rest nd n' c' => exists j, rest = seq j (length indices - j) /\ j <= length indices /\ vars_ok n' c' /\ reading n' c' j nd))|].
  - exists 0. rewrite Nat.sub_0_r. split; [reflexivity|]. split; [lia|]. split; [exact HV|]. split; [|split].
    + intros key. rewrite map_get_insert. destruct (path_eqb [] key) eqn:E; [|exact I]. apply path_eqb_true in E. subst key.
      split; [split; [constructor|cbn; lia]|]. split; [reflexivity|apply lr_fe].
    + apply present_insert. right. reflexivity.
    + intros k Hk. lia.
  - intros nd x rest n' c' Hn' Hc' (j & Er & Hj & V & R). destruct (length indices - j) as [|r] eqn:E; [discriminate Er|]. cbn [seq] in Er. injection Er as -> ->.
    eapply fineR_conv; [apply (fine_read_step j); [lia|exact V|exact R]|]. intros nd' n2 c2 Hn2 Hc2 R2. exists (S j).
    replace (length indices - S j) with r by lia. split; [reflexivity|]. split; [lia|]. split; [apply (vars_mono n' c'); assumption|exact R2].
  - intros nd n1 c1 Hn1 Hc1 (j & Er & Hj & V & R).
    assert (j = length indices) as ->. { destruct (length indices - j) eqn:E; [lia|discriminate Er]. }
    eapply fineR_try; [apply (fineR_fold _ (fun rest nd n' c' => Forall (fun j => j < length indices) rest /\ vars_ok n' c' /\ writing_ok n' c' nd))|].
    + split; [apply Forall_forall; intros k Hk; apply in_seq in Hk; lia|]. split; [exact V|exact R].
    + intros nd' x rest n' c' Hn' Hc' (Q1 & Q2 & Q3). inversion Q1; subst.
      eapply fineR_conv; [apply (fine_write_step x); [assumption|exact Q2|exact Q3]|]. intros nd2 n2 c2 Hn2 Hc2 R2.
      split; [assumption|]. split; [apply (vars_mono n' c'); assumption|exact R2].
    + intros nd2 n2 c2 Hn2 Hc2 (_ & V2 & (Ha2 & Hp2 & _)).
      destruct (agree_get _ _ _ _ _ _ Ha2 Hp2) as (l & l' & El & _ & _ & Hl). rewrite El. cbn [of_option p_lift pbind].
      destruct V2 as (V2 & _). apply fineR_constrain_k; [rng|]. apply fineR_ret. exact I.
Qed.
End Loops.

Lemma crash_wrong_depth depth root t db indices vals proofs statics n c : Merkle.depth t <> depth ->
  crash (randomizer_gadget p Quint depth root t db indices vals proofs statics) n c.
Proof. intros E. unfold randomizer_gadget. rewrite (proj2 (Nat.eqb_neq _ _) E). exact I. Qed.

End Randomizer.

Section Verify.
Context {P : Params} {OK : ParamsOk P}.
Local Notation any := (fun _ _ _ => True).
Context (p : poseidon_params) (HP : params_ok p) (Hw : width p = 5).
Context (H : list F -> F) (d : nat) (Hd : d * 2 <= 8 * modbytes).
Implicit Types comms : list G1.

Definition taken (k : nat) (ps : list var) (n c : nat) : Prop := length ps = k /\ Forall (vr n c) ps.
Lemma fine_commit_first k comms n c : k <= length comms ->
  fine (commit_first k comms) n c (fun st n' c' => length (fst st) + k = length comms /\ taken k (snd st) n' c').
Proof.
  intros HL. unfold commit_first.
  eapply fine_conv; [apply (fine_fold _ (fun rest (st : list G1 * list var) n c => length rest <= length (fst st) /\ length (fst st) + k = length comms + length rest /\
     length (snd st) + length rest = k /\ Forall (vr n c) (snd st)))|].
  - cbn [fst snd length]. rewrite seq_length. repeat split; try lia. constructor.
  - intros [cs' ps] j rest' n2 c2 _ _ (H2 & H3 & H4 & H5). cbn [fst snd length] in *. destruct cs' as [|z cs']; [cbn in H2; lia|]. cbn [remove0 pbind].
    apply fine_commit_k, fine_ret. cbn [fst snd length] in *. rewrite app_length. cbn [length]. repeat split; try lia.
    apply Forall_app. split; [eapply Forall_vr_mono; [| |exact H5]; lia|]. constructor; [cbn; lia|constructor].
  - intros [cs' ps] n2 c2 _ _ (H2 & H3 & H4 & H5). cbn [fst snd length] in *. split; [lia|]. split; [lia|exact H5].
Qed.

Lemma fine_blocks (k : nat) start (comms : list G1) n c : k * S (d * 3) <= length comms -> start < c ->
  fine (p_fold (fun '(commitments, orig_val_vars, proof_vars) (_ : nat) =>
      pbind (remove0 commitments) (fun '(x, commitments) =>
      pbind (cs_commit x) (fun var_orig_val =>
      pbind (commit_first (d * 3) commitments) (fun '(commitments, ps) =>
      PRet (commitments, orig_val_vars ++ [var_orig_val], proof_vars ++ [ps])))))
    (seq 0 k) (comms, [], [])) n c (fun (st : list G1 * list var * list (list var)) n' c' => start < c' /\
    length (snd (fst st)) = k /\ Forall (vr n' c') (snd (fst st)) /\
    length (snd st) = k /\ Forall (fun q => length q = 3 * d) (snd st) /\ Forall (Forall (vr n' c')) (snd st)).
Proof.
  intros HL Hst.
  eapply fine_conv; [apply (fine_fold _ (fun rest (st : list G1 * list var * list (list var)) n' c' =>
    length rest * S (d * 3) <= length (fst (fst st)) /\ start < c' /\
    length (snd (fst st)) + length rest = k /\ Forall (vr n' c') (snd (fst st)) /\
    length (snd st) + length rest = k /\ Forall (fun q => length q = 3 * d) (snd st) /\ Forall (Forall (vr n' c')) (snd st)))|].
  - cbn [fst snd length]. rewrite seq_length. repeat split; try lia; constructor.
  - intros [[cs hs] ts] i rest n' c' Hn Hc (H1 & H2 & H3 & H4 & H5 & H6 & H7). cbn [fst snd length] in *.
    destruct cs as [|y cs]; [cbn in H1; lia|]. cbn [remove0 pbind length] in *. apply fine_commit_k.
    eapply fine_bind; [apply fine_commit_first; lia|]. intros [cs' ps] n2 c2 Hn2 Hc2 (Q1 & Q2 & Q3). cbn [fst snd] in *.
    apply fine_ret. cbn [fst snd length]. rewrite !app_length. cbn [length].
    split; [lia|]. split; [lia|]. split; [lia|]. split; [|split; [lia|split]].
    + apply Forall_app. split; [eapply Forall_vr_mono; [| |exact H4]; lia|]. constructor; [cbn; lia|constructor].
    + apply Forall_app. split; [exact H6|]. constructor; [lia|constructor].
    + apply Forall_app. split; [|constructor; [exact Q3|constructor]]. eapply Forall_impl; [|exact H7]. intros a. apply Forall_vr_mono; lia.
  - intros [[cs hs] ts] n' c' Hn Hc (H1 & H2 & H3 & H4 & H5 & H6 & H7). cbn [fst snd length] in *. rewrite Nat.add_0_r in *. repeat split; assumption.
Qed.

Lemma verify_randomizer_fine m t db indices g h comms n c :
  t = MerkleTree d (node 4 H m d 0) -> db_has 2 H db m d ->
  1 + length indices * S (d * 3) <= length comms ->
  fineR (verify_randomizer t db indices d p Quint g h comms) n c any.
Proof.
  intros Ht Hdb. destruct comms as [|x comms]; cbn [length]; intros HL; [lia|]. unfold verify_randomizer. cbn [remove0 pbind].
  apply fineR_commit_k.
  eapply fineR_bind; [apply (fine_blocks (length indices) c); lia|].
  intros [[cs hs] ts] n' c' Hn Hc (H2 & H3 & H4 & H5 & H6 & H7). cbn [fst snd length] in *.
  rewrite statics_1. cbn [pbind cs_commit]. apply fineR_commit_k.
  apply fineR_end, (fine_randomizer_gadget p HP Hw H d Hd m); try assumption.
  split; [rng_var|]. split; [rng_var|]. split; [eapply Forall_vr_mono; [| |exact H4]; lia|].
  eapply Forall_impl; [|exact H7]. intros a. apply Forall_vr_mono; lia.
Qed.
Lemma verify_randomizer_crash t db indices g h comms n c : Merkle.depth t <> d -> 1 + length indices * S (d * 3) <= length comms ->
  crash (verify_randomizer t db indices d p Quint g h comms) n c.
Proof.
  intros E. destruct comms as [|x comms]; cbn [length]; intros HL; [lia|]. unfold verify_randomizer. cbn [remove0 pbind].
  apply crash_commit_k.
  eapply crash_bind_r; [apply (fine_blocks (length indices) c); lia|].
  intros [[cs hs] ts] n' c' Hn Hc _. rewrite statics_1. cbn [pbind cs_commit]. apply crash_commit_k.
  apply crash_bind_l, crash_wrong_depth, E.
Qed.
End Verify.

Section Behaves.
Context {P : Params} {OK : ParamsOk P}.
Local Notation any := (fun _ _ _ => True).
Definition refused := GadgetError "Original and new are of different lengths".
Theorem verifies_behaves checks g h st comms n c : fitting st ->
  match behaves checks st (length comms) with
  | Panics => crash (verifies checks g h st comms) n c
  | Refuses => fine (verifies checks g h st comms) n c (fun r _ _ => r = Err refused)
  | Ends => fineR (verifies checks g h st comms) n c any
  end.
Proof.
  intros HF. unfold behaves. destruct (Nat.ltb_spec (length comms) (needed st)) as [HL|HL]; [apply too_few, HL|].
  destruct st; cbn [needed verifies fitting] in *.
  - apply verify_non_zero, HL.
  - destruct checks; cbn [andb].
    + destruct (Z.ltb_spec upper lower) as [H|H]; [apply verify_bounded_crash, H|apply verify_bounded; [exact HL|right; exact H]].
    + apply verify_bounded; [exact HL|left; reflexivity].
  - apply verify_member, HL.
  - apply verify_member_alt, HL.
  - apply verify_not_member, HL.
  - destruct (Nat.eqb_spec (length comms) (length new)) as [E|E]; [apply verify_hamming, E|apply verify_hamming_refuses, E].
  - destruct (Nat.ltb_spec (length constants) n0) as [H|H]; [apply verify_mimc_crash, H|apply verify_mimc; assumption].
  - apply verify_hash_2; tauto.
  - apply verify_hash_4; tauto.
  - apply verify_hash_8; tauto.
  - destruct HF as [HP Hw]. destruct (broken_level _ _ _) eqn:E; [apply verify_leaf_4_crash; assumption|apply verify_leaf_4; assumption].
  - destruct HF as [HP Hw]. destruct (broken_level _ _ _) eqn:E; [apply verify_leaf_8_crash; assumption|apply verify_leaf_8; assumption].
  - destruct HF as (HP & Hw & Hd & Hr & Hdb). destruct (Nat.eqb_spec (Merkle.depth t) depth) as [E|E].
    + apply (verify_randomizer_fine p HP Hw (hash_value p Quint) depth Hd (after 4 depth us)); [|exact Hdb|exact HL].
      destruct t as [td tr]. cbn [Merkle.depth Merkle.root] in *. subst. reflexivity.
    + apply verify_randomizer_crash; assumption.
Qed.
End Behaves.
