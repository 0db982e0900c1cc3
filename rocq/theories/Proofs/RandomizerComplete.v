(** The randomizer: honest runs. *)
From Coq Require Import ZArith String List Lia Bool Ring Field Arith.
From Verif.Base Require Import Outcome Fp Params Algebra.
From Verif.Model Require Import Transcript LinComb Prog VectorPoly IPP Prover Verifier Gadgets Hash Merkle MerkleGadget Randomizer.
From Verif.Spec Require Import R1CS Sim Session Protocol Verdict Gadget HashSpec MerkleSpec OpeningSpec RandomizerSpec.
From Verif.Proofs Require Import IPPProofs LinCombProofs RunProofs GadgetTools GadgetBasic GadgetComplete GadgetPrograms GadgetMain
  HashTools HashSound HashComplete HashPrograms HashMain MerkleTools MerkleTree MerkleBind MerkleMain MerkleSound MerkleComplete MerkleOpen
  RandomizerMap RandomizerSound.
Import ListNotations.

Section Complete.
Context {P : Params} {OK : ParamsOk P}.
Local Open Scope fe_scope.
Add Field FFrc : (Fp_field_theory modulus modulus_prime).
Context (W W' : world).
Context (p : poseidon_params) (Hp : params_ok p) (Hw : width p = 5%nat).
Local Notation Hash := (hash_value p Quint).
Local Notation cost := (permutation_cost p Quint).

Section Phase.
Context (ph : bool).
Local Notation both := (both W W' ph).

Definition same_val (ps : prover) (l l' : lc) (x : F) : Prop := lc_same l l' /\ lc_has ps l x.
Lemma same_val_grew k r ps ps' : grew k r ps ps' -> forall l l' x, same_val ps l l' x -> same_val ps' l l' x.
Proof. intros Hg l l' x [H1 H2]. split; [exact H1|]. eapply lc_has_grew; eassumption. Qed.
Lemma same_val_const ps c : same_val ps (lc_of_fe c) (lc_of_fe c) c.
Proof. split; [apply lc_same_refl|]. apply lc_has_fe. Qed.
Lemma same_val_var ps v x : has_value ps v x -> same_val ps (lc_of_var v) (lc_of_var v) x.
Proof. intros Hv. split; [apply lc_same_refl|apply lc_has_var; exact Hv]. Qed.

Lemma hash_same ins ins' xs zero ps vs : rels ps ins ins' xs -> length xs = 4%nat -> has_value ps zero 0 ->
  both cost 0 (Poseidon_hash_4_constraints p Quint ins [lc_of_var zero]) (Poseidon_hash_4_constraints p Quint ins' [lc_of_var zero]) ps vs
    (fun a b ps' => exists o o', a = Ok o /\ b = Ok o' /\ same_val ps' o o' (Hash xs)).
Proof.
  intros Hr Hl Hz. apply (hash_4_both W W' ph p Quint ltac:(discriminate) _ _ _ _ xs); [exact Hr|apply lc_same_refl|apply lc_has_var; exact Hz|].
  apply hash_4_native; assumption.
Qed.

(** *** Presence in the original tree *)
Definition presence_inv (i : Z) (v : F) (sibs : list (list F)) (j : nat) (st st' : list var * lc) (ps : prover) : Prop :=
  fst st' = fst st /\ Forall2 (has_value ps) (fst st) (concat (rev (skipn j sibs))) /\
  same_val ps (snd st) (snd st') (go_up 4 Hash i 0 v (firstn j sibs)).

Lemma presence_step_both i v sibs j zero st st' ps vs : Forall (fun s => length s = 3%nat) sibs -> (j < length sibs)%nat ->
  has_value ps zero 0 -> presence_inv i v sibs j st st' ps ->
  both cost 0 (presence_step p Quint [lc_of_var zero] st (digit 4 i j)) (presence_step p Quint [lc_of_var zero] st' (digit 4 i j)) ps vs
    (fun a b ps' => exists st2 st2', a = Ok st2 /\ b = Ok st2' /\ presence_inv i v sibs (S j) st2 st2' ps').
Proof.
  intros Ht Hj Hz. destruct st as [nodes cur], st' as [nodes' cur']. intros (E & Hn & Sc & Hc). cbn [fst snd] in *. subst nodes'.
  rewrite (skipn_nth_cons sibs j []) in Hn by exact Hj. cbn [rev] in Hn. rewrite concat_app in Hn. cbn [concat] in Hn.
  rewrite app_nil_r in Hn. apply Forall2_app_inv_r in Hn as (n1 & n2 & H1 & H2 & ->).
  assert (Hl : length (nth j sibs []) = 3%nat) by (rewrite Forall_forall in Ht; apply Ht, nth_In, Hj).
  destruct (list_3 _ Hl) as (x1 & x2 & x3 & Ex). rewrite Ex in H2.
  assert (Hl2 : length n2 = 3%nat) by (apply forall2_len in H2; exact H2). destruct (list_3 _ Hl2) as (v1 & v2 & v3 & E2).
  subst n2. inversion H2 as [|? ? ? ? V1 H2']; subst. inversion H2' as [|? ? ? ? V2 H2'']; subst. inversion H2'' as [|? ? ? ? V3 _]; subst.
  clear H2 H2' H2''.
  unfold presence_step, pop_node. change (n1 ++ [v1; v2; v3]) with (n1 ++ [v1] ++ [v2] ++ [v3]). rewrite !app_assoc.
  do 3 (rewrite !vec_pop_app; cbn [p_lift pbind]).
  assert (Hd : (digit 4 i j < 4)%nat) by (apply digit_lt; lia).
  assert (Ei : forall c, vec_insert (digit 4 i j) c [lc_of_var v1; lc_of_var v2; lc_of_var v3]
    = Done (insert_at (digit 4 i j) c [lc_of_var v1; lc_of_var v2; lc_of_var v3])).
  { intros c. unfold vec_insert. cbn [length]. rewrite (proj2 (Nat.leb_le _ _)) by lia. reflexivity. }
  rewrite !Ei. cbn [p_lift pbind].
  eapply both_cost.
  { eapply both_try with (k2 := O) (r2 := O); [apply hash_same with (xs := insert_at (digit 4 i j) (go_up 4 Hash i 0 v (firstn j sibs)) [x1; x2; x3]);
      [|apply insert_len|exact Hz]|].
    - assert (C : digit 4 i j = 0%nat \/ digit 4 i j = 1%nat \/ digit 4 i j = 2%nat \/ digit 4 i j = 3%nat) by lia.
      destruct C as [-> |[-> |[-> | ->]]]; cbn [insert_at firstn skipn app];
        repeat (apply rels_cons; [first [exact Sc|apply lc_same_refl]|first [exact Hc|apply lc_has_var; assumption]|]); apply rels_nil.
    - intros o o' ps1 vs1 Hg1 Ho. apply both_ret. eexists _, _. do 2 (split; [reflexivity|]).
      split; [reflexivity|]. split; [apply (forall2_grew _ _ _ _ _ _ Hg1); exact H1|]. cbn [snd].
      rewrite (firstn_S_nth sibs j []) by exact Hj. rewrite go_up_app by lia. cbn [go_up Nat.add]. rewrite firstn_length, Nat.min_l by lia.
      rewrite Ex. exact Ho. }
  all: lia.
Qed.

Lemma presence_both i v proof nodes cur zero ps vs : Forall (fun s => length s = 3%nat) proof ->
  has_value ps zero 0 -> Forall2 (has_value ps) nodes (concat proof) -> has_value ps cur v ->
  both (length proof * cost) 0
    (p_try_fold (presence_step p Quint [lc_of_var zero]) (map (digit 4 i) (seq 0 (length proof))) (nodes, lc_of_var cur))
    (p_try_fold (presence_step p Quint [lc_of_var zero]) (map (digit 4 i) (seq 0 (length proof))) (nodes, lc_of_var cur)) ps vs
    (fun a b ps' => exists st st', a = Ok st /\ b = Ok st' /\ same_val ps' (snd st) (snd st') (climbed 4 Hash i v proof)).
Proof.
  intros Ht Hz Hn Hc. eapply both_conseq.
  { eapply both_cost. { apply (both_try_fold W W' ph cost 0 _ _ (map (digit 4 i) (seq 0 (length proof))) (map (digit 4 i) (seq 0 (length proof))) ps vs
      _ _ (presence_inv i v (rev proof))); [reflexivity| |].
    - intros j x x' st st' ps1 vs1 Hj Hj' Hg Hi. rewrite Hj in Hj'. injection Hj' as <-.
      assert (Hlt : (j < length proof)%nat).
      { assert (Hs := nth_error_Some (map (digit 4 i) (seq 0 (length proof))) j). rewrite Hj in Hs.
        rewrite map_length, seq_length in Hs. apply Hs. discriminate. }
      rewrite nth_error_map, (nth_error_nth' _ O) in Hj by (rewrite seq_length; exact Hlt).
      rewrite seq_nth in Hj by exact Hlt. cbn in Hj. injection Hj as <-.
      apply presence_step_both; [apply Forall_rev; exact Ht|rewrite rev_length; exact Hlt| |exact Hi].
      eapply has_value_grew; [exact Hg|exact Hz].
    - intros _. split; [reflexivity|]. cbn [fst snd skipn firstn go_up]. rewrite rev_involutive. split; [exact Hn|apply same_val_var; exact Hc]. }
    all: rewrite map_length, seq_length; lia. }
  intros a b ps' Hg (st & st' & -> & -> & _ & _ & Hv). exists st, st'. do 2 (split; [reflexivity|]).
  unfold climbed. rewrite <- go_up_climb by lia. rewrite map_length, seq_length, firstn_all2 in Hv by (rewrite rev_length; lia).
  exact Hv.
Qed.

(** *** The loops *)
Section Loops.
Context (d : nat) (Hd : (d * 2 <= 8 * modbytes)%nat) (Hd0 : (0 < d)%nat).
Context (us : list (F * F)) (new_tree : merkle_tree) (new_db : @hash_db (list F)).
Context (Htree : new_tree = MerkleTree d (node 4 Hash (after 4 d us) d 0)) (Hdb : db_has 2 Hash new_db (after 4 d us) d).
Context (root zero : var) (r : F) (indices values : list F) (vals : list var) (openings : list (list (list F))) (proofs : list (list var)).
Context (Hlen : length indices = length values) (Hlen' : length indices = length openings).
Context (Hopen : forall k, (k < length indices)%nat -> length (nth k openings []) = d /\ Forall (fun s => length s = 3%nat) (nth k openings []) /\ climbed 4 Hash (leaf 4 d (nth k indices 0)) (nth k values 0) (nth k openings []) = r).
Context (Hback : node 4 Hash (after 4 d (written_back indices values us)) d 0 = r).
Local Notation statics := [lc_of_var zero].

Definition inputs_ok (ps : prover) : Prop :=
  has_value ps root r /\ has_value ps zero 0 /\ Forall2 (has_value ps) vals values /\
  Forall2 (Forall2 (has_value ps)) proofs (map (@concat F) openings).
Lemma inputs_ok_grew k n ps ps' : grew k n ps ps' -> inputs_ok ps -> inputs_ok ps'.
Proof.
  intros Hg (H1 & H2 & H3 & H4). split; [|split; [|split]].
  - eapply has_value_grew; eassumption.
  - eapply has_value_grew; eassumption.
  - eapply forall2_grew; eassumption.
  - clear -Hg H4. induction H4 as [|a b la lb Hab H4 IH]; constructor; [|exact IH]. eapply forall2_grew; eassumption.
Qed.
Lemma forall2_nth {A B} (R : A -> B -> Prop) la lb j da db : Forall2 R la lb -> (j < length la)%nat -> R (nth j la da) (nth j lb db).
Proof.
  intros Hf. revert j. induction Hf as [|a b la lb Hab Hf IH]; intros j Hj; [cbn in Hj; lia|].
  destruct j as [|j]; [exact Hab|]. apply IH. cbn in Hj. lia.
Qed.

Definition both_read (j : nat) (n n' : node_map) (ps : prover) : Prop :=
  agree d (same_val ps) (at_key d Hash (after 4 d us)) n n' /\ present n [] /\
  forall k, (k < j)%nat -> around d n (nth k indices 0).

Lemma read_step_both j n n' ps vs : (j < length indices)%nat -> inputs_ok ps -> both_read j n n' ps ->
  both (d * cost) 0 (read_step p Quint d root (Merkle.root new_tree) new_db indices vals proofs statics n j)
    (read_step p Quint d root (Merkle.root new_tree) new_db indices vals proofs statics n' j) ps vs
    (fun a b ps' => exists m m', a = Ok m /\ b = Ok m' /\ both_read (S j) m m' ps').
Proof.
  intros Hj (Hr & Hz & Hv & Hpr) (Ha & Hn & Hk). unfold read_step.
  rewrite (index_ok _ _ 0) by exact Hj. cbn [p_lift pbind].
  pose proof (forall2_len _ _ _ Hv) as Lv. pose proof (forall2_len _ _ _ Hpr) as Lp. rewrite map_length in Lp.
  rewrite (index_ok proofs j []) by lia. cbn [p_lift pbind].
  pose proof (path_done 2 ltac:(lia) (nth j indices 0) d Hd) as E2. cbn [Nat.pow Nat.mul Nat.add] in E2. rewrite E2. clear E2. cbn [p_lift pbind].
  rewrite (index_ok vals j VOne) by lia. cbn [p_lift pbind].
  destruct (Hopen j Hj) as (Ho1 & Ho2 & Ho3).
  rewrite <- map_rev, rev_involutive.
  set (idx := nth j indices 0) in *. set (i := leaf 4 d idx) in *.
  eapply both_cost.
  { eapply both_try with (k2 := O) (r2 := O) (Q := fun st st' ps' => same_val ps' (snd st) (snd st') r).
    { replace (seq 0 d) with (seq 0 (length (nth j openings []))) by (rewrite Ho1; reflexivity). rewrite <- Ho3. apply presence_both; [exact Ho2|exact Hz| |].
      - rewrite <- (nth_map_in (@concat F) openings j [] []) by lia. apply (forall2_nth _ _ _ _ [] []); [exact Hpr|lia].
      - apply (forall2_nth _ _ _ _ VOne 0); [exact Hv|lia]. }
    intros [rest cur] [rest' cur'] ps1 vs1 Hg1 [Sc Hc]. cbn [snd] in Sc, Hc.
    apply b_constrain; [apply lc_same_sub; [exact Sc|apply lc_same_refl]| |].
    { eapply lc_has_eq; [apply lc_has_sub; [exact Hc|apply lc_has_var; eapply has_value_grew; [exact Hg1|exact Hr]]|ring]. }
    intros ps2 vs2 Hg2. pose proof (grew_trans _ _ _ _ _ _ _ Hg1 Hg2) as Hg.
    destruct (collect_path_agree d Hash (same_val ps2) (same_val_const ps2) i (leaf_in d Hd idx) new_db (after 4 d us) n n' Hdb)
      as (n2 & n2' & E1 & E2 & A2 & P2 & C2).
    { eapply agree_impl; [|exact Ha]. intros l l' x. apply (same_val_grew _ _ _ _ Hg). }
    rewrite Htree. cbn [Merkle.root]. rewrite E1, E2. cbn [p_lift pbind]. apply both_ret. exists n2, n2'. do 2 (split; [reflexivity|]).
    split; [exact A2|]. split; [apply P2; exact Hn|]. intros k Hlt.
    destruct (Nat.eq_dec k j) as [->|Hne]; [exact C2|]. intros t c Ht Hc'. apply P2. apply (Hk k ltac:(lia)); assumption. }
  all: lia.
Qed.

Definition contents_at (j : nat) : contents := after 4 d (rev (firstn j (combine indices values)) ++ us).
Lemma contents_at_S j : (j < length indices)%nat ->
  contents_at (S j) = put (contents_at j) (leaf 4 d (nth j indices 0)) (nth j values 0).
Proof.
  intros Hj. unfold contents_at.
  rewrite (firstn_S_nth _ _ (0, 0)) by (rewrite combine_length; lia).
  rewrite combine_nth by exact Hlen. rewrite rev_app_distr. reflexivity.
Qed.

Definition both_write (j : nat) (n n' : node_map) (ps : prover) : Prop :=
  agree d (same_val ps) (at_key d Hash (contents_at j)) n n' /\ present n [] /\
  forall k, (k < length indices)%nat -> around d n (nth k indices 0).

Lemma write_step_both j n n' ps vs : (j < length indices)%nat -> inputs_ok ps -> both_write j n n' ps ->
  both (d * cost) 0 (write_step p Quint d indices vals statics n j) (write_step p Quint d indices vals statics n' j) ps vs
    (fun a b ps' => exists m m', a = Ok m /\ b = Ok m' /\ both_write (S j) m m' ps').
Proof.
  intros Hj (Hr & Hz & Hv & Hpr) (Ha & Hn & Hk). unfold write_step.
  rewrite (index_ok _ _ 0) by exact Hj. cbn [p_lift pbind].
  pose proof (forall2_len _ _ _ Hv) as Lv.
  rewrite (index_ok vals j VOne) by lia. cbn [p_lift pbind].
  pose proof (path_done 2 ltac:(lia) (nth j indices 0) d Hd) as E2. cbn [Nat.pow Nat.mul Nat.add] in E2. rewrite E2. clear E2. cbn [p_lift pbind].
  set (idx := nth j indices 0) in *. set (i := leaf 4 d idx) in *. set (m := contents_at j) in *. set (v := nth j values 0).
  assert (Hvj : has_value ps (nth j vals VOne) v) by (apply (forall2_nth _ _ _ _ VOne 0); [exact Hv|lia]).
  eapply both_cost.
  { eapply both_try with (k2 := O) (r2 := O) (Q := fun st st' ps' => writing d Hash (same_val ps') i m v d st st' /\
      (forall k, present n k -> present (fst (fst st)) k)).
    { eapply both_conseq.
      { eapply both_cost. { apply (both_try_fold W W' ph cost 0 _ _ (rev (seq 0 d)) (rev (seq 0 d)) ps vs _ _
        (fun t st st' ps' => writing d Hash (same_val ps') i m v t st st' /\ (forall k, present n k -> present (fst (fst st)) k))); [reflexivity| |].
      - intros t x x' [[n1 l] q] [[n1' l'] q'] ps1 vs1 Hx Hx' Hg [Hw1 Hm]. rewrite Hx in Hx'. injection Hx' as <-.
        apply (nth_rev_seq d Hd) in Hx as [Ht ->].
        destruct (writing_inputs d Hash (same_val ps1) i (leaf_in d Hd idx) m v t n1 l q n1' l' q' Ht Hw1)
          as (ls & ls' & a & b & c & e & a' & b' & c' & e' & xa & xb & xc & xe & E1 & E1' & E2 & E2' & E3 & E3' & E4 & E4' & E5 & [S1 R1] & [S2 R2] & [S3 R3] & [S4 R4]).
        unfold write_level. rewrite E1, E1', E2, E2'. cbn [p_lift pbind]. rewrite E3, E3'. cbn [p_lift pbind].
        eapply both_cost.
        { eapply both_try with (k2 := O) (r2 := O); [apply hash_same with (xs := [xa; xb; xc; xe]);
            [repeat (apply rels_cons; [assumption..|]); apply rels_nil|reflexivity|eapply has_value_grew; [exact Hg|exact Hz]]|].
          intros o o' ps2 vs2 Hg2 Ho. rewrite E4, E4'. cbn [p_lift pbind]. apply both_ret. eexists _, _. do 2 (split; [reflexivity|]).
          destruct (writing_next d Hash (same_val ps2) i (leaf_in d Hd idx) m v t n1 l q n1' l' q' o o' Ht) as [N1 N2].
          - eapply writing_impl; [|exact Hw1]. intros ? ? ?. apply (same_val_grew _ _ _ _ Hg2).
          - change (node 4 Hash (put m i v) (S t) (ancestor 4 i (S t))) with (Hash (children 4 Hash (put m i v) t (ancestor 4 i (S t)))).
            rewrite E5. exact Ho.
          - cbn zeta in N1, N2. split; [exact N1|]. cbn [fst]. intros k Hpk. apply N2. apply Hm. exact Hpk. }
        all: lia.
      - intros _. split; [|auto]. rewrite path_pre. apply writing_start.
        + exact Ha.
        + apply same_val_var. exact Hvj.
        + intros t c Ht Hc. unfold i, idx. apply Hk; assumption. }
      all: rewrite rev_length, seq_length; reflexivity || lia. }
      intros a b ps' Hg (st & st' & -> & -> & Hw1 & Hm). rewrite rev_length, seq_length in Hw1. exists st, st'. auto. }
    intros [[n1 l] q] [[n1' l'] q'] ps1 vs1 Hg [Hw1 Hm]. cbn [fst] in Hm. apply both_ret. exists n1, n1'. do 2 (split; [reflexivity|]).
    split; [|split; [apply Hm; exact Hn|]].
    - rewrite contents_at_S by exact Hj. fold m idx i v. apply writing_end in Hw1; [exact Hw1|exact Hd0].
    - intros k Hlt t c Ht Hc. apply Hm. apply Hk; assumption. }
  all: lia.
Qed.

Lemma gadget_both ps vs : inputs_ok ps ->
  both (length indices * (2 * d * cost)) 0 (randomizer_gadget p Quint d root new_tree new_db indices vals proofs [zero])
    (randomizer_gadget p Quint d root new_tree new_db indices vals proofs [zero]) ps vs
    (fun a b _ => a = Ok tt /\ b = Ok tt).
Proof.
  intros Hin. unfold randomizer_gadget. assert (Ed : depth new_tree = d) by (rewrite Htree; reflexivity). rewrite Ed, Nat.eqb_refl. cbn [assertb p_lift pbind].
  destruct Hin as (Hr & Hz & Hv & Hpr). pose proof (forall2_len _ _ _ Hv) as Lv. rewrite Lv, <- Hlen, Nat.eqb_refl. cbn [assertb p_lift pbind map].
  assert (Hin : inputs_ok ps) by (split; [exact Hr|split; [exact Hz|split; [exact Hv|exact Hpr]]]).
  eapply both_cost.
  { eapply both_try with (k1 := (length indices * (d * cost))%nat) (r1 := O) (k2 := (length indices * (d * cost))%nat) (r2 := O) (Q := both_read (length indices)).
    { eapply both_conseq.
      { eapply both_cost. { apply (both_try_fold W W' ph (d * cost) 0 _ _ (seq 0 (length indices)) (seq 0 (length indices)) ps vs _ _ both_read);
          [reflexivity| |].
        - intros j x x' n n' ps1 vs1 Hx Hx' Hg Hi. rewrite Hx in Hx'. injection Hx' as <-. apply nth_error_seq0 in Hx as [-> Hj].
          apply read_step_both; [exact Hj|eapply inputs_ok_grew; [exact Hg|exact Hin]|exact Hi].
        - intros _. split; [|split].
          + intros key. rewrite map_get_insert. destruct (path_eqb [] key) eqn:E; [|exact I]. apply path_eqb_true in E. subst key.
            split; [split; [constructor|cbn; lia]|]. rewrite Htree. cbn [Merkle.root].
            unfold at_key. cbn [length]. rewrite Nat.sub_0_r. apply same_val_const.
          + apply present_insert. right. reflexivity.
          + intros k Hk. lia. }
        all: rewrite seq_length; reflexivity || lia. }
      intros a b ps' Hg (st & st' & -> & -> & Hi). rewrite seq_length in Hi. exists st, st'. auto. }
    intros n n' ps1 vs1 Hg1 (Ha & Hn & Hk). pose proof (inputs_ok_grew _ _ _ _ Hg1 Hin) as Hin1.
    eapply both_cost.
    { eapply both_try with (k1 := (length indices * (d * cost))%nat) (r1 := O) (k2 := O) (r2 := O) (Q := both_write (length indices)).
      { eapply both_conseq.
        { eapply both_cost. { apply (both_try_fold W W' ph (d * cost) 0 _ _ (seq 0 (length indices)) (seq 0 (length indices)) ps1 vs1 _ _ both_write);
            [reflexivity| |].
          - intros j x x' m m' ps2 vs2 Hx Hx' Hg Hi. rewrite Hx in Hx'. injection Hx' as <-. apply nth_error_seq0 in Hx as [-> Hj].
            apply write_step_both; [exact Hj|eapply inputs_ok_grew; [exact Hg|exact Hin1]|exact Hi].
          - intros _. split; [exact Ha|]. split; [exact Hn|]. intros k Hlt. apply Hk. exact Hlt. }
          all: rewrite seq_length; reflexivity || lia. }
        intros a b ps' Hg (st & st' & -> & -> & Hi). rewrite seq_length in Hi. exists st, st'. auto. }
      intros m m' ps2 vs2 Hg2 (Ha2 & Hn2 & _). pose proof (inputs_ok_grew _ _ _ _ Hg2 Hin1) as (Hr2 & _).
      destruct (agree_get _ _ _ _ _ _ Ha2 Hn2) as (l & l' & El & El' & Sl & Hl). rewrite El, El'. cbn [of_option p_lift pbind].
      apply b_constrain; [apply lc_same_sub; [exact Sl|apply lc_same_refl]| |].
      { eapply lc_has_eq; [apply lc_has_sub; [exact Hl|apply lc_has_var; exact Hr2]|].
        unfold at_key. cbn [length]. rewrite Nat.sub_0_r. change (number 4 []) with 0%Z.
        unfold contents_at. rewrite firstn_all2 by (rewrite combine_length; lia). unfold written_back in Hback. rewrite Hback. ring. }
      intros ps3 vs3 Hg3. apply both_ret. auto. }
    all: lia. }
  all: nia.
Qed.
End Loops.
End Phase.
End Complete.

(** *** The proving and the verifying function *)
Section Programs.
Context {P : Params} {OK : ParamsOk P}.
Local Open Scope fe_scope.
Context (W W' : world).
Local Notation both := (both W W' false).

Lemma commit_all_app g h xs : forall ys bs cs, length bs = length xs ->
  commit_all g h (xs ++ ys) (bs ++ cs) = commit_all g h xs bs ++ commit_all g h ys cs.
Proof.
  unfold commit_all. induction xs as [|x xs IH]; intros ys [|b bs] cs Hl; try discriminate; [reflexivity|].
  cbn [app combine map]. f_equal. apply IH. cbn in Hl. lia.
Qed.

(** the random blindings from draw [a] on *)
Local Notation drawn a n := (map (w_random W) (seq a n)).

Lemma both_commit_first xs : forall a vars comms cs rest ps0 vs0,
  cs = commit_all (p_g ps0) (p_h ps0) xs (drawn (p_nrand ps0) (length xs)) ->
  both 0 (length xs)
    (p_fold (fun '(comms, proof_vars) x => pbind p_random (fun r => pbind (cs_commit (x, r)) (fun '(c, v) => PRet (comms ++ [c], proof_vars ++ [v])))) xs (comms, vars))
    (p_fold (fun '(commitments, ps) (_ : nat) =>
      pbind (remove0 commitments) (fun '(c, commitments) => pbind (cs_commit c) (fun v => PRet (commitments, ps ++ [v]))))
      (seq a (length xs)) (cs ++ rest, vars)) ps0 vs0
    (fun x y ps' => exists new, x = (comms ++ cs, vars ++ new) /\ y = (rest, vars ++ new) /\ Forall2 (has_value ps') new xs).
Proof.
  induction xs as [|x xs IH]; intros a vars comms cs rest ps0 vs0 ->; cbn [length seq map commit_all combine p_fold].
  - apply both_ret. exists []. rewrite !app_nil_r. repeat split. constructor.
  - cbn [pbind app remove0]. apply (both_random W W' false 0 (length xs)). intros ps1 Hg1. cbn [pbind].
    eapply b_commit; [apply (commit_grew _ _ _ _ _ _ Hg1)|]. intros ps2 vs2 w Hg2 Hw. cbn [pbind].
    pose proof (grew_trans _ _ _ _ _ _ _ Hg1 Hg2) as Hg12.
    eapply both_conseq; [apply IH|].
    + unfold commit_all. rewrite (grew_g _ _ _ _ Hg12), (grew_h _ _ _ _ Hg12), (gr_rand _ _ _ _ Hg12).
      replace (p_nrand ps0 + (1 + 0))%nat with (S (p_nrand ps0)) by lia. reflexivity.
    + intros u b ps3 Hg3 (new & -> & -> & Hn). exists (w :: new). rewrite <- !app_assoc. do 2 (split; [reflexivity|]).
      constructor; [|exact Hn]. apply (has_value_grew _ _ _ _ _ _ Hg3). exact Hw.
Qed.

Section Trees.
Context (p : poseidon_params) (Hp : params_ok p) (Hw : width p = 5%nat).
Local Notation Hash := (hash_value p Quint).
Local Notation cost := (permutation_cost p Quint).
Context (d : nat) (Hd : (d * 2 <= 8 * modbytes)%nat) (Hd0 : (0 < d)%nat).
Context (m0 : contents) (orig_tree : merkle_tree) (orig_db : @hash_db (list F)).
Context (Hroot : orig_tree = MerkleTree d (node 4 Hash m0 d 0)).
Context (Hget : forall idx, tree_4_get orig_tree idx (Some []) orig_db
  = Done (Ok (m0 (leaf 4 d idx)), Some (siblings 4 Hash m0 d (leaf 4 d idx)))).
Context (indices : list F).
Local Notation value idx := (m0 (leaf 4 d idx)).
Local Notation opening idx := (siblings 4 Hash m0 d (leaf 4 d idx)).

(** the values committed for one index *)
Definition block (idx : F) : list F := value idx :: concat (opening idx).

Lemma opening_len idx : length (concat (opening idx)) = (d * 3)%nat.
Proof.
  destruct (siblings_3 4 Hash 2 m0 d (leaf 4 d idx) eq_refl ltac:(lia)) as [Ht Hl]. rewrite (concat_len _ 3) by exact Ht. rewrite Hl. lia.
Qed.


Definition receive : list G1 * list var * list (list var) -> nat -> vprog (list G1 * list var * list (list var)) :=
  fun '(commitments, orig_val_vars, proof_vars) (_ : nat) =>
  pbind (remove0 commitments) (fun '(c, commitments) =>
  pbind (cs_commit c) (fun var_orig_val =>
  pbind (commit_first (d * 3) commitments) (fun '(commitments, ps) =>
  PRet (commitments, orig_val_vars ++ [var_orig_val], proof_vars ++ [ps])))).

Lemma both_original j idx comms hs ts cs rest ps vs : (j < length indices)%nat -> nth j indices 0 = idx ->
  cs = commit_all (p_g ps) (p_h ps) (block idx) (drawn (p_nrand ps) (length (block idx))) ->
  both 0 (length (block idx))
    (commit_original orig_tree orig_db indices (map (fun idx => value idx) indices) (comms, hs, ts) j)
    (receive (cs ++ rest, hs, ts) j) ps vs
    (fun x y ps' => exists w new, x = Ok (comms ++ cs, hs ++ [w], ts ++ [new]) /\ y = (rest, hs ++ [w], ts ++ [new]) /\
      has_value ps' w (value idx) /\ Forall2 (has_value ps') new (concat (opening idx))).
Proof.
  intros Hj Hidx Hcs. unfold commit_original. rewrite (index_ok indices _ 0) by exact Hj. rewrite Hidx. cbn [p_lift pbind ptry].
  rewrite Hget. cbn [p_lift pbind ptry].
  rewrite (index_ok _ _ (value 0)) by (rewrite map_length; exact Hj).
  rewrite (map_nth (fun idx => value idx)), Hidx. cbn [p_lift pbind ptry].
  rewrite (proj2 (feqb_eq _ _) eq_refl). cbn [assertb p_lift pbind ptry of_option].
  set (xs := concat (opening idx)) in *.
  set (cs' := commit_all (p_g ps) (p_h ps) xs (drawn (S (p_nrand ps)) (length xs))).
  assert (E : cs = commit (p_g ps) (p_h ps) (value idx) (w_random W (p_nrand ps)) :: cs') by exact Hcs.
  rewrite E. unfold receive. cbn [app remove0 pbind block length].
  apply both_random. intros ps1 Hg1. cbn [pbind].
  eapply b_commit; [apply (commit_grew _ _ _ _ _ _ Hg1)|]. intros ps2 vs2 w Hg2 Hw1. cbn [pbind].
  pose proof (grew_trans _ _ _ _ _ _ _ Hg1 Hg2) as Hg12.
  eapply both_cost.
  { apply (both_bind W W' false 0 (length xs) 0 0 (commit_proof (opening idx) (comms ++ [commit (p_g ps) (p_h ps) (value idx) (w_random W (p_nrand ps))]))
      (commit_first (d * 3) (cs' ++ rest)) _ _ ps2 vs2 (fun x y ps' => exists new, x = ((comms ++ [commit (p_g ps) (p_h ps) (value idx) (w_random W (p_nrand ps))]) ++ cs', [] ++ new) /\ y = (rest, [] ++ new) /\ Forall2 (has_value ps') new xs)).
    - unfold commit_first. rewrite <- (opening_len idx). fold xs. apply both_commit_first.
      rewrite (grew_g _ _ _ _ Hg12), (grew_h _ _ _ _ Hg12), (gr_rand _ _ _ _ Hg12).
      replace (p_nrand ps + (1 + 0))%nat with (S (p_nrand ps)) by lia. reflexivity.
    - intros x y ps3 vs3 Hg3 (new & -> & -> & Hn). apply both_ret. exists w, new. rewrite <- app_assoc. cbn [app].
      do 2 (split; [reflexivity|]). split; [apply (has_value_grew _ _ _ _ _ _ Hg3); exact Hw1|exact Hn]. }
  all: unfold xs; lia.
Qed.

Lemma both_originals l : forall done comms hs ts cs rest ps vs, indices = done ++ l ->
  cs = commit_all (p_g ps) (p_h ps) (flat_map block l) (drawn (p_nrand ps) (length (flat_map block l))) ->
  both 0 (length (flat_map block l))
    (p_try_fold (commit_original orig_tree orig_db indices (map (fun idx => value idx) indices)) (seq (length done) (length l)) (comms, hs, ts))
    (p_fold receive (seq (length done) (length l)) (cs ++ rest, hs, ts)) ps vs
    (fun x y ps' => exists hs' ts', x = Ok (comms ++ cs, hs ++ hs', ts ++ ts') /\ y = (rest, hs ++ hs', ts ++ ts') /\
      Forall2 (has_value ps') hs' (map (fun idx => value idx) l) /\
      Forall2 (Forall2 (has_value ps')) ts' (map (fun idx => concat (opening idx)) l)).
Proof.
  induction l as [|idx l IH]; intros done comms hs ts cs rest ps vs Hin Hcs; cbn [length seq p_try_fold p_fold flat_map].
  - subst cs. cbn. apply both_ret. exists [], []. rewrite !app_nil_r. do 2 (split; [reflexivity|]). split; constructor.
  - assert (Hj : (length done < length indices)%nat) by (rewrite Hin, app_length; cbn; lia).
    assert (Hidx : nth (length done) indices 0 = idx).
    { rewrite Hin, app_nth2, Nat.sub_diag by lia. reflexivity. }
    cbn [flat_map] in Hcs. rewrite app_length, seq_app, map_app, commit_all_app in Hcs by (rewrite map_length, seq_length; reflexivity).
    set (cs1 := commit_all (p_g ps) (p_h ps) (block idx) (drawn (p_nrand ps) (length (block idx)))) in *.
    set (cs2 := commit_all (p_g ps) (p_h ps) (flat_map block l) (drawn (p_nrand ps + length (block idx)) (length (flat_map block l)))) in *.
    rewrite Hcs, <- app_assoc, app_length. unfold ptry.
    eapply both_cost.
    { eapply both_bind; [apply (both_original (length done) idx comms hs ts cs1 (cs2 ++ rest) ps vs Hj Hidx eq_refl)|].
      intros x y ps1 vs1 Hg1 (w & new & -> & -> & Hw1 & Hn).
      replace (S (length done)) with (length (done ++ [idx])) by (rewrite app_length; cbn; lia).
      eapply both_conseq; [apply IH with (cs := cs2)|].
      - rewrite <- app_assoc. exact Hin.
      - unfold cs2. rewrite (grew_g _ _ _ _ Hg1), (grew_h _ _ _ _ Hg1), (gr_rand _ _ _ _ Hg1). reflexivity.
      - intros x y ps4 Hg4 (hs' & ts' & -> & -> & F1 & F2). exists (w :: hs'), (new :: ts').
        rewrite <- !app_assoc. cbn [app]. do 2 (split; [reflexivity|]). cbn [map]. split; constructor; try assumption.
        + apply (has_value_grew _ _ _ _ _ _ Hg4). exact Hw1.
        + apply (forall2_grew _ _ _ _ _ _ Hg4). exact Hn. }
    all: lia.
Qed.

Section Main.
Context (us : list (F * F)) (new_tree : merkle_tree) (new_db : @hash_db (list F)).
Context (Htree : new_tree = MerkleTree d (node 4 Hash (after 4 d us) d 0)) (Hdb : db_has 2 Hash new_db (after 4 d us) d).
Context (Hsame : same_but_at d indices m0 (after 4 d us)).

Lemma node_ext H m m' k : forall i, (forall j, (i * 4 ^ Z.of_nat k <= j < (i + 1) * 4 ^ Z.of_nat k)%Z -> m j = m' j) ->
  node 4 H m k i = node 4 H m' k i.
Proof.
  induction k as [|k IH]; intros i He.
  - cbn. apply He. cbn. lia.
  - cbn [MerkleSpec.node]. f_equal. apply map_ext_in. intros c Hc. apply in_seq in Hc. apply IH. intros j Hj. apply He.
    rewrite Nat2Z.inj_succ, Z.pow_succ_r by lia. change (Z.of_nat 4) with 4%Z in Hj.
    assert (0 < 4 ^ Z.of_nat k)%Z by (apply Z.pow_pos_nonneg; lia). nia.
Qed.

Lemma written_back_contents l i : (forall idx, In idx l -> In idx indices) ->
  after 4 d (rev (combine l (map (fun idx => value idx) l)) ++ us) i =
    if existsb (fun idx => Z.eqb i (leaf 4 d idx)) l then m0 i else after 4 d us i.
Proof.
  intros _. induction l as [|idx l IH] using rev_ind; [reflexivity|].
  rewrite map_app. cbn [map].
  assert (Ec : forall a b, length a = length b -> combine (a ++ [idx]) (b ++ [value idx]) = combine a b ++ [(idx, value idx)]).
  { induction a as [|x a IHa]; intros [|y b] Hl; try discriminate; [reflexivity|]. cbn [app combine]. f_equal. apply IHa. cbn in Hl. lia. }
  rewrite Ec by (rewrite map_length; reflexivity). rewrite rev_app_distr. cbn [rev app MerkleSpec.after]. unfold put at 1.
  rewrite existsb_app. cbn [existsb]. rewrite orb_false_r.
  destruct (Z.eqb_spec i (leaf 4 d idx)) as [->|Hne]; [rewrite orb_true_r; reflexivity|]. rewrite orb_false_r. exact IH.
Qed.

Lemma written_back_root : node 4 Hash (after 4 d (written_back indices (map (fun idx => value idx) indices) us)) d 0 = node 4 Hash m0 d 0.
Proof.
  apply node_ext. intros i Hi. unfold written_back. rewrite written_back_contents by auto.
  destruct (existsb _ indices) eqn:E; [reflexivity|]. symmetry. apply Hsame; [lia|].
  intros idx Hin Hl. assert (E2 : existsb (fun idx => Z.eqb i (leaf 4 d idx)) indices = true).
  { apply existsb_exists. exists idx. split; [exact Hin|]. apply Z.eqb_eq. congruence. }
  congruence.
Qed.

Definition committed_values : list F := node 4 Hash m0 d 0 :: flat_map block indices.

Lemma randomizer_both ps vs :
  let comms := commit_all (p_g ps) (p_h ps) committed_values (drawn (p_nrand ps) (length committed_values)) in
  both (length indices * (2 * d * cost)) (length committed_values)
    (prove_randomizer orig_tree orig_db new_tree new_db indices (map (fun idx => value idx) indices) d p Quint)
    (verify_randomizer new_tree new_db indices d p Quint (p_g ps) (p_h ps) comms) ps vs
    (fun a b _ => a = Ok comms /\ b = Ok tt).
Proof.
  intros comms. set (c0 := commit (p_g ps) (p_h ps) (node 4 Hash m0 d 0) (w_random W (p_nrand ps))).
  set (cs := commit_all (p_g ps) (p_h ps) (flat_map block indices) (drawn (S (p_nrand ps)) (length (flat_map block indices)))).
  assert (E : comms = c0 :: cs) by reflexivity. clearbody comms. subst comms.
  unfold prove_randomizer, verify_randomizer. cbn [remove0 pbind committed_values length].
  apply both_random. intros ps1 Hg1. rewrite Hroot. cbn [Merkle.root].
  eapply b_commit; [apply (commit_grew _ _ _ _ _ _ Hg1)|]. intros ps2 vs2 w Hg2 Hw1.
  pose proof (grew_trans _ _ _ _ _ _ _ Hg1 Hg2) as Hg12. rewrite <- Hroot. unfold ptry at 1.
  rewrite <- (app_nil_r cs) at 1.
  match goal with |- context [p_fold ?f (seq 0 (length indices)) (cs ++ [], [], [])] => change f with receive end.
  eapply both_cost.
  { eapply (both_bind W W' false 0 (length (flat_map block indices)) (length indices * (2 * d * cost)) 0 _ (p_fold receive (seq 0 (length indices)) (cs ++ [], [], []))
      _ _ ps2 vs2 (fun x y ps' => exists hs' ts', x = Ok ([c0] ++ cs, [] ++ hs', [] ++ ts') /\ y = ([], [] ++ hs', [] ++ ts') /\
      Forall2 (has_value ps') hs' (map (fun idx => value idx) indices) /\
      Forall2 (Forall2 (has_value ps')) ts' (map (fun idx => concat (opening idx)) indices))).
    { apply (both_originals indices [] [c0] [] [] cs [] ps2 vs2 eq_refl).
      unfold cs. rewrite (grew_g _ _ _ _ Hg12), (grew_h _ _ _ _ Hg12), (gr_rand _ _ _ _ Hg12).
      replace (p_nrand ps + (1 + 0))%nat with (S (p_nrand ps)) by lia. reflexivity. }
    intros x y ps3 vs3 Hg3 (hs & ts & -> & -> & Fh & Ft). cbn [app].
    pose proof (grew_trans _ _ _ _ _ _ _ Hg12 Hg3) as Hg13.
    apply both_static; [symmetry; apply (grew_g _ _ _ _ Hg13)|symmetry; apply (grew_h _ _ _ _ Hg13)|].
    intros ps4 vs4 w0 Hg4 Hw0.
    eapply both_cost.
    { eapply b_gadget with (k2 := O) (r2 := O);
        [apply (gadget_both W W' p Hp Hw false d Hd Hd0 us new_tree new_db Htree Hdb w w0 (node 4 Hash m0 d 0) indices
           (map (fun idx => value idx) indices) hs (map (fun idx => opening idx) indices) ts)|].
      - rewrite map_length. reflexivity.
      - rewrite map_length. reflexivity.
      - intros k Hk. destruct (siblings_3 4 Hash 2 m0 d (leaf 4 d (nth k indices 0)) eq_refl ltac:(lia)) as [Ht Hl].
        rewrite (nth_map_in (fun idx => opening idx) indices k 0 []), (nth_map_in (fun idx => value idx) indices k 0 0) by exact Hk.
        split; [exact Hl|]. split; [exact Ht|]. apply (siblings_climbed 2 ltac:(lia)). apply leaf_in. exact Hd.
      - exact written_back_root.
      - split; [|split; [exact Hw0|split]].
        + apply (has_value_grew _ _ _ _ _ _ Hg4), (has_value_grew _ _ _ _ _ _ Hg3). exact Hw1.
        + apply (forall2_grew _ _ _ _ _ _ Hg4). exact Fh.
        + rewrite map_map. clear -Hg4 Ft. induction Ft as [|a b la lb Hab Ft IH]; constructor; [|exact IH].
          apply (forall2_grew _ _ _ _ _ _ Hg4). exact Hab.
      - intros ps5 vs5 _. apply both_ret. split; reflexivity. }
    all: lia. }
  all: lia.
Qed.
End Main.
End Trees.
End Programs.
