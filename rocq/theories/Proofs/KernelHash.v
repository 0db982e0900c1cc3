(** The hash gadgets: their constraints determine the committed values. *)
From Coq Require Import ZArith String List Lia Bool Ring Field Arith.
From Verif.Base Require Import Outcome Fp Params Algebra.
From Verif.Model Require Import Transcript LinComb Prog IPP Prover Verifier Gadgets Hash.
From Verif.Spec Require Import R1CS Protocol Gadget.
From Verif.Proofs Require Import LinCombProofs RunProofs ExtProofs GadgetTools GadgetBasic GadgetPrograms HashTools HashSound
  Recover KernelTools KernelGadgets.
Import ListNotations.

Section KernelHash.
Context {P : Params} {OK : ParamsOk P}.
Local Open Scope fe_scope.
Add Field FFkh : (Fp_field_theory modulus modulus_prime).
Context (d : nat -> F) (W : world).
Local Notation dl := (delta_lc d).
Local Notation dv := (delta_var d).

Section Ph.
Context (ph : bool).
Local Notation okk := (okk d W ph).
Local Notation kspec := (kspec d W ph).

Lemma scalar_k {B} l x s (f : unit -> vprog (result B)) (U : B -> verifier -> Prop) (K : B -> Prop) : inl s l ->
  (forall s', vext s s' -> v_V s' = v_V s -> okk s' (f tt) U (fun b => dl l = 0 -> K b)) ->
  okk s (pbind (constrain_lc_with_scalar l x) f) U K.
Proof.
  intros Hl H. unfold constrain_lc_with_scalar. apply okk_constrain_k; [inl0|]. intros s' X V. eapply okk_conseq; [apply H; assumption|auto|].
  cbn beta. intros b Hb E. apply Hb. dlv E. etransitivity; [|exact E]. ring.
Qed.

(** *** MiMC *)
Lemma enforce_mimc_k l r n constants s : inl s l -> inl s r ->
  okk s (enforce_mimc_2_inputs l r n constants) (fun out s' => v_V s' = v_V s /\ inl s' out)
    (fun out => (0 < n)%nat -> dl l = 0 /\ (dl out = 0 -> dl r = 0)).
Proof.
  intros Hl Hr. unfold enforce_mimc_2_inputs.
  eapply okk_bind; [apply (kspec_fold d W ph _
    (fun j st s' => v_V s' = v_V s /\ inl s' (fst st) /\ inl s' (snd st))
    (fun j st => match j with
       | O => st = (l, r)
       | S O => dl l = 0 /\ dl (fst st) = dl r /\ dl (snd st) = 0
       | _ => dl l = 0 /\ dl r = 0
       end))|].
  - intros j i [lv rv] s1 _ (V1 & Rl & Rr). cbn [fst snd] in *.
    apply kspec_lift_k. intros c _. apply kspec_multiply_k; [inl0|inl0|]. intros s2 a b o X2 V2 Ra Rb Ro Za Zb Zo. kcarry X2.
    apply kspec_multiply_k; [inl0|inl0|]. intros s3 a' b' o' X3 V3 Ra' Rb' Ro' Za' Zb' Zo'. kcarry X3.
    apply kspec_ret; [cbn [fst snd]; split; [congruence|]; split; inl0|].
    intros _ _ E _ HJ. dlv E. cbn [delta_var] in E.
    assert (El : dl lv = 0) by (etransitivity; [|exact E]; ring).
    destruct j as [|[|j]].
    + injection HJ as -> ->. cbn [fst snd]. split; [exact El|]. split; [|exact El]. rewrite dl_var_add, Zo'. ring.
    + destruct HJ as (H1 & H2 & _). cbn [fst] in H2. split; [exact H1|]. rewrite <- H2. exact El.
    + exact HJ.
  - auto.
  - reflexivity.
  - rewrite ?seq_length. intros [lv rv] s1 X (V & R1 & R2). apply okk_ret; [auto|]. cbn [fst snd].
    intros HJ Hn. destruct n as [|[|n]]; [lia| |].
    + destruct HJ as (H1 & H2 & _). split; [exact H1|]. intros E. rewrite <- H2. exact E.
    + destruct HJ as [H1 H2]. auto.
Qed.

Lemma mimc_gadget_k l r n constants image s : inr s (q_var l) -> inr s (q_var r) ->
  okk s (mimc_gadget l r n constants image) (fun _ s' => v_V s' = v_V s)
    (fun _ => (0 < n)%nat -> dv (q_var l) = 0 /\ dv (q_var r) = 0).
Proof.
  intros Hl Hr. unfold mimc_gadget. eapply okk_try; [apply enforce_mimc_k; inl0|]. intros out s1 X1 (V1 & Ro).
  apply scalar_k; [exact Ro|]. intros s2 X2 V2. apply okk_ret; [congruence|]. rewrite !dl_var. intros E H Hn. destruct (H Hn). auto.
Qed.

(** *** Poseidon *)
Context (p : poseidon_params) (sbox : sbox_type) (Hsbox : sbox <> Inverse).

Lemma sbox_k x k s : inl s x ->
  okk s (synthesize_sbox sbox x k) (fun out s' => v_V s' = v_V s /\ inr s' out /\ dv out = 0) (fun _ => dl x = 0).
Proof.
  intros Hx. destruct sbox; [|contradiction|]; cbn [synthesize_sbox].
  - unfold synthesize_cube_sbox.
    apply okk_multiply_k; [inl0|inl0|]. intros s2 a b o X2 V2 Ra Rb Ro Za Zb Zo. kcarry X2.
    apply okk_multiply_k; [inl0|inl0|]. intros s3 a' b' o' X3 V3 Ra' Rb' Ro' Za' Zb' Zo'. kcarry X3.
    apply okk_ret; [split; [congruence|split; assumption]|]. intros _ _ E _. dlv E. cbn [delta_var] in E. etransitivity; [|exact E]. ring.
  - unfold synthesize_quint_sbox.
    apply okk_multiply_k; [inl0|inl0|]. intros s2 a b o X2 V2 Ra Rb Ro Za Zb Zo. kcarry X2.
    apply okk_multiply_k; [inl0|inl0|]. intros s3 a' b' o' X3 V3 Ra' Rb' Ro' Za' Zb' Zo'. kcarry X3.
    apply okk_multiply_k; [inl0|inl0|]. intros s4 a4 b4 o4 X4 V4 Ra4 Rb4 Ro4 Za4 Zb4 Zo4. kcarry X4.
    apply okk_ret; [split; [congruence|split; assumption]|]. intros _ _ _ _ E _. dlv E. cbn [delta_var] in E. etransitivity; [|exact E]. ring.
Qed.

Lemma Forall_index {T} (Q : T -> Prop) l i x : Forall Q l -> index l i = Done x -> Q x.
Proof.
  intros H E. rewrite Forall_forall in H. apply H. unfold index in E. destruct (nth_error l i) eqn:En; [|discriminate].
  injection E as <-. eapply nth_error_In, En.
Qed.

Lemma linear_layer_inl s outs ls : Forall (inl s) outs -> apply_linear_layer p outs = Done ls -> Forall (inl s) ls.
Proof.
  intros H E. unfold apply_linear_layer in E.
  assert (Hm : forall (g : nat -> outcome lc) sq out, (forall i l, g i = Done l -> inl s l) -> mapM g sq = Done out -> Forall (inl s) out).
  { clear. intros g sq. induction sq as [|x t IH]; intros out Hg E; [injection E as <-; constructor|].
    cbn [mapM] in E. destruct (g x) as [y|] eqn:Ex; [|discriminate]. cbn [obind] in E.
    destruct (mapM g t) as [ys|] eqn:Et; [|discriminate]. cbn [obind] in E. injection E as <-. constructor; [eapply Hg, Ex|].
    apply IH; [exact Hg|reflexivity]. }
  eapply Hm; [|exact E]. clear E Hm ls. intros i l. cbv beta.
  assert (Hf : forall sq acc l, inl s acc -> foldM (fun acc j =>
          obind (index (MDS_matrix p) j) (fun row => obind (index row i) (fun m => obind (index outs j) (fun s =>
          Done (lc_add acc (fe_mul_lc m s)))))) sq acc = Done l -> inl s l).
  { clear l. intros sq. induction sq as [|j t IH]; intros acc l Ha E; [injection E as <-; exact Ha|].
    cbn [foldM] in E. destruct (index (MDS_matrix p) j) as [row|]; [|discriminate]. cbn [obind] in E.
    destruct (index row i) as [m|]; [|discriminate]. cbn [obind] in E.
    destruct (index outs j) as [o|] eqn:Eo; [|discriminate]. cbn [obind] in E. pose proof (Forall_index _ _ _ _ H Eo) as Ho. apply (IH _ l) in E; [exact E|inl0]. }
  apply Hf. apply inl_nil.
Qed.

Definition zero_all (ls : list lc) : Prop := Forall (fun l => dl l = 0) ls.

Lemma linear_layer_zero outs ls : zero_all outs -> apply_linear_layer p outs = Done ls -> zero_all ls.
Proof.
  intros H E. unfold apply_linear_layer in E.
  assert (Hm : forall (g : nat -> outcome lc) sq out, (forall i l, g i = Done l -> dl l = 0) -> mapM g sq = Done out -> zero_all out).
  { clear. intros g sq. induction sq as [|x t IH]; intros out Hg E; [injection E as <-; constructor|].
    cbn [mapM] in E. destruct (g x) as [y|] eqn:Ex; [|discriminate]. cbn [obind] in E.
    destruct (mapM g t) as [ys|] eqn:Et; [|discriminate]. cbn [obind] in E. injection E as <-. constructor; [eapply Hg, Ex|].
    apply IH; [exact Hg|reflexivity]. }
  eapply Hm; [|exact E]. clear E Hm ls. intros i l. cbv beta.
  assert (Hf : forall sq acc l, dl acc = 0 -> foldM (fun acc j =>
          obind (index (MDS_matrix p) j) (fun row => obind (index row i) (fun m => obind (index outs j) (fun s =>
          Done (lc_add acc (fe_mul_lc m s)))))) sq acc = Done l -> dl l = 0).
  { clear l. intros sq. induction sq as [|j t IH]; intros acc l Ha E; [injection E as <-; exact Ha|].
    cbn [foldM] in E. destruct (index (MDS_matrix p) j) as [row|]; [|discriminate]. cbn [obind] in E.
    destruct (index row i) as [m|]; [|discriminate]. cbn [obind] in E.
    destruct (index outs j) as [o|] eqn:Eo; [|discriminate]. cbn [obind] in E. pose proof (Forall_index _ _ _ _ H Eo) as Ho. apply (IH _ l) in E; [exact E|]. rewrite dl_add, dl_mul, Ha, Ho. ring. }
  apply Hf. reflexivity.
Qed.

Lemma full_sbox_layer_k ins off s : Forall (inl s) ins ->
  okk s (p_try_fold (full_sbox_constraints p sbox ins) (seq 0 (width p)) ([], off))
    (fun st s' => v_V s' = v_V s /\ Forall (inl s') (fst st) /\ length (fst st) = width p /\ zero_all (fst st))
    (fun _ => length ins = width p -> Forall (fun l => dl l = 0) ins).
Proof.
  intros Hi. eapply okk_conseq; [apply (okk_try_fold d W ph _
    (fun j st s' => v_V s' = v_V s /\ Forall (inl s') (fst st) /\ length (fst st) = j /\ Forall (inl s') ins /\ zero_all (fst st))
    (fun j _ => forall i x, (i < j)%nat -> nth_error ins i = Some x -> dl x = 0))|..].
  - intros j i [outs o] s1 Hj (V1 & Ro & Lo & Ri & Zo). apply nth_error_seq0 in Hj as [-> Hj]. cbn [fst] in *. unfold full_sbox_constraints.
    apply okk_lift_k. intros k _. apply okk_lift_k. intros x Ex. pose proof (Forall_index _ _ _ _ Ri Ex) as Rx.
    eapply okk_try; [apply sbox_k; exact Rx|]. intros out s2 X2 (V2 & Rout & Zout). kcarry X2. apply okk_ret.
    + cbn [fst]. split; [congruence|]. split; [|split; [rewrite app_length, Lo; cbn; lia|split; [assumption|]]].
      * apply Forall_app. split; [assumption|]. constructor; [inl0|constructor].
      * apply Forall_app. split; [exact Zo|]. constructor; [rewrite dl_var; exact Zout|constructor].
    + intros E Hall i' x' Hi' Hx'. destruct (Nat.eq_dec i' j) as [->|Hne]; [|apply (Hall i' x'); [lia|exact Hx']].
      unfold index in Ex. rewrite Hx' in Ex. injection Ex as ->. exact E.
  - split; [reflexivity|]. split; [constructor|]. split; [reflexivity|]. split; [exact Hi|constructor].
  - intros i x Hlt. lia.
  - rewrite ?seq_length. intros [outs o] s1 X (V & R & L & _ & Z). auto.
  - rewrite ?seq_length. intros [outs o] Hall HL. apply Forall_forall. intros x Hx. apply In_nth_error in Hx as [i Hx].
    apply (Hall i x); [|exact Hx]. rewrite <- HL. apply nth_error_Some. congruence.
Qed.

Lemma full_round_k ins off i s : Forall (inl s) ins ->
  okk s (full_round_constraints p sbox (ins, off) i)
    (fun st s' => v_V s' = v_V s /\ Forall (inl s') (fst st) /\ length (fst st) = width p /\ zero_all (fst st))
    (fun _ => length ins = width p -> Forall (fun l => dl l = 0) ins).
Proof.
  intros Hi. unfold full_round_constraints. eapply okk_try; [apply full_sbox_layer_k; assumption|].
  intros [outs o] s1 X1 (V1 & R1 & L1 & Z1). cbn [fst] in *. apply okk_lift_k. intros ls El. apply okk_ret; [|auto].
  cbn [fst]. split; [exact V1|]. split; [eapply linear_layer_inl; [exact R1|exact El]|].
  split; [rewrite (linear_layer_len _ _ _ El); exact L1|exact (linear_layer_zero _ _ Z1 El)].
Qed.

Lemma simplify_all_k ls s : Forall (inl s) ls ->
  kspec s (p_fold (fun input_vars l => pbind (p_simplify l) (fun l => PRet (input_vars ++ [l]))) ls [])
    (fun out s' => v_V s' = v_V s /\ Forall (inl s') out) (fun _ => True).
Proof.
  intros H. eapply kspec_conseq; [apply (kspec_fold d W ph _
    (fun j out s' => v_V s' = v_V s /\ Forall (inl s') out /\ Forall (inl s') ls) (fun _ _ => True))|..].
  - intros j l out s1 Hl (V & Ro & Rl). assert (Rx : inl s1 l). { rewrite Forall_forall in Rl. apply Rl. eapply nth_error_In, Hl. }
    eapply kspec_bind; [apply kspec_simplify; exact Rx|]. intros m s2 X2 (V2 & Rm & _). kcarry X2. apply kspec_ret; [|auto].
    split; [congruence|]. split; [|assumption]. apply Forall_app. split; [assumption|]. constructor; [exact Rm|constructor].
  - split; [reflexivity|]. split; [constructor|exact H].
  - exact I.
  - intros out s1 X (V & R & _). auto.
  - auto.
Qed.

Lemma partial_round_k ins off i s : Forall (inl s) ins ->
  okk s (partial_round_constraints p sbox (ins, off) i)
    (fun st s' => v_V s' = v_V s /\ Forall (inl s') (fst st)) (fun _ => True).
Proof.
  intros Hi. unfold partial_round_constraints.
  eapply okk_try; [apply (okk_try_fold d W ph _
    (fun j st s' => v_V s' = v_V s /\ Forall (inl s') (fst st) /\ Forall (inl s') ins) (fun _ _ => True))|..].
  - intros j i' [outs o] s1 Hj (V1 & Ro & Ri). cbn [fst] in *. unfold partial_sbox_constraints.
    apply okk_lift_k. intros k _. apply okk_lift_k. intros x Ex. pose proof (Forall_index _ _ _ _ Ri Ex) as Rx.
    destruct (Nat.eqb i' (width p - 1)).
    + eapply okk_try; [apply sbox_k; exact Rx|]. intros out s2 X2 (V2 & Rout & _). kcarry X2. apply okk_ret; [|auto].
      cbn [fst]. split; [congruence|]. split; [|assumption]. apply Forall_app. split; [assumption|]. constructor; [inl0|constructor].
    + apply okk_ret; [|auto]. cbn [fst]. split; [assumption|]. split; [|assumption]. apply Forall_app. split; [assumption|]. constructor; [inl0|constructor].
  - split; [reflexivity|]. split; [constructor|exact Hi].
  - exact I.
  - rewrite ?seq_length. intros [outs o] s1 X1 (V1 & R1 & _). cbn [fst] in *. apply okk_lift_k. intros ls El.
    pose proof (linear_layer_inl _ _ _ R1 El) as Rl. eapply okk_bind; [apply simplify_all_k; exact Rl|].
    intros out s2 X2 (V2 & R2). apply okk_ret; [|auto]. cbn [fst]. split; [congruence|exact R2].
Qed.

(** with at least one full round, every input goes through an S-box *)
Lemma full_rounds_k n ins off s : Forall (inl s) ins -> 
  okk s (p_try_fold (full_round_constraints p sbox) (seq 0 n) (ins, off)) (fun st s' => v_V s' = v_V s /\ Forall (inl s') (fst st) /\ ((0 < n)%nat -> zero_all (fst st)))
    (fun _ => length ins = width p -> (0 < n)%nat -> Forall (fun l => dl l = 0) ins).
Proof.
  intros Hi. eapply okk_conseq; [apply (okk_try_fold d W ph _
    (fun j st s' => v_V s' = v_V s /\ Forall (inl s') (fst st) /\ (j = O -> fst st = ins) /\ ((0 < j)%nat -> zero_all (fst st)))
    (fun j _ => length ins = width p -> (0 < j)%nat -> Forall (fun l => dl l = 0) ins))|..].
  - intros j i [l o] s1 _ (V1 & R1 & E1 & _). cbn [fst] in *. eapply okk_conseq; [apply full_round_k; exact R1|..].
    + intros [l2 o2] s2 X2 (V2 & R2 & _ & Z2). cbn [fst] in *. split; [congruence|]. split; [exact R2|]. split; [discriminate|auto].
    + intros st2 HK HJ HL _. destruct j as [|j]; [rewrite <- (E1 eq_refl) in HL |- *; exact (HK HL)|apply HJ; [exact HL|lia]].
  - split; [reflexivity|]. split; [exact Hi|]. split; [reflexivity|]. intros Hlt. lia.
  - intros _ Hlt. lia.
  - rewrite ?seq_length. intros [l o] s1 X (V & R & _ & Z). auto.
  - rewrite ?seq_length. auto.
Qed.

Lemma permutation_k ins s : Forall (inl s) ins ->
  okk s (Poseidon_permutation_constraints p sbox ins) (fun out s' => v_V s' = v_V s /\ Forall (inl s') out /\ ((0 < full_rounds_end p)%nat -> zero_all out))
    (fun _ => (0 < full_rounds_beginning p)%nat -> Forall (fun l => dl l = 0) ins).
Proof.
  intros Hi. unfold Poseidon_permutation_constraints. apply okk_lift_k. intros [] Ea.
  assert (HL : length ins = width p). { unfold assertb in Ea. destruct (Nat.eqb_spec (length ins) (width p)); [assumption|discriminate]. }
  eapply okk_try; [apply full_rounds_k; assumption|]. intros [l1 o1] s1 X1 (V1 & R1 & _). cbn [fst] in *.
  eapply okk_try; [apply (okk_try_fold d W ph _ (fun j st s' => v_V s' = v_V s1 /\ Forall (inl s') (fst st)) (fun _ _ => True))|..].
  - intros j i [l o] s2 _ (V2 & R2). cbn [fst] in *. eapply okk_conseq; [apply partial_round_k; exact R2| |auto].
    intros st s3 X3 (V3 & R3). split; [congruence|auto].
  - auto.
  - exact I.
  - rewrite ?seq_length. intros [l2 o2] s2 X2 (V2 & R2). cbn [fst] in *.
    eapply okk_try; [apply full_rounds_k; assumption|]. intros [l3 o3] s3 X3 (V3 & R3 & Z3). cbn [fst] in *.
    apply okk_ret; [split; [congruence|split; [exact R3|exact Z3]]|]. intros _ _ H Hpos. exact (H HL Hpos).
Qed.

Lemma hash_2_k xl xr statics s : inl s xl -> inl s xr -> Forall (inl s) statics ->
  okk s (Poseidon_hash_2_constraints p sbox xl xr statics) (fun out s' => v_V s' = v_V s /\ inl s' out /\ ((0 < full_rounds_end p)%nat -> dl out = 0))
    (fun _ => (0 < full_rounds_beginning p)%nat -> zero_all (xl :: xr :: statics)).
Proof.
  intros Hl Hr Hs. unfold Poseidon_hash_2_constraints. apply okk_lift_k. intros [] _. apply okk_lift_k. intros s0 E0.
  destruct statics as [|s0' rest]; [discriminate|]. injection E0 as ->. cbn [skipn app]. inversion Hs; subst.
  eapply okk_try; [apply permutation_k; repeat (constructor; [assumption|]); assumption|]. intros out s1 X1 (V1 & R1 & Z1).
  apply okk_lift_k. intros o Eo. apply okk_ret; [split; [exact V1|split; [exact (Forall_index _ _ _ _ R1 Eo)|intros He; exact (Forall_index _ _ _ _ (Z1 He) Eo)]]|].
  intros H Hf. specialize (H Hf). unfold zero_all. inversion H as [|? ? A1 A2]; subst. inversion A2 as [|? ? A3 A4]; subst.
  inversion A4 as [|? ? A5 A6]; subst. repeat (constructor; [assumption|]). assumption.
Qed.

Lemma hash_4_k ins statics s : Forall (inl s) ins -> Forall (inl s) statics ->
  okk s (Poseidon_hash_4_constraints p sbox ins statics) (fun out s' => v_V s' = v_V s /\ inl s' out /\ ((0 < full_rounds_end p)%nat -> dl out = 0))
    (fun _ => (0 < full_rounds_beginning p)%nat -> zero_all (ins ++ statics)).
Proof.
  intros Hi Hs. unfold Poseidon_hash_4_constraints. apply okk_lift_k. intros [] _. apply okk_lift_k. intros [] _. apply okk_lift_k. intros s0 E0.
  destruct statics as [|s0' rest]; [discriminate|]. injection E0 as ->. cbn [skipn app]. inversion Hs; subst.
  eapply okk_try; [apply permutation_k; constructor; [assumption|]; apply Forall_app; auto|]. intros out s1 X1 (V1 & R1 & Z1).
  apply okk_lift_k. intros o Eo. apply okk_ret; [split; [exact V1|split; [exact (Forall_index _ _ _ _ R1 Eo)|intros He; exact (Forall_index _ _ _ _ (Z1 He) Eo)]]|].
  intros H Hf. specialize (H Hf). unfold zero_all. inversion H as [|? ? A1 A2]; subst. apply Forall_app in A2 as [A2 A3].
  apply Forall_app. split; [exact A2|]. constructor; assumption.
Qed.

Lemma hash_8_k ins zero s : Forall (inl s) ins -> inl s zero ->
  okk s (Poseidon_hash_8_constraints p sbox ins zero) (fun out s' => v_V s' = v_V s /\ inl s' out /\ ((0 < full_rounds_end p)%nat -> dl out = 0))
    (fun _ => (0 < full_rounds_beginning p)%nat -> zero_all (zero :: ins)).
Proof.
  intros Hi Hz. unfold Poseidon_hash_8_constraints. apply okk_lift_k. intros [] _. cbn [app].
  eapply okk_try; [apply permutation_k; constructor; assumption|]. intros out s1 X1 (V1 & R1 & Z1).
  apply okk_lift_k. intros o Eo. apply okk_ret; [split; [exact V1|split; [exact (Forall_index _ _ _ _ R1 Eo)|intros He; exact (Forall_index _ _ _ _ (Z1 He) Eo)]]|]. auto.
Qed.

Lemma Forall_inl_vars s vars : Forall (inr s) vars -> Forall (inl s) (map (fun v => lc_of_var v) vars).
Proof. intros H. apply Forall_map. revert H. apply Forall_impl. intros v Hv. inl0. Qed.
Lemma zero_all_vars vars : zero_all (map (fun v => lc_of_var v) vars) -> Forall (fun v => dv v = 0) vars.
Proof. unfold zero_all. rewrite Forall_map. apply Forall_impl. intros v. rewrite dl_var. auto. Qed.

Lemma hash_2_gadget_k xl xr statics output s : inr s xl -> inr s xr -> Forall (inr s) statics ->
  okk s (Poseidon_hash_2_gadget p sbox xl xr statics output) (fun _ s' => v_V s' = v_V s)
    (fun _ => (0 < full_rounds_beginning p)%nat -> Forall (fun v => dv v = 0) (xl :: xr :: statics)).
Proof.
  intros Hl Hr Hs. unfold Poseidon_hash_2_gadget. eapply okk_try; [apply hash_2_k; [inl0|inl0|apply Forall_inl_vars, Hs]|].
  intros out s1 X1 (V1 & R1 & _). apply scalar_k; [exact R1|]. intros s2 X2 V2. apply okk_ret; [congruence|]. intros _ H Hf.
  apply (zero_all_vars (xl :: xr :: statics)). exact (H Hf).
Qed.
Lemma hash_4_gadget_k ins statics output s : Forall (inr s) ins -> Forall (inr s) statics ->
  okk s (Poseidon_hash_4_gadget p sbox ins statics output) (fun _ s' => v_V s' = v_V s)
    (fun _ => (0 < full_rounds_beginning p)%nat -> Forall (fun v => dv v = 0) (ins ++ statics)).
Proof.
  intros Hl Hs. unfold Poseidon_hash_4_gadget. apply okk_lift_k. intros [] _.
  eapply okk_try; [apply hash_4_k; apply Forall_inl_vars; assumption|].
  intros out s1 X1 (V1 & R1 & _). apply scalar_k; [exact R1|]. intros s2 X2 V2. apply okk_ret; [congruence|]. intros _ H Hf.
  apply zero_all_vars. rewrite map_app. exact (H Hf).
Qed.
Lemma hash_8_gadget_k ins zero output s : Forall (inr s) ins -> inr s zero ->
  okk s (Poseidon_hash_8_gadget p sbox ins zero output) (fun _ s' => v_V s' = v_V s)
    (fun _ => (0 < full_rounds_beginning p)%nat -> Forall (fun v => dv v = 0) (zero :: ins)).
Proof.
  intros Hl Hs. unfold Poseidon_hash_8_gadget. apply okk_lift_k. intros [] _.
  eapply okk_try; [apply hash_8_k; [apply Forall_inl_vars; assumption|inl0]|].
  intros out s1 X1 (V1 & R1 & _). apply scalar_k; [exact R1|]. intros s2 X2 V2. apply okk_ret; [congruence|]. intros _ H Hf.
  apply (zero_all_vars (zero :: ins)). exact (H Hf).
Qed.
End Ph.

(** *** the verifying functions *)
Local Notation okk := (okk d W false).
Local Notation kspec := (kspec d W false).

Lemma mimc_determines image constants n comms : (0 < n)%nat ->
  determines d W 2 (firstn 2 comms) (verify_mimc_preimage image constants n comms).
Proof.
  intros Hn s. unfold verify_mimc_preimage.
  apply okk_remove0. intros c1 t1 L1. apply okk_commit_k. intros s1 X1 V1 R1.
  apply okk_remove0. intros c2 t2 L2. apply okk_commit_k. intros s2 X2 V2 R2. kcarry X2.
  eapply okk_try; [apply mimc_gadget_k; cbn [q_var]; assumption|]. intros [] s4 X4 V4. apply okk_ret.
  - rewrite V4, V2, V1, L1, L2, <- !app_assoc. split; reflexivity.
  - cbn [q_var delta_var]. rewrite V1, app_length. cbn [length]. intros H j Hj. destruct (H Hn) as [E1 E2]. destruct j as [|[|j]]; [rewrite Nat.add_0_r|..|lia]; assumption.
Qed.

Lemma commit_received_k comms n s :
  kspec s (commit_received comms n) (fun vars s' => vars = map VCommitted (seq (length (v_V s)) n) /\
    v_V s' = v_V s ++ firstn n comms /\ length (v_V s') = (length (v_V s) + n)%nat /\ Forall (inr s') vars) (fun _ => True).
Proof.
  unfold commit_received. eapply kspec_bind; [apply (kspec_fold d W false _ (fun j st s' => snd st = map VCommitted (seq (length (v_V s)) j) /\
    v_V s' ++ fst st = v_V s ++ comms /\ length (v_V s') = (length (v_V s) + j)%nat /\ Forall (inr s') (snd st)) (fun _ _ => True))|..].
  - intros j x [cs vars] s1 _ (E & HC & HV & HR). cbn [fst snd] in *. apply kspec_remove0. intros c t L. apply kspec_commit_k. intros s2 X2 V2 R2.
    kcarry X2. apply kspec_ret; [|auto]. cbn [fst snd]. rewrite HV in *. split; [rewrite E, seq_S, map_app; reflexivity|].
    split; [rewrite V2, <- app_assoc; cbn [app]; rewrite <- L; exact HC|].
    split; [rewrite V2, app_length, HV; cbn; lia|]. apply Forall_app. split; [exact HR|]. constructor; [exact R2|constructor].
  - cbn [fst snd]. split; [reflexivity|]. split; [reflexivity|]. split; [lia|constructor].
  - exact I.
  - rewrite ?seq_length. intros [cs vars] s1 X1 (E & HC & HV & HR). cbn [fst snd] in *. apply kspec_ret; [|auto].
    split; [exact E|]. split; [|auto]. destruct (taken _ _ _ _ HC HV) as [H _]. rewrite H, firstn_app.
    rewrite firstn_all2 by lia. f_equal. f_equal. lia.
Qed.

Lemma static_k g h s :
  kspec s (allocate_statics_for_verifier 1 g h) (fun vars s' => vars = [VCommitted (length (v_V s))] /\
    v_V s' = v_V s ++ [commit g h 0 0] /\ Forall (inr s') vars) (fun _ => True).
Proof.
  unfold allocate_statics_for_verifier. apply kspec_commit_k. intros s1 X1 V1 R1. cbn [Nat.ltb Nat.leb length Nat.sub seq p_fold pbind].
  apply kspec_ret; [|auto]. split; [reflexivity|]. split; [exact V1|]. constructor; [exact R1|constructor].
Qed.

Lemma committed_zero b k : Forall (fun v => dv v = 0) (map VCommitted (seq b k)) -> forall j, (j < k)%nat -> d (b + j)%nat = 0.
Proof.
  intros H j Hj. rewrite Forall_forall in H. apply (H (VCommitted (b + j))). apply in_map_iff. exists (b + j)%nat. split; [reflexivity|]. apply in_seq. lia.
Qed.

Context (p : poseidon_params) (sbox : sbox_type) (Hsbox : sbox <> Inverse) (Hf : (0 < full_rounds_beginning p)%nat).

Lemma firstn_received (V0 V1 comms : list G1) n : V1 = V0 ++ firstn n comms -> length V1 = (length V0 + n)%nat -> length (firstn n comms) = n.
Proof. intros -> H. rewrite app_length in H. lia. Qed.

Lemma Poseidon_2_determines output g h comms :
  determines d W 3 (firstn 2 comms ++ [commit g h 0 0]) (verify_Poseidon_2 output p sbox g h comms).
Proof.
  intros s. unfold verify_Poseidon_2.
  apply okk_remove0. intros c1 t1 L1. apply okk_commit_k. intros s1 X1 V1 R1.
  apply okk_remove0. intros c2 t2 L2. apply okk_commit_k. intros s2 X2 V2 R2. kcarry X2.
  eapply okk_bind; [apply static_k|]. intros st s3 X3 (-> & V3 & R3). kcarry X3.
  eapply okk_try; [apply hash_2_gadget_k; assumption|]. intros [] s4 X4 V4. apply okk_ret.
  - rewrite V4, V3, V2, V1, L1, L2, <- !app_assoc. split; reflexivity.
  - rewrite V2, V1, !app_length. cbn [length]. intros H _. apply committed_zero. specialize (H Hf).
    cbn [seq map]. replace (S (S (length (v_V s)))) with (length (v_V s) + 1 + 1)%nat by lia. replace (S (length (v_V s))) with (length (v_V s) + 1)%nat by lia. exact H.
Qed.
Lemma Poseidon_4_determines output g h comms :
  determines d W 5 (firstn 4 comms ++ [commit g h 0 0]) (verify_Poseidon_4 output p sbox g h comms).
Proof.
  intros s. unfold verify_Poseidon_4. eapply okk_bind; [apply commit_received_k|]. intros vars s2 X2 (-> & V2 & N2 & R2).
  eapply okk_bind; [apply static_k|]. intros st s3 X3 (-> & V3 & R3). kcarry X3.
  eapply okk_try; [apply hash_4_gadget_k; assumption|]. intros [] s4 X4 V4. apply okk_ret.
  - split; [rewrite V4, V3, V2, <- app_assoc; reflexivity|]. rewrite app_length, (firstn_received _ _ _ _ V2 N2). reflexivity.
  - rewrite N2. intros H _ _. apply committed_zero. specialize (H Hf). rewrite seq_S, map_app. exact H.
Qed.
Lemma Poseidon_8_determines output g h comms :
  determines d W 9 (firstn 8 comms ++ [commit g h 0 0]) (verify_Poseidon_8 output p sbox g h comms).
Proof.
  intros s. unfold verify_Poseidon_8. eapply okk_bind; [apply commit_received_k|]. intros vars s2 X2 (-> & V2 & N2 & R2).
  apply okk_commit_k. intros s3 X3 V3 R3. kcarry X3.
  eapply okk_try; [apply hash_8_gadget_k; assumption|]. intros [] s4 X4 V4. apply okk_ret.
  - split; [rewrite V4, V3, V2, <- app_assoc; reflexivity|]. rewrite app_length, (firstn_received _ _ _ _ V2 N2). reflexivity.
  - rewrite N2. intros H _. specialize (H Hf). inversion H as [|? ? A1 A2]; subst.
    apply committed_zero. rewrite seq_S, map_app. apply Forall_app. split; [exact A2|]. constructor; [exact A1|constructor].
Qed.
End KernelHash.
