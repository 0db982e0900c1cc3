(** The Merkle membership gadgets: honest runs. *)
From Coq Require Import ZArith String List Lia Bool Ring Field Arith.
From Verif.Base Require Import Outcome Fp Params Algebra.
From Verif.Model Require Import Transcript LinComb Prog VectorPoly IPP Prover Verifier Gadgets Hash Merkle MerkleGadget.
From Verif.Spec Require Import R1CS Sim Session Protocol Verdict Gadget HashSpec MerkleSpec OpeningSpec.
From Verif.Proofs Require Import IPPProofs LinCombProofs RunProofs GadgetTools GadgetBasic GadgetComplete GadgetPrograms GadgetMain
  HashTools HashSound HashComplete HashPrograms HashMain MerkleTools MerkleTree MerkleBind MerkleSound.
Import ListNotations.

(** *** Bits of the index *)
Lemma nth_le_bytes k : forall n i, (i < k)%nat -> nth i (le_bytes k n) 0%Z = (n / 256 ^ Z.of_nat i mod 256)%Z.
Proof.
  induction k as [|k IH]; intros n i Hi; [lia|]. cbn [le_bytes]. destruct i as [|i]; cbn [nth].
  - rewrite Z.div_1_r. reflexivity.
  - rewrite IH by lia. rewrite Nat2Z.inj_succ, Z.pow_succ_r, Z.div_div by lia. reflexivity.
Qed.

Lemma length_le_bytes k : forall n, length (le_bytes k n) = k.
Proof. induction k as [|k IH]; intros n; cbn [le_bytes length]; [reflexivity|rewrite IH; reflexivity]. Qed.

(** bit [m] of digit [k] in base [2 ^ b] *)
Lemma digit_bit b n k m : (0 < b)%nat -> (m < b)%nat ->
  Z.testbit (Z.of_nat (digit (2 ^ b) n k)) (Z.of_nat m) = Z.testbit n (Z.of_nat (b * k + m)).
Proof.
  intros Hb Hm. unfold digit.
  assert (HA : Z.of_nat (2 ^ b) = (2 ^ Z.of_nat b)%Z) by (rewrite Nat2Z.inj_pow; reflexivity).
  rewrite HA, Z2Nat.id by (apply Z.mod_pos_bound; apply Z.pow_pos_nonneg; lia).
  rewrite Z.mod_pow2_bits_low by lia. rewrite <- Z.pow_mul_r by lia. rewrite Z.div_pow2_bits by lia. f_equal. lia.
Qed.

Lemma byte_bit k n i m : (i < k)%nat -> (m < 8)%nat ->
  Z.testbit (nth i (le_bytes k n) 0%Z) (Z.of_nat m) = Z.testbit n (Z.of_nat (8 * i + m)).
Proof.
  intros Hi Hm. rewrite nth_le_bytes by exact Hi. change 256%Z with (2 ^ 8)%Z.
  rewrite Z.mod_pow2_bits_low by lia. rewrite <- Z.pow_mul_r by lia. rewrite Z.div_pow2_bits by lia. f_equal. lia.
Qed.

Lemma digit_4_bits d : (d < 4)%nat -> exists d0 d1, (d0 < 2)%nat /\ (d1 < 2)%nat /\ d = (2 * d1 + d0)%nat /\
  Z.b2z (Z.testbit (Z.of_nat d) 0) = Z.of_nat d0 /\ Z.b2z (Z.testbit (Z.of_nat d) 1) = Z.of_nat d1.
Proof.
  intros H. destruct d as [|[|[|[|]]]]; [exists 0%nat, 0%nat|exists 1%nat, 0%nat|exists 0%nat, 1%nat|exists 1%nat, 1%nat|lia];
    repeat split; cbn; lia.
Qed.
Lemma digit_8_bits d : (d < 8)%nat -> exists d0 d1 d2, (d0 < 2)%nat /\ (d1 < 2)%nat /\ (d2 < 2)%nat /\ d = (4 * d2 + 2 * d1 + d0)%nat /\
  Z.b2z (Z.testbit (Z.of_nat d) 0) = Z.of_nat d0 /\ Z.b2z (Z.testbit (Z.of_nat d) 1) = Z.of_nat d1 /\
  Z.b2z (Z.testbit (Z.of_nat d) 2) = Z.of_nat d2.
Proof.
  intros H. destruct d as [|[|[|[|[|[|[|[|]]]]]]]]; [exists 0%nat, 0%nat, 0%nat|exists 1%nat, 0%nat, 0%nat|exists 0%nat, 1%nat, 0%nat|exists 1%nat, 1%nat, 0%nat
   |exists 0%nat, 0%nat, 1%nat|exists 1%nat, 0%nat, 1%nat|exists 0%nat, 1%nat, 1%nat|exists 1%nat, 1%nat, 1%nat|lia];
    repeat split; cbn; lia.
Qed.

Lemma nth_prod_seq b : forall a j x, nth_error (list_prod (seq a b) (seq 0 4)) j = Some x ->
  x = ((a + j / 4)%nat, (j mod 4)%nat) /\ (j < 4 * b)%nat.
Proof.
  induction b as [|b IH]; intros a j x E; [destruct j; discriminate E|].
  cbn [seq list_prod map] in E.
  destruct (Nat.lt_ge_cases j 4) as [Hj|Hj].
  - destruct j as [|[|[|[|]]]]; cbn in E; try lia; injection E as <-; split; try lia; f_equal; cbn; lia.
  - rewrite nth_error_app2 in E by (cbn; lia). cbn [length] in E. apply IH in E as [-> Hb]. 
    split; [|lia]. f_equal.
    + replace j with ((j - 4) + 1 * 4)%nat at 2 by lia. rewrite Nat.div_add by lia. lia.
    + replace j with ((j - 4) + 1 * 4)%nat at 2 by lia. rewrite Nat.mod_add by lia. reflexivity.
Qed.

Section Complete.
Context {P : Params} {OK : ParamsOk P}.
Local Open Scope fe_scope.
Add Field FFmc : (Fp_field_theory modulus modulus_prime).
Context (W W' : world).

Section Phase.
Context (ph : bool).
Local Notation both := (both W W' ph).

Definition bit_has (ps : prover) (d : nat) (b b_1 : var) : Prop :=
  has_value ps b (fe_of (Z.of_nat d)) /\ has_value ps b_1 (1 - fe_of (Z.of_nat d)).

Lemma bit_has_grew k r ps ps' d b b_1 : grew k r ps ps' -> bit_has ps d b b_1 -> bit_has ps' d b b_1.
Proof. intros Hg [H1 H2]. split; eapply has_value_grew; eassumption. Qed.

Lemma bit_constraints_both d z n o ps vs : (d < 2)%nat -> Z.b2z (Z.testbit z (Z.of_nat n)) = Z.of_nat d ->
  both 1 0 (bit_constraints (Some (bit_pair z n))) (bit_constraints o) ps vs
    (fun a b ps' => exists v v', a = Ok v /\ b = Ok v' /\ v = v' /\ bit_has ps' d (fst v) (snd v)).
Proof.
  intros Hd Ez. unfold bit_constraints, bit_pair. rewrite Ez.
  apply b_allocate_multiplier. intros ps1 vs1 b b1 out Hg1 V1 V2 V3.
  assert (E1 : fe_of (1 - Z.of_nat d) = 1 - fe_of (Z.of_nat d)) by (rewrite fe_of_sub; reflexivity). rewrite E1 in *.
  assert (Hz : fe_of (Z.of_nat d) * (1 - fe_of (Z.of_nat d)) = 0).
  { assert (C : d = 0%nat \/ d = 1%nat) by lia. destruct C as [-> | ->]; cbn [Z.of_nat Pos.of_succ_nat]; rewrite ?fe_of_0, ?fe_of_1; ring. }
  apply b_constrain; [apply lc_same_refl|lch; exact Hz|]. intros ps2 vs2 Hg2. carry Hg2.
  apply b_constrain; [apply lc_same_refl|lch; ring|]. intros ps3 vs3 Hg3. carry Hg3.
  apply both_ret. exists (b, b1), (b, b1). do 3 (split; [reflexivity|]). split; assumption.
Qed.

Ltac bm HN := eapply b_multiply; [first [apply lc_same_refl|exact HN]|first [apply lc_same_refl|exact HN]|lch0|lch0|];
  let ps := fresh "ps" in let vs := fresh "vs" in let Hg := fresh "Hg" in
  let l := fresh "l" in let r := fresh "r" in let o := fresh "o" in let V1 := fresh "V" in let V2 := fresh "V" in let V3 := fresh "V" in
  intros ps vs l r o Hg V1 V2 V3; carry Hg; clear V1 V2.

Lemma children_4_both d0 d1 b0 b0_1 b1 b1_1 N N' v1 v2 v3 x x1 x2 x3 ps vs :
  (d0 < 2)%nat -> (d1 < 2)%nat -> bit_has ps d0 b0 b0_1 -> bit_has ps d1 b1 b1_1 ->
  lc_same N N' -> lc_has ps N x -> has_value ps v1 x1 -> has_value ps v2 x2 -> has_value ps v3 x3 ->
  both 11 0 (children_4 b0 b0_1 b1 b1_1 N (lc_of_var v1) (lc_of_var v2) (lc_of_var v3))
    (children_4 b0 b0_1 b1 b1_1 N' (lc_of_var v1) (lc_of_var v2) (lc_of_var v3)) ps vs
    (fun a b ps' => rels ps' a b (insert_at (2 * d1 + d0) x [x1; x2; x3])).
Proof.
  intros Hd0 Hd1 [B0 B0'] [B1 B1'] HN Hx H1 H2 H3. unfold children_4.
  do 11 bm HN.
  apply both_ret.
  assert (C0 : d0 = 0%nat \/ d0 = 1%nat) by lia. assert (C1 : d1 = 0%nat \/ d1 = 1%nat) by lia.
  destruct C0 as [-> | ->], C1 as [-> | ->]; cbn [Z.of_nat Pos.of_succ_nat Nat.mul Nat.add insert_at firstn skipn app] in *;
    rewrite ?fe_of_0, ?fe_of_1 in *; repeat (apply rels_cons; [apply lc_same_refl|lch; ring|]); apply rels_nil.
Qed.

Lemma children_8_both d0 d1 d2 b0 b0_1 b1 b1_1 b2 b2_1 N N' v1 v2 v3 v4 v5 v6 v7 x x1 x2 x3 x4 x5 x6 x7 ps vs :
  (d0 < 2)%nat -> (d1 < 2)%nat -> (d2 < 2)%nat -> bit_has ps d0 b0 b0_1 -> bit_has ps d1 b1 b1_1 -> bit_has ps d2 b2 b2_1 ->
  lc_same N N' -> lc_has ps N x -> has_value ps v1 x1 -> has_value ps v2 x2 -> has_value ps v3 x3 ->
  has_value ps v4 x4 -> has_value ps v5 x5 -> has_value ps v6 x6 -> has_value ps v7 x7 ->
  both 31 0 (children_8 b0 b0_1 b1 b1_1 b2 b2_1 N (lc_of_var v1) (lc_of_var v2) (lc_of_var v3) (lc_of_var v4) (lc_of_var v5) (lc_of_var v6) (lc_of_var v7))
    (children_8 b0 b0_1 b1 b1_1 b2 b2_1 N' (lc_of_var v1) (lc_of_var v2) (lc_of_var v3) (lc_of_var v4) (lc_of_var v5) (lc_of_var v6) (lc_of_var v7)) ps vs
    (fun a b ps' => rels ps' a b (insert_at (4 * d2 + 2 * d1 + d0) x [x1; x2; x3; x4; x5; x6; x7])).
Proof.
  intros Hd0 Hd1 Hd2 [B0 B0'] [B1 B1'] [B2 B2'] HN Hx H1 H2 H3 H4 H5 H6 H7. unfold children_8.
  do 31 bm HN.
  apply both_ret.
  assert (C0 : d0 = 0%nat \/ d0 = 1%nat) by lia. assert (C1 : d1 = 0%nat \/ d1 = 1%nat) by lia.
  assert (C2 : d2 = 0%nat \/ d2 = 1%nat) by lia.
  destruct C0 as [-> | ->], C1 as [-> | ->], C2 as [-> | ->]; cbn [Z.of_nat Pos.of_succ_nat Nat.mul Nat.add insert_at firstn skipn app] in *;
    rewrite ?fe_of_0, ?fe_of_1 in *; repeat (apply rels_cons; [apply lc_same_refl|lch; ring|]); apply rels_nil.
Qed.

(** *** The loop *)
Section Loop.
Context (arity : nat) (Ha : (1 < arity)%nat) (H : list F -> F) (v x : F) (sibs : list (list F)) (i : Z).
Context (Ht : Forall (fun s => length s = (arity - 1)%nat) sibs) (Hi : (0 <= i < Z.of_nat arity ^ Z.of_nat (length sibs))%Z)
  (Hx : x = fe_of i).
Local Notation A := (Z.of_nat arity).
Local Notation D := (length sibs).

Definition rising (j : nat) (st st' : level_state) (ps : prover) : Prop :=
  let '(prev, ci, ex, nodes) := st in
  let '(prev', ci', ex', nodes') := st' in
  nodes' = nodes /\ ci' = ci /\ ex' = ex /\ lc_same prev prev' /\
  lc_has ps prev (go_up arity H i 0 v (firstn j sibs)) /\
  lc_has ps ci (fe_of (i mod A ^ Z.of_nat (Nat.min j D)) - x) /\ ex = fe_of (A ^ Z.of_nat (Nat.min j D)) /\
  Forall2 (has_value ps) nodes (concat (rev (skipn j sibs))).

Lemma rising_start prev ci nodes ps : lc_has ps prev v -> lc_has ps ci (- x) -> Forall2 (has_value ps) nodes (concat (rev sibs)) ->
  rising 0 (prev, ci, 1, nodes) (prev, ci, 1, nodes) ps.
Proof.
  intros Hv Hc Hn. do 3 (split; [reflexivity|]). split; [apply lc_same_refl|]. split; [exact Hv|].
  cbn [Nat.min Z.of_nat]. rewrite Z.pow_0_r, Z.mod_1_r, fe_of_0, fe_of_1.
  split; [replace (0 - x) with (- x) by ring; exact Hc|]. split; [reflexivity|exact Hn].
Qed.

Lemma rising_done j prev ci ex nodes st' ps : (D <= j)%nat -> rising j (prev, ci, ex, nodes) st' ps ->
  nodes = [] /\ exists prev' ex', st' = (prev', ci, ex', []) /\ lc_same prev prev' /\
  lc_has ps prev (go_up arity H i 0 v sibs) /\ lc_has ps ci 0.
Proof.
  intros Hj Hr. destruct st' as [[[prev' ci'] ex'] nodes']. destruct Hr as (-> & -> & -> & Sp & Hp & Hc & _ & Hn).
  rewrite skipn_all2 in Hn by exact Hj. inversion Hn. split; [reflexivity|]. exists prev', ex. split; [reflexivity|].
  split; [exact Sp|]. rewrite firstn_all2 in Hp by exact Hj. split; [exact Hp|].
  rewrite Nat.min_r, Z.mod_small, <- Hx in Hc by assumption. replace (x - x) with (0 : F) in Hc by ring. exact Hc.
Qed.

Lemma rising_skip j prev ci ex st' ps : (D <= j)%nat -> rising j (prev, ci, ex, []) st' ps -> rising (S j) (prev, ci, ex, []) st' ps.
Proof.
  intros Hj Hr. destruct st' as [[[prev' ci'] ex'] nodes']. destruct Hr as (-> & -> & -> & Sp & Hp & Hc & He & Hn).
  do 3 (split; [reflexivity|]). split; [exact Sp|]. rewrite firstn_all2 in * by lia. split; [exact Hp|].
  rewrite !Nat.min_r in * by lia. split; [exact Hc|]. split; [exact He|]. rewrite skipn_all2 by lia. constructor.
Qed.

Lemma rising_nodes j prev ci ex nodes st' ps : (j < D)%nat -> rising j (prev, ci, ex, nodes) st' ps ->
  exists nodes1 nodes2 prev', nodes = nodes1 ++ nodes2 /\ st' = (prev', ci, ex, nodes) /\ lc_same prev prev' /\
    lc_has ps prev (go_up arity H i 0 v (firstn j sibs)) /\
    Forall2 (has_value ps) nodes1 (concat (rev (skipn (S j) sibs))) /\ Forall2 (has_value ps) nodes2 (nth j sibs []) /\
    length (nth j sibs []) = (arity - 1)%nat.
Proof.
  intros Hj Hr. destruct st' as [[[prev' ci'] ex'] nodes']. destruct Hr as (-> & -> & -> & Sp & Hp & Hc & He & Hn).
  rewrite (skipn_nth_cons sibs j []) in Hn by exact Hj. cbn [rev] in Hn. rewrite concat_app in Hn. cbn [concat] in Hn.
  rewrite app_nil_r in Hn. apply Forall2_app_inv_r in Hn as (n1 & n2 & H1 & H2 & ->).
  exists n1, n2, prev'. do 2 (split; [reflexivity|]). split; [exact Sp|]. split; [exact Hp|]. split; [exact H1|].
  split; [exact H2|]. rewrite Forall_forall in Ht. apply Ht, nth_In, Hj.
Qed.

Lemma rising_step j prev ci ex nodes nodes1 st' ps ps' out out' ci2 :
  (j < D)%nat -> rising j (prev, ci, ex, nodes) st' ps -> (forall l y, lc_has ps l y -> lc_has ps' l y) ->
  lc_same out out' -> lc_has ps' out (H (insert_at (digit arity i j) (go_up arity H i 0 v (firstn j sibs)) (nth j sibs []))) ->
  (forall y, lc_has ps' ci y -> lc_has ps' ci2 (y + fe_of (Z.of_nat (digit arity i j)) * ex)) ->
  Forall2 (has_value ps') nodes1 (concat (rev (skipn (S j) sibs))) ->
  rising (S j) (out, ci2, ex * fe_of A, nodes1) (out', ci2, ex * fe_of A, nodes1) ps'.
Proof.
  intros Hj Hr Hk So Ho Hc2 Hn. destruct st' as [[[prev' ci'] ex'] nodes'].
  destruct Hr as (_ & _ & _ & Sp & Hp & Hc & He & _). do 3 (split; [reflexivity|]). split; [exact So|].
  rewrite (firstn_S_nth sibs j []) by exact Hj. rewrite go_up_app by exact Ha. cbn [go_up Nat.add]. rewrite firstn_length, Nat.min_l by lia.
  split; [exact Ho|]. rewrite !Nat.min_l in * by lia.
  assert (Hp0 : (0 < A ^ Z.of_nat j)%Z) by (apply (pow_pos arity Ha)).
  split; [|split; [rewrite He, (pow_S arity Ha), fe_of_mul; ring|exact Hn]].
  apply Hk, Hc2 in Hc. rewrite (pow_S arity Ha), Z.mul_comm, Z.rem_mul_r by lia.
  assert (Ed : (i / A ^ Z.of_nat j mod A)%Z = Z.of_nat (digit arity i j))
    by (unfold digit; rewrite Z2Nat.id; [reflexivity|apply Z.mod_pos_bound; lia]).
  rewrite Ed, fe_of_add, fe_of_mul, <- He.
  match type of Hc with lc_has _ _ ?a => match goal with |- lc_has _ _ ?b => replace b with a by ring end end. exact Hc.
Qed.
End Loop.

Section Gadget.
Context (p : poseidon_params) (sbox : sbox_type) (Hp : params_ok p) (Hsbox : sbox <> Inverse).
Local Notation Hash := (hash_value p sbox).
Local Notation cost := (permutation_cost p sbox).

Lemma lc_has_snoc ps l y w c z : lc_has ps l y -> has_value ps w z -> lc_has ps (l ++ [(w, c)]) (y + z * c).
Proof.
  intros Hl Hv. apply lc_has_app; [exact Hl|]. eapply lc_has_eq; [apply lc_has_cons; [exact Hv|apply lc_has_nil]|ring].
Qed.
Lemma fe_of_fval (a : F) : fe_of (fval a) = a.
Proof. apply Fp_ext. apply Z.mod_small. apply (fval_range modulus modulus_prime). Qed.

Definition level_cost (c D j : nat) : nat := if Nat.ltb j D then c else O.
Lemma sumk_level c D : forall n, (D <= n)%nat -> sumk (level_cost c D) n = (D * c)%nat.
Proof.
  assert (Hz : forall n f, (forall j, f j = O) -> sumk f n = O).
  { induction n as [|n IH]; intros f Hf; [reflexivity|]. cbn [sumk]. rewrite Hf, IH; [reflexivity|]. intros; apply Hf. }
  induction D as [|D IH]; intros n Hn; [apply Hz; reflexivity|]. destruct n as [|n]; [lia|].
  cbn [sumk Nat.mul]. change (level_cost c (S D) 0) with c. f_equal. rewrite <- (IH n) by lia. reflexivity.
Qed.

Lemma list_3 {T} (l : list T) : length l = 3%nat -> exists a b c, l = [a; b; c].
Proof. intros E. destruct l as [|a [|b [|c [|]]]]; try discriminate E. eauto. Qed.
Lemma list_7 {T} (l : list T) : length l = 7%nat -> exists a b c d e f g, l = [a; b; c; d; e; f; g].
Proof. intros E. destruct l as [|a [|b [|c [|d [|e [|f [|g [|]]]]]]]]; try discriminate E. eauto 8. Qed.
Lemma insert_len {T} d (y : T) l : length (insert_at d y l) = S (length l).
Proof. unfold insert_at. rewrite app_length. cbn [length]. rewrite firstn_length, skipn_length. lia. Qed.

Lemma level_4_both v x sibs zero idx j ij st st' ps vs :
  width p = 5%nat -> Forall (fun s => length s = 3%nat) sibs -> (0 <= fval idx < 4 ^ Z.of_nat (length sibs))%Z ->
  (length sibs <= 4 * modbytes)%nat -> x = idx ->
  ij = ((j / 4)%nat, (j mod 4)%nat) -> has_value ps zero 0 -> rising 4 Hash v x sibs (fval idx) j st st' ps ->
  both (level_cost (13 + cost) (length sibs) j) 0
    (level_4 p sbox (Some (le_bytes modbytes (fval idx))) [lc_of_var zero] st ij)
    (level_4 p sbox None [lc_of_var zero] st' ij) ps vs
    (fun a b ps' => exists st2 st2', a = Ok st2 /\ b = Ok st2' /\ rising 4 Hash v x sibs (fval idx) (S j) st2 st2' ps').
Proof.
  intros Hw Ht Hi Hm Hx -> Hz Hr. destruct st as [[[prev ci] ex] nodes].
  unfold level_cost. destruct (Nat.ltb_spec j (length sibs)) as [Hj|Hj].
  2: { assert (Hx' : x = fe_of (fval idx)) by (rewrite fe_of_fval; exact Hx).
       destruct (rising_done 4 Hash v x sibs (fval idx) Hi Hx' _ _ _ _ _ _ _ Hj Hr) as (-> & prev' & ex' & -> & _).
       cbn [level_4]. apply both_ret. eexists _, _. do 2 (split; [reflexivity|]). eapply rising_skip; (eassumption || lia). }
  destruct (rising_nodes 4 Hash v x sibs (fval idx) Ht _ _ _ _ _ _ _ Hj Hr) as (n1 & n2 & prev' & En & -> & Sp & Hv & H1 & H2 & Hl).
  destruct (list_3 _ Hl) as (x1 & x2 & x3 & Ex). rewrite Ex in H2.
  assert (Hl2 : length n2 = 3%nat) by (apply forall2_len in H2; exact H2). destruct (list_3 _ Hl2) as (v1 & v2 & v3 & E2).
  subst n2. inversion H2 as [|? ? ? ? V1 H2']; subst. inversion H2' as [|? ? ? ? V2 H2'']; subst. inversion H2'' as [|? ? ? ? V3 _]; subst.
  clear H2 H2' H2''.
  assert (Hd4 : (digit 4 (fval idx) j < 4)%nat) by (apply digit_lt; lia).
  destruct (digit_4_bits _ Hd4) as (d0 & d1 & L0 & L1 & Ed & B0 & B1).
  assert (Hjb : (j / 4 < modbytes)%nat) by (apply Nat.div_lt_upper_bound; lia).
  assert (Hm4 : (j mod 4 < 4)%nat) by (apply Nat.mod_upper_bound; lia).
  assert (Hjd : j = (4 * (j / 4) + j mod 4)%nat) by (apply Nat.div_mod; lia).
  set (byte := nth (j / 4) (le_bytes modbytes (fval idx)) 0%Z).
  assert (T0 : Z.b2z (Z.testbit byte (Z.of_nat (2 * (j mod 4)))) = Z.of_nat d0).
  { rewrite <- B0. f_equal. unfold byte. rewrite byte_bit by lia.
    pose proof (digit_bit 2 (fval idx) j 0 ltac:(lia) ltac:(lia)) as Q. change (2 ^ 2)%nat with 4%nat in Q. change (Z.of_nat 0) with 0%Z in Q.
    rewrite Q. f_equal. lia. }
  assert (T1 : Z.b2z (Z.testbit byte (Z.of_nat (2 * (j mod 4) + 1))) = Z.of_nat d1).
  { rewrite <- B1. f_equal. unfold byte. rewrite byte_bit by lia.
    pose proof (digit_bit 2 (fval idx) j 1 ltac:(lia) ltac:(lia)) as Q. change (2 ^ 2)%nat with 4%nat in Q. change (Z.of_nat 1) with 1%Z in Q.
    rewrite Q. f_equal. lia. }
  assert (Eb : index (le_bytes modbytes (fval idx)) (j / 4) = Done byte) by (apply index_ok; rewrite length_le_bytes; exact Hjb).
  unfold level_4. rewrite Eb. clearbody byte.
  assert (Hne : exists n0 t, n1 ++ [v1; v2; v3] = n0 :: t) by (destruct n1; eexists _, _; reflexivity).
  destruct Hne as (n0 & t & En). rewrite En. cbv iota. rewrite <- En. clear n0 t En. cbn [pbind p_lift].
  eapply both_cost.
  { eapply both_try with (Q := fun a b ps' => a = b /\ bit_has ps' d0 (fst a) (snd a)).
    { eapply both_conseq; [apply bit_constraints_both; [exact L0|exact T0]|].
      intros a b ps' _ (u & u' & -> & -> & -> & Hb). eauto 6. }
    intros [b0 b0_1] [b0' b0_1'] ps1 vs1 Hg1 [E1 Hb0]. injection E1 as <- <-. cbn [fst snd] in Hb0. cbn [pbind p_lift]. carry Hg1.
    eapply both_try with (Q := fun a b ps' => a = b /\ bit_has ps' d1 (fst a) (snd a)).
    { eapply both_conseq; [apply bit_constraints_both; [exact L1|exact T1]|].
      intros a b ps' _ (u & u' & -> & -> & -> & Hb). eauto 6. }
    intros [b1 b1_1] [b1' b1_1'] ps2 vs2 Hg2 [E1 Hb1]. injection E1 as <- <-. cbn [fst snd] in Hb1. carry Hg2.
    apply (bit_has_grew _ _ _ _ _ _ _ Hg2) in Hb0.
    unfold pop_node. change (n1 ++ [v1; v2; v3]) with (n1 ++ [v1] ++ [v2] ++ [v3]). rewrite !app_assoc.
    rewrite !vec_pop_app. cbn [p_lift pbind]. rewrite !vec_pop_app. cbn [p_lift pbind]. rewrite !vec_pop_app. cbn [p_lift pbind].
    eapply both_bind; [eapply (children_4_both d0 d1); eassumption|].
    intros ins ins' ps3 vs3 Hg3 Hins. carry Hg3. apply (bit_has_grew _ _ _ _ _ _ _ Hg3) in Hb0, Hb1.
    eapply both_try with (k2 := O) (r2 := O); [eapply hash_4_both; [exact Hsbox|exact Hins|apply lc_same_refl|apply lc_has_var; exact Hz|]|].
    { apply hash_4_native; [exact Hp|exact Hw|apply insert_len]. }
    intros o o' ps4 vs4 Hg4 [So Ho]. carry Hg4. apply (bit_has_grew _ _ _ _ _ _ _ Hg4) in Hb0, Hb1.
    apply b_simplify; [exact So|]. intros m m' ps5 vs5 Hg5 Sm Smm. carry Hg5. apply (bit_has_grew _ _ _ _ _ _ _ Hg5) in Hb0, Hb1.
    apply both_ret. eexists _, _. do 2 (split; [reflexivity|]).
    pose proof (grew_trans _ _ _ _ _ _ _ (grew_trans _ _ _ _ _ _ _ (grew_trans _ _ _ _ _ _ _ (grew_trans _ _ _ _ _ _ _ Hg1 Hg2) Hg3) Hg4) Hg5) as Hg.
    eapply (rising_step 4 ltac:(lia) Hash v idx sibs (fval idx) j); [exact Hj|exact Hr| |exact Smm| | |].
    - intros l y. apply (lc_has_grew _ _ _ _ _ _ Hg).
    - rewrite Ed, Ex. eapply lc_has_same; [exact Sm|exact Ho].
    - intros y Hy. rewrite Ed.
      match goal with |- lc_has _ _ ?b => replace b with (y + fe_of (Z.of_nat d1) * (fe_of 2 * ex) + fe_of (Z.of_nat d0) * ex) end.
      + destruct Hb0 as [Hb0 _], Hb1 as [Hb1 _]. repeat (apply lc_has_snoc; [|assumption]). exact Hy.
      + rewrite Nat2Z.inj_add, Nat2Z.inj_mul, fe_of_add, fe_of_mul. cbn [Z.of_nat Pos.of_succ_nat Pos.succ]. ring.
    - apply (forall2_grew _ _ _ _ _ _ Hg). exact H1. }
  all: lia.
Qed.

Lemma level_8_both v x sibs zero idx depth j i0 st st' ps vs :
  width p = 9%nat -> Forall (fun s => length s = 7%nat) sibs -> (0 <= fval idx < 8 ^ Z.of_nat (length sibs))%Z ->
  (length sibs <= depth)%nat -> x = idx ->
  i0 = j -> has_value ps zero 0 -> rising 8 Hash v x sibs (fval idx) j st st' ps ->
  both (level_cost (34 + cost) (length sibs) j) 0
    (level_8 p sbox (Some (map (digit 8 (fval idx)) (seq 0 depth))) zero st i0)
    (level_8 p sbox None zero st' i0) ps vs
    (fun a b ps' => exists st2 st2', a = Ok st2 /\ b = Ok st2' /\ rising 8 Hash v x sibs (fval idx) (S j) st2 st2' ps').
Proof.
  intros Hw Ht Hi Hm Hx -> Hz Hr. destruct st as [[[prev ci] ex] nodes].
  unfold level_cost. destruct (Nat.ltb_spec j (length sibs)) as [Hj|Hj].
  2: { assert (Hx' : x = fe_of (fval idx)) by (rewrite fe_of_fval; exact Hx).
       destruct (rising_done 8 Hash v x sibs (fval idx) Hi Hx' _ _ _ _ _ _ _ Hj Hr) as (-> & prev' & ex' & -> & _).
       cbn [level_8]. apply both_ret. eexists _, _. do 2 (split; [reflexivity|]). eapply rising_skip; (eassumption || lia). }
  destruct (rising_nodes 8 Hash v x sibs (fval idx) Ht _ _ _ _ _ _ _ Hj Hr) as (n1 & n2 & prev' & En & -> & Sp & Hv & H1 & H2 & Hl).
  destruct (list_7 _ Hl) as (x1 & x2 & x3 & x4 & x5 & x6 & x7 & Ex). rewrite Ex in H2.
  assert (Hl2 : length n2 = 7%nat) by (apply forall2_len in H2; exact H2).
  destruct (list_7 _ Hl2) as (v1 & v2 & v3 & v4 & v5 & v6 & v7 & E2).
  subst n2. repeat match goal with Hf : Forall2 _ (_ :: _) (_ :: _) |- _ => inversion Hf; clear Hf; subst end.
  match goal with Hf : Forall2 _ [] [] |- _ => clear Hf end.
  assert (Hd8 : (digit 8 (fval idx) j < 8)%nat) by (apply digit_lt; lia).
  destruct (digit_8_bits _ Hd8) as (d0 & d1 & d2 & L0 & L1 & L2 & Ed & T0 & T1 & T2).
  assert (Eb : index (map (digit 8 (fval idx)) (seq 0 depth)) j = Done (digit 8 (fval idx) j)).
  { rewrite (index_ok _ _ O) by (rewrite map_length, seq_length; lia).
    rewrite (nth_map_in _ _ _ O) by (rewrite seq_length; lia). rewrite seq_nth by lia. reflexivity. }
  unfold level_8. rewrite Eb.
  assert (Hne : exists n0 t, n1 ++ [v1; v2; v3; v4; v5; v6; v7] = n0 :: t) by (destruct n1; eexists _, _; reflexivity).
  destruct Hne as (n0 & t & En). rewrite En. cbv iota. rewrite <- En. clear n0 t En. cbn [pbind p_lift].
  eapply both_cost.
  { eapply both_try with (Q := fun a b ps' => a = b /\ bit_has ps' d0 (fst a) (snd a)).
    { eapply both_conseq; [apply bit_constraints_both; [exact L0|exact T0]|].
      intros a b ps' _ (u & u' & -> & -> & -> & Hb). eauto 6. }
    intros [b0 b0_1] [b0' b0_1'] ps1 vs1 Hg1 [E1 Hb0]. injection E1 as <- <-. cbn [fst snd] in Hb0. carry Hg1.
    eapply both_try with (Q := fun a b ps' => a = b /\ bit_has ps' d1 (fst a) (snd a)).
    { eapply both_conseq; [apply bit_constraints_both; [exact L1|exact T1]|].
      intros a b ps' _ (u & u' & -> & -> & -> & Hb). eauto 6. }
    intros [b1 b1_1] [b1' b1_1'] ps2 vs2 Hg2 [E1 Hb1]. injection E1 as <- <-. cbn [fst snd] in Hb1. carry Hg2.
    apply (bit_has_grew _ _ _ _ _ _ _ Hg2) in Hb0.
    eapply both_try with (Q := fun a b ps' => a = b /\ bit_has ps' d2 (fst a) (snd a)).
    { eapply both_conseq; [apply bit_constraints_both; [exact L2|exact T2]|].
      intros a b ps' _ (u & u' & -> & -> & -> & Hb). eauto 6. }
    intros [b2 b2_1] [b2' b2_1'] ps3 vs3 Hg3 [E1 Hb2]. injection E1 as <- <-. cbn [fst snd] in Hb2. carry Hg3.
    apply (bit_has_grew _ _ _ _ _ _ _ Hg3) in Hb0, Hb1.
    unfold pop_node. change (n1 ++ [v1; v2; v3; v4; v5; v6; v7]) with (n1 ++ [v1] ++ [v2] ++ [v3] ++ [v4] ++ [v5] ++ [v6] ++ [v7]). rewrite !app_assoc.
    do 7 (rewrite !vec_pop_app; cbn [p_lift pbind]).
    eapply both_bind; [eapply (children_8_both d0 d1 d2); eassumption|].
    intros ins ins' ps4 vs4 Hg4 Hins. carry Hg4. apply (bit_has_grew _ _ _ _ _ _ _ Hg4) in Hb0, Hb1, Hb2.
    eapply both_try with (k2 := O) (r2 := O); [eapply hash_8_both; [exact Hsbox|exact Hins|apply lc_same_refl|apply lc_has_var; exact Hz|]|].
    { apply hash_8_native; [exact Hp|exact Hw|apply insert_len]. }
    intros o o' ps5 vs5 Hg5 [So Ho]. carry Hg5. apply (bit_has_grew _ _ _ _ _ _ _ Hg5) in Hb0, Hb1, Hb2.
    apply b_simplify; [exact So|]. intros m m' ps6 vs6 Hg6 Sm Smm. carry Hg6. apply (bit_has_grew _ _ _ _ _ _ _ Hg6) in Hb0, Hb1, Hb2.
    apply both_ret. eexists _, _. do 2 (split; [reflexivity|]).
    pose proof (grew_trans _ _ _ _ _ _ _ (grew_trans _ _ _ _ _ _ _ (grew_trans _ _ _ _ _ _ _ (grew_trans _ _ _ _ _ _ _ (grew_trans _ _ _ _ _ _ _ Hg1 Hg2) Hg3) Hg4) Hg5) Hg6) as Hg.
    eapply (rising_step 8 ltac:(lia) Hash v idx sibs (fval idx) j); [exact Hj|exact Hr| |exact Smm| | |].
    - intros l y. apply (lc_has_grew _ _ _ _ _ _ Hg).
    - rewrite Ed, Ex. eapply lc_has_same; [exact Sm|exact Ho].
    - intros y Hy. rewrite Ed.
      match goal with |- lc_has _ _ ?b => replace b with (y + fe_of (Z.of_nat d0) * ex + fe_of (Z.of_nat d1) * (fe_of 2 * ex) + fe_of (Z.of_nat d2) * (fe_of 4 * ex)) end.
      + destruct Hb0 as [Hb0 _], Hb1 as [Hb1 _], Hb2 as [Hb2 _]. repeat (apply lc_has_snoc; [|assumption]). exact Hy.
      + rewrite !Nat2Z.inj_add, !Nat2Z.inj_mul, !fe_of_add, !fe_of_mul. cbn [Z.of_nat Pos.of_succ_nat Pos.succ]. ring.
    - apply (forall2_grew _ _ _ _ _ _ Hg). exact H1. }
  all: lia.
Qed.

(** *** The gadgets *)
Lemma merkle_4_both depth leaf vi vi' idx root v nodes zero proof ps vs :
  width p = 5%nat -> Forall (fun s => length s = 3%nat) proof -> (length proof <= depth)%nat -> (depth * 2 <= 8 * modbytes)%nat ->
  (fval idx < 4 ^ Z.of_nat (length proof))%Z -> root = climbed 4 Hash (fval idx) v proof -> vi' = vi ->
  has_value ps leaf v -> has_value ps vi idx -> has_value ps zero 0 -> Forall2 (has_value ps) nodes (concat proof) ->
  both (length proof * (13 + cost)) 0
    (vanilla_merkle_merkle_tree_4_verif_gadget p sbox depth root leaf (Quantity vi (Some idx)) nodes [zero])
    (vanilla_merkle_merkle_tree_4_verif_gadget p sbox depth root leaf (Quantity vi' None) nodes [zero]) ps vs
    (fun a b _ => a = Ok tt /\ b = Ok tt).
Proof.
  intros Hw Ht Hd Hm Hi Hroot -> Hv Hvi Hz Hn.
  unfold vanilla_merkle_merkle_tree_4_verif_gadget, allocated_leaf_index_to_bytes. cbn [q_assignment option_map q_var map].
  pose proof (byte_size_done depth 2) as Eb. cbn [Nat.pow Nat.mul Nat.add] in Eb. rewrite Eb. clear Eb. cbn [p_lift pbind].
  assert (Hq : (depth <= 4 * ((depth * 2 + 7) / 8))%nat).
  { pose proof (Nat.div_mod (depth * 2 + 7) 8 ltac:(lia)). pose proof (Nat.mod_upper_bound (depth * 2 + 7) 8 ltac:(lia)). lia. }
  set (b := ((depth * 2 + 7) / 8)%nat) in *. clearbody b.
  assert (Hi' : (0 <= fval idx < 4 ^ Z.of_nat (length (rev proof)))%Z)
    by (rewrite rev_length; pose proof (fval_range modulus modulus_prime idx); lia).
  assert (Hx : idx = fe_of (fval idx)) by (symmetry; apply fe_of_fval).
  eapply both_cost.
  { eapply both_try with (k2 := O) (r2 := O); [eapply (both_try_fold_cost W W' ph 0 _ _ _ _ (level_cost (13 + cost) (length (rev proof))) ps vs _ _
      (fun j st st' ps' => rising 4 Hash v idx (rev proof) (fval idx) j st st' ps'))|].
    - reflexivity.
    - intros j ij ij' st st' ps1 vs1 Hj Hj' Hg Hr. rewrite Hj in Hj'. injection Hj' as <-.
      apply nth_prod_seq in Hj as [-> Hj].
      apply level_4_both; try assumption; try reflexivity.
      + apply Forall_rev; exact Ht.
      + rewrite rev_length. lia.
      + apply (has_value_grew _ _ _ _ _ _ Hg). exact Hz.
    - intros _. apply rising_start.
      + apply lc_has_var; exact Hv.
      + eapply lc_has_eq; [apply lc_has_cons; [exact Hvi|apply lc_has_nil]|ring].
      + rewrite rev_involutive. exact Hn.
    - intros [[[prev ci] ex] rest] st' ps1 vs1 Hg Hr.
      eapply rising_done in Hr; [|exact Hi'|exact Hx|rewrite rev_length, prod_length, !seq_length; lia].
      destruct Hr as (-> & prev' & ex' & -> & Sp & Hp1 & Hc).
      apply b_constrain; [apply lc_same_refl|exact Hc|]. intros ps2 vs2 Hg2. carry Hg2.
      apply scalar_both; [exact Sp| |].
      + rewrite Hroot. unfold climbed. rewrite <- go_up_climb by lia. exact Hp1.
      + intros ps3 vs3 Hg3. apply both_ret. split; reflexivity. }
  - rewrite sumk_level by (rewrite rev_length, prod_length, !seq_length; lia). rewrite rev_length. lia.
  - lia.
Qed.

Lemma merkle_8_both depth leaf vi vi' idx root v nodes zero proof ps vs :
  width p = 9%nat -> Forall (fun s => length s = 7%nat) proof -> (length proof <= depth)%nat -> (depth * 3 <= 8 * modbytes)%nat ->
  (fval idx < 8 ^ Z.of_nat (length proof))%Z -> root = climbed 8 Hash (fval idx) v proof -> vi' = vi ->
  has_value ps leaf v -> has_value ps vi idx -> has_value ps zero 0 -> Forall2 (has_value ps) nodes (concat proof) ->
  both (length proof * (34 + cost)) 0
    (vanilla_merkle_merkle_tree_8_verif_gadget p sbox depth root leaf (Quantity vi (Some idx)) nodes zero)
    (vanilla_merkle_merkle_tree_8_verif_gadget p sbox depth root leaf (Quantity vi' None) nodes zero) ps vs
    (fun a b _ => a = Ok tt /\ b = Ok tt).
Proof.
  intros Hw Ht Hd Hm Hi Hroot -> Hv Hvi Hz Hn.
  unfold vanilla_merkle_merkle_tree_8_verif_gadget. cbn [q_assignment option_map q_var map].
  unfold get_base_8_repr. pose proof (base_repr_done 3 ltac:(lia) idx depth) as Er. cbn [Nat.pow Nat.mul Nat.add] in Er.
  destruct (Nat.leb_spec ((depth * 3 + 7) / 8) modbytes) as [_|Hbad].
  2: { exfalso. apply Nat.lt_nge in Hbad. apply Hbad. apply Nat.lt_succ_r. apply Nat.div_lt_upper_bound; lia. }
  rewrite Er. clear Er. cbn [p_lift pbind]. rewrite <- map_rev, rev_involutive.
  change (get_bit_count depth 8) with (Done (depth * 3)%nat). cbn [p_lift pbind].
  replace ((depth * 3 + 2) / 3)%nat with depth by (apply (Nat.div_unique _ 3 depth 2); lia).
  assert (Hi' : (0 <= fval idx < 8 ^ Z.of_nat (length (rev proof)))%Z)
    by (rewrite rev_length; pose proof (fval_range modulus modulus_prime idx); lia).
  assert (Hx : idx = fe_of (fval idx)) by (symmetry; apply fe_of_fval).
  eapply both_cost.
  { eapply both_try with (k2 := O) (r2 := O); [eapply (both_try_fold_cost W W' ph 0 _ _ _ _ (level_cost (34 + cost) (length (rev proof))) ps vs _ _
      (fun j st st' ps' => rising 8 Hash v idx (rev proof) (fval idx) j st st' ps'))|].
    - reflexivity.
    - intros j ij ij' st st' ps1 vs1 Hj Hj' Hg Hr. rewrite Hj in Hj'. injection Hj' as <-.
      apply nth_error_seq0 in Hj as [-> Hj].
      apply level_8_both; try assumption; try reflexivity.
      + apply Forall_rev; exact Ht.
      + rewrite rev_length. lia.
      + apply (has_value_grew _ _ _ _ _ _ Hg). exact Hz.
    - intros _. apply rising_start.
      + apply lc_has_var; exact Hv.
      + eapply lc_has_eq; [apply lc_has_cons; [exact Hvi|apply lc_has_nil]|ring].
      + rewrite rev_involutive. exact Hn.
    - intros [[[prev ci] ex] rest] st' ps1 vs1 Hg Hr.
      eapply rising_done in Hr; [|exact Hi'|exact Hx|rewrite rev_length, seq_length; lia].
      destruct Hr as (-> & prev' & ex' & -> & Sp & Hp1 & Hc).
      apply b_constrain; [apply lc_same_refl|exact Hc|]. intros ps2 vs2 Hg2. carry Hg2.
      apply scalar_both; [exact Sp| |].
      + rewrite Hroot. unfold climbed. rewrite <- go_up_climb by lia. exact Hp1.
      + intros ps3 vs3 Hg3. apply both_ret. split; reflexivity. }
  - rewrite sumk_level by (rewrite rev_length, seq_length; lia). rewrite rev_length. lia.
  - lia.
Qed.
End Gadget.
End Phase.

(** *** The proving and verifying functions *)
Local Notation both := (both W W' false).

Lemma both_commit_proof xs : forall vars comms cs ps0 vs0,
  cs = commit_all (p_g ps0) (p_h ps0) xs (map (w_random W) (seq (p_nrand ps0) (length xs))) ->
  both 0 (length xs)
    (p_fold (fun '(comms, proof_vars) x => pbind p_random (fun r => pbind (cs_commit (x, r)) (fun '(c, v) => PRet (comms ++ [c], proof_vars ++ [v])))) xs (comms, vars))
    (p_fold (fun proof_vars c => pbind (cs_commit c) (fun v => PRet (proof_vars ++ [v]))) cs vars) ps0 vs0
    (fun a b ps' => a = (comms ++ cs, b) /\ exists new, b = vars ++ new /\ Forall2 (has_value ps') new xs).
Proof.
  induction xs as [|x xs IH]; intros vars comms cs ps0 vs0 ->; cbn [length seq map commit_all combine p_fold].
  - apply both_ret. rewrite !app_nil_r. split; [reflexivity|]. exists []. split; [rewrite app_nil_r; reflexivity|constructor].
  - cbn [pbind]. apply (both_random W W' false 0 (length xs)). intros ps1 Hg1. cbn [pbind].
    eapply b_commit; [apply (commit_grew _ _ _ _ _ _ Hg1)|]. intros ps2 vs2 w Hg2 Hw. cbn [pbind].
    pose proof (grew_trans _ _ _ _ _ _ _ Hg1 Hg2) as Hg12.
    eapply both_conseq; [apply IH|].
    + unfold commit_all. rewrite (grew_g _ _ _ _ Hg12), (grew_h _ _ _ _ Hg12), (gr_rand _ _ _ _ Hg12).
      replace (p_nrand ps0 + (1 + 0))%nat with (S (p_nrand ps0)) by lia. reflexivity.
    + intros a b ps3 Hg3 (-> & new & -> & Hn). rewrite <- app_assoc. split; [reflexivity|].
      exists (w :: new). split; [rewrite <- app_assoc; reflexivity|]. constructor; [|exact Hn].
      apply (has_value_grew _ _ _ _ _ _ Hg3). exact Hw.
Qed.

Lemma both_assoc {A A' A'' B} k r (m : pprog A) (f : A -> pprog A') (g : A' -> pprog A'') (m' : vprog B) ps vs Q :
  both k r (pbind m (fun a => pbind (f a) g)) m' ps vs Q -> both k r (pbind (pbind m f) g) m' ps vs Q.
Proof.
  intros Hb Hh Hs. specialize (Hb Hh Hs). rewrite prun_bind in Hb.
  assert (E : prun W false (pbind (pbind m f) g) ps = obind (prun W false m ps) (fun '(a, s') => prun W false (pbind (f a) g) s')).
  { rewrite !prun_bind. destruct (prun W false m ps) as [[a s]|]; [|reflexivity]. cbn [obind]. rewrite prun_bind. reflexivity. }
  rewrite E. exact Hb.
Qed.

Definition opening_blindings (rnd : option (list F)) (start : nat) (n : nat) : list F :=
  rands_of W rnd start 2 ++ map (w_random W) (seq (start + rands_used rnd 2) n).

Lemma both_leaf_inclusion_4 p sbox leaf idx rnd rng proof root depth ps vs :
  params_ok p -> sbox <> Inverse -> width p = 5%nat -> blindings_given rnd rng 2 ->
  Forall (fun s => length s = 3%nat) proof -> (length proof <= depth)%nat -> (depth * 2 <= 8 * modbytes)%nat ->
  (fval idx < 4 ^ Z.of_nat (length proof))%Z -> root = climbed 4 (hash_value p sbox) (fval idx) leaf proof ->
  let comms := commit_all (p_g ps) (p_h ps) (leaf :: idx :: concat proof) (opening_blindings rnd (p_nrand ps) (length (concat proof))) in
  both (length proof * (13 + permutation_cost p sbox)) (rands_used rnd 2 + length (concat proof))
    (prove_leaf_inclusion_4_ary_merkle_tree leaf idx rnd proof root depth p sbox rng)
    (verify_leaf_inclusion_4_ary_merkle_tree root depth p sbox (p_g ps) (p_h ps) comms) ps vs
    (fun a b _ => a = Ok comms /\ b = Ok tt).
Proof.
  intros Hp Hs Hw Hb Ht Hd Hm Hi Hroot comms.
  unfold prove_leaf_inclusion_4_ary_merkle_tree, verify_leaf_inclusion_4_ary_merkle_tree, commit_leaf_and_index.
  rewrite (check_vec_ok _ _ _ Hb). cbn [ptry pbind].
  destruct (list_2 _ (rands_length W rnd rng (p_nrand ps) 2 Hb)) as (r1 & r2 & Er). unfold comms, opening_blindings. rewrite Er.
  cbn [app commit_all combine map remove0 pbind].
  eapply both_cost; [apply both_assoc, b_randomness_vec; [exact Hb|]|..].
  - intros ps1 Hg1. rewrite Er. cbn [length Nat.eqb negb ptry pbind pop0].
    eapply b_commit; [apply (commit_grew _ _ _ _ _ _ Hg1)|]. intros ps2 vs2 w Hg2 Hw1. cbn [ptry pbind pop0].
    pose proof (grew_trans _ _ _ _ _ _ _ Hg1 Hg2) as Hg12.
    eapply b_commit; [apply (commit_grew _ _ _ _ _ _ Hg12)|]. intros ps3 vs3 w2 Hg3 Hw2. carry Hg3. cbn [ptry pbind].
    pose proof (grew_trans _ _ _ _ _ _ _ Hg12 Hg3) as Hg13.
    eapply both_bind; [apply both_commit_proof|].
    { unfold commit_all. rewrite (grew_g _ _ _ _ Hg13), (grew_h _ _ _ _ Hg13), (gr_rand _ _ _ _ Hg13), !Nat.add_0_r. reflexivity. }
    intros a b ps4 vs4 Hg4 (-> & new & -> & Hn). cbn [app]. carry Hg4.
    pose proof (grew_trans _ _ _ _ _ _ _ Hg13 Hg4) as Hg14.
    apply both_static; [symmetry; apply (grew_g _ _ _ _ Hg14)|symmetry; apply (grew_h _ _ _ _ Hg14)|].
    intros ps5 vs5 w0 Hg5 Hw0. carry Hg5. apply (forall2_grew _ _ _ _ _ _ Hg5) in Hn.
    eapply b_gadget; [eapply (merkle_4_both false p sbox Hp Hs); try eassumption; reflexivity|].
    intros ps6 vs6 _. apply both_ret. split; reflexivity.
  - lia.
  - lia.
Qed.

Lemma both_leaf_inclusion_8 p sbox leaf idx rnd rng proof root depth ps vs :
  params_ok p -> sbox <> Inverse -> width p = 9%nat -> blindings_given rnd rng 2 ->
  Forall (fun s => length s = 7%nat) proof -> (length proof <= depth)%nat -> (depth * 3 <= 8 * modbytes)%nat ->
  (fval idx < 8 ^ Z.of_nat (length proof))%Z -> root = climbed 8 (hash_value p sbox) (fval idx) leaf proof ->
  let comms := commit_all (p_g ps) (p_h ps) (leaf :: idx :: concat proof) (opening_blindings rnd (p_nrand ps) (length (concat proof))) in
  both (length proof * (34 + permutation_cost p sbox)) (rands_used rnd 2 + length (concat proof))
    (prove_leaf_inclusion_8_ary_merkle_tree leaf idx rnd proof root depth p sbox rng)
    (verify_leaf_inclusion_8_ary_merkle_tree root depth p sbox (p_g ps) (p_h ps) comms) ps vs
    (fun a b _ => a = Ok comms /\ b = Ok tt).
Proof.
  intros Hp Hs Hw Hb Ht Hd Hm Hi Hroot comms.
  unfold prove_leaf_inclusion_8_ary_merkle_tree, verify_leaf_inclusion_8_ary_merkle_tree, commit_leaf_and_index.
  rewrite (check_vec_ok _ _ _ Hb). cbn [ptry pbind].
  destruct (list_2 _ (rands_length W rnd rng (p_nrand ps) 2 Hb)) as (r1 & r2 & Er). unfold comms, opening_blindings. rewrite Er.
  cbn [app commit_all combine map remove0 pbind].
  eapply both_cost; [apply both_assoc, b_randomness_vec; [exact Hb|]|..].
  - intros ps1 Hg1. rewrite Er. cbn [length Nat.eqb negb ptry pbind pop0].
    eapply b_commit; [apply (commit_grew _ _ _ _ _ _ Hg1)|]. intros ps2 vs2 w Hg2 Hw1. cbn [ptry pbind pop0].
    pose proof (grew_trans _ _ _ _ _ _ _ Hg1 Hg2) as Hg12.
    eapply b_commit; [apply (commit_grew _ _ _ _ _ _ Hg12)|]. intros ps3 vs3 w2 Hg3 Hw2. carry Hg3. cbn [ptry pbind].
    pose proof (grew_trans _ _ _ _ _ _ _ Hg12 Hg3) as Hg13.
    eapply both_bind; [apply both_commit_proof|].
    { unfold commit_all. rewrite (grew_g _ _ _ _ Hg13), (grew_h _ _ _ _ Hg13), (gr_rand _ _ _ _ Hg13), !Nat.add_0_r. reflexivity. }
    intros a b ps4 vs4 Hg4 (-> & new & -> & Hn). cbn [app]. carry Hg4.
    pose proof (grew_trans _ _ _ _ _ _ _ Hg13 Hg4) as Hg14.
    apply both_static; [symmetry; apply (grew_g _ _ _ _ Hg14)|symmetry; apply (grew_h _ _ _ _ Hg14)|].
    intros ps5 vs5 w0 Hg5 Hw0. carry Hg5. apply (forall2_grew _ _ _ _ _ _ Hg5) in Hn. cbn [index nth_error of_option p_lift pbind].
    eapply b_gadget; [eapply (merkle_8_both false p sbox Hp Hs); try eassumption; reflexivity|].
    intros ps6 vs6 _. apply both_ret. split; reflexivity.
  - lia.
  - lia.
Qed.
End Complete.
