(** Interactive provers: winning often enough is having a tree. *)
From Coq Require Import ZArith List Lia Bool.
From Verif.Base Require Import Outcome Fp Params Algebra.
From Verif.Model Require Import LinComb IPP Prover.
From Verif.Spec Require Import R1CS Protocol IPPSpec Extractor R1CSTree R1CSExtractor Games Challenges.
From Verif.Proofs Require Import IPPProofs VerifyProofs R1CSExtract TreeCount TreeBuild.
Import ListNotations.

Section Interactive.
Context {P : Params} {OK : ParamsOk P}.
Local Open Scope fe_scope.

Lemma in_vectors (C : list F) m v : In v (vectors C m) <-> length v = m /\ incl v C.
Proof.
  revert v. induction m as [|m IH]; intros v; cbn [vectors].
  - split.
    + intros [<-|[]]. split; [reflexivity|]. intros x [].
    + intros [Hl _]. destruct v; [left; reflexivity|discriminate Hl].
  - rewrite in_flat_map. split.
    + intros (x & Hx & Hv). apply in_map_iff in Hv as (w & <- & Hw). apply IH in Hw as [Hl Hi].
      split; [cbn; lia|]. intros a [<-|Ha]; auto.
    + intros [Hl Hi]. destruct v as [|x v]; [discriminate Hl|]. exists x. split; [apply Hi; left; reflexivity|].
      apply in_map. apply IH. split; [cbn in Hl; lia|]. intros a Ha. apply Hi. right. exact Ha.
Qed.

Lemma NoDup_app_disjoint {A} (l l' : list A) : NoDup l -> NoDup l' -> (forall x, In x l -> ~ In x l') -> NoDup (l ++ l').
Proof.
  induction l as [|a l IH]; intros Hl Hl' Hd; [exact Hl'|]. inversion Hl as [|? ? Ha Hl2]; subst. cbn. constructor.
  - intros Hin. apply in_app_or in Hin as [Hin|Hin]; [exact (Ha Hin)|]. exact (Hd a (or_introl eq_refl) Hin).
  - apply IH; [exact Hl2|exact Hl'|]. intros x Hx. apply Hd. right. exact Hx.
Qed.
Lemma vectors_NoDup (C : list F) m : NoDup C -> NoDup (vectors C m).
Proof.
  intros HC. induction m as [|m IH]; cbn [vectors]; [constructor; [intros []|constructor]|].
  revert HC IH. generalize (vectors C m) as l. induction C as [|x C' IHC]; intros l HC Hl; [constructor|].
  inversion HC as [|? ? Hx HC']; subst. cbn [flat_map]. apply NoDup_app_disjoint.
  - apply FinFun.Injective_map_NoDup; [|exact Hl]. intros a b E. injection E as ->. reflexivity.
  - apply IHC; assumption.
  - intros v Hv Hv'. apply in_map_iff in Hv as (a & <- & _). apply in_flat_map in Hv' as (y & Hy & Hv').
    apply in_map_iff in Hv' as (b & E & _). injection E as <- _. exact (Hx Hy).
Qed.
Lemma filter_true {A} (l : list A) : filter (fun _ => true) l = l.
Proof. induction l as [|a l IH]; [reflexivity|]. cbn [filter]. rewrite IH. reflexivity. Qed.
Lemma vectors_length (C : list F) m : length (vectors C m) = (length C ^ m)%nat.
Proof.
  induction m as [|m IH]; [reflexivity|]. cbn [vectors Nat.pow].
  rewrite <- (map_length (fun _ => tt)), <- (Nat.mul_1_r (length (map _ _))), <- (sum_over_const _ 1%nat).
  rewrite sum_over_map, sum_over_flat_map. rewrite (sum_over_ext C _ (fun _ => length C ^ m)%nat).
  - apply sum_over_const.
  - intros x _. rewrite sum_over_map, sum_over_const, IH. lia.
Qed.

Section Count.
Context (C : list F) (m : nat) (wins : list F -> bool).
Let T := filter wins (vectors C m).
Let pt (i : nat) (e : list F) := firstn i e.
Let X_dec := list_eq_dec (Fp_eq_dec modulus).
Let gd := good pt X_dec (fun e => e) T C.

Lemma strategy_count Ks : forall i e c, gd Ks i e c = false ->
  firstn (i - 1) e = firstn (i - 1) c -> length c = i -> incl c C -> (i + length Ks = m)%nat ->
  (length C * length (filter (fun v => wins (c ++ v)) (vectors C (length Ks))) <= list_sum Ks * length C ^ length Ks)%nat.
Proof.
  induction Ks as [|K Ks IH]; intros i e c Hg He Hlc Hic Hm.
  - cbn [length vectors filter]. rewrite app_nil_r. destruct (wins c) eqn:Ew; [|cbn; lia]. exfalso.
    assert (Hg' : gd [] i e c = true); [|congruence]. apply good_nil. exists c.
    split. { apply filter_In. split; [|exact Ew]. apply in_vectors. cbn in Hm. split; [lia|exact Hic]. }
    split; [|reflexivity]. destruct i as [|i]; [reflexivity|]. apply same_before_S. cbn in He. rewrite Nat.sub_0_r in He. exact He.
  - destruct (filter (fun v => wins (c ++ v)) (vectors C (length (K :: Ks)))) as [|v0 l0] eqn:Ef; [cbn [length]; lia|].
    assert (H0 : In v0 (filter (fun v => wins (c ++ v)) (vectors C (length (K :: Ks))))) by (rewrite Ef; left; reflexivity).
    rewrite <- Ef. clear Ef l0. apply filter_In in H0 as [Hv0 Hw0]. apply in_vectors in Hv0 as [Lv0 Iv0].
    assert (Hin : In (c ++ v0) T).
    { apply filter_In. split; [|exact Hw0]. apply in_vectors. rewrite app_length. split; [lia|]. apply incl_app; assumption. }
    assert (Hgc : good_children pt X_dec (fun e => e) T C K Ks i (c ++ v0) c = false).
    { destruct (good_children _ _ _ _ _ K Ks i (c ++ v0) c) eqn:Eg; [|reflexivity]. exfalso.
      assert (Hg' : gd (K :: Ks) i e c = true); [|congruence]. apply good_cons. exists (c ++ v0). split; [exact Hin|].
      split; [|exact Eg]. destruct i as [|i]; [reflexivity|]. apply same_before_S. cbn in He. rewrite Nat.sub_0_r in He.
      unfold pt. rewrite He. rewrite firstn_app. replace (i - length c)%nat with 0%nat by lia. rewrite app_nil_r. reflexivity. }
    cbn [length vectors]. rewrite filter_as_sum, sum_over_flat_map.
    rewrite Nat.mul_comm, <- sum_over_mul.
    etransitivity.
    { apply (sum_over_split C (fun x => good pt X_dec (fun e => e) T C Ks (S i) (c ++ v0) (c ++ [x])) _ K
        (length C ^ S (length Ks)) (list_sum Ks * length C ^ length Ks)).
      - apply Nat.ltb_ge. exact Hgc.
      - intros x Hx _. rewrite sum_over_map.
        rewrite <- (filter_as_sum (vectors C (length Ks)) (fun v => wins (c ++ x :: v))).
        cbn [Nat.pow]. rewrite <- vectors_length. rewrite Nat.mul_comm. apply Nat.mul_le_mono_l.
        generalize (vectors C (length Ks)). intros l. induction l as [|a l IHl]; [apply le_n|].
        cbn [filter length]. destruct (wins (c ++ x :: a)); cbn [length]; lia.
      - intros x Hx Hgx. rewrite sum_over_map.
        rewrite <- (filter_as_sum (vectors C (length Ks)) (fun v => wins (c ++ x :: v))).
        rewrite (filter_ext _ (fun v => wins ((c ++ [x]) ++ v))) by (intros v; rewrite <- app_assoc; reflexivity).
        rewrite Nat.mul_comm. apply (IH (S i) (c ++ v0) (c ++ [x])).
        + exact Hgx.
        + cbn. rewrite Nat.sub_0_r, !firstn_app, Hlc, Nat.sub_diag. cbn. reflexivity.
        + rewrite app_length. cbn. lia.
        + apply incl_app; [exact Hic|]. intros a [<-|[]]. exact Hx.
        + cbn in Hm. lia. }
    cbn [list_sum fold_right Nat.pow]. fold (list_sum Ks). lia.
Qed.
End Count.

Section Strategy.
Context (st : strategy) (C : list F) (k q : nat) (wins : list F -> bool).
Let T := filter wins (vectors C (5 + k)).
Let pt (i : nat) (e : list F) := firstn i e.

Lemma firstn_nth (e e' : list F) i j : (j < i)%nat -> firstn i e = firstn i e' -> nth j e 0 = nth j e' 0.
Proof.
  intros Hj E. transitivity (nth j (firstn i e) 0).
  - symmetry. apply nth_firstn_lt. exact Hj.
  - rewrite E. apply nth_firstn_lt. exact Hj.
Qed.
Lemma firstn_less (e e' : list F) i j : (j <= i)%nat -> firstn i e = firstn i e' -> firstn j e = firstn j e'.
Proof.
  intros Hj E. transitivity (firstn j (firstn i e)).
  - rewrite firstn_firstn, Nat.min_l by exact Hj. reflexivity.
  - rewrite E, firstn_firstn, Nat.min_l by exact Hj. reflexivity.
Qed.

Lemma strategy_proof_parts c :
  let y := nth 0 c 0 in let z := nth 1 c 0 in let u := nth 2 c 0 in let x := nth 3 c 0 in
  let w := nth 4 c 0 in let us := skipn 5 c in let pf := strategy_proof st c in
  first_of pf = st_first st /\
  (T_1 pf, T_3 pf, T_4 pf, T_5 pf, T_6 pf) = st_T st y z /\
  (t_x pf, t_x_blinding pf, e_blinding pf) = st_open st y z u x /\
  ipp_L (proof_ipp pf) = map (fun j => fst (st_round st y z u x w (firstn j us))) (seq 0 (length us)) /\
  ipp_R (proof_ipp pf) = map (fun j => snd (st_round st y z u x w (firstn j us))) (seq 0 (length us)).
Proof.
  cbv zeta. unfold strategy_proof. destruct (st_T st _ _) as [[[[T1 T3] T4] T5] T6].
  destruct (st_open st _ _ _ _) as [[tx txb] eb]. destruct (st_final st _ _ _ _ _ _) as [a b].
  cbn [T_1 T_3 T_4 T_5 T_6 t_x t_x_blinding e_blinding proof_ipp ipp_L ipp_R]. rewrite !map_map.
  unfold first_of. cbn [A_I1 A_O1 S1 A_I2 A_O2 S2]. destruct (st_first st). repeat split; reflexivity.
Qed.

Lemma sum_scaled mu l : list_sum (map (Nat.mul mu) l) = (mu * list_sum l)%nat.
Proof. induction l as [|a l IH]; cbn [map list_sum fold_right]; [lia|]. fold (list_sum (map (Nat.mul mu) l)) (list_sum l). rewrite IH. lia. Qed.

Theorem strategy_has_tree mu : repeats mu C ->
  (mu * (2 ^ k + q + 13 + 7 * k) * length C ^ (5 + k) < length C * length (filter wins (vectors C (5 + k))))%nat ->
  exists f t, proof_tree_wf k q t /\
    each_branch (fun pf c => In c (vectors C (5 + k)) /\ wins c = true /\ strategy_proof st c = pf) f t.
Proof.
  intros HC Hcount.
  destruct (good pt (list_eq_dec (Fp_eq_dec modulus)) (fun e => e) T C (map (Nat.mul mu) (thresholds k q)) 0 [] []) eqn:Hg.
  - apply (good_distinct pt _ _ T C mu HC) in Hg.
    destruct (tree_build pt (list_eq_dec (Fp_eq_dec modulus)) (fun e => e) T (nodup (Fp_eq_dec modulus) C) (strategy_proof st) k q) with (e0 := @nil F)
      as (e1 & f & t & _ & Hwf & Hb); try exact Hg.
    + apply NoDup_nodup.
    + intros i e e' _ _ _. apply firstn_less. lia.
    + intros e e' _ _ _. destruct (strategy_proof_parts e) as [-> _]. destruct (strategy_proof_parts e') as [-> _]. reflexivity.
    + intros e e' _ _ Ee. destruct (strategy_proof_parts e) as (_ & E1 & _). destruct (strategy_proof_parts e') as (_ & E2 & _).
      rewrite (firstn_nth e e' 2 0), (firstn_nth e e' 2 1) in E1 by (exact Ee || lia). rewrite <- E2 in E1.
      unfold Ts_of. injection E1 as -> -> -> -> ->. reflexivity.
    + intros e e' _ _ Ee. destruct (strategy_proof_parts e) as (_ & _ & E1 & _). destruct (strategy_proof_parts e') as (_ & _ & E2 & _).
      rewrite (firstn_nth e e' 4 0), (firstn_nth e e' 4 1), (firstn_nth e e' 4 2), (firstn_nth e e' 4 3) in E1 by (exact Ee || lia).
      rewrite <- E2 in E1. unfold opening_of. injection E1 as -> -> ->. reflexivity.
    + intros j e e' He He' Hj Ee. apply filter_In in He as [He _]. apply filter_In in He' as [He' _].
      apply in_vectors in He as [He _]. apply in_vectors in He' as [He' _].
      assert (Es : firstn j (skipn 5 e) = firstn j (skipn 5 e')).
      { change pt with (fun i (e : list F) => firstn i e) in Ee. cbv beta in Ee.
        rewrite !firstn_skipn_comm. rewrite Ee. reflexivity. }
      destruct (strategy_proof_parts e) as (_ & _ & _ & L1 & R1). destruct (strategy_proof_parts e') as (_ & _ & _ & L2 & R2).
      unfold round_of. rewrite L1, R1, L2, R2.
      rewrite !(nth_indep _ g1_id (fst (st_round st 0 0 0 0 0 []))) by (rewrite map_length, seq_length, skipn_length; lia).
      rewrite (firstn_nth e e' (5 + j) 0), (firstn_nth e e' (5 + j) 1), (firstn_nth e e' (5 + j) 2), (firstn_nth e e' (5 + j) 3),
        (firstn_nth e e' (5 + j) 4) by (exact Ee || lia).
      assert (Hn : forall (f g : nat -> G1) d l l', (j < l)%nat -> (j < l')%nat -> f j = g j ->
        nth j (map f (seq 0 l)) d = nth j (map g (seq 0 l')) d).
      { intros f g d l l' Hl Hl' Efg. rewrite (nth_indep _ d (f 0%nat)) by (rewrite map_length, seq_length; exact Hl).
        rewrite map_nth, seq_nth by exact Hl. rewrite (nth_indep _ d (g 0%nat)) by (rewrite map_length, seq_length; exact Hl').
        rewrite map_nth, seq_nth by exact Hl'. exact Efg. }
      f_equal; apply Hn; rewrite ?skipn_length, ?He, ?He'; try lia; rewrite Es; reflexivity.
    + intros e He. apply filter_In in He as [He _]. apply in_vectors in He as [He _].
      destruct (strategy_proof_parts e) as (_ & _ & _ & L1 & R1). rewrite L1, R1, !map_length, seq_length, skipn_length. lia.
    + exists f, t. split; [exact Hwf|]. intros yn zn un xn w it us Ls Rs a b Hy Hz Hu Hx Hw Hbr.
      destruct (Hb _ _ _ _ _ _ _ _ _ _ _ Hy Hz Hu Hx Hw Hbr) as (e & He & _ & Ep & Ec). subst e.
      apply filter_In in He. tauto.
  - exfalso. apply (strategy_count C (5 + k) wins) in Hg; cbn; auto; [| intros a []|rewrite map_length; unfold thresholds; cbn; rewrite repeat_length; lia].
    assert (El : length (map (Nat.mul mu) (thresholds k q)) = (5 + k)%nat) by (rewrite map_length; unfold thresholds; cbn; rewrite repeat_length; lia).
    assert (Es : list_sum (thresholds k q) = (2 ^ k + q + 13 + 7 * k)%nat).
    { unfold thresholds. cbn [list_sum fold_right]. fold (list_sum (repeat 7%nat k)).
      assert (Hr : list_sum (repeat 7%nat k) = (7 * k)%nat) by (clear; induction k as [|k' IH]; [reflexivity|cbn [repeat list_sum fold_right]; fold (list_sum (repeat 7%nat k')); lia]).
      rewrite Hr. lia. }
    rewrite El, sum_scaled, Es in Hg. change (fun v : list F => wins ([] ++ v)) with wins in Hg. lia.
Qed.
End Strategy.

Theorem interactive_extraction_repeats g h G H V n1 n k cs M st C mu wins :
  let N := next_power_of_two n in
  N = (2 ^ k)%nat -> (N <= length G)%nat -> (N <= length H)%nat ->
  Forall (lc_in_range n (length V)) cs -> recovers M (length V) cs -> repeats mu C ->
  (forall c, In c (vectors C (5 + k)) -> wins c = true -> accepted_for g h G H V n1 n cs (strategy_proof st c) c) ->
  (mu * (N + length cs + 13 + 7 * k) * length C ^ (5 + k) < length C * length (filter wins (vectors C (5 + k))))%nat ->
  exists f t, proof_tree_wf k (length cs) t /\
    each_branch (fun pf c => In c (vectors C (5 + k)) /\ wins c = true /\ strategy_proof st c = pf) f t /\
    proof_tree_accepted g h G H V n1 n cs f t /\
    match r1cs_extract n1 n (length G) (length H) (length V) cs M (tree_scalars t) with
    | Got w => witness_ok g h G H V n1 n cs f w
    | Broken c => generator_relation (g :: h :: G ++ H) c
    end.
Proof.
  intros N HN HG HH Hr HM HC Hacc Hcount. unfold N in *. rewrite HN in Hcount.
  destruct (strategy_has_tree st C k (length cs) wins mu HC Hcount) as (f & t & Hwf & Ht). exists f, t.
  assert (Ha : proof_tree_accepted g h G H V n1 n cs f t).
  { intros yn zn un xn w it us Ls Rs a b Hy Hz Hu Hx Hw Hb.
    destruct (Ht _ _ _ _ _ _ _ _ _ _ _ Hy Hz Hu Hx Hw Hb) as (Hin & Hwin & Ep).
    specialize (Hacc _ Hin Hwin). rewrite Ep in Hacc. exact Hacc. }
  split; [exact Hwf|]. split; [exact Ht|]. split; [exact Ha|].
  exact (r1cs_extract_ok g h G H V n1 n k cs HN HG HH (next_power_of_two_ge n) M f t Hr HM Hwf Ha).
Qed.

Theorem interactive_extraction g h G H V n1 n k cs M st C wins :
  let N := next_power_of_two n in
  N = (2 ^ k)%nat -> (N <= length G)%nat -> (N <= length H)%nat ->
  Forall (lc_in_range n (length V)) cs -> recovers M (length V) cs -> NoDup C ->
  (forall c, In c (vectors C (5 + k)) -> wins c = true -> accepted_for g h G H V n1 n cs (strategy_proof st c) c) ->
  ((N + length cs + 13 + 7 * k) * length C ^ (5 + k) < length C * length (filter wins (vectors C (5 + k))))%nat ->
  exists f t, proof_tree_wf k (length cs) t /\
    each_branch (fun pf c => In c (vectors C (5 + k)) /\ wins c = true /\ strategy_proof st c = pf) f t /\
    proof_tree_accepted g h G H V n1 n cs f t /\
    match r1cs_extract n1 n (length G) (length H) (length V) cs M (tree_scalars t) with
    | Got w => witness_ok g h G H V n1 n cs f w
    | Broken c => generator_relation (g :: h :: G ++ H) c
    end.
Proof.
  intros N HN HG HH Hr HM HC Hacc Hcount.
  apply (interactive_extraction_repeats g h G H V n1 n k cs M st C 1 wins HN HG HH Hr HM (repeats_once C HC) Hacc).
  rewrite Nat.mul_1_l. exact Hcount.
Qed.
End Interactive.
