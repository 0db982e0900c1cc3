(** Counting for the random-oracle version of zero knowledge. *)
From Coq Require Import ZArith String List Lia Bool Arith Permutation.
From Verif.Base Require Import Outcome Fp Params Algebra.
From Verif.Model Require Import Transcript IPP Prover.
From Verif.Spec Require Import Games Indist RomSim Challenges.
From Verif.Proofs Require Import TreeCount OracleCount OracleZero GameInteractive.
Import ListNotations.
Local Notation length := List.length.

Definition b2n (b : bool) : nat := if b then 1 else 0.

Section RomCount.
Context {P : Params} {OK : ParamsOk P}.
Local Open Scope fe_scope.

Lemma sum_over_perm {A} (l l' : list A) f : Permutation l l' -> sum_over l f = sum_over l' f.
Proof. induction 1; rewrite ?sum_over_cons in *; lia. Qed.

(** *** All tapes *)
Lemma every_scalar_all (x : F) : In x every_scalar.
Proof.
  unfold every_scalar. apply in_map_iff. pose proof (fval_range modulus modulus_prime x) as Hx.
  exists (Z.to_nat (fval x)). split.
  - rewrite Z2Nat.id by lia. apply of_Z_fval.
  - apply in_seq. lia.
Qed.
Lemma every_scalar_nodup : NoDup every_scalar.
Proof.
  unfold every_scalar. apply (NoDup_map_inv (@fval modulus)). rewrite map_map.
  rewrite (map_ext_in _ Z.of_nat).
  - apply FinFun.Injective_map_NoDup; [intros a b; apply Nat2Z.inj|apply seq_NoDup].
  - intros i Hi. apply in_seq in Hi. rewrite fval_of_Z. apply Z.mod_small. lia.
Qed.
Lemma every_scalar_length : length every_scalar = Z.to_nat modulus.
Proof. unfold every_scalar. rewrite map_length, seq_length. reflexivity. Qed.

Lemma number_of_unique k (Q : list F -> Prop) m m' : number_of k Q m -> number_of k Q m' -> m = m'.
Proof.
  intros (l & Hn & <- & Hl) (l' & Hn' & <- & Hl'). apply Nat.le_antisymm; apply NoDup_incl_length; try assumption;
    intros t Ht; [apply Hl', Hl|apply Hl, Hl']; exact Ht.
Qed.
Lemma number_of_filter k (Q : list F -> Prop) (f : list F -> bool) :
  (forall tape, length tape = k -> (Q tape <-> f tape = true)) -> number_of k Q (length (filter f (vectors every_scalar k))).
Proof.
  intros Hf. exists (filter f (vectors every_scalar k)). split; [apply NoDup_filter, vectors_NoDup, every_scalar_nodup|].
  split; [reflexivity|]. intros tape. rewrite filter_In, in_vectors. split.
  - intros [[Hl _] E]. split; [exact Hl|]. apply Hf; assumption.
  - intros [Hl E]. split; [split; [exact Hl|intros a _; apply every_scalar_all]|]. apply Hf; assumption.
Qed.

(** among the tapes with a property that fixes the first entry, one in [modulus] *)
Lemma first_fixed k (f : list F -> bool) :
  (forall a b r r', f (a :: r) = true -> f (b :: r') = true -> a = b) ->
  (Z.to_nat modulus * length (filter f (vectors every_scalar (S k))) <= length (vectors every_scalar (S k)))%nat.
Proof.
  intros Hf. rewrite vectors_length, every_scalar_length. cbn [Nat.pow]. apply Nat.mul_le_mono_l.
  destruct (filter f (vectors every_scalar (S k))) as [|t l] eqn:E; [cbn; lia|].
  assert (Ht : In t (filter f (vectors every_scalar (S k)))) by (rewrite E; left; reflexivity).
  apply filter_In in Ht as [Hv Ht]. apply in_vectors in Hv as [Hl _]. destruct t as [|a t]; [discriminate|].
  rewrite <- E. rewrite filter_as_sum. cbn [vectors]. rewrite sum_over_flat_map.
  transitivity (sum_over every_scalar (fun x => if feqb x a then Z.to_nat modulus ^ k else 0)%nat).
  - apply sum_over_le. intros x _. rewrite sum_over_map. destruct (feqb_spec modulus x a) as [->|Hne].
    + transitivity (sum_over (vectors every_scalar k) (fun _ => 1%nat)).
      * apply sum_over_le. intros r _. cbn beta. destruct (f (a :: r)); lia.
      * rewrite sum_over_const, vectors_length, every_scalar_length, Nat.mul_1_r. apply le_n.
    + transitivity (sum_over (vectors every_scalar k) (fun _ => 0%nat)).
      * apply sum_over_le. intros r _. cbn beta. destruct (f (x :: r)) eqn:Ex; [|lia]. exfalso. apply Hne. eapply Hf; eassumption.
      * rewrite sum_over_const. lia.
  - generalize (Z.to_nat modulus ^ k)%nat as c. intros c. pose proof every_scalar_nodup as Hn. clear E. revert Hn.
    induction every_scalar as [|x S IH]; intros Hn; [cbn; lia|]. rewrite sum_over_cons. inversion Hn as [|? ? Hx Hn']; subst.
    specialize (IH Hn'). destruct (feqb_spec modulus x a) as [->|Hne]; [|lia].
    rewrite (sum_over_ext S _ (fun _ => 0%nat)).
    + rewrite sum_over_const. lia.
    + intros y Hy. destruct (feqb_spec modulus y a) as [->|]; [contradiction|reflexivity].
Qed.

(** *** Programming the oracle *)
Section Program.
Context (C : list F).

Lemma sum_pick (x : F) (f : F -> nat) : sum_over C (fun y => if feqb y x then f y else 0)%nat = (times C x * f x)%nat.
Proof.
  unfold times. induction C as [|a C' IH]; [reflexivity|]. rewrite sum_over_cons, IH. cbn [count_occ].
  destruct (feqb_spec modulus a x) as [E|Hne], (Fp_eq_dec modulus a x); try congruence; [rewrite E|]; lia.
Qed.

Lemma cnt_ext O D p p' : (forall O', In O' (oracles_from O D C) -> p O' = p' O') -> cnt C O D p = cnt C O D p'.
Proof.
  intros Hp. unfold cnt. rewrite !filter_as_sum. apply sum_over_ext. intros O' HO. rewrite (Hp O' HO). reflexivity.
Qed.

Lemma program_one p O D q x : looks_at (fun _ => True) p -> NoDup D -> In q D ->
  (times C x * cnt C O D (fun O' => p (set_answer O' q x)))%nat = (length C * cnt C O D (fun O' => feqb (O' q) x && p O'))%nat.
Proof.
  intros Hp Hn Hq. set (D' := remove query_eq_dec q D). assert (HD' : ~ In q D') by apply remove_In.
  assert (L1 : looks_at (fun q' => q' <> q) (fun O' => p (set_answer O' q x))).
  { intros O1 O2 HO. apply Hp. intros q' _. unfold set_answer. destruct (query_eq_dec q' q); [reflexivity|]. apply HO. assumption. }
  rewrite (cnt_first C D _) with (q := q); [|intros O1 O2 HO; apply L1; auto|exact Hn|exact Hq].
  rewrite (cnt_first C D (fun O' => feqb (O' q) x && p O')) with (q := q);
    [|intros O1 O2 HO; rewrite (HO q I), (Hp O1 O2 HO); reflexivity|exact Hn|exact Hq].
  fold D'.
  rewrite (sum_over_ext C _ (fun _ => cnt C O D' (fun O' => p (set_answer O' q x)))).
  2:{ intros y _. apply (cnt_base C _ D' _ L1). intros q' Hne. apply set_other, Hne. }
  rewrite sum_over_const, Nat.mul_assoc, (Nat.mul_comm (times C x)), <- Nat.mul_assoc. f_equal.
  rewrite (sum_over_ext C _ (fun y => if feqb y x then cnt C O D' (fun O' => p (set_answer O' q x)) else 0%nat)).
  { symmetry. apply sum_pick. }
  intros y _. destruct (feqb_spec modulus y x) as [->|Hne].
  - rewrite <- (cnt_base C _ D' _ L1 (set_answer O q x) O) by (intros q' Hne; apply set_other, Hne).
    apply cnt_ext. intros O' HO. rewrite (oracles_outside C D' _ _ q HO HD'), set_same.
    destruct (feqb_spec modulus x x); [cbn [andb]|congruence]. apply Hp. intros q' _. unfold set_answer at 1.
    destruct (query_eq_dec q' q) as [->|]; [|reflexivity]. rewrite (oracles_outside C D' _ _ q HO HD'), set_same. reflexivity.
  - transitivity (cnt C (set_answer O q y) D' (fun _ => false)).
    + apply cnt_ext. intros O' HO. rewrite (oracles_outside C D' _ _ q HO HD'), set_same.
      destruct (feqb_spec modulus y x); [congruence|reflexivity].
    + unfold cnt. rewrite filter_as_sum, sum_over_const. lia.
Qed.

Lemma set_ext O O' q x : (forall q', O q' = O' q') -> forall q', set_answer O q x q' = set_answer O' q x q'.
Proof. intros HO q'. unfold set_answer. destruct (query_eq_dec q' q); [reflexivity|apply HO]. Qed.
Lemma programmed_ext qs : forall c O O', (forall q, O q = O' q) -> forall q, programmed O qs c q = programmed O' qs c q.
Proof.
  induction qs as [|q0 qs IH]; intros [|x c] O O' HO q; try apply HO. cbn [programmed]. apply set_ext. apply IH, HO.
Qed.
Lemma programmed_other qs : forall c O q, ~ In q qs -> programmed O qs c q = O q.
Proof.
  induction qs as [|q0 qs IH]; intros [|x c] O q Hq; try reflexivity. cbn [programmed].
  rewrite set_other by (intros ->; apply Hq; left; reflexivity). apply IH. intros Hin. apply Hq. right. exact Hin.
Qed.
Lemma programmed_map qs : forall c O, NoDup qs -> length c = length qs -> map (programmed O qs c) qs = c.
Proof.
  induction qs as [|q0 qs IH]; intros [|x c] O Hn Hl; try discriminate; [reflexivity|].
  inversion Hn as [|? ? Hq Hn']; subst. cbn [programmed map]. rewrite set_same. f_equal.
  rewrite <- (IH c O Hn') at 2 by (cbn in Hl; lia). apply map_ext_in. intros q Hin. apply set_other. intros ->. contradiction.
Qed.

(** how often the challenges [c] are drawn *)
Definition repeats_of (c : list F) : nat := fold_right (fun x a => times C x * a)%nat 1%nat c.

Lemma program_all O D qs : forall p c, looks_at (fun _ => True) p -> NoDup D -> NoDup qs -> incl qs D ->
  length c = length qs ->
  (repeats_of c * cnt C O D (fun O' => p (programmed O' qs c)))%nat =
    (length C ^ length qs * cnt C O D (fun O' => chals_eqb c (map O' qs) && p O'))%nat.
Proof.
  induction qs as [|q qs IH]; intros p [|x c] Hp Hn Hq Hi Hl; try discriminate.
  - cbn [length Nat.pow programmed map repeats_of fold_right]. rewrite !Nat.mul_1_l. reflexivity.
  - inversion Hq as [|? ? Hq0 Hq']; subst. cbn [programmed length Nat.pow repeats_of fold_right].
    change (fold_right (fun x a => times C x * a)%nat 1%nat c) with (repeats_of c).
    assert (E1 : (repeats_of c * cnt C O D (fun O' => p (set_answer (programmed O' qs c) q x)))%nat =
      (length C ^ length qs * cnt C O D (fun O' => chals_eqb c (map O' qs) && p (set_answer O' q x)))%nat).
    { apply (IH (fun O' => p (set_answer O' q x)) c).
      - intros O1 O2 HO. apply Hp. intros q' _. apply set_ext. intros q2. apply HO. exact I.
      - exact Hn.
      - exact Hq'.
      - intros q' Hin. apply Hi. right. exact Hin.
      - cbn in Hl. lia. }
    rewrite <- Nat.mul_assoc, E1.
    rewrite (cnt_ext O D _ (fun O' => (fun O1 => chals_eqb c (map O1 qs) && p O1) (set_answer O' q x))).
    2:{ intros O' _. cbn beta. f_equal. f_equal. apply map_ext_in. intros q' Hin. symmetry. apply set_other.
        intros ->. contradiction. }
    rewrite Nat.mul_assoc, (Nat.mul_comm (times C x)), <- Nat.mul_assoc.
    rewrite (program_one (fun O1 => chals_eqb c (map O1 qs) && p O1)).
    + rewrite (cnt_ext O D (fun O' => chals_eqb (x :: c) (map O' (q :: qs)) && p O')
        (fun O' => feqb (O' q) x && (chals_eqb c (map O' qs) && p O'))); [lia|].
      intros O' _. rewrite andb_assoc. f_equal. cbn [map]. apply eq_true_iff_eq. rewrite chals_eqb_ok, andb_true_iff, chals_eqb_ok.
      destruct (feqb_spec modulus (O' q) x); split; intros E; try (injection E); intuition congruence.
    + intros O1 O2 HO. rewrite (Hp O1 O2 HO). f_equal. f_equal. apply map_ext. intros q'. apply HO. exact I.
    + exact Hn.
    + apply Hi. left. reflexivity.
Qed.
End Program.

(** *** Each challenge once *)
Lemma sum_distinct L (HL : NoDup L) : forall C (f : F -> nat), incl C L -> sum_over C f = sum_over L (fun x => times C x * f x)%nat.
Proof.
  induction C as [|a C IH]; intros f Hi; [unfold times; cbn [count_occ]; rewrite (sum_over_ext L _ (fun _ => 0%nat)) by reflexivity; rewrite sum_over_const; cbn; lia|].
  rewrite sum_over_cons, (IH f) by (intros x Hx; apply Hi; right; exact Hx).
  assert (E : sum_over L (fun x => if feqb x a then f x else 0)%nat = f a).
  { rewrite sum_pick. replace (times L a) with 1%nat; [lia|]. symmetry. unfold times.
    apply (proj1 (NoDup_count_occ' (Fp_eq_dec modulus) L) HL). apply Hi. left. reflexivity. }
  rewrite <- E, <- sum_over_add. apply sum_over_ext. intros x _. unfold times. cbn [count_occ].
  destruct (feqb_spec modulus x a), (Fp_eq_dec modulus a x); try congruence; lia.
Qed.
Lemma vectors_distinct L (HL : NoDup L) C (Hi : incl C L) m : forall f,
  sum_over (vectors C m) f = sum_over (vectors L m) (fun c => repeats_of C c * f c)%nat.
Proof.
  induction m as [|m IH]; intros f; [cbn; lia|]. cbn [vectors]. rewrite !sum_over_flat_map, (sum_distinct L HL C _ Hi).
  apply sum_over_ext. intros x _. rewrite !sum_over_map, IH, Nat.mul_comm, <- sum_over_mul. apply sum_over_ext. intros c _.
  cbn [repeats_of fold_right]. change (fold_right (fun x a => times C x * a)%nat 1%nat c) with (repeats_of C c). lia.
Qed.

(** *** The two games *)
Lemma unasked_same {X} (A : adversary X) : forall O O', (forall q, In q (asked O A) -> O q = O' q) -> output O' A = output O A.
Proof.
  induction A as [x|q k IH]; intros O O' HO; [reflexivity|]. cbn [output]. cbn [asked] in HO.
  rewrite <- (HO q (or_introl eq_refl)). apply IH. intros q' Hin. apply HO. right. exact Hin.
Qed.
Lemma asked_length {X} (A : adversary X) : forall Q O, at_most Q A -> (length (asked O A) <= Q)%nat.
Proof.
  induction A as [x|q k IH]; intros Q O HQ; [cbn; lia|]. cbn [at_most] in HQ. destruct Q as [|Q]; [destruct HQ|].
  cbn [asked length]. specialize (IH (O q) Q O (HQ (O q))). lia.
Qed.

Lemma sum_both_zero {B} (l : list B) f g : (forall a, In a l -> g a = 0%nat) -> (forall a, In a l -> f a = 0%nat) -> sum_over l f = sum_over l g.
Proof. intros Hg Hf. apply sum_over_ext. intros a Ha. rewrite (Hf a Ha), (Hg a Ha). reflexivity. Qed.
Lemma pick_chals (c0 : list F) (f : list F -> bool) l : NoDup l -> In c0 l ->
  sum_over l (fun c => b2n (chals_eqb c c0 && f c)) = b2n (f c0).
Proof.
  intros Hnv Hv. induction l as [|c l IH]; [destruct Hv|]. rewrite sum_over_cons.
  inversion Hnv as [|? ? Hc Hnv']; subst. destruct (chals_eqb c c0) eqn:Ec.
  - apply chals_eqb_ok in Ec. subst c0. cbn [andb]. rewrite (sum_over_ext l _ (fun _ => 0%nat)).
    + rewrite sum_over_const. lia.
    + intros c1 Hc1. destruct (chals_eqb c1 c) eqn:E1; [|reflexivity]. apply chals_eqb_ok in E1. congruence.
  - cbn [andb]. change (b2n false) with 0%nat. rewrite IH; [lia|exact Hnv'|]. destruct Hv as [->|Hv]; [|exact Hv].
    exfalso. enough (chals_eqb c0 c0 = true) by congruence. apply chals_eqb_ok. reflexivity.
Qed.
Section TwoGames.
Context {X : Type} (X_dec : forall a b : X, {a = b} + {a <> b}).
Context (C : list F) (D : list query) (HD : NoDup D) (m : nat).
Context (T : list (list F)) (real : oracle -> list F -> option X) (sim : list F -> list F -> option X) (qs : X -> list query).
Context (A : adversary (X -> adversary bool)) (Q : nat) (HQ : at_most Q A).

Definition on (o : option X) (f : X -> nat) : nat := match o with Some x => f x | None => 0%nat end.
Definition all_oracles := oracles D C.
Definition has (x : X) (o : option X) : bool := match o with Some y => if X_dec x y then true else false | None => false end.

Context (shape : X -> bool).
Hypothesis shape_qs : forall x, shape x = true -> NoDup (qs x) /\ length (qs x) = m /\ incl (qs x) D.
Hypothesis sim_shape : forall c t x, In c (vectors C m) -> In t T -> sim c t = Some x -> shape x = true.
Hypothesis real_shape : forall O t x, In O all_oracles -> In t T -> real O t = Some x -> shape x = true.
Hypothesis same_number : forall O x, In O all_oracles -> shape x = true ->
  length (filter (fun t => has x (real O t)) T) = length (filter (fun t => has x (sim (map O (qs x)) t)) T).
Hypothesis rare : forall c q, In c (vectors C m) ->
  (Z.to_nat modulus * length (filter (fun t => match sim c t with Some x => if in_dec query_eq_dec q (qs x) then true else false | None => false end) T) <= length T)%nat.

Definition outs (L : list (option X)) : list X := flat_map (fun o => match o with Some x => [x] | None => [] end) L.
Lemma outs_sum L f : sum_over (outs L) f = sum_over L (fun o => on o f).
Proof.
  unfold outs. rewrite sum_over_flat_map. apply sum_over_ext. intros [x|] _; [|reflexivity]. cbn. lia.
Qed.
Lemma outs_count L x : count_occ X_dec (outs L) x = sum_over L (fun o => b2n (has x o)).
Proof.
  induction L as [|o L IH]; [reflexivity|]. rewrite sum_over_cons, <- IH. unfold outs. cbn [flat_map].
  rewrite count_occ_app. f_equal. destruct o as [y|]; [|reflexivity]. cbn. destruct (X_dec y x), (X_dec x y); congruence || reflexivity.
Qed.

Let C1 := nodup (Fp_eq_dec modulus) C.
Lemma in_distinct c : In c (vectors C1 m) -> In c (vectors C m).
Proof.
  intros Hc. apply in_vectors in Hc as [Hl Hi]. apply in_vectors. split; [exact Hl|]. intros a Ha.
  apply (nodup_In (Fp_eq_dec modulus)), Hi, Ha.
Qed.
Lemma real_as_sim O f : In O all_oracles ->
  sum_over T (fun t => on (real O t) f) =
  sum_over T (fun t => sum_over (vectors C1 m) (fun c => on (sim c t) (fun x => if chals_eqb c (map O (qs x)) then f x else 0%nat))).
Proof.
  intros HO.
  set (L1 := map (real O) T).
  set (keep := fun c (o : option X) => match o with Some x => if chals_eqb c (map O (qs x)) then Some x else None | None => None end).
  set (L2 := flat_map (fun t => map (fun c => keep c (sim c t)) (vectors C1 m)) T).
  transitivity (sum_over (outs L1) f); [rewrite outs_sum; unfold L1; rewrite sum_over_map; reflexivity|].
  transitivity (sum_over (outs L2) f).
  2:{ rewrite outs_sum. unfold L2. rewrite sum_over_flat_map. apply sum_over_ext. intros t _. rewrite sum_over_map.
      apply sum_over_ext. intros c _. unfold keep. destruct (sim c t) as [x|]; [|reflexivity]. cbn. destruct (chals_eqb _ _); reflexivity. }
  apply sum_over_perm. apply (Permutation_count_occ X_dec). intros x. rewrite !outs_count.
  unfold L1, L2. rewrite sum_over_map, sum_over_flat_map.
  rewrite (sum_over_ext T (fun t => sum_over (map _ (vectors C1 m)) _)
    (fun t => sum_over (vectors C1 m) (fun c => b2n (chals_eqb c (map O (qs x)) && has x (sim c t))))).
  2:{ intros t _. rewrite sum_over_map. apply sum_over_ext. intros c _. unfold keep. destruct (sim c t) as [y|]; cbn [has].
      - destruct (chals_eqb c (map O (qs y))) eqn:E1; cbn [has]; destruct (X_dec x y) as [->|];
          rewrite ?E1, ?andb_false_r; reflexivity.
      - rewrite andb_false_r. reflexivity. }
  destruct (shape x) eqn:Hx.
  - destruct (shape_qs x Hx) as (_ & Hl & Hi). assert (Hv : In (map O (qs x)) (vectors C1 m)).
    { apply in_vectors. split; [rewrite map_length; exact Hl|]. intros a Ha. apply nodup_In. apply in_map_iff in Ha as (q & <- & Hq).
      eapply (oracles_inside C D); [exact HD|exact HO|apply Hi, Hq]. }
    transitivity (length (filter (fun t => has x (sim (map O (qs x)) t)) T)).
    + rewrite <- same_number by assumption. rewrite filter_as_sum. reflexivity.
    + rewrite filter_as_sum. apply sum_over_ext. intros t _.
      symmetry. apply (pick_chals (map O (qs x)) (fun c => has x (sim c t))); [apply vectors_NoDup, NoDup_nodup|exact Hv].
  - apply sum_both_zero.
    + intros t Ht. rewrite (sum_over_ext (vectors C1 m) _ (fun _ => 0%nat)); [rewrite sum_over_const; lia|]. intros c Hc.
      destruct (sim c t) as [y|] eqn:Es; [|rewrite andb_false_r; reflexivity]. cbn [has]. destruct (X_dec x y) as [->|]; [|rewrite andb_false_r; reflexivity].
      exfalso. enough (shape y = true) by congruence. exact (sim_shape c t y (in_distinct c Hc) Ht Es).
    + intros t Ht. destruct (real O t) as [y|] eqn:Es; [|reflexivity]. cbn [has]. destruct (X_dec x y) as [->|]; [|reflexivity].
      exfalso. enough (shape y = true) by congruence. exact (real_shape O t y HO Ht Es).
Qed.

Definition real_wins : nat := sum_over all_oracles (fun O => sum_over T (fun t => on (real O t) (fun x => b2n (output O (output O A x))))).
Definition sim_wins : nat := sum_over all_oracles (fun O => sum_over (vectors C m) (fun c => sum_over T (fun t =>
  on (sim c t) (fun x => b2n (output (programmed O (qs x) c) (output O A x)))))).
(** the oracle was asked a question of the proof before *)
Definition met (O : oracle) (x : X) : bool := existsb (fun q => if in_dec query_eq_dec q (qs x) then true else false) (asked O A).
Definition meetings : nat := sum_over all_oracles (fun O => sum_over (vectors C m) (fun c => sum_over T (fun t =>
  on (sim c t) (fun x => b2n (met O x))))).
Definition middle : nat := sum_over all_oracles (fun O => sum_over (vectors C m) (fun c => sum_over T (fun t =>
  on (sim c t) (fun x => b2n (output (programmed O (qs x) c) (output (programmed O (qs x) c) A x)))))).

Lemma on_swap {B} (l : list B) (f : B -> X -> nat) o : sum_over l (fun b => on o (f b)) = on o (fun x => sum_over l (fun b => f b x)).
Proof. destruct o as [x|]; [reflexivity|]. cbn. rewrite sum_over_const. lia. Qed.

Lemma middle_real : middle = (length C ^ m * real_wins)%nat.
Proof.
  unfold middle, real_wins.
  rewrite (sum_over_ext all_oracles (fun O => sum_over T _) _ (fun O HO => real_as_sim O _ HO)).
  rewrite (sum_over_ext all_oracles _ (fun O => sum_over T (fun t => sum_over (vectors C m) (fun c => on (sim c t)
    (fun x => b2n (output (programmed O (qs x) c) (output (programmed O (qs x) c) A x)))))))
    by (intros O _; apply sum_over_swap).
  rewrite (sum_over_swap all_oracles T), (sum_over_swap all_oracles T).
  rewrite Nat.mul_comm, <- sum_over_mul. apply sum_over_ext. intros t Ht.
  rewrite (sum_over_swap all_oracles (vectors C m)), (sum_over_swap all_oracles (vectors C1 m)).
  rewrite (vectors_distinct C1 (NoDup_nodup _ C) C) by (intros a Ha; apply nodup_In; exact Ha).
  rewrite <- sum_over_mul. apply sum_over_ext. intros c Hc. apply in_distinct in Hc. rewrite !on_swap.
  destruct (sim c t) as [x|] eqn:Es; [|cbn [on]; lia]. cbn [on].
  destruct (shape_qs x (sim_shape c t x Hc Ht Es)) as (Hn & Hl & Hi). apply in_vectors in Hc as [Hcl Hci].
  assert (HL : looks_at (fun _ => True) (fun O => output O (output O A x))).
  { intros O1 O2 HO. rewrite (output_ext A O1 O2) by auto. apply output_ext. auto. }
  pose proof (program_all C (fun _ => 0) D (qs x) _ c HL HD Hn Hi ltac:(congruence)) as E.
  unfold cnt in E. rewrite !filter_as_sum in E. fold (oracles D C) in E. rewrite Hl in E.
  unfold all_oracles. unfold b2n at 1. rewrite E, Nat.mul_comm. f_equal. apply sum_over_ext. intros O _.
  destruct (chals_eqb c (map O (qs x))); reflexivity.
Qed.

Lemma unmet_same O x c : met O x = false -> output (programmed O (qs x) c) A = output O A.
Proof.
  intros Hm. apply unasked_same. intros q Hq. symmetry. apply programmed_other. intros Hin.
  unfold met in Hm. enough (existsb (fun q => if in_dec query_eq_dec q (qs x) then true else false) (asked O A) = true) by congruence.
  apply existsb_exists. exists q. split; [exact Hq|]. destruct (in_dec _ q (qs x)); [reflexivity|contradiction].
Qed.

Lemma middle_sim : (middle <= sim_wins + meetings)%nat /\ (sim_wins <= middle + meetings)%nat.
Proof.
  unfold middle, sim_wins, meetings. rewrite <- !sum_over_add.
  split; apply sum_over_le; intros O _; rewrite <- !sum_over_add; apply sum_over_le; intros c _; rewrite <- !sum_over_add; apply sum_over_le; intros t _;
    (destruct (sim c t) as [x|]; [|apply le_n]); cbn [on]; destruct (met O x) eqn:Em;
    try (rewrite (unmet_same O x c Em); unfold b2n; lia); unfold b2n; destruct (output _ _); lia || (destruct (output _ _); lia).
Qed.

Lemma few_meetings : (Z.to_nat modulus * meetings <= Q * (length C ^ length D * (length C ^ m * length T)))%nat.
Proof.
  unfold meetings. set (p := Z.to_nat modulus).
  transitivity (sum_over all_oracles (fun _ => Q * (length C ^ m * length T)))%nat.
  2:{ rewrite sum_over_const. unfold all_oracles, oracles. rewrite oracles_length. apply Nat.eq_le_incl. ring. }
  rewrite Nat.mul_comm, <- sum_over_mul. apply sum_over_le. intros O _.
  rewrite <- sum_over_mul.
  transitivity (sum_over (vectors C m) (fun _ => Q * length T))%nat.
  2:{ rewrite sum_over_const, vectors_length. apply Nat.eq_le_incl. ring. }
  apply sum_over_le. intros c Hc.
  transitivity (sum_over (asked O A) (fun _ => length T))%nat.
  2:{ rewrite sum_over_const. apply Nat.mul_le_mono_r, asked_length, HQ. }
  transitivity (sum_over (asked O A) (fun q => length (filter (fun t => match sim c t with
      | Some x => if in_dec query_eq_dec q (qs x) then true else false | None => false end) T) * p))%nat.
  2:{ apply sum_over_le. intros q _. rewrite Nat.mul_comm. apply rare, Hc. }
  rewrite sum_over_mul. apply Nat.mul_le_mono_r.
  rewrite (sum_over_ext (asked O A) _ (fun q => sum_over T (fun t => b2n (match sim c t with
      | Some x => if in_dec query_eq_dec q (qs x) then true else false | None => false end))))
    by (intros q _; apply filter_as_sum).
  rewrite sum_over_swap. apply sum_over_le. intros t _. destruct (sim c t) as [x|]; cbn [on].
  - unfold met. induction (asked O A) as [|q l IH]; [cbn; lia|]. rewrite sum_over_cons. cbn [existsb].
    destruct (in_dec query_eq_dec q (qs x)); cbn [orb b2n] in *; [unfold b2n; lia|]. exact IH.
  - lia.
Qed.

Lemma two_games :
  (Z.to_nat modulus * (length C ^ m * real_wins) <= Z.to_nat modulus * sim_wins + Q * (length C ^ length D * (length C ^ m * length T)))%nat /\
  (Z.to_nat modulus * sim_wins <= Z.to_nat modulus * (length C ^ m * real_wins) + Q * (length C ^ length D * (length C ^ m * length T)))%nat.
Proof.
  rewrite <- middle_real. pose proof few_meetings as Hf. destruct middle_sim as [H1 H2].
  apply (Nat.mul_le_mono_l _ _ (Z.to_nat modulus)) in H1, H2. rewrite Nat.mul_add_distr_l in H1, H2.
  revert Hf H1 H2. generalize (Z.to_nat modulus * meetings)%nat (Z.to_nat modulus * middle)%nat (Z.to_nat modulus * sim_wins)%nat
    (Q * (length C ^ length D * (length C ^ m * length T)))%nat. intros. lia.
Qed.
End TwoGames.

(** *** Two games that are alike for most challenges *)
Section MostChallenges.
Context {X : Type} (X_dec : forall a b : X, {a = b} + {a <> b}).
Context (C : list F) (D : list query) (HD : NoDup D) (m : nat).
Context (T : list (list F)) (real : oracle -> list F -> option X) (sim : list F -> list F -> option X) (qs : X -> list query).
Context (A : adversary (X -> adversary bool)) (Q : nat) (HQ : at_most Q A) (good : list F -> bool).
Context (shape : X -> bool).
Hypothesis shape_qs : forall x, shape x = true -> NoDup (qs x) /\ length (qs x) = m /\ incl (qs x) D.
Hypothesis sim_shape : forall c t x, In c (vectors C m) -> In t T -> sim c t = Some x -> shape x = true.
Hypothesis real_shape : forall O t x, In O (oracles D C) -> In t T -> real O t = Some x -> shape x = true.
Hypothesis sim_total : forall c t, sim c t <> None.
Hypothesis same_number : forall O x, In O (oracles D C) -> shape x = true -> good (map O (qs x)) = true ->
  length (filter (fun t => has X_dec x (real O t)) T) = length (filter (fun t => has X_dec x (sim (map O (qs x)) t)) T).
Hypothesis rare : forall c q, In c (vectors C m) ->
  (Z.to_nat modulus * length (filter (fun t => match sim c t with Some x => if in_dec query_eq_dec q (qs x) then true else false | None => false end) T) <= length T)%nat.

Definition real1 (O : oracle) (t : list F) : option X :=
  match real O t with Some x => if good (map O (qs x)) then Some x else None | None => None end.
Definition sim1 (c t : list F) : option X := if good c then sim c t else None.

Lemma sim1_shape c t x : In c (vectors C m) -> In t T -> sim1 c t = Some x -> shape x = true.
Proof. unfold sim1. intros Hc Ht. destruct (good c); [apply sim_shape; assumption|discriminate]. Qed.
Lemma real1_shape O t x : In O (oracles D C) -> In t T -> real1 O t = Some x -> shape x = true.
Proof.
  unfold real1. intros HO Ht. destruct (real O t) as [y|] eqn:E; [|discriminate]. destruct (good _); [|discriminate].
  intros Ex. injection Ex as <-. exact (real_shape O t y HO Ht E).
Qed.
Lemma same_number1 O x : In O (oracles D C) -> shape x = true ->
  length (filter (fun t => has X_dec x (real1 O t)) T) = length (filter (fun t => has X_dec x (sim1 (map O (qs x)) t)) T).
Proof.
  intros HO Hx. unfold real1, sim1. destruct (good (map O (qs x))) eqn:Eg.
  - rewrite <- (same_number O x HO Hx Eg). f_equal. apply filter_ext. intros t. destruct (real O t) as [y|]; [|reflexivity].
    destruct (good (map O (qs y))) eqn:Ey; [reflexivity|]. cbn [has]. destruct (X_dec x y) as [->|]; [congruence|reflexivity].
  - f_equal. apply filter_ext. intros t. cbn [has]. destruct (real O t) as [y|]; [|reflexivity].
    destruct (good (map O (qs y))) eqn:Ey; [|reflexivity]. cbn [has]. destruct (X_dec x y) as [->|]; [congruence|reflexivity].
Qed.
Lemma rare1 c q : In c (vectors C m) ->
  (Z.to_nat modulus * length (filter (fun t => match sim1 c t with Some x => if in_dec query_eq_dec q (qs x) then true else false | None => false end) T) <= length T)%nat.
Proof.
  intros Hc. unfold sim1. destruct (good c); [apply rare, Hc|]. rewrite filter_as_sum, sum_over_const. lia.
Qed.

Definition bad_challenges : nat := length (filter (fun c => negb (good c)) (vectors C m)).
Definition good_challenges : nat := length (filter good (vectors C m)).
Lemma good_bad : (good_challenges + bad_challenges = length C ^ m)%nat.
Proof.
  unfold good_challenges, bad_challenges. rewrite !filter_as_sum, <- sum_over_add.
  rewrite (sum_over_ext _ _ (fun _ => 1%nat)) by (intros c _; destruct (good c); reflexivity).
  rewrite sum_over_const, vectors_length. lia.
Qed.
(** the number of real proofs with good challenges *)
Definition yes : adversary (X -> adversary bool) := Answer (fun _ => Answer true).
Lemma good_proofs : (length C ^ m * real_wins C D T real1 yes = length C ^ length D * (good_challenges * length T))%nat.
Proof.
  rewrite <- (middle_real X_dec C D HD m T real1 sim1 qs yes shape shape_qs sim1_shape real1_shape same_number1).
  unfold middle. rewrite (sum_over_ext _ _ (fun _ => good_challenges * length T)%nat).
  - rewrite sum_over_const. unfold all_oracles, oracles. rewrite oracles_length. reflexivity.
  - intros O _. unfold good_challenges. rewrite filter_as_sum, <- sum_over_mul. apply sum_over_ext. intros c _.
    unfold sim1. destruct (good c).
    + rewrite (sum_over_ext _ _ (fun _ => 1%nat)); [rewrite sum_over_const; lia|]. intros t _.
      pose proof (sim_total c t). destruct (sim c t); [reflexivity|congruence].
    + rewrite (sum_over_ext _ _ (fun _ => 0%nat)) by reflexivity. rewrite sum_over_const. lia.
Qed.
Lemma real_less : (real_wins C D T real1 A <= real_wins C D T real A)%nat.
Proof.
  unfold real_wins. apply sum_over_le. intros O _. apply sum_over_le. intros t _. unfold real1.
  destruct (real O t) as [x|]; [|apply le_n]. destruct (good _); cbn [on]; lia.
Qed.
Lemma real_more : (real_wins C D T real A + real_wins C D T real1 yes <= real_wins C D T real1 A + length C ^ length D * length T)%nat.
Proof.
  transitivity (real_wins C D T real1 A + sum_over (all_oracles C D) (fun _ => sum_over T (fun _ => 1)))%nat.
  2:{ rewrite !sum_over_const. unfold all_oracles, oracles. rewrite oracles_length. lia. }
  unfold real_wins. rewrite <- !sum_over_add. apply sum_over_le. intros O _. rewrite <- !sum_over_add. apply sum_over_le. intros t _.
  unfold real1. destruct (real O t) as [x|]; [|cbn; lia]. destruct (good _); cbn [on yes output b2n];
    destruct (output O (output O A x)); cbn; lia.
Qed.
Lemma sim_less : (sim_wins C D m T sim1 qs A <= sim_wins C D m T sim qs A)%nat.
Proof.
  unfold sim_wins. apply sum_over_le. intros O _. apply sum_over_le. intros c _. apply sum_over_le. intros t _. unfold sim1.
  destruct (good c); [apply le_n|cbn [on]; lia].
Qed.
Lemma sim_more : (sim_wins C D m T sim qs A <= sim_wins C D m T sim1 qs A + length C ^ length D * (bad_challenges * length T))%nat.
Proof.
  transitivity (sim_wins C D m T sim1 qs A + sum_over (all_oracles C D) (fun _ => bad_challenges * length T))%nat.
  2:{ rewrite !sum_over_const. unfold all_oracles, oracles. rewrite oracles_length. lia. }
  unfold sim_wins. rewrite <- !sum_over_add. apply sum_over_le. intros O _.
  unfold bad_challenges. rewrite filter_as_sum, <- sum_over_mul, <- sum_over_add. apply sum_over_le. intros c _.
  unfold sim1. destruct (good c); cbn [negb]; [lia|].
  transitivity (sum_over T (fun _ => 1%nat)); [|rewrite sum_over_const; lia].
  apply sum_over_le. intros t _. destruct (sim c t) as [x|]; [|cbn; lia]. cbn [on]. unfold b2n. destruct (output _ _); lia.
Qed.

Lemma two_games_most : let p := Z.to_nat modulus in
  (p * (length C ^ m * real_wins C D T real A) <= p * sim_wins C D m T sim qs A + Q * (length C ^ length D * (length C ^ m * length T))
     + p * (length C ^ length D * (bad_challenges * length T)))%nat /\
  (p * sim_wins C D m T sim qs A <= p * (length C ^ m * real_wins C D T real A) + Q * (length C ^ length D * (length C ^ m * length T))
     + p * (length C ^ length D * (bad_challenges * length T)))%nat.
Proof.
  intros p.
  destruct (two_games X_dec C D HD m T real1 sim1 qs A Q HQ shape shape_qs sim1_shape real1_shape same_number1 rare1) as [G1' G2'].
  fold p in G1', G2'. pose proof good_proofs as Hg. pose proof good_bad as Hgb. pose proof real_less as Rl. pose proof real_more as Rm.
  pose proof sim_less as Sl. pose proof sim_more as Sm.
  set (N := (length C ^ m)%nat) in *. set (M := (length C ^ length D)%nat) in *.
  set (R := real_wins C D T real A) in *. set (R1 := real_wins C D T real1 A) in *. set (Y := real_wins C D T real1 yes) in *.
  set (S := sim_wins C D m T sim qs A) in *. set (S1 := sim_wins C D m T sim1 qs A) in *. set (t := length T) in *.
  assert (Hr : (N * R <= N * R1 + M * (bad_challenges * t))%nat).
  { apply (Nat.mul_le_mono_l _ _ N) in Rm. rewrite !Nat.mul_add_distr_l, Hg in Rm.
    assert (E : (N * (M * t) = M * (good_challenges * t) + M * (bad_challenges * t))%nat) by (rewrite <- Hgb; ring).
    rewrite E in Rm. revert Rm. generalize (M * (good_challenges * t))%nat (M * (bad_challenges * t))%nat (N * R)%nat (N * R1)%nat. intros. lia. }
  apply (Nat.mul_le_mono_l _ _ p) in Hr, Sl, Sm. apply (Nat.mul_le_mono_l _ _ N) in Rl. apply (Nat.mul_le_mono_l _ _ p) in Rl.
  rewrite Nat.mul_add_distr_l in Hr, Sm. revert G1' G2' Hr Rl Sl Sm.
  generalize (p * (M * (bad_challenges * t)))%nat (p * (N * R))%nat (p * (N * R1))%nat (p * S)%nat (p * S1)%nat (Q * (M * (N * t)))%nat. intros. lia.
Qed.
End MostChallenges.

(** the challenges at two positions are not zero *)
Definition nonzero_at (i j : nat) (c : list F) : bool := negb (is_zero (nth i c 0) || is_zero (nth j c 0)).
Lemma nonzero_at_ok i j c : nonzero_at i j c = true <-> nth i c 0 <> 0 /\ nth j c 0 <> 0.
Proof.
  unfold nonzero_at. rewrite negb_true_iff, orb_false_iff. rewrite <- !not_true_iff_false, !is_zero_true. reflexivity.
Qed.
Lemma zero_at (C : list F) m : forall i, (i < m)%nat -> (length C * length (filter (fun c => is_zero (nth i c (fzero _))) (vectors C m)) = times C (fzero _) * length C ^ m)%nat.
Proof.
  induction m as [|m IH]; intros i Hi; [lia|]. rewrite filter_as_sum. cbn [vectors Nat.pow]. rewrite sum_over_flat_map.
  destruct i as [|i].
  - rewrite (sum_over_ext C _ (fun x => (if is_zero x then 1 else 0) * length C ^ m)%nat).
    + rewrite sum_over_mul, <- filter_as_sum, (zeros_times C). lia.
    + intros x _. rewrite sum_over_map. cbn [nth]. rewrite sum_over_const, vectors_length. lia.
  - rewrite (sum_over_ext C _ (fun _ => length (filter (fun c => is_zero (nth i c (fzero _))) (vectors C m)))).
    + rewrite sum_over_const, (IH i) by lia. lia.
    + intros x _. rewrite sum_over_map, filter_as_sum. reflexivity.
Qed.
Lemma few_bad (C : list F) m i j : (i < m)%nat -> (j < m)%nat -> (length C * bad_challenges C m (nonzero_at i j) <= 2 * times C (fzero _) * length C ^ m)%nat.
Proof.
  intros Hi Hj. transitivity (length C * (length (filter (fun c => is_zero (nth i c (fzero _))) (vectors C m)) + length (filter (fun c => is_zero (nth j c (fzero _))) (vectors C m))))%nat.
  - apply Nat.mul_le_mono_l. unfold bad_challenges. rewrite !filter_as_sum, <- sum_over_add. apply sum_over_le. intros c _.
    unfold nonzero_at. rewrite negb_involutive. destruct (is_zero (nth i c (fzero _))), (is_zero (nth j c (fzero _))); cbn; lia.
  - rewrite Nat.mul_add_distr_l, !zero_at by assumption. lia.
Qed.

(** the bad challenges as a fraction *)
Lemma most_bound p c N R S Q M t z B : (c * B <= 2 * z * N)%nat ->
  (p * (N * R) <= p * S + Q * (M * (N * t)) + p * (M * (B * t)))%nat /\
  (p * S <= p * (N * R) + Q * (M * (N * t)) + p * (M * (B * t)))%nat ->
  (p * c * (N * R) <= p * c * S + (Q * c + 2 * p * z) * (M * N * t))%nat /\
  (p * c * S <= p * c * (N * R) + (Q * c + 2 * p * z) * (M * N * t))%nat.
Proof.
  intros HB [H1 H2]. apply (Nat.mul_le_mono_l _ _ (p * M * t)) in HB. apply (Nat.mul_le_mono_l _ _ c) in H1, H2.
  assert (E0 : (c * (p * (M * (B * t))) = p * M * t * (c * B))%nat) by ring.
  assert (E1 : ((Q * c + 2 * p * z) * (M * N * t) = c * (Q * (M * (N * t))) + p * M * t * (2 * z * N))%nat) by ring.
  rewrite !Nat.mul_add_distr_l, E0 in H1, H2. rewrite E1.
  replace (p * c * (N * R))%nat with (c * (p * (N * R)))%nat by ring. replace (p * c * S)%nat with (c * (p * S))%nat by ring.
  split; lia.
Qed.
Lemma filter_few {Y} (f : Y -> bool) l : (length (filter f l) <= length l)%nat.
Proof. induction l as [|a l IH]; [apply le_n|]. cbn [filter]. destruct (f a); cbn [length]; lia. Qed.
(** without zero among the answers *)
Lemma no_zero_bound c a x y b t : (c = 0 -> x = 0 /\ y = 0)%nat ->
  (a * c * x <= a * c * y + (b * c + 2 * a * 0) * t /\ a * c * y <= a * c * x + (b * c + 2 * a * 0) * t)%nat ->
  (a * x <= a * y + b * t /\ a * y <= a * x + b * t)%nat.
Proof.
  intros H0 [H1 H2]. destruct c as [|c].
  - destruct (H0 eq_refl) as [-> ->]. lia.
  - split; apply (Nat.mul_le_mono_pos_l _ _ (S c)); lia.
Qed.
Lemma times_none (C : list F) : ~ In (fzero _) C -> times C (fzero _) = 0%nat.
Proof. intros Hn. unfold times. apply count_occ_not_In, Hn. Qed.
End RomCount.
