(** The rules of Proofs/TotalTools.v for the prover: what running a program ends with. *)
From Coq Require Import ZArith String List Lia Arith Permutation.
From Verif.Base Require Import Outcome Fp Params Algebra.
From Verif.Model Require Import Transcript LinComb Prog IPP Prover Verifier.
From Verif.Spec Require Import R1CS.
From Verif.Proofs Require Import LinCombProofs RunProofs CircuitProofs CircuitMain GadgetTools TotalTools.
Import ListNotations.
Local Open Scope nat_scope.
Local Notation length := List.length.

Section Attempt.
Context {P : Params} {OK : ParamsOk P}.
Local Notation lr := lc_in_range.

(** a prover with [n] gates, [c] commitments and the half-used gate [p] *)
Record at_size (s : prover) (p : option nat) (n c : nat) : Prop := {
  at_wf : pwf s;
  at_pending : p_pending s = p;
  at_gates : length (p_aL s) = n;
  at_commitments : length (p_v s) = c;
  at_range : Forall (lr n c) (p_constraints s)
}.

Lemma at_multiply s p n c l r : at_size s p n c -> lr n c l -> lr n c r ->
  exists s', prover_multiply l r s = Done ((VLeft n, VRight n, VOut n), s') /\ at_size s' p (S n) c.
Proof.
  intros [Hwf Hp Hn Hc Hr] Hl Hr2. unfold prover_multiply.
  rewrite !prover_eval_ok by (try exact Hwf; rewrite Hn, Hc; assumption). cbn [obind].
  set (x := lc_value _ l). set (y := lc_value _ r). cbn [prover_allocate_vars].
  rewrite (pwf_aR _ Hwf), (pwf_aO _ Hwf), Hn. eexists. split; [reflexivity|]. split.
  - apply pwf_constrain, pwf_constrain. exact (pwf_alloc_vars x y s Hwf).
  - exact Hp.
  - cbn. rewrite app_length, Hn. cbn. lia.
  - exact Hc.
  - cbn. apply Forall_app. split; [apply Forall_app; split|].
    + eapply Forall_lr_mono; [| |exact Hr]; lia.
    + constructor; [|constructor]. apply lr_app; [apply (lr_mono n c); auto|apply lr_cons; [cbn; lia|apply lr_nil]].
    + constructor; [|constructor]. apply lr_app; [apply (lr_mono n c); auto|apply lr_cons; [cbn; lia|apply lr_nil]].
Qed.
Lemma at_allocate_first s n c x : at_size s None n c ->
  exists s', prover_allocate (Some x) s = Done (Ok (VLeft n), s') /\ at_size s' (Some n) (S n) c.
Proof.
  intros [Hwf Hp Hn Hc Hr]. destruct (prover_allocate (Some x) s) as [[r s']|] eqn:E.
  - pose proof (pwf_allocate _ _ _ _ Hwf E) as Hwf'. unfold prover_allocate in E. rewrite Hp in E. cbn in E. rewrite Hn in E. injection E as <- <-.
    eexists. split; [reflexivity|]. split; [exact Hwf'|reflexivity|cbn; rewrite app_length, Hn; cbn; lia|exact Hc|].
    cbn. eapply Forall_lr_mono; [| |exact Hr]; lia.
  - unfold prover_allocate in E. rewrite Hp in E. discriminate E.
Qed.
Lemma at_allocate_second s i n c x : at_size s (Some i) n c ->
  exists s', prover_allocate (Some x) s = Done (Ok (VRight i), s') /\ at_size s' None n c.
Proof.
  intros [Hwf Hp Hn Hc Hr]. pose proof (pwf_pending _ Hwf i Hp) as Hi.
  unfold prover_allocate. rewrite Hp. cbn [p_with_pending p_aL p_aR p_aO].
  assert (HiR : (i < length (p_aR s))%nat) by (rewrite (pwf_aR _ Hwf); exact Hi).
  assert (HiO : (i < length (p_aO s))%nat) by (rewrite (pwf_aO _ Hwf); exact Hi).
  destruct (set_nth_ok (p_aR s) i x HiR) as [aR ER]. rewrite ER. cbn [obind].
  rewrite (index_ok _ i 0%fe Hi). cbn [obind]. rewrite (index_ok aR i 0%fe) by (rewrite (set_nth_length _ _ _ _ ER); exact HiR). cbn [obind].
  match goal with |- context [set_nth (p_aO s) i ?v] => destruct (set_nth_ok (p_aO s) i v HiO) as [aO EO]; rewrite EO end. cbn [obind].
  eexists. split; [reflexivity|]. split; [|reflexivity|exact Hn|exact Hc|exact Hr].
  eapply (pwf_allocate (Some x) s); [exact Hwf|]. unfold prover_allocate. rewrite Hp. cbn [p_with_pending p_aL p_aR p_aO].
  rewrite ER. cbn [obind]. rewrite (index_ok _ i 0%fe Hi). cbn [obind]. rewrite (index_ok aR i 0%fe) by (rewrite (set_nth_length _ _ _ _ ER); exact HiR). cbn [obind].
  rewrite EO. reflexivity.
Qed.

(** the interpreter *)
Theorem prun_wp {A} W (m : pprog A) : forall p n c D Q s, wp m p n c D Q -> at_size s p n c ->
  (prun W false m s = Panic /\ D) \/
  exists a s', prun W false m s = Done (a, s') /\ exists p' n' c', at_size s' p' n' c' /\ Q a p' n' c'.
Proof.
  induction m; intros p n c D Q s Hw Hs; cbn [wp prun] in *; try contradiction.
  - right. exists a, s. split; [reflexivity|]. exists p, n, c. auto.
  - left. auto.
  - destruct Hw as (Hl & Hr & Hw). destruct (at_multiply s p n c _ _ Hs Hl Hr) as (s' & -> & Hs'). cbn [obind].
    eapply H; [exact Hw|exact Hs'].
  - destruct Hw as [Hg Hw]. match type of Hg with given ?o => destruct o as [x|] end; [|destruct (Hg eq_refl); reflexivity]. destruct p as [i|].
    + destruct (at_allocate_second s i n c x Hs) as (s' & -> & Hs'). cbn [obind]. eapply H; [exact Hw|exact Hs'].
    + destruct (at_allocate_first s n c x Hs) as (s' & -> & Hs'). cbn [obind]. eapply H; [exact Hw|exact Hs'].
  - destruct Hw as [Hg Hw]. match type of Hg with given ?o => destruct o as [[x y]|] end; [|destruct (Hg eq_refl); reflexivity].
    unfold prover_allocate_multiplier, prover_allocate_vars. destruct Hs as [Hwf Hp Hn Hc Hr].
    rewrite (pwf_aR _ Hwf), (pwf_aO _ Hwf), Hn. eapply H; [exact Hw|]. split.
    + exact (pwf_alloc_vars x y s Hwf).
    + exact Hp.
    + cbn. rewrite app_length, Hn. cbn. lia.
    + exact Hc.
    + cbn. eapply Forall_lr_mono; [| |exact Hr]; lia.
  - destruct Hw as (Hl & Hw). destruct Hs as [Hwf Hp Hn Hc Hr]. eapply H; [exact Hw|].
    split; [apply pwf_constrain, Hwf|exact Hp|exact Hn|exact Hc|]. cbn. apply Forall_app. split; [exact Hr|]. constructor; [exact Hl|constructor].
  - destruct Hw as [Hl Hw]. rewrite prover_eval_ok; [|apply (at_wf _ _ _ _ Hs)|rewrite (at_gates _ _ _ _ Hs), (at_commitments _ _ _ _ Hs); exact Hl].
    cbn [obind]. eapply H; [apply Hw; discriminate|exact Hs].
  - destruct Hw as [Hg Hw]. unfold prover_allocate_single. match type of Hg with given ?o => destruct o as [x|] end; [|destruct (Hg eq_refl); reflexivity]. destruct p as [i|].
    + destruct (at_allocate_second s i n c x Hs) as (s' & -> & Hs'). cbn [obind]. eapply H; [exact Hw|exact Hs'].
    + destruct (at_allocate_first s n c x Hs) as (s' & -> & Hs'). cbn [obind]. eapply H; [exact Hw|exact Hs'].
  - match goal with |- context [let (_, _) := ?x in _] => destruct x as [v b] end. destruct (prover_commit v b s) as [r s'] eqn:E.
    pose proof (pwf_commit v b s (at_wf _ _ _ _ Hs)) as Hwf. rewrite E in Hwf. destruct Hs as [_ Hp Hn Hc Hr].
    unfold prover_commit in E. injection E as <- <-. eapply H; [apply Hw; cbn; rewrite Hc; reflexivity|].
    split; [exact Hwf|exact Hp|exact Hn|cbn; rewrite app_length, Hc; cbn; lia|]. cbn. eapply Forall_lr_mono; [| |exact Hr]; lia.
  - destruct Hs as [Hwf Hp Hn Hc Hr]. eapply H; [apply Hw, permute_perm|]. split; try assumption. eapply pwf_same_wires; [..|exact Hwf]; reflexivity.
  - destruct Hs as [Hwf Hp Hn Hc Hr]. eapply H; [apply Hw|]. split; try assumption. eapply pwf_same_wires; [..|exact Hwf]; reflexivity.
Qed.

Lemma run_crash {A} W (m : pprog A) s n c : at_size s None n c -> crash m n c -> prun W false m s = Panic.
Proof. intros Hs H. destruct (prun_wp W m None _ _ True _ s H Hs) as [[E _]|(a & s' & _ & ? & ? & ? & _ & [])]. exact E. Qed.
Lemma run_fine {A} W (m : pprog A) R s n c : at_size s None n c -> fine m n c R ->
  exists a s' n' c', prun W false m s = Done (a, s') /\ at_size s' None n' c' /\ R a n' c'.
Proof.
  intros Hs H. destruct (prun_wp W m None _ _ False _ s H Hs) as [[_ []]|(a & s' & E & p' & n' & c' & Hs' & -> & _ & _ & HR)].
  exists a, s', n', c'. auto.
Qed.
End Attempt.
