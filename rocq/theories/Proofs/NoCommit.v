(** Gadgets make no commitments; what the verifying functions commit to. *)
From Coq Require Import ZArith String List Lia Bool Arith.
From Verif.Base Require Import Outcome Fp Params Algebra.
From Verif.Model Require Import Transcript LinComb Prog Prover Verifier Gadgets Hash.
From Verif.Proofs Require Import RunProofs.
Import ListNotations.

Section NoCommit.
Context {P : Params}.
Local Open Scope fe_scope.
Context (W : world) (ph : bool).

Definition keepsV {A} (m : vprog A) : Prop := forall s a s', vrun W ph m s = Done (a, s') -> v_V s' = v_V s.

Lemma keeps_ret {A} (a : A) : keepsV (PRet a).
Proof. intros s a' s' E. injection E as <- <-. reflexivity. Qed.
Lemma keeps_panic {A} : keepsV (@PPanic _ _ _ A).
Proof. intros s a s' E. discriminate. Qed.
Lemma keeps_bind {A B} (m : vprog A) (f : A -> vprog B) : keepsV m -> (forall a, keepsV (f a)) -> keepsV (pbind m f).
Proof.
  intros Hm Hf s a s' E. rewrite vrun_bind in E. destruct (vrun W ph m s) as [[b s1]|] eqn:Em; [|discriminate].
  cbn [obind] in E. rewrite (Hf _ _ _ _ E). exact (Hm _ _ _ Em).
Qed.
Lemma keeps_try {A B} (m : vprog (result A)) (f : A -> vprog (result B)) :
  keepsV m -> (forall a, keepsV (f a)) -> keepsV (ptry m f).
Proof. intros Hm Hf. apply keeps_bind; [exact Hm|]. intros [a|e]; [apply Hf|apply keeps_ret]. Qed.
Lemma keeps_lift {A} (o : outcome A) : keepsV (p_lift o).
Proof. destruct o; [apply keeps_ret|apply keeps_panic]. Qed.
Lemma keeps_multiply l r : keepsV (cs_multiply l r).
Proof. intros s a s' E. injection E as <- <-. reflexivity. Qed.
Lemma keeps_constrain l : keepsV (cs_constrain l).
Proof. intros s a s' E. injection E as <- <-. reflexivity. Qed.
Lemma keeps_evaluate l : keepsV (cs_evaluate l).
Proof. intros s a s' E. injection E as <- <-. reflexivity. Qed.
Lemma keeps_allocate_multiplier o : keepsV (cs_allocate_multiplier o).
Proof. intros s a s' E. injection E as <- <-. reflexivity. Qed.
Lemma keeps_allocate o : keepsV (cs_allocate o).
Proof.
  intros s a s' E. cbn [cs_allocate vrun] in E. unfold verifier_allocate in E.
  destruct (v_pending s); injection E as <- <-; reflexivity.
Qed.
Lemma keeps_allocate_single o : keepsV (cs_allocate_single o).
Proof.
  intros s a s' E. cbn [cs_allocate_single vrun] in E. unfold verifier_allocate_single, verifier_allocate in E.
  destruct (v_pending s); cbn in E; injection E as <- <-; reflexivity.
Qed.
Lemma keeps_simplify l : keepsV (p_simplify l).
Proof. intros s a s' E. injection E as <- <-. reflexivity. Qed.
Lemma keeps_random : keepsV p_random.
Proof. intros s a s' E. injection E as <- <-. reflexivity. Qed.
Lemma keeps_fold {A S} (f : S -> A -> vprog S) l : (forall s a, keepsV (f s a)) -> forall s, keepsV (p_fold f l s).
Proof. intros H. induction l as [|a l IH]; intros s; cbn [p_fold]; [apply keeps_ret|apply keeps_bind; [apply H|exact IH]]. Qed.
Lemma keeps_try_fold {A S} (f : S -> A -> vprog (result S)) l :
  (forall s a, keepsV (f s a)) -> forall s, keepsV (p_try_fold f l s).
Proof. intros H. induction l as [|a l IH]; intros s; cbn [p_try_fold]; [apply keeps_ret|apply keeps_try; [apply H|exact IH]]. Qed.
End NoCommit.

Ltac keeps_destruct :=
  match goal with |- context [match ?x with _ => _ end] => destruct x end.
Ltac keeps :=
  repeat first
    [ apply keeps_ret | apply keeps_panic | apply keeps_try; [|intros ?] | apply keeps_bind; [|intros ?]
    | apply keeps_lift | apply keeps_multiply | apply keeps_constrain | apply keeps_evaluate
    | apply keeps_allocate_multiplier | apply keeps_allocate | apply keeps_allocate_single | apply keeps_simplify | apply keeps_random
    | apply keeps_fold; intros ? ? | apply keeps_try_fold; intros ? ? | assumption | keeps_destruct ].

Section HashKeeps.
Context {P : Params}.
Local Open Scope fe_scope.
Context (W : world) (ph : bool).
Local Notation keepsV := (keepsV W ph).

Lemma scalar_keeps l x : keepsV (constrain_lc_with_scalar l x).
Proof. apply keeps_constrain. Qed.
Lemma nonzero_keeps x y : keepsV (is_nonzero_gadget x y).
Proof. unfold is_nonzero_gadget, constrain_lc_with_scalar. keeps. Qed.
Lemma sbox_keeps sbox l k : keepsV (synthesize_sbox sbox l k).
Proof.
  unfold synthesize_sbox, synthesize_cube_sbox, synthesize_quint_sbox, synthesize_inverse_sbox, constrain_lc_with_scalar. destruct sbox; keeps; apply nonzero_keeps.
Qed.
Lemma permutation_keeps p sbox input : keepsV (Poseidon_permutation_constraints p sbox input).
Proof.
  unfold Poseidon_permutation_constraints, full_round_constraints, partial_round_constraints, full_sbox_constraints, partial_sbox_constraints.
  keeps; apply sbox_keeps.
Qed.
Local Opaque Poseidon_permutation_constraints.
Lemma hash_2_constraints_keeps p sbox xl xr statics : keepsV (Poseidon_hash_2_constraints p sbox xl xr statics).
Proof. unfold Poseidon_hash_2_constraints. keeps; apply permutation_keeps. Qed.
Lemma hash_4_constraints_keeps p sbox input statics : keepsV (Poseidon_hash_4_constraints p sbox input statics).
Proof. unfold Poseidon_hash_4_constraints. keeps; apply permutation_keeps. Qed.
Lemma hash_8_constraints_keeps p sbox input zero : keepsV (Poseidon_hash_8_constraints p sbox input zero).
Proof. unfold Poseidon_hash_8_constraints. keeps; apply permutation_keeps. Qed.
Local Opaque Poseidon_hash_2_constraints Poseidon_hash_4_constraints Poseidon_hash_8_constraints.
Lemma hash_2_gadget_keeps p sbox xl xr statics out : keepsV (Poseidon_hash_2_gadget p sbox xl xr statics out).
Proof. unfold Poseidon_hash_2_gadget, constrain_lc_with_scalar. keeps; apply hash_2_constraints_keeps. Qed.
Lemma hash_4_gadget_keeps p sbox input statics out : keepsV (Poseidon_hash_4_gadget p sbox input statics out).
Proof. unfold Poseidon_hash_4_gadget, constrain_lc_with_scalar. keeps; apply hash_4_constraints_keeps. Qed.
Lemma hash_8_gadget_keeps p sbox input zero out : keepsV (Poseidon_hash_8_gadget p sbox input zero out).
Proof. unfold Poseidon_hash_8_gadget, constrain_lc_with_scalar. keeps; apply hash_8_constraints_keeps. Qed.
End HashKeeps.

Section Commits.
Context {P : Params}.
Local Open Scope fe_scope.
Context (W : world).

(** a program that commits to [L] and then goes on like [m] *)
Lemma commit_step {A} c (f : var -> vprog A) s a s' :
  vrun W false (pbind (cs_commit c) f) s = Done (a, s') ->
  exists w s1, v_V s1 = v_V s ++ [c] /\ vrun W false (f w) s1 = Done (a, s').
Proof. intros E. cbn [cs_commit pbind vrun] in E. unfold verifier_commit in E. eexists _, _. split; [|exact E]. reflexivity. Qed.

Lemma received_step n {A} comms (f : list var -> vprog A) s a s' :
  vrun W false (pbind (commit_received comms n) f) s = Done (a, s') ->
  exists ws s1, (n <= length comms)%nat /\ length ws = n /\ v_V s1 = v_V s ++ firstn n comms /\ vrun W false (f ws) s1 = Done (a, s').
Proof.
  unfold commit_received.
  assert (H : forall k ws0 cs B (g : list G1 * list var -> vprog B) st b st',
    vrun W false (pbind (p_fold (fun '(cs, vars) (_ : nat) =>
      pbind (remove0 cs) (fun '(c, cs) => pbind (cs_commit c) (fun var => PRet (cs, vars ++ [var])))) (seq k n) (cs, ws0)) g) st = Done (b, st') ->
    exists ws s1, (n <= length cs)%nat /\ length ws = n /\ v_V s1 = v_V st ++ firstn n cs /\ vrun W false (g (skipn n cs, ws0 ++ ws)) s1 = Done (b, st')).
  { induction n as [|n IH]; intros k ws0 cs B g st b st' E.
    - exists [], st. rewrite !app_nil_r. cbn in E |- *. auto with arith.
    - cbn [seq p_fold] in E. destruct cs as [|c cs]; [discriminate|]. cbn [remove0 pbind] in E.
      cbn [cs_commit pbind vrun] in E. unfold verifier_commit in E. cbn [pbind] in E.
      apply IH in E as (ws & s1 & Hn & Hl & HV & E). eexists (_ :: ws), s1. cbn [length firstn skipn]. split; [lia|]. split; [lia|].
      rewrite <- app_assoc in E. cbn [app] in E. split; [|exact E]. rewrite HV. cbn. rewrite <- app_assoc. reflexivity. }
  intros E. rewrite vrun_bind in E. rewrite vrun_bind in E.
  destruct (vrun W false (p_fold _ _ _) s) as [[st s0]|] eqn:E0; [|discriminate].
  specialize (H O [] comms _ (fun x => PRet x) s st s0). cbn [obind] in E.
  destruct H as (ws & s1 & Hn & Hl & HV & E1). { rewrite vrun_bind, E0. reflexivity. }
  injection E1 as <- <-. cbn [vrun obind app] in E. exists ws, s1. auto.
Qed.

Lemma verify_commits p sbox output g h comms vs b vs' :
  (vrun W false (verify_Poseidon_2 output p sbox g h comms) vs = Done (b, vs') ->
   v_V vs' = v_V vs ++ firstn 2 comms ++ [commit g h 0 0] /\ (2 <= length comms)%nat) /\
  (vrun W false (verify_Poseidon_4 output p sbox g h comms) vs = Done (b, vs') ->
   v_V vs' = v_V vs ++ firstn 4 comms ++ [commit g h 0 0] /\ (4 <= length comms)%nat) /\
  (vrun W false (verify_Poseidon_8 output p sbox g h comms) vs = Done (b, vs') ->
   v_V vs' = v_V vs ++ firstn 8 comms ++ [commit g h 0 0] /\ (8 <= length comms)%nat).
Proof.
  split; [|split]; intros E.
  - destruct comms as [|c1 [|c2 comms]]; [discriminate..|]. unfold verify_Poseidon_2 in E. cbn [remove0 pbind] in E.
    apply commit_step in E as (w1 & s1 & V1 & E). cbn [remove0 pbind] in E.
    apply commit_step in E as (w2 & s2 & V2 & E). unfold allocate_statics_for_verifier in E.
    cbn [pbind cs_commit vrun Nat.ltb Nat.leb length Nat.sub seq p_fold] in E. unfold verifier_commit in E.
    apply keeps_try in E; [|apply hash_2_gadget_keeps|intros; apply keeps_ret].
    rewrite E. cbn. rewrite V2, V1, <- !app_assoc. split; [reflexivity|lia].
  - unfold verify_Poseidon_4 in E. apply received_step in E as (ws & s1 & Hn & Hl & V1 & E). unfold allocate_statics_for_verifier in E.
    cbn [pbind cs_commit vrun Nat.ltb Nat.leb length Nat.sub seq p_fold] in E. unfold verifier_commit in E.
    apply keeps_try in E; [|apply hash_4_gadget_keeps|intros; apply keeps_ret].
    rewrite E; cbn; rewrite V1, <- !app_assoc. split; [reflexivity|exact Hn].
  - unfold verify_Poseidon_8 in E. apply received_step in E as (ws & s1 & Hn & Hl & V1 & E).
    apply commit_step in E as (w2 & s2 & V2 & E).
    apply keeps_try in E; [|apply hash_8_gadget_keeps|intros; apply keeps_ret].
    rewrite E, V2, V1, <- !app_assoc. split; [reflexivity|exact Hn].
Qed.
End Commits.
