(** Property C51.
    Vocabulary: Spec/R1CS.v, Spec/Sim.v, Spec/Protocol.v, Spec/Indist.v. *)
From Coq Require Import ZArith String List Lia Bool Field.
From Verif.Base Require Import Outcome Fp Params Algebra Instances.
From Verif.Model Require Import Transcript LinComb Prog VectorPoly IPP Prover Verifier.
From Verif.Spec Require Import R1CS Sim Session Protocol Indist.
From Verif.Proofs Require Import WIMain.
From Verif.Props Require Import Demo R1CSProps.
Import ListNotations.

Section Props.
Context {P : Params} {OK : ParamsOk P}.
Local Open Scope fe_scope.

(** ** C51 Witness indistinguishability *)

(** Two provers with different secrets for the same verifier output a given
    proof with exactly the same number of random tapes. *)
Theorem C51_witness_indistinguishable W W' g h t {A A' B} (R : A -> B -> Prop) (R' : A' -> B -> Prop)
    pp pp' vp a s a' s' s2 s2' G H pf tp k m :
  let n := length (p_aL s2) in
  let t1 := first_phase_transcript pf (length (p_v s)) (p_transcript s) in
  generates h -> sim g h R pp vp -> sim g h R' pp' vp ->
  prun W false pp (prover_new g h t) = Done (a, s) -> prun W' false pp' (prover_new g h t) = Done (a', s') ->
  Forall no_random (p_deferred s) -> Forall no_random (p_deferred s') ->
  prover_create_randomized_constraints W (p_with_transcript t1 s) = Done (Ok s2) ->
  prover_create_randomized_constraints W' (p_with_transcript t1 s') = Done (Ok s2') ->
  Forall (lc_in_range n (length (p_v s))) (p_constraints s2) ->
  satisfies (prover_assignment s2) n (p_constraints s2) -> satisfies (prover_assignment s2') n (p_constraints s2') ->
  (next_power_of_two n <= length G)%nat -> (next_power_of_two n <= length H)%nat ->
  c_y (protocol_challenges (p_transcript s2) pf) <> 0 -> (11 + 2 * n <= k)%nat ->
  (number_of k (yields W s G H pf tp) m <-> number_of k (yields W' s' G H pf tp) m).
Proof. exact (witness_indistinguishable W W' g h t R R' pp pp' vp a s a' s' s2 s2' G H pf tp k m). Qed.

Theorem C51_witness_indistinguishable_one_phase W W' g h t {A A' B} (R : A -> B -> Prop) (R' : A' -> B -> Prop)
    pp pp' vp a s a' s' G H pf tp k m :
  let n := length (p_aL s) in
  let t1 := first_phase_transcript pf (length (p_v s)) (p_transcript s) in
  generates h -> sim g h R pp vp -> sim g h R' pp' vp ->
  prun W false pp (prover_new g h t) = Done (a, s) -> prun W' false pp' (prover_new g h t) = Done (a', s') ->
  p_deferred s = [] ->
  Forall (lc_in_range n (length (p_v s))) (p_constraints s) ->
  satisfies (prover_assignment s) n (p_constraints s) -> satisfies (prover_assignment s') n (p_constraints s') ->
  (next_power_of_two n <= length G)%nat -> (next_power_of_two n <= length H)%nat ->
  c_y (protocol_challenges (r1cs_1phase_domain_sep t1) pf) <> 0 -> (11 + 2 * n <= k)%nat ->
  (number_of k (yields W s G H pf tp) m <-> number_of k (yields W' s' G H pf tp) m).
Proof. exact (witness_indistinguishable_one_phase W W' g h t R R' pp pp' vp a s a' s' G H pf tp k m). Qed.

(** a proof that the prover outputs is counted: it is output with the tape of the values drawn *)
Theorem C51_output_counted W g h t {A} (pp : pprog A) a s G H pf tp k :
  prun W false pp (prover_new g h t) = Done (a, s) -> Forall no_random (p_deferred s) ->
  prove W s G H = Done (Ok (pf, tp)) -> yields W s G H pf tp (randoms W (p_nrand s) k).
Proof. exact (output_counted W g h t pp a s G H pf tp k). Qed.

(** the number exists and is unique *)
Theorem C51_number_of_tapes W s G H pf tp k : exists! m, number_of k (yields W s G H pf tp) m.
Proof. exact (number_of_tapes W s G H pf tp k). Qed.
End Props.

(** ** The hypotheses are met: a two-phase session, two witnesses *)
#[local] Existing Instance toyP.
#[local] Existing Instance toyP_ok.

Definition wi_prove (x y z bx by_ bz : F) : pprog (result unit) :=
  (vx <- cs_commit (x, bx) ;; vy <- cs_commit (y, by_) ;; vz <- cs_commit (z, bz) ;;
   circuit (snd vx) (snd vy) (snd vz) (Some (x, y)))%prog.

Lemma wi_sim x y z bx by_ bz X Y Z : X = commit demo_g demo_h x bx -> Y = commit demo_g demo_h y by_ -> Z = commit demo_g demo_h z bz ->
  sim demo_g demo_h eq (wi_prove x y z bx by_ bz) (demo_verify X Y Z).
Proof.
  intros -> -> ->.
  repeat (unfold wi_prove, demo_verify, circuit, circuit2, cs_commit, cs_multiply, cs_allocate, cs_constrain, cs_specify, cs_challenge, ptry;
          cbn [pbind ptry option_map fst snd];
          first [apply sim_commit|apply sim_multiply|apply sim_constrain|apply sim_allocate|apply sim_specify
                |apply sim_challenge|apply sim_ret|apply lc_same_refl|reflexivity|intros]).
Qed.

(** another opening of the same three commitments: 2 * 3 = 6 *)
Definition gam : F := fmul demo_g (finv demo_h).
Definition moved (v v' : Z) (b : Z) : F := fadd (fe b) (fmul (fsub (fe v) (fe v')) gam).
Definition wi_pp : pprog (result unit) := wi_prove (fe 2) (fe 3) (fe 6) (moved 6 2 11) (moved 7 3 12) (moved 42 6 13).
Definition wi_s : prover :=
  match prun demoW false wi_pp (prover_new demo_g demo_h []) with
  | Done (_, s) => s | Panic => prover_new demo_g demo_h [] end.
Definition wi_t1 : transcript := first_phase_transcript demo_proof (length (p_v demo_s)) (p_transcript demo_s).
Definition second_state (s : prover) : prover :=
  match prover_create_randomized_constraints demoW (p_with_transcript wi_t1 s) with
  | Done (Ok s2) => s2 | _ => s end.

Lemma wi_run : prun demoW false wi_pp (prover_new demo_g demo_h []) = Done (Ok tt, wi_s).
Proof.
  unfold wi_s. destruct (prun demoW false wi_pp (prover_new demo_g demo_h [])) as [[[[]|] s]|] eqn:E; [reflexivity| |];
  assert (X : match prun demoW false wi_pp (prover_new demo_g demo_h []) with Done (Ok tt, _) => true | _ => false end = true) by (vm_compute; reflexivity);
  rewrite E in X; discriminate X.
Qed.

Lemma demo_generates : generates demo_h.
Proof.
  assert (Hh : demo_h <> fzero _) by (intros E; apply (f_equal (@fval _)) in E; vm_compute in E; discriminate E).
  split; [exact Hh|]. intros X. exists (fmul X (finv demo_h)). change (X = fmul (fmul X (finv demo_h)) demo_h).
  exact (div_mul X demo_h Hh).
Qed.

Lemma wi_prove_no_random x y z bx by_ bz : no_random (wi_prove x y z bx by_ bz).
Proof.
  cbn. intros r r0 r1 r2 r3 [r4|]; [|exact I]. intros [r5|]; [|exact I]. cbn. auto.
Qed.
Lemma demo_no_random : Forall no_random (p_deferred demo_s).
Proof. eapply (no_random_deferred demoW demo_pp); [apply (wi_prove_no_random (fe 6) (fe 7) (fe 42) (fe 11) (fe 12) (fe 13))| |exact demo_run]. constructor. Qed.
Lemma wi_no_random : Forall no_random (p_deferred wi_s).
Proof. eapply (no_random_deferred demoW wi_pp); [apply wi_prove_no_random| |exact wi_run]. constructor. Qed.

Lemma second_state_ok s : is_done (prover_create_randomized_constraints demoW (p_with_transcript wi_t1 s)) = true ->
  prover_create_randomized_constraints demoW (p_with_transcript wi_t1 s) = Done (Ok (second_state s)).
Proof.
  unfold second_state. destruct (prover_create_randomized_constraints demoW (p_with_transcript wi_t1 s)) as [[|]|]; [reflexivity|discriminate|discriminate].
Qed.

(** 6 * 7 = 42 and 2 * 3 = 6, in the same three commitments *)
Opaque demo_s wi_s demo_proof demo_result second_state.

Example C51_example :
  generates demo_h /\
  sim demo_g demo_h eq demo_pp demo_vp /\ sim demo_g demo_h eq wi_pp demo_vp /\
  prun demoW false demo_pp (prover_new demo_g demo_h []) = Done (Ok tt, demo_s) /\
  prun demoW false wi_pp (prover_new demo_g demo_h []) = Done (Ok tt, wi_s) /\
  p_v demo_s <> p_v wi_s /\
  Forall no_random (p_deferred demo_s) /\ Forall no_random (p_deferred wi_s) /\ length (p_deferred demo_s) = 1%nat /\
  prover_create_randomized_constraints demoW (p_with_transcript wi_t1 demo_s) = Done (Ok (second_state demo_s)) /\
  prover_create_randomized_constraints demoW (p_with_transcript wi_t1 wi_s) = Done (Ok (second_state wi_s)) /\
  length (p_aL (second_state demo_s)) = 3%nat /\
  Forall (lc_in_range 3 (length (p_v demo_s))) (p_constraints (second_state demo_s)) /\
  satisfies (prover_assignment (second_state demo_s)) 3 (p_constraints (second_state demo_s)) /\
  satisfies (prover_assignment (second_state wi_s)) 3 (p_constraints (second_state wi_s)) /\
  (next_power_of_two 3 <= length demo_G)%nat /\ (next_power_of_two 3 <= length demo_H)%nat /\
  c_y (protocol_challenges (p_transcript (second_state demo_s)) demo_proof) <> fzero _ /\
  (** and the first prover outputs this proof with at least one tape, hence so does the second *)
  yields demoW demo_s demo_G demo_H demo_proof (snd demo_result) (randoms demoW (p_nrand demo_s) 17) /\
  exists tape, length tape = 17%nat /\ yields demoW wi_s demo_G demo_H demo_proof (snd demo_result) tape.
Proof.
  assert (Eg : sim demo_g demo_h eq wi_pp demo_vp) by (apply wi_sim; apply Fp_ext; vm_compute; reflexivity).
  assert (Q1 := demo_no_random).
  assert (Q2 := wi_no_random).
  assert (S1 := second_state_ok demo_s ltac:(vm_compute; reflexivity)).
  assert (S2 := second_state_ok wi_s ltac:(vm_compute; reflexivity)).
  assert (N : length (p_aL (second_state demo_s)) = 3%nat) by (vm_compute; reflexivity).
  assert (R : Forall (lc_in_range 3 (length (p_v demo_s))) (p_constraints (second_state demo_s))) by (apply in_range_all; vm_compute; reflexivity).
  assert (T1 : satisfies (prover_assignment (second_state demo_s)) 3 (p_constraints (second_state demo_s))) by (apply satisfies_b; vm_compute; reflexivity).
  assert (T2 : satisfies (prover_assignment (second_state wi_s)) 3 (p_constraints (second_state wi_s))) by (apply satisfies_b; vm_compute; reflexivity).
  assert (LG : (next_power_of_two 3 <= length demo_G)%nat) by (apply Nat.leb_le; vm_compute; reflexivity).
  assert (LH : (next_power_of_two 3 <= length demo_H)%nat) by (apply Nat.leb_le; vm_compute; reflexivity).
  assert (Hy : c_y (protocol_challenges (p_transcript (second_state demo_s)) demo_proof) <> fzero _) by (apply nonzero_one; vm_compute; reflexivity).
  assert (Y : yields demoW demo_s demo_G demo_H demo_proof (snd demo_result) (randoms demoW (p_nrand demo_s) 17)).
  { eapply C51_output_counted; [exact demo_run|exact Q1|exact demo_prove_ok]. }
  split; [exact demo_generates|]. split; [apply demo_sim|]. split; [exact Eg|]. split; [exact demo_run|]. split; [exact wi_run|].
  split. { intros E. apply (f_equal (fun l => fval (nth 0 l (fzero _)))) in E. vm_compute in E. discriminate E. }
  split; [exact Q1|]. split; [exact Q2|]. split; [vm_compute; reflexivity|].
  split; [exact S1|]. split; [exact S2|]. split; [exact N|]. split; [exact R|]. split; [exact T1|]. split; [exact T2|].
  split; [exact LG|]. split; [exact LH|]. split; [exact Hy|]. split; [exact Y|].
  destruct (count_exists demoW demo_s demo_G demo_H demo_proof (snd demo_result) 17) as [m Hm].
  pose proof (C51_witness_indistinguishable demoW demoW demo_g demo_h [] eq eq demo_pp wi_pp demo_vp (Ok tt) demo_s (Ok tt) wi_s
    (second_state demo_s) (second_state wi_s) demo_G demo_H demo_proof (snd demo_result) 17 m) as X. cbv zeta in X. rewrite N in X.
  pose proof (X demo_generates (demo_sim _ _ _) Eg demo_run wi_run Q1 Q2 S1 S2 R T1 T2 LG LH Hy (le_n 17)) as X'.
  pose proof (proj1 X' Hm) as Hm'. clear X X'.
  destruct Hm as (l & _ & Ll & Il). destruct Hm' as (l' & _ & Ll' & Il').
  assert (In (randoms demoW (p_nrand demo_s) 17) l) by (apply Il; split; [reflexivity|exact Y]).
  destruct l' as [|tape l']; [destruct l; [contradiction|cbn in *; lia]|]. exists tape. apply Il'. left. reflexivity.
Qed.

Print Assumptions C51_witness_indistinguishable.
Print Assumptions C51_witness_indistinguishable_one_phase.
Print Assumptions C51_output_counted.
Print Assumptions C51_number_of_tapes.
