(** Property C54.
    Vocabulary: Spec/R1CS.v, Spec/Sim.v, Spec/Protocol.v, Spec/Verdict.v,
    Spec/Indist.v, Spec/Simulator.v. *)
From Coq Require Import ZArith String List Lia Bool Field.
From Verif.Base Require Import Outcome Fp Params Algebra Instances.
From Verif.Model Require Import Transcript LinComb Prog VectorPoly IPP Prover Verifier.
From Verif.Spec Require Import R1CS Sim Session Protocol Verdict Indist Simulator.
From Verif.Proofs Require Import WIMain ZKMain ZKAccepted.
From Verif.Props Require Import Demo R1CSProps IndistProps.
Import ListNotations.

Section Props.
Context {P : Params} {OK : ParamsOk P}.
Local Open Scope fe_scope.

(** ** C54 Zero knowledge *)

(** A prover with a witness outputs a given proof with exactly as many random
    tapes as the simulator, which has none but is told the challenges of that
    proof in advance. *)
Theorem C54_zero_knowledge W W' g h t {A B} (R : A -> B -> Prop) pp vp a s b vs s2 vs2 G H pf tp k m :
  let n := length (p_aL s2) in
  let c := protocol_challenges (v_transcript vs2) pf in
  generates h -> sim g h R pp vp ->
  prun W false pp (prover_new g h t) = Done (a, s) -> vrun W' false vp (verifier_new t) = Done (b, vs) ->
  Forall no_random (p_deferred s) ->
  prover_create_randomized_constraints W
    (p_with_transcript (first_phase_transcript pf (length (p_v s)) (p_transcript s)) s) = Done (Ok s2) ->
  v_second W' pf vs vs2 ->
  Forall (lc_in_range n (length (p_v s))) (p_constraints s2) ->
  satisfies (prover_assignment s2) n (p_constraints s2) ->
  (next_power_of_two n <= length G)%nat -> (next_power_of_two n <= length H)%nat ->
  c_y c <> 0 -> c_x c <> 0 -> (11 + 2 * n <= k)%nat ->
  (number_of k (yields W s G H pf tp) m <-> number_of k (simulates g h vs vs2 G H pf tp) m).
Proof. exact (zero_knowledge W W' g h t R pp vp a s b vs s2 vs2 G H pf tp k m). Qed.

(** The simulator's proofs are accepted, whether or not the constraints of the
    verifier have a solution. *)
Theorem C54_simulated_accepted W vs vs2 g h G H pf tp tape r :
  let n := v_num_vars vs2 in
  let c := protocol_challenges (v_transcript vs2) pf in
  v_second W pf vs vs2 ->
  (next_power_of_two n <= length G)%nat -> (next_power_of_two n <= length H)%nat ->
  Forall (lc_in_range n (length (v_V vs2))) (v_constraints vs2) ->
  (Nat.log2_up n < 32)%nat -> (1 < n)%nat \/ batch_invert_empty_panics = false ->
  c_x c <> 0 -> all_nonzero (round_challenges n c pf) ->
  simulates g h vs vs2 G H pf tp tape ->
  exists t', verify (with_random W (v_nrand vs2) r) vs pf g h G H = Done (Ok t').
Proof. exact (simulated_accepted W vs vs2 g h G H pf tp tape r). Qed.
End Props.

(** ** The hypotheses are met *)

(** *** A two-phase session: the proof of 6 * 7 = 42 can be written down without the witness *)
Section Honest.
#[local] Existing Instance toyP.
#[local] Existing Instance toyP_ok.
Opaque demo_s demo_proof demo_result second_state demo_vs demo_vs2.

Example C54_example :
  generates demo_h /\
  sim demo_g demo_h eq demo_pp demo_vp /\
  prun demoW false demo_pp (prover_new demo_g demo_h []) = Done (Ok tt, demo_s) /\
  vrun demoW' false demo_vp (verifier_new []) = Done (Ok tt, demo_vs) /\
  Forall no_random (p_deferred demo_s) /\ length (p_deferred demo_s) = 1%nat /\
  prover_create_randomized_constraints demoW
    (p_with_transcript (first_phase_transcript demo_proof (length (p_v demo_s)) (p_transcript demo_s)) demo_s) = Done (Ok (second_state demo_s)) /\
  v_second demoW' demo_proof demo_vs demo_vs2 /\
  length (p_aL (second_state demo_s)) = 3%nat /\
  Forall (lc_in_range 3 (length (p_v demo_s))) (p_constraints (second_state demo_s)) /\
  satisfies (prover_assignment (second_state demo_s)) 3 (p_constraints (second_state demo_s)) /\
  (next_power_of_two 3 <= length demo_G)%nat /\ (next_power_of_two 3 <= length demo_H)%nat /\
  c_y (protocol_challenges (v_transcript demo_vs2) demo_proof) <> fzero _ /\
  c_x (protocol_challenges (v_transcript demo_vs2) demo_proof) <> fzero _ /\
  (** and the proof that the prover outputs is one of the simulator's *)
  exists tape, length tape = 17%nat /\ simulates demo_g demo_h demo_vs demo_vs2 demo_G demo_H demo_proof (snd demo_result) tape.
Proof.
  assert (Q1 := demo_no_random).
  assert (S1 := second_state_ok demo_s ltac:(vm_compute; reflexivity)).
  assert (V2 : v_second demoW' demo_proof demo_vs demo_vs2) by exact demo_vsecond.
  assert (N : length (p_aL (second_state demo_s)) = 3%nat) by (vm_compute; reflexivity).
  assert (R : Forall (lc_in_range 3 (length (p_v demo_s))) (p_constraints (second_state demo_s))) by (apply in_range_all; vm_compute; reflexivity).
  assert (T1 : satisfies (prover_assignment (second_state demo_s)) 3 (p_constraints (second_state demo_s))) by (apply satisfies_b; vm_compute; reflexivity).
  assert (LG : (next_power_of_two 3 <= length demo_G)%nat) by (apply Nat.leb_le; vm_compute; reflexivity).
  assert (LH : (next_power_of_two 3 <= length demo_H)%nat) by (apply Nat.leb_le; vm_compute; reflexivity).
  assert (Hy : c_y (protocol_challenges (v_transcript demo_vs2) demo_proof) <> fzero _) by (apply nonzero_one; vm_compute; reflexivity).
  assert (Hx : c_x (protocol_challenges (v_transcript demo_vs2) demo_proof) <> fzero _) by (apply nonzero_one; vm_compute; reflexivity).
  assert (Y : yields demoW demo_s demo_G demo_H demo_proof (snd demo_result) (randoms demoW (p_nrand demo_s) 17)).
  { eapply C51_output_counted; [exact demo_run|exact Q1|exact demo_prove_ok]. }
  split; [exact demo_generates|]. split; [apply demo_sim|]. split; [exact demo_run|]. split; [exact demo_vrun|].
  split; [exact Q1|]. split; [vm_compute; reflexivity|]. split; [exact S1|]. split; [exact V2|].
  split; [exact N|]. split; [exact R|]. split; [exact T1|]. split; [exact LG|]. split; [exact LH|].
  split; [exact Hy|]. split; [exact Hx|].
  destruct (count_exists demoW demo_s demo_G demo_H demo_proof (snd demo_result) 17) as [m Hm].
  pose proof (C54_zero_knowledge demoW demoW' demo_g demo_h [] eq demo_pp demo_vp (Ok tt) demo_s (Ok tt) demo_vs
    (second_state demo_s) demo_vs2 demo_G demo_H demo_proof (snd demo_result) 17 m) as X. cbv zeta in X. rewrite N in X.
  pose proof (X demo_generates (demo_sim _ _ _) demo_run demo_vrun Q1 S1 V2 R T1 LG LH Hy Hx (le_n 17)) as X'.
  pose proof (proj1 X' Hm) as Hm'. clear X X'.
  destruct Hm as (l & _ & Ll & Il). destruct Hm' as (l' & _ & Ll' & Il').
  assert (In (randoms demoW (p_nrand demo_s) 17) l) by (apply Il; split; [reflexivity|exact Y]).
  destruct l' as [|tape l']; [destruct l; [contradiction|cbn in *; lia]|]. exists tape. apply Il'. left. reflexivity.
Qed.
End Honest.

(** *** Constraints without a solution *)

(** the example backend with a fixed challenge, so that the simulator knows it in advance *)
Definition fixedP : Params := {|
  modulus := modulus (Params := toyP); modbytes := modbytes (Params := toyP);
  G1 := G1 (Params := toyP); g1_id := g1_id (Params := toyP); g1_add := g1_add (Params := toyP);
  g1_neg := g1_neg (Params := toyP); g1_mul := g1_mul (Params := toyP); g1_eqb := g1_eqb (Params := toyP);
  g1_bytes := g1_bytes (Params := toyP); fe_bytes := fe_bytes (Params := toyP);
  g1_from_msg_hash := g1_from_msg_hash (Params := toyP); fe_from_msg_hash := fe_from_msg_hash (Params := toyP);
  g1_generator := g1_generator (Params := toyP);
  xof := fun _ _ _ => 5%Z;
  shake256 := shake256 (Params := toyP);
  batch_invert_empty_panics := false
|}.
Lemma fixedP_ok : ParamsOk fixedP.
Proof. destruct toyP_ok. constructor; assumption. Qed.

Lemma in_range_every {P : Params} n m (cs : list lc) :
  forallb (forallb (fun t => in_range_b n m (fst t))) cs = true -> Forall (lc_in_range n m) cs.
Proof.
  intros K. apply Forall_forall. intros l Hl v c Hv. rewrite forallb_forall in K. specialize (K l Hl).
  rewrite forallb_forall in K. specialize (K _ Hv). cbn in K. destruct v; cbn in *; try apply Nat.ltb_lt in K; auto.
Qed.
Lemma nonzero_every {P : Params} us : forallb (fun u => negb (feqb u (fzero _))) us = true -> all_nonzero us.
Proof.
  intros K. apply Forall_forall. intros u Hu E. rewrite forallb_forall in K. specialize (K u Hu). subst u.
  destruct (feqb_spec _ (fzero modulus) (fzero _)); [discriminate K|congruence].
Qed.

Section Unsatisfiable.
#[local] Existing Instance fixedP.
#[local] Existing Instance fixedP_ok.
Let f (z : Z) : F := of_Z _ z.

(** the prover claims to know a committed value with [v * v = v * 3] and [1 = 0] *)
Definition absurd_vp : vprog unit :=
  (v <- cs_commit (f 77) ;;
   a <- cs_multiply [(v, f 1)] [(v, f 1)] ;;
   b <- cs_multiply [(v, f 1)] [(VOne, f 3)] ;;
   cs_constrain [(snd a, f 1); (snd b, fopp (f 1))] ;;;
   cs_constrain [(VOne, f 1)] ;;;
   PRet tt)%prog.
Definition absurdW : world := World (fun n => f (Z.of_nat (5 * n + 1))) (fun n => []).
Definition absurd_vs : verifier :=
  match vrun absurdW false absurd_vp (verifier_new []) with Done (_, s) => s | Panic => verifier_new [] end.
Definition absurd_G : list G1 := map (fun n => f (Z.of_nat (31 * n + 2))) (seq 0 2).
Definition absurd_H : list G1 := map (fun n => f (Z.of_nat (37 * n + 5))) (seq 0 2).
Definition absurd_tape : list F := map (fun n => f (Z.of_nat (n * n + 101))) (seq 0 12).
Definition absurd_cs : list lc := v_constraints absurd_vs.
Definition absurd_with (ipp : ipp_proof) : r1cs_proof :=
  sim_proof (f 5) (f 8) absurd_G absurd_H (v_V absurd_vs) 2 2 absurd_cs (f 5) (f 5) (f 5) (f 5) (read_coins 2 2 absurd_tape) ipp.
Definition absurd_vs2 : verifier :=
  match verifier_create_randomized_constraints absurdW
    (v_with_transcript (first_phase_transcript (absurd_with (IPPProof [] [] (f 0) (f 0))) (length (v_V absurd_vs)) (v_transcript absurd_vs)) absurd_vs) with
  | Done (Ok s) => s | _ => absurd_vs end.
Definition absurd_out : r1cs_proof * transcript :=
  match simulate (f 5) (f 8) absurd_G absurd_H (v_V absurd_vs) 2 2 absurd_cs (f 5) (f 5) (f 5) (f 5)
          (read_coins 2 2 absurd_tape) (v_transcript absurd_vs2) with
  | Done r => r | Panic => (absurd_with (IPPProof [] [] (f 0) (f 0)), []) end.
Definition absurd_proof : r1cs_proof := fst absurd_out.

Lemma absurd_simulated : simulate (f 5) (f 8) absurd_G absurd_H (v_V absurd_vs) 2 2 absurd_cs (f 5) (f 5) (f 5) (f 5)
  (read_coins 2 2 absurd_tape) (v_transcript absurd_vs2) = Done absurd_out.
Proof.
  unfold absurd_out.
  match goal with |- ?t = _ => assert (X : match t with Done _ => true | Panic => false end = true) by (vm_compute; reflexivity); destruct t; [reflexivity|discriminate X] end.
Qed.
Lemma done_inj {A} (x y : A) : Done x = Done y -> x = y.
Proof. intros E. injection E as E. exact E. Qed.
Lemma absurd_shape : exists ipp, absurd_proof = absurd_with ipp.
Proof.
  pose proof absurd_simulated as E. unfold absurd_proof. unfold simulate in E.
  match type of E with obind ?e _ = _ => destruct e as [[ipp t']|] end; [|discriminate E].
  cbn [obind] in E. apply done_inj in E. apply (f_equal fst) in E. exists ipp. symmetry. exact E.
Qed.
Lemma absurd_second : verifier_create_randomized_constraints absurdW
  (v_with_transcript (first_phase_transcript (absurd_with (IPPProof [] [] (f 0) (f 0))) (length (v_V absurd_vs)) (v_transcript absurd_vs)) absurd_vs)
  = Done (Ok absurd_vs2).
Proof.
  unfold absurd_vs2.
  match goal with |- ?t = _ => assert (X : is_done t = true) by (vm_compute; reflexivity); destruct t as [[|]|]; [reflexivity|discriminate X|discriminate X] end.
Qed.
Lemma absurd_v_second : v_second absurdW absurd_proof absurd_vs absurd_vs2.
Proof. destruct absurd_shape as [ipp ->]. exact absurd_second. Qed.
Lemma absurd_challenges ipp : let c := protocol_challenges (v_transcript absurd_vs2) (absurd_with ipp) in
  c_y c = f 5 /\ c_z c = f 5 /\ c_u c = f 5 /\ c_x c = f 5.
Proof.
  cbv zeta. change (protocol_challenges (v_transcript absurd_vs2) (absurd_with ipp))
    with (protocol_challenges (v_transcript absurd_vs2) (absurd_with (IPPProof [] [] (f 0) (f 0)))).
  repeat split; apply Fp_ext; vm_compute; reflexivity.
Qed.
Lemma absurd_constraints : exists l, v_constraints absurd_vs2 = l ++ [[(VOne, f 1)]].
Proof. eexists. instantiate (1 := [_; _; _; _; _]). reflexivity. Qed.

Example C54_unsatisfiable_example :
  (forall a n, ~ satisfies a n (v_constraints absurd_vs2)) /\
  v_second absurdW absurd_proof absurd_vs absurd_vs2 /\
  v_num_vars absurd_vs2 = 2%nat /\
  simulates (f 5) (f 8) absurd_vs absurd_vs2 absurd_G absurd_H absurd_proof (snd absurd_out) absurd_tape /\
  exists t', verify (with_random absurdW (v_nrand absurd_vs2) (f 9)) absurd_vs absurd_proof (f 5) (f 8) absurd_G absurd_H = Done (Ok t').
Proof.
  assert (V2 := absurd_v_second).
  assert (N : v_num_vars absurd_vs2 = 2%nat) by (vm_compute; reflexivity).
  assert (S : simulates (f 5) (f 8) absurd_vs absurd_vs2 absurd_G absurd_H absurd_proof (snd absurd_out) absurd_tape).
  { unfold simulates. destruct absurd_shape as [ipp Ei].
    assert (Ey := absurd_challenges ipp). cbv zeta in Ey. rewrite <- Ei in Ey. destruct Ey as (-> & -> & -> & ->).
    rewrite N. transitivity (Done absurd_out); [exact absurd_simulated|]. unfold absurd_proof. destruct absurd_out. reflexivity. }
  split; [|split; [exact V2|split; [exact N|split; [exact S|]]]].
  - intros a n [_ Hc]. destruct absurd_constraints as [l E]. rewrite E in Hc.
    assert (I : In [(VOne, f 1)] (l ++ [[(VOne, f 1)]])) by (apply in_or_app; right; left; reflexivity).
    apply Hc in I. apply (f_equal (@fval _)) in I. vm_compute in I. discriminate I.
  - eapply (C54_simulated_accepted absurdW absurd_vs absurd_vs2); [exact V2| | | | | | | |exact S].
    + rewrite N. apply Nat.leb_le. vm_compute. reflexivity.
    + rewrite N. apply Nat.leb_le. vm_compute. reflexivity.
    + assert (K : forallb (forallb (fun t => in_range_b (v_num_vars absurd_vs2) (length (v_V absurd_vs2)) (fst t))) (v_constraints absurd_vs2) = true) by (vm_compute; reflexivity).
      exact (in_range_every _ _ _ K).
    + rewrite N. apply Nat.ltb_lt. vm_compute. reflexivity.
    + left. rewrite N. lia.
    + destruct absurd_shape as [ipp ->]. destruct (absurd_challenges ipp) as (_ & _ & _ & ->).
      intros E. apply (f_equal (@fval _)) in E. vm_compute in E. discriminate E.
    + assert (K : forallb (fun u => negb (feqb u (fzero _))) (round_challenges (v_num_vars absurd_vs2) (protocol_challenges (v_transcript absurd_vs2) absurd_proof) absurd_proof) = true) by (vm_compute; reflexivity).
      exact (nonzero_every _ K).
Qed.
End Unsatisfiable.

Print Assumptions C54_zero_knowledge.
Print Assumptions C54_simulated_accepted.
