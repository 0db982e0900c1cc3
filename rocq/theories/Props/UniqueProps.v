(** C66: the scalars of an accepted proof are determined by what precedes them. *)
From Coq Require Import ZArith String List Lia Arith Bool.
From Verif.Base Require Import Outcome Fp Params Algebra Instances.
From Verif.Model Require Import Transcript LinComb Prog IPP Prover Verifier.
From Verif.Spec Require Import R1CS Protocol IPPSpec R1CSTree Verdict Unique.
From Verif.Proofs Require Import UniqueMain.
From Verif.Props Require Import Demo.
Import ListNotations.

(** The inner-product argument on its own: for the same inputs, [L]s and [R]s, the verifier
    accepts one pair of last scalars, or two pairs yield a relation between Q, G and H. *)
Theorem C66_ipp {P : Params} {OK : ParamsOk P} (n : nat) (t : transcript) (Gf Hf : list F) (Pt Q : G1) (G H : list G1)
    (a b a' b' : F) (Ls Rs : list G1) (us : list F) (t0 t1 t2 : transcript) :
  length Ls = length Rs -> (length Ls < 32)%nat -> n = (2 ^ length Ls)%nat -> Ls <> [] \/ batch_invert_empty_panics = false ->
  length G = n -> length H = n -> length Gf = n -> length Hf = n -> all_nonzero Gf -> all_nonzero Hf ->
  ipp_challenges Ls Rs (innerproduct_domain_sep n t) = (us, t0) -> all_nonzero us ->
  verify_ipp n t Gf Hf Pt Q G H a b Ls Rs = Done (Ok tt, t1) ->
  verify_ipp n t Gf Hf Pt Q G H a' b' Ls Rs = Done (Ok tt, t2) ->
  (a = a' /\ b = b') \/ relation Q G H (difference_G n us Gf a a') (difference_H n us Hf b b') (difference_Q a b a' b').
Proof. exact (ipp_unique n t Gf Hf Pt Q G H a b a' b' Ls Rs us t0 t1 t2). Qed.

(** A whole proof and the same proof with other last scalars, verified with the same randomness. *)
Theorem C66_last_scalars {P : Params} {OK : ParamsOk P} (W : world) (s s2 : verifier) (pf : r1cs_proof) (a' b' : F)
    (g h : G1) (G H : list G1) (t t' : transcript) :
  v_second W pf s s2 ->
  verify W s pf g h G H = Done (Ok t) -> verify W s (with_last a' b' pf) g h G H = Done (Ok t') ->
  let n := v_num_vars s2 in
  let c := protocol_challenges (v_transcript s2) pf in
  c_y c <> fzero _ -> c_u c <> fzero _ -> all_nonzero (round_challenges n c pf) -> (1 < n)%nat \/ batch_invert_empty_panics = false ->
  (ipp_a (proof_ipp pf) = a' /\ ipp_b (proof_ipp pf) = b') \/
  generator_relation (g :: firstn (next_power_of_two n) G ++ firstn (next_power_of_two n) H) (last_difference s s2 pf a' b').
Proof. exact (last_unique s s2 pf a' b' g h G H W t t'). Qed.

(** The same for proofs that satisfy the second equation (and so with any randomness, by C19). *)
Theorem C66_last_scalars_equation {P : Params} {OK : ParamsOk P} (s s2 : verifier) (pf : r1cs_proof) (a' b' : F)
    (g h : G1) (G H : list G1) :
  equation_ipp s s2 pf g h G H -> equation_ipp s s2 (with_last a' b' pf) g h G H -> proof_fits s2 pf G H ->
  let n := v_num_vars s2 in
  let c := protocol_challenges (v_transcript s2) pf in
  c_y c <> fzero _ -> c_u c <> fzero _ -> all_nonzero (round_challenges n c pf) ->
  (ipp_a (proof_ipp pf) = a' /\ ipp_b (proof_ipp pf) = b') \/
  generator_relation (g :: firstn (next_power_of_two n) G ++ firstn (next_power_of_two n) H) (last_difference s s2 pf a' b').
Proof. exact (last_unique_equations s s2 pf a' b' g h G H). Qed.

(** The evaluation and its blinding: two proofs with the same points lead the verifier to the
    same state, and if both satisfy the first equation, they have the same evaluation or yield
    a relation between g and h. *)
Theorem C66_evaluation {P : Params} {OK : ParamsOk P} (W : world) (s s2 : verifier) (pf pf' : r1cs_proof) (g h : G1) :
  same_points pf pf' -> v_second W pf s s2 ->
  v_second W pf' s s2 /\
  (equation_t s2 pf g h -> equation_t s2 pf' g h ->
   (t_x pf = t_x pf' /\ t_x_blinding pf = t_x_blinding pf') \/
   generator_relation [g; h] [fsub (t_x pf) (t_x pf'); fsub (t_x_blinding pf) (t_x_blinding pf')]).
Proof. intros Hs V. split; [exact (same_second W pf pf' s s2 Hs V)|exact (evaluation_unique s2 pf pf' g h Hs)]. Qed.

Print Assumptions C66_ipp.
Print Assumptions C66_last_scalars.
Print Assumptions C66_last_scalars_equation.
Print Assumptions C66_evaluation.

(** ** The hypotheses are met *)
Section Examples.
#[local] Existing Instance toyP.
#[local] Existing Instance toyP_ok.
Local Open Scope fe_scope.

Definition nonzero_b (u : F) : bool := negb (feqb u 0).
Lemma nonzero_all us : forallb nonzero_b us = true -> all_nonzero us.
Proof.
  intros H. apply Forall_forall. intros u Hu E. rewrite forallb_forall in H. specialize (H u Hu).
  unfold nonzero_b in H. rewrite E in H. vm_compute in H. discriminate H.
Qed.
Lemma nonzero_one u : nonzero_b u = true -> u <> 0.
Proof. intros H E. rewrite E in H. vm_compute in H. discriminate H. Qed.

Opaque demo_s demo_s2 demo_vs demo_vs2 demo_proof demo_result.
Lemma g1_by_value (x y : G1) : g1_eqb x y = true -> x = y.
Proof. intros E. apply g1_eqb_spec. exact E. Qed.
Lemma relation_by_value (B : list G1) (c : list F) :
  Nat.eqb (length c) (length B) && g1_eqb (msm c B) g1_id && existsb nonzero_b c = true -> generator_relation B c.
Proof.
  rewrite !andb_true_iff. intros [[E1 E2] E3]. split; [apply Nat.eqb_eq, E1|]. split; [apply g1_by_value, E2|].
  apply existsb_exists in E3 as (x & Hx & Hn). exists x. split; [exact Hx|apply nonzero_one, Hn].
Qed.

(** In the toy group the discrete logarithms are known, so that other last scalars exist:
    [ex_a'], [ex_b'] solve the verification equation of the demonstration's proof. *)
Definition ex_c := protocol_challenges (v_transcript demo_vs2) demo_proof.
Definition ex_us := round_challenges 3 ex_c demo_proof.
Definition ex_A : F := msm (difference_G 4 ex_us (map (phase_factor (v_num_vars demo_vs) (c_u ex_c)) (seq 0 4)) 1 0) (firstn 4 demo_G).
Definition ex_B : F := msm (difference_H 4 ex_us (map (fun i => fpow (finv (c_y ex_c)) i * phase_factor (v_num_vars demo_vs) (c_u ex_c) i) (seq 0 4)) 1 0) (firstn 4 demo_H).
Definition ex_Q : F := g1_mul (c_w ex_c) demo_g.
Definition ex_a := ipp_a (proof_ipp demo_proof).
Definition ex_b := ipp_b (proof_ipp demo_proof).
Definition ex_a' := ex_a + 1.
Definition ex_b' := (ex_a * ex_b * ex_Q + ex_b * ex_B - ex_A) * finv (ex_a' * ex_Q + ex_B).
(** the same evaluation commitment: g = 5, h = 8 *)
Definition with_evaluation (x y : F) (pf : r1cs_proof) : r1cs_proof :=
  R1CSProof (A_I1 pf) (A_O1 pf) (S1 pf) (A_I2 pf) (A_O2 pf) (S2 pf) (T_1 pf) (T_3 pf) (T_4 pf) (T_5 pf) (T_6 pf)
    x y (e_blinding pf) (proof_ipp pf).
Lemma with_evaluation_same x y pf : same_points pf (with_evaluation x y pf).
Proof. destruct pf. repeat split. Qed.
Definition ex_pf' : r1cs_proof := with_evaluation (t_x demo_proof + fe 8) (t_x_blinding demo_proof - fe 5) demo_proof.

Example C66_last_example :
  v_second demoW' demo_proof demo_vs demo_vs2 /\
  is_done (verify demoW' demo_vs demo_proof demo_g demo_h demo_G demo_H) = true /\
  is_done (verify demoW' demo_vs (with_last ex_a' ex_b' demo_proof) demo_g demo_h demo_G demo_H) = true /\
  c_y ex_c <> 0 /\ c_u ex_c <> 0 /\ all_nonzero ex_us /\ v_num_vars demo_vs2 = 3%nat /\ feqb ex_a ex_a' = false /\
  generator_relation (demo_g :: firstn 4 demo_G ++ firstn 4 demo_H) (last_difference demo_vs demo_vs2 demo_proof ex_a' ex_b').
Proof.
  split; [apply demo_vsecond|]. do 2 (split; [vm_compute; reflexivity|]).
  do 2 (split; [apply nonzero_one; vm_compute; reflexivity|]). split; [apply nonzero_all; vm_compute; reflexivity|].
  do 2 (split; [vm_compute; reflexivity|]).
  apply relation_by_value. vm_compute. reflexivity.
Qed.
Example C66_evaluation_example :
  same_points demo_proof ex_pf' /\ equation_t demo_vs2 demo_proof demo_g demo_h /\ equation_t demo_vs2 ex_pf' demo_g demo_h.
Proof. split; [apply with_evaluation_same|]. split; apply g1_by_value; vm_compute; reflexivity. Qed.

(** two entries, one round *)
Definition ip_Ls : list G1 := [fe 3]. Definition ip_Rs : list G1 := [fe 11].
Definition ip_G : list G1 := firstn 2 demo_G. Definition ip_H : list G1 := firstn 2 demo_H.
Definition ip_Gf : list F := [fe 1; fe 5]. Definition ip_Hf : list F := [fe 1; fe 45].
Definition ip_us := fst (ipp_challenges ip_Ls ip_Rs (innerproduct_domain_sep 2 [])).
Definition ip_A : F := msm (difference_G 2 ip_us ip_Gf 1 0) ip_G.
Definition ip_B : F := msm (difference_H 2 ip_us ip_Hf 1 0) ip_H.
Definition ip_a : F := fe 4. Definition ip_b : F := fe 7. Definition ip_a' : F := fe 6.
Definition ip_b' : F := (ip_a * ip_b * demo_g + (ip_a - ip_a') * ip_A + ip_b * ip_B) * finv (ip_a' * demo_g + ip_B).
Definition ip_point : G1 :=
  let sq := fun u : F => u * u in
  ip_a * ip_b * demo_g + ip_a * ip_A + ip_b * ip_B - (msm (map sq ip_us) ip_Ls + msm (map sq (map (@finv _) ip_us)) ip_Rs).
Example C66_ipp_example :
  all_nonzero ip_Gf /\ all_nonzero ip_Hf /\ all_nonzero ip_us /\ length ip_us = 1%nat /\ feqb ip_b ip_b' = false /\
  (exists t1, verify_ipp 2 [] ip_Gf ip_Hf ip_point demo_g ip_G ip_H ip_a ip_b ip_Ls ip_Rs = Done (Ok tt, t1)) /\
  (exists t2, verify_ipp 2 [] ip_Gf ip_Hf ip_point demo_g ip_G ip_H ip_a' ip_b' ip_Ls ip_Rs = Done (Ok tt, t2)).
Proof.
  do 3 (split; [apply nonzero_all; vm_compute; reflexivity|]). do 2 (split; [vm_compute; reflexivity|]).
  split; eexists; vm_compute; reflexivity.
Qed.
End Examples.
