(** C48: special soundness of the R1CS protocol. *)
From Coq Require Import ZArith List Lia.
From Verif.Base Require Import Outcome Fp Params Algebra Instances.
From Verif.Model Require Import Transcript LinComb Prog IPP Prover Verifier.
From Verif.Spec Require Import R1CS Protocol IPPSpec Verdict Extractor R1CSTree R1CSExtractor.
From Verif.Proofs Require Import VerifyProofs R1CSExtract R1CSAccepted TreeCheck HonestTree.
From Verif.Props Require Import Demo R1CSProps.
Import ListNotations.

Section Props.
Context {P : Params} {OK : ParamsOk P}.
Local Open Scope fe_scope.

(** ** C48 R1CS special soundness *)
(** [r1cs_extract], a program that sees only challenges and the scalars of the
    proofs, turns every tree of accepted proofs into openings of the commitments
    and an assignment satisfying the circuit, or into a linear relation between
    the generators. *)
Theorem C48_special_soundness g h G H V n1 n k cs M f t :
  let N := next_power_of_two n in
  N = (2 ^ k)%nat -> (N <= length G)%nat -> (N <= length H)%nat ->
  Forall (lc_in_range n (length V)) cs -> recovers M (length V) cs ->
  proof_tree_wf k (length cs) t -> proof_tree_accepted g h G H V n1 n cs f t ->
  match r1cs_extract n1 n (length G) (length H) (length V) cs M (tree_scalars t) with
  | Got w => witness_ok g h G H V n1 n cs f w
  | Broken c => generator_relation (g :: h :: G ++ H) c
  end.
Proof. exact (fun HN HG HH => r1cs_extract_ok g h G H V n1 n k cs HN HG HH (next_power_of_two_ge n) M f t). Qed.

(** The other direction: whoever knows a satisfying assignment answers all
    challenges.  So every satisfiable circuit has accepted trees, for any choice of
    blindings and of (different, mostly non-zero) challenges. *)
Theorem C48_trees_exist g h G H n1 n k cs v gam aL aR aO ys zs us xs w1 w2 c1 c2 c3 c4 :
  let N := next_power_of_two n in
  let nz := Forall (fun c : F => c <> 0) in
  N = (2 ^ k)%nat -> (N <= length G)%nat -> (N <= length H)%nat -> length gam = length v ->
  length aL = n -> length aR = n -> length aO = n ->
  Forall (lc_in_range n (length v)) cs -> satisfies (assignment_of v aL aR aO) n cs ->
  length ys = N -> NoDup ys -> nz ys -> length zs = S (length cs) -> NoDup zs ->
  length us = 5%nat -> NoDup us -> nz us -> length xs = 7%nat -> NoDup xs ->
  nz [w1; w2; c1; c2; c3; c4] -> w1 <> w2 -> NoDup [c1 * c1; c2 * c2; c3 * c3; c4 * c4] ->
  exists f t, proof_tree_wf k (length cs) t /\
    proof_tree_accepted g h G H (zipw (fun x b => g1_add (g1_mul x g) (g1_mul b h)) v gam) n1 n cs f t /\
    forall yn, In yn t -> In (y_chal yn) ys /\ forall zn, In zn (y_zs yn) -> In (z_chal zn) zs /\
      forall un, In un (z_us zn) -> In (u_chal un) us /\ forall xn, In xn (u_xs un) -> In (x_chal xn) xs.
Proof. exact (honest_trees_exist g h G H n1 n k cs v gam aL aR aO ys zs us xs w1 w2 c1 c2 c3 c4). Qed.

(** Two witnesses for the same commitments and the same first-phase points, for
    possibly different second phases: they agree on the committed values and on
    all wires of the first phase, or give a relation between the generators. *)
Theorem C48_first_phase_binding g h G H V n1 n n' cs cs' f f' w w' :
  (n <= length G)%nat -> (n <= length H)%nat -> f_AI1 f' = f_AI1 f -> f_AO1 f' = f_AO1 f ->
  witness_ok g h G H V n1 n cs f w -> witness_ok g h G H V n1 n' cs' f' w' ->
  match compare_witnesses (length G) (length H) (length V) w w' with
  | Got _ =>
      (forall j, (j < length V)%nat ->
         nth j (wit_v w) 0 = nth j (wit_v w') 0 /\ nth j (wit_blinding w) 0 = nth j (wit_blinding w') 0) /\
      (forall i, (i < n1)%nat -> (i < n)%nat -> (i < n')%nat ->
         nth i (wit_aL w) 0 = nth i (wit_aL w') 0 /\ nth i (wit_aR w) 0 = nth i (wit_aR w') 0 /\
         nth i (wit_aO w) 0 = nth i (wit_aO w') 0)
  | Broken c => generator_relation (g :: h :: G ++ H) c
  end.
Proof. exact (compare_ok g h G H V n1 n cs n' cs' f f' w w'). Qed.

(** What [verify] accepts is an accepted conversation: for a proof of the right
    shape and non-zero round challenges, the protocol accepts exactly when [verify]
    accepts whatever its random value; two different random values suffice. *)
Theorem C48_verify_accepted W s s2 proof g h G H :
  v_second W proof s s2 -> proof_fits s2 proof G H ->
  let c := protocol_challenges (v_transcript s2) proof in
  let us := round_challenges (v_num_vars s2) c proof in
  let accepts r := exists t, verify (with_random W (v_nrand s2) r) s proof g h G H = Done (Ok t) in
  let acc := accepted g h G H (v_V s2) (v_num_vars s) (v_num_vars s2) (v_constraints s2) proof
     (c_y c) (c_z c) (c_u c) (c_x c) (c_w c) us in
  all_nonzero us -> (acc <-> forall r, accepts r) /\ (forall r r', r <> r' -> accepts r -> accepts r' -> acc).
Proof. exact (verify_accepted W s s2 proof g h G H). Qed.
End Props.

Print Assumptions C48_special_soundness.
Print Assumptions C48_trees_exist.
Print Assumptions C48_first_phase_binding.
Print Assumptions C48_verify_accepted.

(** ** The hypotheses are met *)
Section Examples.
#[local] Existing Instance toyP.
#[local] Existing Instance toyP_ok.
Local Open Scope fe_scope.

(** Two gates, the second one in the second phase; two commitments, to 3 and 5:
    left_0 = v_0, right_0 = v_1, left_1 = out_0 + 1, right_1 = 3 v_0, out_1 = 144. *)
Definition sd_cs : list lc :=
  [ [(VLeft 0, 1); (VCommitted 0, - (1))]; [(VRight 0, 1); (VCommitted 1, - (1))];
    [(VLeft 1, 1); (VOut 0, - (1)); (VOne, - (1))]; [(VRight 1, 1); (VCommitted 0, - fe 3)];
    [(VOut 1, 1); (VOne, - fe 144)] ].
Definition sd_M (j q : nat) : F := if Nat.eqb j q then - (1) else 0.
Definition sd_v := map fe [3; 5]%Z.
Definition sd_gam := map fe [1234; 987]%Z.
Definition sd_aL := map fe [3; 16]%Z.
Definition sd_aR := map fe [5; 9]%Z.
Definition sd_aO := map fe [15; 144]%Z.
Definition sd_sL := map fe [77; 401]%Z.
Definition sd_sR := map fe [13; 2000]%Z.
Definition sd_bl := map fe [11; 12; 13; 14; 15; 16]%Z.
Definition sd_tau := map fe [0; 21; 0; 23; 24; 25; 26]%Z.
Definition sd_G := firstn 2 demo_G.
Definition sd_H := firstn 2 demo_H.
Definition sd_V := honest_V demo_g demo_h sd_v sd_gam.
Definition sd_first := honest_first demo_h sd_G sd_H 1 1 sd_aL sd_aR sd_aO sd_sL sd_sR sd_bl.
Definition sd_tree : proof_tree :=
  honest_tree demo_g demo_h sd_G sd_H 1 2 1 sd_cs sd_v sd_gam sd_aL sd_aR sd_aO sd_sL sd_sR sd_bl sd_tau
    (fe 1, fe 2, fe 3, fe 4)
    (map fe [7; 8]%Z) (map fe [31; 32; 33; 34; 35; 36]%Z) (map fe [41; 42; 43; 44; 45]%Z)
    (map fe [51; 52; 53; 54; 55; 56; 57]%Z) (fe 61) (fe 62).

Example C48_example :
  next_power_of_two 2 = (2 ^ 1)%nat /\ (2 <= length sd_G)%nat /\ (2 <= length sd_H)%nat /\
  Forall (lc_in_range 2 (length sd_V)) sd_cs /\ recovers sd_M (length sd_V) sd_cs /\
  proof_tree_wf 1 (length sd_cs) sd_tree /\
  proof_tree_accepted demo_g demo_h sd_G sd_H sd_V 1 2 sd_cs sd_first sd_tree.
Proof.
  split; [reflexivity|]. split; [vm_compute; lia|]. split; [vm_compute; lia|]. split; [|split; [|split]].
  - repeat constructor; intros v c Hin; cbn [In sd_cs] in Hin;
      repeat (destruct Hin as [E|Hin]; [injection E as <- <-; vm_compute; lia|]); contradiction.
  - intros j j' Hj Hj'. change (length sd_V) with 2%nat in Hj, Hj'.
    destruct j as [|[|j]]; [| |lia]; (destruct j' as [|[|j']]; [| |lia]); apply Fp_ext; vm_compute; reflexivity.
  - unfold sd_tree. apply honest_tree_wf; try exact eq_refl; try (apply nodup_b_ok; vm_compute; reflexivity);
      try (apply (forallb_Forall nz_b); [exact nz_b_ok|vm_compute; reflexivity]); try (apply nz_b_ok; vm_compute; reflexivity).
    intros E. apply (f_equal (@fval _)) in E. vm_compute in E. discriminate E.
  - unfold sd_tree, sd_V, sd_first. apply honest_tree_accepted; try (apply nz_b_ok; vm_compute; reflexivity).
    + reflexivity.
    + vm_compute; lia.
    + vm_compute; lia.
    + reflexivity.
    + reflexivity.
    + reflexivity.
    + reflexivity.
    + repeat constructor; intros v c Hin; cbn [In sd_cs] in Hin;
        repeat (destruct Hin as [E|Hin]; [injection E as <- <-; vm_compute; lia|]); contradiction.
    + apply satisfies_b; vm_compute; reflexivity.
    + apply Fp_ext. vm_compute. reflexivity.
    + apply (forallb_Forall nz_b); [exact nz_b_ok|vm_compute; reflexivity].
Qed.

(** On the tree of a smaller circuit, left_0 = v_0, right_0 = v_0 and out_0 = 9, the
    extractor finds the prover's values. *)
Definition sr_cs : list lc :=
  [ [(VLeft 0, 1); (VCommitted 0, - (1))]; [(VRight 0, 1); (VCommitted 0, - (1))]; [(VOut 0, 1); (VOne, - fe 9)] ].
Definition sr_M (j q : nat) : F := if Nat.eqb q 0 then - (1) else 0.
Definition sr_tree : proof_tree :=
  honest_tree demo_g demo_h [nth 0 demo_G demo_g] [nth 0 demo_H demo_h] 1 1 0 sr_cs [fe 3] [fe 1234] [fe 3] [fe 3] [fe 9] [fe 77] [fe 13]
    sd_bl sd_tau (fe 1, fe 2, fe 3, fe 4) [fe 7] (map fe [31; 32; 33; 34]%Z) (map fe [41; 42; 43; 44; 45]%Z)
    (map fe [51; 52; 53; 54; 55; 56; 57]%Z) (fe 61) (fe 62).
Example C48_example_run : match r1cs_extract 1 1 1 1 1 sr_cs sr_M (tree_scalars sr_tree) with
  | Got w => map (@fval _) (wit_v w ++ wit_aL w ++ wit_aR w ++ wit_aO w) = [3; 3; 3; 9]%Z
  | Broken _ => False end.
Proof. vm_compute. reflexivity. Qed.

(** Witnesses for the same first phase: of the circuit above, and of the circuit
    without a second phase. *)
Definition sd_AI1 := map fe [0; 11; 3; 0; 5; 0]%Z.
Definition sd_AO1 := map fe [0; 12; 15; 0; 0; 0]%Z.
Definition sd_w := Witness sd_v sd_gam sd_aL sd_aR sd_aO sd_AI1 sd_AO1.
Definition sd_w1 := Witness sd_v sd_gam (map fe [3]%Z) (map fe [5]%Z) (map fe [15]%Z) sd_AI1 sd_AO1.
Example C48_example_binding :
  (2 <= length sd_G)%nat /\ (2 <= length sd_H)%nat /\
  witness_ok demo_g demo_h sd_G sd_H sd_V 1 2 sd_cs sd_first sd_w /\
  witness_ok demo_g demo_h sd_G sd_H sd_V 1 1 (firstn 2 sd_cs) sd_first sd_w1.
Proof.
  assert (Hab : forall n cs w, satisfies (assignment_of (wit_v w) (wit_aL w) (wit_aR w) (wit_aO w)) n cs ->
    wit_v w = sd_v -> wit_blinding w = sd_gam -> wit_AI1 w = sd_AI1 -> wit_AO1 w = sd_AO1 ->
    nth 0 (wit_aL w) 0 = fe 3 -> nth 0 (wit_aR w) 0 = fe 5 -> nth 0 (wit_aO w) 0 = fe 15 ->
    witness_ok demo_g demo_h sd_G sd_H sd_V 1 n cs sd_first w).
  { intros n cs w Hs Ev Eg EI EO E1 E2 E3. unfold witness_ok. rewrite Eg, EI, EO. split; [rewrite Ev|split; [exact Hs|]].
    - intros j Hj. change (length sd_V) with 2%nat in Hj. destruct j as [|[|j]]; [| |lia]; apply Fp_ext; vm_compute; reflexivity.
    - split; [vm_compute; reflexivity|]. split; [apply Fp_ext; vm_compute; reflexivity|].
      split; [vm_compute; reflexivity|]. split; [apply Fp_ext; vm_compute; reflexivity|].
      intros i Hi _. assert (i = 0)%nat by lia. subst i. rewrite E1, E2, E3. split; [|split]; apply Fp_ext; vm_compute; reflexivity. }
  split; [vm_compute; lia|]. split; [vm_compute; lia|].
  split; apply Hab; try reflexivity; apply satisfies_b; vm_compute; reflexivity.
Qed.

(** the proof of Demo.v *)
Example C48_example_verify : v_second demoW' demo_proof demo_vs demo_vs2 /\ proof_fits demo_vs2 demo_proof demo_G demo_H /\
  all_nonzero (round_challenges (v_num_vars demo_vs2) (protocol_challenges (v_transcript demo_vs2) demo_proof) demo_proof).
Proof.
  split; [apply C19_example|]. split; [apply C19_example|]. apply Forall_forall. intros u Hu. apply nz_b_ok.
  revert u Hu. apply forallb_forall. vm_compute. reflexivity.
Qed.
End Examples.
