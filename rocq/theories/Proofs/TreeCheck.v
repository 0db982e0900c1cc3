(** Boolean versions of the conditions on trees of conversations, and the
    conversations of an honest prover: used for concrete examples only. *)
From Coq Require Import ZArith List Lia Bool.
From Verif.Base Require Import Outcome Fp Params Algebra.
From Verif.Model Require Import LinComb IPP Prover.
From Verif.Spec Require Import R1CS Protocol IPPSpec R1CSTree.
Import ListNotations.

Section TreeCheck.
Context {P : Params} {OK : ParamsOk P}.
Local Open Scope fe_scope.

Definition nz_b (u : F) : bool := negb (feqb u 0).
Lemma nz_b_ok u : nz_b u = true -> u <> 0.
Proof. unfold nz_b. destruct (feqb_spec _ u 0); [discriminate|auto]. Qed.
Fixpoint nodup_b (l : list F) : bool :=
  match l with [] => true | a :: t => negb (existsb (feqb a) t) && nodup_b t end.
Lemma nodup_b_ok l : nodup_b l = true -> NoDup l.
Proof.
  induction l as [|a t IH]; simpl; [constructor|]. intros E. apply andb_prop in E as [E1 E2]. constructor; [|auto].
  intros Hin. apply negb_true_iff in E1. assert (Ht : existsb (feqb a) t = true); [|congruence].
  apply existsb_exists. exists a. split; [assumption|]. destruct (feqb_spec _ a a); congruence.
Qed.

Fixpoint ipp_branches (t : ipp_tree) : list (list F * list G1 * list G1 * F * F) :=
  match t with
  | ILeaf a b => [([], [], [], a, b)]
  | INode L R u1 t1 u2 t2 u3 t3 u4 t4 =>
      let ext u t := map (fun '(us, Ls, Rs, a, b) => (u :: us, L :: Ls, R :: Rs, a, b)) (ipp_branches t) in
      ext u1 t1 ++ ext u2 t2 ++ ext u3 t3 ++ ext u4 t4
  end.
Lemma ipp_branches_ok t us Ls Rs a b : branch t us Ls Rs a b -> In (us, Ls, Rs, a, b) (ipp_branches t).
Proof.
  induction 1; simpl; [left; reflexivity|..]; rewrite !in_app_iff.
  - left. apply in_map_iff. eexists. split; [|exact IHbranch]. reflexivity.
  - right; left. apply in_map_iff. eexists. split; [|exact IHbranch]. reflexivity.
  - right; right; left. apply in_map_iff. eexists. split; [|exact IHbranch]. reflexivity.
  - right; right; right. apply in_map_iff. eexists. split; [|exact IHbranch]. reflexivity.
Qed.

Fixpoint conversation_b (Q Pt : G1) (G H : list G1) (us : list F) (Ls Rs : list G1) (a b : F) : bool :=
  match us, Ls, Rs with
  | [], [], [] =>
      match G, H with
      | [g], [h] => g1_eqb Pt (g1_add (g1_add (g1_mul a g) (g1_mul b h)) (g1_mul (a * b) Q))
      | _, _ => false
      end
  | u :: us, L :: Ls, R :: Rs =>
      conversation_b Q (g1_add (g1_add (g1_mul (u * u) L) Pt) (g1_mul (finv u * finv u) R))
        (fold_halves (finv u) u G) (fold_halves u (finv u) H) us Ls Rs a b
  | _, _, _ => false
  end.
Lemma conversation_b_ok us : forall Q Pt G H Ls Rs a b,
  conversation_b Q Pt G H us Ls Rs a b = true -> conversation Q Pt G H us Ls Rs a b.
Proof.
  induction us as [|u us IH]; intros Q Pt G H Ls Rs a b; destruct Ls, Rs; simpl; try discriminate.
  - destruct G as [|? [|? ?]]; try discriminate. destruct H as [|? [|? ?]]; try discriminate. apply g1_eqb_spec.
  - apply IH.
Qed.

Fixpoint ipp_wf_b (k : nat) (t : ipp_tree) : bool :=
  match k, t with
  | O, ILeaf _ _ => true
  | S k, INode _ _ u1 t1 u2 t2 u3 t3 u4 t4 =>
      forallb nz_b [u1; u2; u3; u4] && nodup_b [u1 * u1; u2 * u2; u3 * u3; u4 * u4] &&
      (ipp_wf_b k t1 && ipp_wf_b k t2 && ipp_wf_b k t3 && ipp_wf_b k t4)
  | _, _ => false
  end.
Lemma ipp_wf_b_ok k : forall t, ipp_wf_b k t = true -> tree_wf k t.
Proof.
  induction k; intros [a b|L R u1 t1 u2 t2 u3 t3 u4 t4]; cbn [ipp_wf_b tree_wf]; try discriminate; [auto|].
  rewrite !andb_true_iff. intros ((E1 & E2) & ((E3 & E4) & E5) & E6).
  cbn [forallb] in E1. rewrite !andb_true_iff in E1. destruct E1 as (N1 & N2 & N3 & N4 & _).
  repeat split; auto using nz_b_ok, nodup_b_ok.
Qed.

Definition accepted_b (g h : G1) (G H V : list G1) (n1 n : nat) (cs : list lc) (pf : r1cs_proof)
    (y z u x w : F) (us : list F) : bool :=
  let N := next_power_of_two n in
  g1_eqb (g1_add (g1_mul (t_x pf) g) (g1_mul (t_x_blinding pf) h))
   (g1_add (g1_mul (fpow x 2 * (delta n cs y z - weight cs z VOne)) g)
  (g1_add (g1_mul (fpow x 2) (gsum_n (length V) (fun j => - weight cs z (VCommitted j)) V))
  (g1_add (g1_mul x (T_1 pf))
  (g1_add (g1_mul (fpow x 3) (T_3 pf))
  (g1_add (g1_mul (fpow x 4) (T_4 pf))
  (g1_add (g1_mul (fpow x 5) (T_5 pf)) (g1_mul (fpow x 6) (T_6 pf)))))))) &&
  conversation_b (g1_mul w g) (ipp_point pf g h G H n1 n N cs y z u x w)
    (map (fun i => g1_mul (phase_factor n1 u i) (nth i G g1_id)) (seq 0 N))
    (map (fun i => g1_mul (fpow (finv y) i * phase_factor n1 u i) (nth i H g1_id)) (seq 0 N))
    us (ipp_L (proof_ipp pf)) (ipp_R (proof_ipp pf)) (ipp_a (proof_ipp pf)) (ipp_b (proof_ipp pf)).
Lemma accepted_b_ok g h G H V n1 n cs pf y z u x w us :
  accepted_b g h G H V n1 n cs pf y z u x w us = true -> accepted g h G H V n1 n cs pf y z u x w us.
Proof.
  unfold accepted_b. intros E. apply andb_prop in E as [E1 E2]. split.
  - apply g1_eqb_spec in E1. exact E1.
  - apply conversation_b_ok. exact E2.
Qed.

Definition proof_tree_accepted_b (g h : G1) (G H V : list G1) (n1 n : nat) (cs : list lc)
    (f : first_message) (t : proof_tree) : bool :=
  forallb (fun yn => forallb (fun zn => forallb (fun un => forallb (fun xn => forallb (fun wt =>
    forallb (fun '(us, Ls, Rs, a, b) =>
      accepted_b g h G H V n1 n cs (branch_proof f zn xn Ls Rs a b)
        (y_chal yn) (z_chal zn) (u_chal un) (x_chal xn) (fst wt) us) (ipp_branches (snd wt)))
    [(x_w1 xn, x_ipp1 xn); (x_w2 xn, x_ipp2 xn)]) (u_xs un)) (z_us zn)) (y_zs yn)) t.
Lemma proof_tree_accepted_b_ok g h G H V n1 n cs f t :
  proof_tree_accepted_b g h G H V n1 n cs f t = true -> proof_tree_accepted g h G H V n1 n cs f t.
Proof.
  unfold proof_tree_accepted_b. intros E yn zn un xn w it us Ls Rs a b Hy Hz Hu Hx Hw Hb.
  rewrite forallb_forall in E. specialize (E yn Hy). rewrite forallb_forall in E. specialize (E zn Hz).
  rewrite forallb_forall in E. specialize (E un Hu). rewrite forallb_forall in E. specialize (E xn Hx).
  rewrite forallb_forall in E. specialize (E (w, it) Hw). rewrite forallb_forall in E.
  specialize (E _ (ipp_branches_ok _ _ _ _ _ _ Hb)). apply accepted_b_ok. exact E.
Qed.

Definition x_wf_b (k : nat) (xn : x_node ipp_tree) : bool :=
  nz_b (x_w1 xn) && nz_b (x_w2 xn) && nodup_b [x_w1 xn; x_w2 xn] && (ipp_wf_b k (x_ipp1 xn) && ipp_wf_b k (x_ipp2 xn)).
Definition u_wf_b (k : nat) (un : u_node ipp_tree) : bool :=
  nz_b (u_chal un) && Nat.eqb (length (u_xs un)) 7 && nodup_b (map x_chal (u_xs un)) && forallb (x_wf_b k) (u_xs un).
Definition z_wf_b (k : nat) (zn : z_node G1 ipp_tree) : bool :=
  Nat.eqb (length (z_us zn)) 5 && nodup_b (map u_chal (z_us zn)) && forallb (u_wf_b k) (z_us zn).
Definition y_wf_b (k q : nat) (yn : y_node G1 ipp_tree) : bool :=
  nz_b (y_chal yn) && Nat.eqb (length (y_zs yn)) (S q) && nodup_b (map z_chal (y_zs yn)) && forallb (z_wf_b k) (y_zs yn).
Definition proof_tree_wf_b (k q : nat) (t : proof_tree) : bool :=
  Nat.eqb (length t) (2 ^ k) && nodup_b (map y_chal t) && forallb (y_wf_b k q) t.

Lemma forallb_Forall {A} (b : A -> bool) (Q : A -> Prop) l : (forall a, b a = true -> Q a) -> forallb b l = true -> Forall Q l.
Proof. intros Hb E. rewrite forallb_forall in E. apply Forall_forall. auto. Qed.

Lemma proof_tree_wf_b_ok k q t : proof_tree_wf_b k q t = true -> proof_tree_wf k q t.
Proof.
  assert (Hx : forall a, x_wf_b k a = true -> x_node_wf k a).
  { intros a. unfold x_wf_b, x_node_wf. rewrite !andb_true_iff. intros (((E1 & E2) & E3) & E4 & E5).
    apply nodup_b_ok in E3. repeat split; auto using nz_b_ok, ipp_wf_b_ok.
    inversion E3 as [|? ? Hn _]; subst. intros E. apply Hn. left. symmetry. exact E. }
  assert (Hu : forall a, u_wf_b k a = true -> u_node_wf k a).
  { intros a. unfold u_wf_b, u_node_wf. rewrite !andb_true_iff. intros (((E1 & E2) & E3) & E4).
    repeat split; auto using nz_b_ok, nodup_b_ok, Nat.eqb_eq. apply Nat.eqb_eq. assumption. eapply forallb_Forall; eassumption. }
  assert (Hz : forall a, z_wf_b k a = true -> z_node_wf k a).
  { intros a. unfold z_wf_b, z_node_wf. rewrite !andb_true_iff. intros ((E1 & E2) & E3).
    repeat split; auto using nodup_b_ok. apply Nat.eqb_eq. assumption. eapply forallb_Forall; eassumption. }
  assert (Hy : forall a, y_wf_b k q a = true -> y_node_wf k q a).
  { intros a. unfold y_wf_b, y_node_wf. rewrite !andb_true_iff. intros (((E1 & E2) & E3) & E4).
    repeat split; auto using nz_b_ok, nodup_b_ok. apply Nat.eqb_eq. assumption. eapply forallb_Forall; eassumption. }
  unfold proof_tree_wf_b, proof_tree_wf. rewrite !andb_true_iff. intros ((E1 & E2) & E3).
  repeat split; auto using nodup_b_ok. apply Nat.eqb_eq. assumption. eapply forallb_Forall; eassumption.
Qed.

(** *** The honest prover on paper *)
(** inner-product argument, four challenges in every round *)
Fixpoint honest_ipp (k : nat) (Q : G1) (G H : list G1) (a b : list F) (u1 u2 u3 u4 : F) : ipp_tree :=
  match k with
  | O => ILeaf (nth 0 a 0) (nth 0 b 0)
  | S k =>
      let m := Nat.div2 (length a) in
      let a1 := firstn m a in let a2 := skipn m a in let b1 := firstn m b in let b2 := skipn m b in
      let L := g1_add (g1_add (msm a1 (skipn m G)) (msm b2 (firstn m H))) (g1_mul (ip a1 b2) Q) in
      let R := g1_add (g1_add (msm a2 (firstn m G)) (msm b1 (skipn m H))) (g1_mul (ip a2 b1) Q) in
      let next u := honest_ipp k Q (fold_halves (finv u) u G) (fold_halves u (finv u) H)
                      (vadd (vscale u a1) (vscale (finv u) a2)) (vadd (vscale (finv u) b1) (vscale u b2)) u1 u2 u3 u4 in
      INode L R u1 (next u1) u2 (next u2) u3 (next u3) u4 (next u4)
  end.

Section Honest.
Context (g h : G1) (G H : list G1) (n1 n k : nat) (cs : list lc) (v gam aL aR aO sL sR : list F).
(** blindings of the six points, and of the T's *)
Context (bl : list F) (tau : list F) (ipp_chals : F * F * F * F).
Let N := (2 ^ k)%nat.
Let phase1 := fun l : list F => map (fun i => if Nat.ltb i n1 then nth i l 0 else 0) (seq 0 N).
Let phase2 := fun l : list F => map (fun i => if Nat.ltb i n1 then 0 else nth i l 0) (seq 0 N).
Let point := fun (l r : list F) (b : F) => g1_add (g1_add (msm l G) (msm r H)) (g1_mul b h).
Definition honest_first : first_message :=
  FirstMessage (point (phase1 aL) (phase1 aR) (nth 0 bl 0)) (point (phase1 aO) [] (nth 1 bl 0)) (point (phase1 sL) (phase1 sR) (nth 2 bl 0))
    (point (phase2 aL) (phase2 aR) (nth 3 bl 0)) (point (phase2 aO) [] (nth 4 bl 0)) (point (phase2 sL) (phase2 sR) (nth 5 bl 0)).
Definition honest_V : list G1 := zipw (fun x b => g1_add (g1_mul x g) (g1_mul b h)) v gam.

Section YZ.
Context (y z : F).
Let yi := fpow (finv y).
Let wL := padded n (fun i => weight cs z (VLeft i)).
Let wR := padded n (fun i => weight cs z (VRight i)).
Let wO := padded n (fun i => weight cs z (VOut i)).
Let l1 := fun i => nth i aL 0 + yi i * wR i.
Let l2 := fun i => nth i aO 0.
Let l3 := fun i => nth i sL 0.
Let r0 := fun i => wO i - fpow y i.
Let r1 := fun i => fpow y i * nth i aR 0 + wL i.
Let r3 := fun i => fpow y i * nth i sR 0.
Definition honest_t (e : nat) : F :=
  sum_n N (fun i => nth e [0; l1 i * r0 i; l1 i * r1 i + l2 i * r0 i; l2 i * r1 i + l3 i * r0 i;
     l1 i * r3 i + l3 i * r1 i; l2 i * r3 i; l3 i * r3 i] 0).
Let T := fun e => g1_add (g1_mul (honest_t e) g) (g1_mul (nth e tau 0) h).
Definition honest_x (u x w1 w2 : F) : x_node ipp_tree :=
  let l := map (fun i => x * l1 i + fpow x 2 * l2 i + fpow x 3 * l3 i) (seq 0 N) in
  let r := map (fun i => r0 i + x * r1 i + fpow x 3 * r3 i) (seq 0 N) in
  let Gs := map (fun i => g1_mul (phase_factor n1 u i) (nth i G g1_id)) (seq 0 N) in
  let Hs := map (fun i => g1_mul (fpow (finv y) i * phase_factor n1 u i) (nth i H g1_id)) (seq 0 N) in
  let tx := sum_n 7 (fun e => fpow x e * honest_t e) in
  let txb := sum_n 7 (fun e => if Nat.eqb e 2 then fpow x 2 * sum_n (length v) (fun j => - weight cs z (VCommitted j) * nth j gam 0)
                              else fpow x e * nth e tau 0) in
  let b := fun i => nth i bl 0 in
  let eb := x * (b 0%nat + u * b 3%nat) + fpow x 2 * (b 1%nat + u * b 4%nat) + fpow x 3 * (b 2%nat + u * b 5%nat) in
  let '(c1, c2, c3, c4) := ipp_chals in
  XNode _ x tx txb eb w1 (honest_ipp k (g1_mul w1 g) Gs Hs l r c1 c2 c3 c4) w2 (honest_ipp k (g1_mul w2 g) Gs Hs l r c1 c2 c3 c4).
Definition honest_z (us xs : list F) (w1 w2 : F) : z_node G1 ipp_tree :=
  ZNode _ _ z (T 1%nat) (T 3%nat) (T 4%nat) (T 5%nat) (T 6%nat)
    (map (fun u => UNode _ u (map (fun x => honest_x u x w1 w2) xs)) us).
End YZ.
Definition honest_tree (ys zs us xs : list F) (w1 w2 : F) : proof_tree :=
  map (fun y => YNode _ _ y (map (fun z => honest_z y z us xs w1 w2) zs)) ys.
End Honest.
End TreeCheck.
