(** Properties C11-C16: vector polynomials and the inner-product argument.
    Vocabulary: Spec/IPPSpec.v, Spec/Extractor.v. *)
From Coq Require Import ZArith String List Lia Bool.
From Verif.Base Require Import Outcome Fp Params Algebra Instances.
From Verif.Model Require Import Transcript LinComb VectorPoly IPP.
From Verif.Spec Require Import IPPSpec Extractor.
From Verif.Proofs Require Import IPPProofs IPPMore ExtractProofs IPPMain.
From Verif.Props Require Import Demo.
Import ListNotations.

Section Props.
Context {P : Params} {OK : ParamsOk P}.
Local Open Scope fe_scope.

(** ** C11 Polynomial products are exact *)
Theorem C11_vec_poly1_inner_product (l r : vec_poly1) (n : nat) :
  length (vp1_0 l) = n -> length (vp1_1 l) = n -> length (vp1_0 r) = n -> length (vp1_1 r) = n ->
  exists p, vec_poly1_inner_product l r = Done p /\
    p2_0 p = ip (vp1_0 l) (vp1_0 r) /\
    p2_1 p = ip (vp1_0 l) (vp1_1 r) + ip (vp1_1 l) (vp1_0 r) /\
    p2_2 p = ip (vp1_1 l) (vp1_1 r) /\
    forall x, exists lx rx, vec_poly1_eval l x = Done lx /\ vec_poly1_eval r x = Done rx /\ poly2_eval p x = ip lx rx.
Proof. exact (vec_poly1_inner_product_spec l r n). Qed.

Theorem C11_special_inner_product (l r : vec_poly3) (n : nat) :
  length (vp3_0 l) = n -> length (vp3_1 l) = n -> length (vp3_2 l) = n -> length (vp3_3 l) = n ->
  length (vp3_0 r) = n -> length (vp3_1 r) = n -> length (vp3_2 r) = n -> length (vp3_3 r) = n ->
  Forall (fun c => c = 0) (vp3_0 l) -> Forall (fun c => c = 0) (vp3_2 r) ->
  exists p, special_inner_product l r = Done p /\
    forall x, exists lx rx, vec_poly3_eval l x = Done lx /\ vec_poly3_eval r x = Done rx /\ poly6_eval p x = ip lx rx.
Proof. exact (special_inner_product_ok l r n). Qed.

(** ** C12 Inner product argument: completeness *)
Theorem C12_ipp_completeness (k : nat) (t : transcript) (Q : G1) (Gf Hf : list F) (G H : list G1) (a b : list F) :
  length G = (2 ^ k)%nat -> length H = (2 ^ k)%nat -> length a = (2 ^ k)%nat -> length b = (2 ^ k)%nat ->
  length Gf = (2 ^ k)%nat -> length Hf = (2 ^ k)%nat ->
  (k < 32)%nat -> k <> 0%nat \/ batch_invert_empty_panics = false ->
  exists proof t',
    create_ipp t Q Gf Hf G H a b = Done (proof, t') /\
    (Forall (fun u => u <> 0) (fst (ipp_challenges (ipp_L proof) (ipp_R proof) (innerproduct_domain_sep (2 ^ k) t))) ->
     verify_ipp (2 ^ k) t Gf Hf
       (g1_add (g1_add (msm (vmul a Gf) G) (msm (vmul b Hf) H)) (g1_mul (ip a b) Q))
       Q G H (ipp_a proof) (ipp_b proof) (ipp_L proof) (ipp_R proof) = Done (Ok tt, t')).
Proof. exact (ipp_complete k t Q Gf Hf G H a b). Qed.

(** ** C13 Verification scalars *)
Theorem C13_verification_scalars Ls Rs n t us t' :
  length Ls = length Rs -> (length Ls < 32)%nat -> n = (2 ^ length Ls)%nat ->
  Ls <> [] \/ batch_invert_empty_panics = false ->
  ipp_challenges Ls Rs (innerproduct_domain_sep n t) = (us, t') ->
  Forall (fun u => u <> 0) us ->
  verification_scalars Ls Rs n t =
    Done (Ok (map (fun u => u * u) us, map (fun u => finv u * finv u) us, map (s_entry us) (seq 0 n), t')) /\
  forall i, (i < n)%nat -> s_entry us i * s_entry us (n - 1 - i) = 1.
Proof. exact (scalars_closed Ls Rs n t us t'). Qed.

Theorem C13_rejects Ls Rs n t :
  (verification_scalars Ls Rs n t = Done (Err VerificationError) <-> (32 <= length Ls)%nat \/ n <> (2 ^ length Ls)%nat) /\
  (forall e, verification_scalars Ls Rs n t = Done (Err e) -> e = VerificationError).
Proof. exact (verification_scalars_err Ls Rs n t). Qed.

(** ** C14 IPP verification accepts exactly one P *)
Theorem C14_exactly_one_P n t Gf Hf Q G H a b Ls Rs :
  length Ls = length Rs -> (length Ls < 32)%nat -> n = (2 ^ length Ls)%nat ->
  Ls <> [] \/ batch_invert_empty_panics = false ->
  length G = n -> length H = n -> length Gf = n -> length Hf = n ->
  exists Pt t',
    verify_ipp n t Gf Hf Pt Q G H a b Ls Rs = Done (Ok tt, t') /\
    forall Pt', Pt' <> Pt -> verify_ipp n t Gf Hf Pt' Q G H a b Ls Rs = Done (Err VerificationError, t').
Proof. exact (verify_ipp_unique n t Gf Hf Q G H a b Ls Rs). Qed.

(** ... namely the one of the recursive verifier on paper *)
Theorem C14_recursive_verifier n t Gf Hf Pt Q G H a b Ls Rs us t' :
  length Ls = length Rs -> (length Ls < 32)%nat -> n = (2 ^ length Ls)%nat ->
  Ls <> [] \/ batch_invert_empty_panics = false ->
  length G = n -> length H = n -> length Gf = n -> length Hf = n ->
  ipp_challenges Ls Rs (innerproduct_domain_sep n t) = (us, t') -> Forall (fun u => u <> 0) us ->
  exists r, verify_ipp n t Gf Hf Pt Q G H a b Ls Rs = Done (r, t') /\ (r = Ok tt \/ r = Err VerificationError) /\
    (r = Ok tt <-> conversation Q Pt (zipw g1_mul Gf G) (zipw g1_mul Hf H) us Ls Rs a b).
Proof. exact (verify_ipp_conversation n t Gf Hf Pt Q G H a b Ls Rs us t'). Qed.

(** ** C15 create_ipp shape and failure *)
Theorem C15_create_ipp_panics t Q Gf Hf G H a b :
  create_ipp t Q Gf Hf G H a b = Panic <->
  ~ (exists k, length G = (2 ^ k)%nat /\ length H = (2 ^ k)%nat /\ length a = (2 ^ k)%nat /\ length b = (2 ^ k)%nat /\
      length Gf = (2 ^ k)%nat /\ length Hf = (2 ^ k)%nat).
Proof. exact (create_ipp_panics t Q Gf Hf G H a b). Qed.

Theorem C15_create_ipp_shape t Q Gf Hf G H a b proof t' :
  create_ipp t Q Gf Hf G H a b = Done (proof, t') ->
  exists k, length G = (2 ^ k)%nat /\ length (ipp_L proof) = k /\ length (ipp_R proof) = k.
Proof. exact (create_ipp_shape t Q Gf Hf G H a b proof t'). Qed.

(** ** C16 IPP special soundness *)
(** The extractor [ipp_extract] is a program that sees the scalars of the tree
    only, hence no group element. *)
Theorem C16_special_soundness (k : nat) (t : ipp_tree) (Q Pt : G1) (G H : list G1) :
  length G = (2 ^ k)%nat -> length H = (2 ^ k)%nat -> tree_wf k t -> tree_accepts Q Pt G H t ->
  match ipp_extract (scalars_of t) with
  | Opening a b => opens Q Pt G H a b
  | Relation x y z => relation Q G H x y z
  end.
Proof. exact (ipp_extract_ok k t Q Pt G H). Qed.
End Props.

(** ** C11 without the precondition the product is wrong *)
Theorem C11_special_inner_product_refuted :
  exists (P : Params), ParamsOk P /\ exists (l r : @vec_poly3 P) p x lx rx,
    length (vp3_0 l) = 1%nat /\ length (vp3_1 l) = 1%nat /\ length (vp3_2 l) = 1%nat /\ length (vp3_3 l) = 1%nat /\
    length (vp3_0 r) = 1%nat /\ length (vp3_1 r) = 1%nat /\ length (vp3_2 r) = 1%nat /\ length (vp3_3 r) = 1%nat /\
    special_inner_product l r = Done p /\ vec_poly3_eval l x = Done lx /\ vec_poly3_eval r x = Done rx /\
    poly6_eval p x <> ip lx rx.
Proof.
  exists toyP. split; [exact toyP_ok|].
  exists (@VecPoly3 toyP [fe 1] [fe 2] [fe 3] [fe 4]), (@VecPoly3 toyP [fe 5] [fe 6] [fe 0] [fe 7]).
  eexists _, (fe 3), _, _. do 8 (split; [reflexivity|]). do 3 (split; [reflexivity|]).
  intros E. apply (f_equal (@fval _)) in E. vm_compute in E. discriminate E.
Qed.

Print Assumptions C11_vec_poly1_inner_product.
Print Assumptions C11_special_inner_product.
Print Assumptions C11_special_inner_product_refuted.
Print Assumptions C12_ipp_completeness.
Print Assumptions C13_verification_scalars.
Print Assumptions C13_rejects.
Print Assumptions C14_exactly_one_P.
Print Assumptions C14_recursive_verifier.
Print Assumptions C15_create_ipp_panics.
Print Assumptions C15_create_ipp_shape.
Print Assumptions C16_special_soundness.

(** ** The hypotheses are met *)
Section Examples.
#[local] Existing Instance toyP.
#[local] Existing Instance toyP_ok.
Local Open Scope fe_scope.

Definition ex_a : list F := map fe [3; 1; 4; 1]%Z.
Definition ex_b : list F := map fe [2; 7; 1; 8]%Z.
Definition ex_Gf : list F := map fe [1; 1; 5; 5]%Z.
Definition ex_Hf : list F := map fe [1; 9; 405; 3645]%Z.
Definition ex_G : list G1 := firstn 4 demo_G.
Definition ex_H : list G1 := firstn 4 demo_H.
Definition ex_ipp := match create_ipp [] demo_g ex_Gf ex_Hf ex_G ex_H ex_a ex_b with
  | Done (p, _) => p | Panic => IPPProof [] [] (fe 0) (fe 0) end.

Definition nonzero_b (u : F) : bool := negb (feqb u 0).
Lemma nonzero_all us : forallb nonzero_b us = true -> Forall (fun u : F => u <> 0) us.
Proof.
  intros H. apply Forall_forall. intros u Hu E. rewrite forallb_forall in H. specialize (H u Hu).
  unfold nonzero_b in H. rewrite E in H. vm_compute in H. discriminate H.
Qed.

(** four entries, two rounds, non-zero challenges *)
Example C12_example :
  length ex_G = (2 ^ 2)%nat /\ length ex_H = (2 ^ 2)%nat /\ length ex_a = (2 ^ 2)%nat /\ length ex_b = (2 ^ 2)%nat /\
  length ex_Gf = (2 ^ 2)%nat /\ length ex_Hf = (2 ^ 2)%nat /\
  length (ipp_L ex_ipp) = 2%nat /\ length (ipp_R ex_ipp) = 2%nat /\
  Forall (fun u => u <> 0) (fst (ipp_challenges (ipp_L ex_ipp) (ipp_R ex_ipp) (innerproduct_domain_sep (2 ^ 2) []))).
Proof. do 8 (split; [vm_compute; reflexivity|]). apply nonzero_all. vm_compute. reflexivity. Qed.

(** A complete tree of depth one whose four conversations are accepted: the
    honest answers for a = (3, 1), b = (2, 7). *)
Definition ex1_G : list G1 := firstn 2 demo_G.
Definition ex1_H : list G1 := firstn 2 demo_H.
Definition ex1_P : G1 := g1_add (g1_add (msm (map fe [3; 1]%Z) ex1_G) (msm (map fe [2; 7]%Z) ex1_H)) (g1_mul (fe 13) demo_g).
Definition g_at (l : list G1) i : G1 := nth i l g1_id.
Definition ex1_L : G1 := g1_add (g1_add (g1_mul (fe 3) (g_at ex1_G 1)) (g1_mul (fe 7) (g_at ex1_H 0))) (g1_mul (fe 21) demo_g).
Definition ex1_R : G1 := g1_add (g1_add (g1_mul (fe 1) (g_at ex1_G 0)) (g1_mul (fe 2) (g_at ex1_H 1))) (g1_mul (fe 2) demo_g).
Definition ex1_leaf (u : F) : ipp_tree :=
  ILeaf (fe 3 * u + fe 1 * finv u) (fe 2 * finv u + fe 7 * u).
Definition ex1_tree : ipp_tree :=
  INode ex1_L ex1_R (fe 1) (ex1_leaf (fe 1)) (fe 2) (ex1_leaf (fe 2)) (fe 3) (ex1_leaf (fe 3)) (fe 4) (ex1_leaf (fe 4)).

Example C16_example :
  length ex1_G = (2 ^ 1)%nat /\ length ex1_H = (2 ^ 1)%nat /\ tree_wf 1 ex1_tree /\
  tree_accepts demo_g ex1_P ex1_G ex1_H ex1_tree.
Proof.
  split; [reflexivity|]. split; [reflexivity|]. split.
  - cbn [tree_wf ex1_tree ex1_leaf]. repeat split;
      try (intros E; apply (f_equal (@fval _)) in E; vm_compute in E; discriminate E).
    repeat (constructor; [cbn [In]; intros Hin;
      repeat match type of Hin with _ \/ _ => destruct Hin as [E|Hin]; [apply (f_equal (@fval _)) in E; vm_compute in E; discriminate E|] end; exact Hin|]).
    constructor.
  - intros us Ls Rs a b Hb. unfold ex1_tree in Hb. inversion Hb; subst; clear Hb;
      match goal with H : branch (ex1_leaf _) _ _ _ _ _ |- _ => unfold ex1_leaf in H; inversion H; subst; clear H end;
      apply Fp_ext; vm_compute; reflexivity.
Qed.
End Examples.
