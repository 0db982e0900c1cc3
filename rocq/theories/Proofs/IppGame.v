(** Non-interactive provers of the inner-product argument. *)
From Coq Require Import ZArith String List Lia Bool Arith.
From Verif.Base Require Import Outcome Fp Params Algebra.
From Verif.Model Require Import Transcript LinComb IPP Prover Verifier.
From Verif.Spec Require Import IPPSpec Extractor R1CSTree Games Challenges IPPGame Verdict.
From Verif.Proofs Require Import IPPProofs IPPMore VerifyProofs VerdictProofs ExtractProofs TreeCount TreeBuild OracleCount QueryProofs OracleGood
  GameOracle OracleZero OracleVerify OracleCode ChallengeBytes.
Import ListNotations.
Local Notation length := List.length.

(** *** The tree of rounds *)
Section Build.
Context {P : Params} {OK : ParamsOk P}.
Context {E X : Type} (pt : nat -> E -> X) (X_dec : forall a b : X, {a = b} + {a <> b}).
Context (ch : E -> list F) (T : list E) (C : list F) (pr : E -> ipp_proof) (k : nat).
Definition pair_of (j : nat) (pf : ipp_proof) : G1 * G1 := (nth j (ipp_L pf) g1_id, nth j (ipp_R pf) g1_id).

Hypothesis HC : NoDup C.
Hypothesis Hmono : forall i e e', In e T -> In e' T -> (S i < k)%nat -> pt (S i) e = pt (S i) e' -> pt i e = pt i e'.
Hypothesis Hround : forall j e e', In e T -> In e' T -> (j < k)%nat -> pt j e = pt j e' -> pair_of j (pr e) = pair_of j (pr e').
Hypothesis Hlen : forall e, In e T -> length (ipp_L (pr e)) = k /\ length (ipp_R (pr e)) = k.

Local Notation sb := (same_before pt X_dec).
Local Notation gd := (good pt X_dec ch T C).

Lemma rb_down i e e' : In e T -> In e' T -> (i < k)%nat -> sb (S i) e e' = true -> sb i e e' = true.
Proof.
  intros He He' Hi Hs. destruct i as [|i]; [reflexivity|]. apply same_before_S. apply same_before_S in Hs.
  apply Hmono; auto.
Qed.
Lemma rb_below i e e1 e' : In e1 T -> In e' T -> (i < k)%nat ->
  sb i e e1 = true -> sb (S i) e1 e' = true -> sb i e e' = true.
Proof.
  intros He He' Hi Hs1 Hs2. apply rb_down in Hs2; auto.
  rewrite (same_before_trans pt X_dec i e e1 e' Hs1). exact Hs2.
Qed.

(** the leaf [e'] below [e], reached by [c ++ us], ends with these messages *)
Definition round_leaf (i : nat) (e : E) (c us : list F) (Ls Rs : list G1) (a b : F) : Prop :=
  exists e', In e' T /\ sb i e e' = true /\ ch e' = c ++ us /\
    skipn i (ipp_L (pr e')) = Ls /\ skipn i (ipp_R (pr e')) = Rs /\ ipp_a (pr e') = a /\ ipp_b (pr e') = b.

Lemma round_build j : forall i e c, (j + i = k)%nat -> gd (repeat 7%nat j) i e c = true ->
  exists t, tree_wf j t /\ forall us Ls Rs a b, branch t us Ls Rs a b -> round_leaf i e c us Ls Rs a b.
Proof.
  induction j as [|j IH]; intros i e c Hk Hg.
  - cbn [repeat] in Hg. apply good_nil in Hg as (e' & He' & Hs & Hc).
    exists (ILeaf (ipp_a (pr e')) (ipp_b (pr e'))). split; [exact I|].
    intros us Ls Rs a b Hb. inversion Hb; subst. exists e'. destruct (Hlen e' He') as [L1 L2].
    rewrite app_nil_r. rewrite !skipn_all2 by lia. repeat split; auto.
  - cbn [repeat] in Hg. apply good_cons in Hg as (e1 & He1 & Hs & Hg).
    destruct (good_children_ok _ _ _ _ _ _ _ _ _ _ HC Hg) as (l & Nl & Ll & _ & Hl).
    destruct (pick_four l Nl Ll) as (u1 & u2 & u3 & u4 & Hin & Hnz & Hnd).
    assert (Hb : forall u, In u [u1; u2; u3; u4] -> exists t, tree_wf j t /\
      forall us Ls Rs a b, branch t us Ls Rs a b -> round_leaf (S i) e1 (c ++ [u]) us Ls Rs a b).
    { intros u Hu. apply IH; [lia|]. apply Hl, Hin, Hu. }
    destruct (Hb u1) as (t1 & W1 & B1); [cbn; tauto|]. destruct (Hb u2) as (t2 & W2 & B2); [cbn; tauto|].
    destruct (Hb u3) as (t3 & W3 & B3); [cbn; tauto|]. destruct (Hb u4) as (t4 & W4 & B4); [cbn; tauto|]. clear Hb.
    exists (INode (fst (pair_of i (pr e1))) (snd (pair_of i (pr e1))) u1 t1 u2 t2 u3 t3 u4 t4).
    split; [cbn [tree_wf]; auto 8|].
    assert (Hstep : forall u us Ls Rs a b, round_leaf (S i) e1 (c ++ [u]) us Ls Rs a b ->
      round_leaf i e c (u :: us) (fst (pair_of i (pr e1)) :: Ls) (snd (pair_of i (pr e1)) :: Rs) a b).
    { intros u us Ls Rs a b (e' & He' & Hs' & Hc' & HL & HR & Ha & Hb). exists e'.
      destruct (Hlen e' He') as [L1 L2].
      assert (Er : pair_of i (pr e1) = pair_of i (pr e')) by (apply Hround; auto; [lia|apply same_before_S in Hs'; exact Hs']).
      rewrite (nth_skipn_cons _ g1_id i) by lia. rewrite (nth_skipn_cons (ipp_R _) g1_id i) by lia.
      rewrite Er, HL, HR. unfold pair_of. cbn [fst snd].
      split; [exact He'|]. split; [apply (rb_below i e e1 e'); auto; lia|].
      split; [rewrite Hc', <- app_assoc; reflexivity|]. repeat split; auto. }
    intros us Ls Rs a b Hb. inversion Hb; subst; apply Hstep; auto.
Qed.
End Build.

(** *** The questions *)
Section Points.
Context {P : Params} {OK : ParamsOk P} {ENC : EncodingOk P}.
Context (n : nat) (t0 : transcript).
Definition round_shaped (k : nat) (pf : ipp_proof) : Prop := length (ipp_L pf) = k /\ length (ipp_R pf) = k.
Definition rpoint (i : nat) (pf : ipp_proof) : query := nth i (ipp_queries n t0 pf) no_query.
Definition revents (pf : ipp_proof) : transcript := round_events (ipp_L pf) (ipp_R pf).

Lemma ipp_queries_length k pf : round_shaped k pf -> length (ipp_queries n t0 pf) = k.
Proof. intros [HL HR]. unfold ipp_queries. rewrite round_queries_length by congruence. exact HL. Qed.
Lemma revents_length k pf : round_shaped k pf -> length (revents pf) = 3 * k.
Proof. intros [HL HR]. unfold revents. rewrite round_events_length by congruence. rewrite HL. reflexivity. Qed.
Lemma rpoint_prefix k pf i : round_shaped k pf -> i < k ->
  rpoint i pf = (innerproduct_domain_sep n t0 ++ firstn (2 + 3 * i) (revents pf), "u"%string).
Proof. intros [HL HR] Hi. unfold rpoint, ipp_queries. apply round_queries_nth; lia. Qed.
Lemma rpoint_events k pf pf' i : round_shaped k pf -> round_shaped k pf' -> i < k -> rpoint i pf = rpoint i pf' ->
  firstn (2 + 3 * i) (revents pf) = firstn (2 + 3 * i) (revents pf').
Proof.
  intros Hp Hp' Hi E. rewrite !(rpoint_prefix k) in E by assumption. apply (f_equal fst) in E. cbn [fst] in E. apply app_inv_head in E. exact E.
Qed.
Lemma rpoint_mono k pf pf' i j : round_shaped k pf -> round_shaped k pf' -> i <= j -> j < k ->
  rpoint j pf = rpoint j pf' -> rpoint i pf = rpoint i pf'.
Proof.
  intros Hp Hp' Hij Hj E. apply (rpoint_events k) in E; auto.
  rewrite !(rpoint_prefix k) by (assumption || lia). do 2 f_equal.
  transitivity (firstn (2 + 3 * i) (firstn (2 + 3 * j) (revents pf))).
  - rewrite firstn_firstn, Nat.min_l by lia. reflexivity.
  - rewrite E, firstn_firstn, Nat.min_l by lia. reflexivity.
Qed.
Lemma rpoint_level k pf pf' i j : round_shaped k pf -> round_shaped k pf' -> i < k -> j < k ->
  rpoint i pf = rpoint j pf' -> i = j.
Proof.
  intros Hp Hp' Hi Hj E. rewrite !(rpoint_prefix k) in E by assumption. apply (f_equal fst) in E. cbn [fst] in E. apply app_inv_head in E.
  apply (f_equal (@length _)) in E. rewrite !firstn_length, !(revents_length k) in E by assumption. lia.
Qed.
Lemma rpoints_mono k pf pf' i : round_shaped k pf -> round_shaped k pf' -> i < k -> rpoint i pf = rpoint i pf' ->
  firstn i (ipp_queries n t0 pf) = firstn i (ipp_queries n t0 pf').
Proof.
  intros Hp Hp' Hi E. apply (nth_ext _ _ no_query no_query).
  - rewrite !firstn_length, !(ipp_queries_length k) by assumption. reflexivity.
  - intros j Hj. rewrite firstn_length, (ipp_queries_length k) in Hj by assumption.
    rewrite !nth_firstn_lt by lia. apply (rpoint_mono k pf pf' j i); auto; lia.
Qed.
Lemma rpoint_round k j pf pf' : round_shaped k pf -> round_shaped k pf' -> j < k -> rpoint j pf = rpoint j pf' ->
  pair_of j pf = pair_of j pf'.
Proof.
  intros Hp Hp' Hj Er. apply (rpoint_events k) in Er; [|assumption..]. replace (2 + 3 * j) with (3 * j + 2) in Er by lia.
  destruct Hp as [HL HR], Hp' as [HL' HR']. unfold revents in Er.
  destruct (round_events_nth (ipp_L pf) (ipp_R pf) j (TChallenge "" 0)) as [N1 N2]; [lia..|].
  destruct (round_events_nth (ipp_L pf') (ipp_R pf') j (TChallenge "" 0)) as [N1' N2']; [lia..|].
  assert (En : forall i, i < 3 * j + 2 -> nth i (round_events (ipp_L pf) (ipp_R pf)) (TChallenge "" 0) =
    nth i (round_events (ipp_L pf') (ipp_R pf')) (TChallenge "" 0)).
  { intros i Hi. rewrite <- (nth_firstn_lt _ (3 * j + 2) i) by exact Hi. rewrite Er. apply nth_firstn_lt, Hi. }
  rewrite (En (3 * j)) in N1 by lia. rewrite (En (3 * j + 1)) in N2 by lia. rewrite N1 in N1'. rewrite N2 in N2'.
  injection N1' as E1. injection N2' as E2. apply g1_bytes_inj in E1, E2. unfold pair_of. congruence.
Qed.
End Points.

(** *** What acceptance says *)
Section Accepts.
Context {P : Params} {OK : ParamsOk P}.
Lemma verify_ipp_shape n t Gf Hf Pt Q G H a b Ls Rs t' :
  length G = n -> length H = n -> length Gf = n -> length Hf = n ->
  verify_ipp n t Gf Hf Pt Q G H a b Ls Rs = Done (Ok tt, t') ->
  length Ls = length Rs /\ length Ls < 32 /\ n = 2 ^ length Ls /\ (Ls <> [] \/ batch_invert_empty_panics = false).
Proof.
  intros HG HH HGf HHf E.
  destruct (Nat.le_gt_cases 32 (length Ls)) as [H32|H32]; [rewrite verify_ipp_panics in E by auto; discriminate|].
  destruct (Nat.eq_dec n (2 ^ length Ls)) as [Hn|Hn]; [|rewrite verify_ipp_panics in E by auto; discriminate].
  unfold verify_ipp in E.
  destruct (Nat.lt_ge_cases (length Rs) (length Ls)) as [Hlt|Hge].
  { rewrite (verification_scalars_short (Verifier [] [] 0 [] [] None 0 0)) in E by assumption. discriminate. }
  destruct (verification_scalars Ls Rs n t) as [[[[[usq uisq] sv] t1]|e]|] eqn:Evs; cbn [obind] in E; [|discriminate|discriminate].
  assert (Hne : Ls <> [] \/ batch_invert_empty_panics = false).
  { destruct Ls as [|L Ls]; [right|left; discriminate].
    destruct batch_invert_empty_panics eqn:Eb; [exfalso|reflexivity]. cbn in Evs.
    destruct (negb _); [discriminate|]. unfold batch_invert in Evs. rewrite Eb in Evs. discriminate. }
  apply verification_scalars_shape in Evs as (_ & _ & Lsv & L1 & L2).
  cbn [unwrap_result obind] in E. unfold msm_checked in E.
  match type of E with context [Nat.eqb ?p ?q] => destruct (Nat.eqb_spec p q) as [Eq|]; [|discriminate] end.
  rewrite !app_length, firstn_length, !zipw_length, !map_length, rev_length in Eq. cbn [length] in Eq.
  split; [lia|]. auto.
Qed.
End Accepts.

Section Code.
Context {P : Params} {OK : ParamsOk P}.
Lemma ipp_accepts_shape O k t Gf Hf Pt Q G H (pf : ipp_proof) :
  length G = 2 ^ k -> length H = 2 ^ k -> length Gf = 2 ^ k -> length Hf = 2 ^ k ->
  ipp_accepts O (2 ^ k) t Gf Hf Pt Q G H pf -> round_shaped k pf.
Proof.
  intros HG HH HGf HHf [t' E].
  destruct (@verify_ipp_shape (@backend P O) _ _ _ _ _ _ _ _ _ _ _ _ _ HG HH HGf HHf E) as (H1 & _ & H3 & _).
  apply Nat.pow_inj_r in H3; [|lia]. split; [exact (eq_sym H3)|]. exact (eq_sym (eq_trans H3 H1)).
Qed.
Lemma ipp_accepts_conversation O k t Gf Hf Pt Q G H (pf : ipp_proof) :
  length G = 2 ^ k -> length H = 2 ^ k -> length Gf = 2 ^ k -> length Hf = 2 ^ k ->
  ipp_accepts O (2 ^ k) t Gf Hf Pt Q G H pf ->
  Forall (fun u => u <> fzero modulus) (map O (ipp_queries (2 ^ k) t pf)) ->
  conversation Q Pt (zipw g1_mul Gf G) (zipw g1_mul Hf H) (map O (ipp_queries (2 ^ k) t pf)) (ipp_L pf) (ipp_R pf) (ipp_a pf) (ipp_b pf).
Proof.
  intros HG HH HGf HHf [t' E] Hz.
  destruct (@verify_ipp_shape (@backend P O) _ _ _ _ _ _ _ _ _ _ _ _ _ HG HH HGf HHf E) as (H1 & H2 & H3 & H4).
  assert (Eu : map O (ipp_queries (2 ^ k) t pf) = fst (@ipp_challenges (@backend P O) (ipp_L pf) (ipp_R pf) (@innerproduct_domain_sep (2 ^ k) t))).
  { rewrite <- (@round_queries_challenges (@backend P O)). rewrite (map_ext _ O (backend_oracle O)). reflexivity. }
  rewrite Eu in Hz |- *.
  destruct (@ipp_challenges (@backend P O) (ipp_L pf) (ipp_R pf) (@innerproduct_domain_sep (2 ^ k) t)) as [us t1] eqn:Ec.
  destruct (@verify_ipp_conversation (@backend P O) (backend_ok O) (2 ^ k) t Gf Hf Pt Q G H (ipp_a pf) (ipp_b pf) (ipp_L pf) (ipp_R pf) us t1
    H1 H2 H3 H4 HG HH HGf HHf Ec Hz) as (r & Er & _ & Hc).
  rewrite E in Er. injection Er as <- <-. exact (proj1 Hc eq_refl).
Qed.

Lemma ipp_accepts_iff (O : query -> F) k t Gf Hf Pt Q G H (pf : ipp_proof) :
  length G = 2 ^ k -> length H = 2 ^ k -> length Gf = 2 ^ k -> length Hf = 2 ^ k ->
  k < 32 -> k <> 0 \/ batch_invert_empty_panics = false ->
  all_nonzero (map O (ipp_queries (2 ^ k) t pf)) ->
  (ipp_accepts O (2 ^ k) t Gf Hf Pt Q G H pf <->
   conversation Q Pt (zipw g1_mul Gf G) (zipw g1_mul Hf H) (map O (ipp_queries (2 ^ k) t pf)) (ipp_L pf) (ipp_R pf) (ipp_a pf) (ipp_b pf)).
Proof.
  intros HG HH HGf HHf H32 Hk Hz. split; [intros Ha; apply (ipp_accepts_conversation O k t Gf Hf Pt Q G H pf); assumption|].
  intros Hc.
  assert (HsG : length (zipw g1_mul Gf G) = 2 ^ k) by (rewrite zipw_length, HG, HGf; apply Nat.min_id).
  destruct (conversation_shape _ k _ _ _ _ _ _ _ _ HsG Hc) as (_ & L1 & L2).
  assert (Eu : map O (ipp_queries (2 ^ k) t pf) = fst (@ipp_challenges (@backend P O) (ipp_L pf) (ipp_R pf) (@innerproduct_domain_sep (2 ^ k) t))).
  { rewrite <- (@round_queries_challenges (@backend P O)). rewrite (map_ext _ O (backend_oracle O)). reflexivity. }
  rewrite Eu in Hz, Hc.
  destruct (@ipp_challenges (@backend P O) (ipp_L pf) (ipp_R pf) (@innerproduct_domain_sep (2 ^ k) t)) as [us t1] eqn:Ec.
  assert (H1 : length (ipp_L pf) = length (ipp_R pf)) by congruence.
  assert (H2 : length (ipp_L pf) < 32) by lia.
  assert (H3 : 2 ^ k = 2 ^ length (ipp_L pf)) by (rewrite L1; reflexivity).
  assert (H4 : ipp_L pf <> [] \/ batch_invert_empty_panics = false).
  { destruct Hk as [Hk|Hk]; [left|right; exact Hk]. intros E0. rewrite E0 in L1. cbn in L1. congruence. }
  destruct (@verify_ipp_conversation (@backend P O) (backend_ok O) (2 ^ k) t Gf Hf Pt Q G H (ipp_a pf) (ipp_b pf) (ipp_L pf) (ipp_R pf) us t1
    H1 H2 H3 H4 HG HH HGf HHf Ec Hz) as (r & Er & _ & Hc').
  exists t1. rewrite Er. rewrite (proj2 Hc' Hc). reflexivity.
Qed.

Lemma vmul_nonzero f : forall x : list F, length x = length f -> all_nonzero f -> (exists c, In c x /\ c <> fzero modulus) ->
  exists c, In c (vmul x f) /\ c <> fzero modulus.
Proof.
  induction f as [|b f IH]; intros [|a x] Hl Hf (c & Hc & Hn); try discriminate; [destruct Hc|].
  inversion Hf as [|? ? Hb Hf']; subst. unfold vmul in *. cbn [zipw]. destruct Hc as [<-|Hc].
  - exists (a * b)%fe. split; [left; reflexivity|]. intros E. apply (fmul_integral _ modulus_prime) in E as [E|E]; contradiction.
  - destruct (IH x) as (d & Hd & Hdn); [cbn in Hl; lia|exact Hf'|exists c; auto|]. exists d. split; [right; exact Hd|exact Hdn].
Qed.
Lemma relation_unscaled Gf Hf Q G H x y z :
  length Gf = length G -> length Hf = length H -> all_nonzero Gf -> all_nonzero Hf ->
  relation Q (zipw g1_mul Gf G) (zipw g1_mul Hf H) x y z -> relation Q G H (vmul x Gf) (vmul y Hf) z.
Proof.
  intros HG HH NG NH (Lx & Ly & E & Hn). rewrite zipw_length, HG, Nat.min_id in Lx. rewrite zipw_length, HH, Nat.min_id in Ly.
  split; [unfold vmul; rewrite zipw_length, Lx, HG; apply Nat.min_id|].
  split; [unfold vmul; rewrite zipw_length, Ly, HH; apply Nat.min_id|].
  split; [rewrite !msm_vmul; exact E|].
  destruct Hn as [(c & Hc & Hn)|Hn]; [left|right; exact Hn]. apply in_app_or in Hc as [Hc|Hc].
  - destruct (vmul_nonzero Gf x) as (d & Hd & Hdn); [congruence|exact NG|eauto|]. exists d. split; [apply in_or_app; auto|exact Hdn].
  - destruct (vmul_nonzero Hf y) as (d & Hd & Hdn); [congruence|exact NH|eauto|]. exists d. split; [apply in_or_app; auto|exact Hdn].
Qed.
End Code.

Section Main.
Context {P : Params} {OK : ParamsOk P} {ENC : EncodingOk P}.
Theorem ipp_knowledge k t Gf Hf Pt Q G H D C mu (A : adversary ipp_proof) Qn wins :
  length G = 2 ^ k -> length H = 2 ^ k -> length Gf = 2 ^ k -> length Hf = 2 ^ k ->
  repeats mu C -> NoDup D -> at_most Qn A ->
  (forall O, In O (oracles D C) -> wins O = true ->
     ipp_accepts O (2 ^ k) t Gf Hf Pt Q G H (output O A) /\ incl (ipp_queries (2 ^ k) t (output O A)) D) ->
  (Qn + k) * (mu * 7 + times C (fzero modulus)) * length C ^ length D < length C * length (filter wins (oracles D C)) ->
  exists tree, tree_wf k tree /\
    each_round_branch (fun pf us => exists O, In O (oracles D C) /\ wins O = true /\ output O A = pf /\
      map O (ipp_queries (2 ^ k) t pf) = us) tree /\
    match ipp_extract (scalars_of tree) with
    | Opening a b => opens_scaled (2 ^ k) Q Pt Gf Hf G H a b
    | Relation x y z => relation Q (zipw g1_mul Gf G) (zipw g1_mul Hf H) x y z
    end.
Proof.
  intros HG HH HGf HHf HC HD HA Hw Hcount.
  pose (pts := fun pf => ipp_queries (2 ^ k) t pf).
  assert (Hz := zero_answers pts k D C A Qn wins HD HA).
  set (good := fun O => wins O && no_zero pts A O) in Hz.
  match type of Hz with ?H -> _ => assert (Hz0 : H) end.
  { intros O HO Hwin. destruct (Hw O HO Hwin) as [Ha Hi]. split; [|exact Hi]. apply ipp_queries_length.
    apply (ipp_accepts_shape O k t Gf Hf Pt Q G H); assumption. }
  specialize (Hz Hz0). clear Hz0.
  assert (Hcount' : (Qn + k) * (mu * 7) * length C ^ length D < length C * length (filter good (oracles D C))) by nia.
  clear Hcount Hz.
  set (T := filter good (oracles D C)).
  assert (HT : forall e, In e T -> In e (oracles D C) /\ wins e = true /\ no_zero pts A e = true /\ round_shaped k (output e A)).
  { intros e He. apply filter_In in He as [H1 H2]. apply andb_true_iff in H2 as [H2 H3].
    destruct (Hw e H1 H2) as [Ha _]. repeat split; auto; apply (ipp_accepts_shape e k t Gf Hf Pt Q G H (output e A)); assumption. }
  pose (Ks := map (Nat.mul mu) (repeat 7 k)).
  assert (HK : length Ks = k) by (unfold Ks; rewrite map_length, repeat_length; reflexivity).
  pose (pt := fun i e => rpoint (2 ^ k) t i (output e A)).
  pose (ch := fun e : oracle => map e (pts (output e A))).
  assert (Hg : TreeCount.good pt query_eq_dec ch T C Ks 0 (fun _ => fzero modulus) [] = true).
  { apply (adversary_good pts Ks (mu * 7) D C A Qn good HD HA).
    - intros K E. apply in_map_iff in E as (K' & <- & E). apply repeat_spec in E. rewrite E. apply le_n.
    - intros e He. rewrite HK. apply ipp_queries_length, HT, He.
    - intros e e' i j He He' Hi Hj E. rewrite HK in Hi, Hj.
      destruct (HT e He) as (_ & _ & _ & S1), (HT e' He') as (_ & _ & _ & S2).
      assert (Ei : i = j) by exact (rpoint_level (2 ^ k) t k _ _ i j S1 S2 Hi Hj E). split; [exact Ei|]. subst j.
      exact (rpoints_mono (2 ^ k) t k _ _ i S1 S2 Hi E).
    - intros e He. destruct (HT e He) as (H1 & H2 & _). apply (Hw e H1 H2).
    - rewrite HK. exact Hcount'. }
  apply (good_distinct pt query_eq_dec ch T C mu HC) in Hg.
  destruct (round_build pt query_eq_dec ch T (nodup (Fp_eq_dec modulus) C) (fun e => output e A) k) with (j := k) (i := 0) (e := fun _ : query => fzero modulus) (c := @nil F)
    as (tree & Hwf & Hb); try exact Hg; try lia.
  - apply NoDup_nodup.
  - intros i e e' He He' Hi E. apply (rpoint_mono (2 ^ k) t k _ _ i (S i)); try apply HT; auto.
  - intros j e e' He He' Hj E. apply (rpoint_round (2 ^ k) t k j); try apply HT; auto.
  - intros e He. apply HT, He.
  - assert (Hbr : forall us Ls Rs a b, branch tree us Ls Rs a b -> exists O, In O T /\ output O A = IPPProof Ls Rs a b /\
      map O (ipp_queries (2 ^ k) t (IPPProof Ls Rs a b)) = us).
    { intros us Ls Rs a b Hbb. destruct (Hb _ _ _ _ _ Hbb) as (e & He & _ & Ec & EL & ER & Ea & Eb).
      cbn [skipn app] in *. exists e. split; [exact He|]. cbv beta in EL, ER, Ea, Eb.
      assert (Eo : output e A = IPPProof Ls Rs a b) by (rewrite <- EL, <- ER, <- Ea, <- Eb; destruct (output e A); reflexivity).
      split; [exact Eo|]. rewrite <- Eo. exact Ec. }
    exists tree. split; [exact Hwf|]. split.
    + intros us Ls Rs a b Hbb. destruct (Hbr _ _ _ _ _ Hbb) as (O & HO & Eo & Ec). exists O.
      destruct (HT O HO) as (H1 & H2 & _). auto.
    + assert (Hacc : tree_accepts Q Pt (zipw g1_mul Gf G) (zipw g1_mul Hf H) tree).
      { intros us Ls Rs a b Hbb. destruct (Hbr _ _ _ _ _ Hbb) as (O & HO & Eo & Ec).
        destruct (HT O HO) as (H1 & H2 & H3 & _). destruct (Hw O H1 H2) as [Ha _].
        apply (ipp_accepts_conversation O k t Gf Hf Pt Q G H) in Ha; auto.
        - rewrite Eo in Ha. rewrite Ec in Ha. exact Ha.
        - apply Forall_forall. intros u Hu. exact (no_zero_ok pts A O u H3 Hu). }
      pose proof (ipp_extract_ok k tree Q Pt (zipw g1_mul Gf G) (zipw g1_mul Hf H)) as Hx.
      rewrite !zipw_length, HG, HH, HGf, HHf, Nat.min_id in Hx. specialize (Hx eq_refl eq_refl Hwf Hacc).
      destruct (ipp_extract (scalars_of tree)) as [a b|x y z]; [|exact Hx].
      destruct Hx as (La & Lb & Ep). rewrite zipw_length, HGf, HG, Nat.min_id in La. rewrite zipw_length, HHf, HH, Nat.min_id in Lb.
      split; [exact La|]. split; [exact Lb|]. rewrite !msm_vmul. exact Ep.
Qed.

Lemma code_bound_one a K T W :
  (Z.of_nat a * (Z.of_nat K + 1) * (byte_strings + modulus) * Z.of_nat T < modulus * byte_strings * Z.of_nat W)%Z ->
  a * (code_mu * K + times code_challenges (fzero modulus)) * T < length code_challenges * W.
Proof.
  intros Hlt. apply Nat2Z.inj_lt. rewrite !Nat2Z.inj_mul, Nat2Z.inj_add, Nat2Z.inj_mul, code_challenges_length.
  pose proof (code_repeats (fzero modulus)) as Hz. apply Nat2Z.inj_le in Hz. pose proof code_mu_bound as Hm.
  pose proof modulus_positive as Hp.
  set (mu := Z.of_nat code_mu) in *. set (z := Z.of_nat (times code_challenges (fzero modulus))) in *.
  set (B := byte_strings) in *. set (p := modulus) in *.
  assert (H1 : (p * (mu * Z.of_nat K + z) <= (Z.of_nat K + 1) * (B + p))%Z) by nia.
  apply (Z.mul_lt_mono_pos_l p); [exact Hp|].
  eapply Z.le_lt_trans; [|replace (p * (B * Z.of_nat W))%Z with (p * B * Z.of_nat W)%Z by ring; exact Hlt].
  assert (H2 : (p * (mu * Z.of_nat K + z) * (Z.of_nat a * Z.of_nat T) <= (Z.of_nat K + 1) * (B + p) * (Z.of_nat a * Z.of_nat T))%Z).
  { apply Z.mul_le_mono_nonneg_r; [|exact H1]. apply Z.mul_nonneg_nonneg; apply Nat2Z.is_nonneg. }
  nia.
Qed.

Theorem ipp_knowledge_code k t Gf Hf Pt Q G H D (A : adversary ipp_proof) Qn wins :
  let C := code_challenges in
  length G = 2 ^ k -> length H = 2 ^ k -> length Gf = 2 ^ k -> length Hf = 2 ^ k ->
  NoDup D -> at_most Qn A ->
  (forall O, In O (oracles D C) -> wins O = true ->
     ipp_accepts O (2 ^ k) t Gf Hf Pt Q G H (output O A) /\ incl (ipp_queries (2 ^ k) t (output O A)) D) ->
  (Z.of_nat (Qn + k) * 8 * (byte_strings + modulus) * Z.of_nat (length (oracles D C)) <
   modulus * byte_strings * Z.of_nat (length (filter wins (oracles D C))))%Z ->
  exists tree, tree_wf k tree /\
    each_round_branch (fun pf us => exists O, In O (oracles D C) /\ wins O = true /\ output O A = pf /\
      map O (ipp_queries (2 ^ k) t pf) = us) tree /\
    match ipp_extract (scalars_of tree) with
    | Opening a b => opens_scaled (2 ^ k) Q Pt Gf Hf G H a b
    | Relation x y z => relation Q (zipw g1_mul Gf G) (zipw g1_mul Hf H) x y z
    end.
Proof.
  intros C HG HH HGf HHf HD HA Hw Hcount.
  apply (ipp_knowledge k t Gf Hf Pt Q G H D C code_mu A Qn wins HG HH HGf HHf code_repeats HD HA Hw).
  unfold C. rewrite <- (oracles_length code_challenges D (fun _ => fzero modulus)). apply code_bound_one. exact Hcount.
Qed.
End Main.
