(** How often honest inner-product proofs are rejected. *)
From Coq Require Import ZArith String List Lia Bool Arith.
From Verif.Base Require Import Outcome Fp Params Algebra.
From Verif.Model Require Import Transcript LinComb IPP Prover Verifier.
From Verif.Spec Require Import IPPSpec Games Challenges IPPComplete.
From Verif.Proofs Require Import IPPProofs IPPMain TreeCount OracleCount OracleVerify OracleCode OracleZero OracleWeight HonestStrategy HonestRounds ChallengeBytes
  OracleHonest.
Import ListNotations.
Local Notation length := List.length.

Section Asker.
Context {P : Params} {OK : ParamsOk P}.
(** the questions that the honest prover asks, one after the other *)
Fixpoint ipp_asker (Q : G1) (j : nat) (s : ipp_state) (t : transcript) (acc : list query) : adversary (list query) :=
  match j with
  | 0 => Answer acc
  | S j =>
      let t := commit_point "R" (snd (ipp_message Q s)) (commit_point "L" (fst (ipp_message Q s)) t) in
      Ask (t, "u"%string) (fun u => ipp_asker Q j (ipp_step s u) (t ++ [TChallenge "u" modbytes]) (acc ++ [(t, "u"%string)]))
  end.
Lemma asker_output Q O j : forall s t acc, output O (ipp_asker Q j s t acc) = acc ++ asked O (ipp_asker Q j s t acc).
Proof.
  induction j as [|j IH]; intros s t acc; cbn [ipp_asker output asked]; [symmetry; apply app_nil_r|].
  rewrite IH, <- app_assoc. reflexivity.
Qed.
Lemma asker_asks Q (O : query -> F) us : forall s t acc,
  us = map O (round_queries (map fst (ipp_rounds Q s us)) (map snd (ipp_rounds Q s us)) t) ->
  asked O (ipp_asker Q (length us) s t acc) = round_queries (map fst (ipp_rounds Q s us)) (map snd (ipp_rounds Q s us)) t.
Proof.
  induction us as [|u us IH]; intros s t acc E; [reflexivity|].
  rewrite ipp_rounds_cons in E |- *. cbn [map round_queries] in E |- *. injection E as Eu E.
  cbn [length ipp_asker asked]. f_equal. rewrite <- Eu. apply IH. exact E.
Qed.
Lemma asker_budget Q z j : forall s t acc, budget (fun _ => z) (j * z) (ipp_asker Q j s t acc).
Proof.
  induction j as [|j IH]; intros s t acc; cbn [ipp_asker budget]; [exact I|]. split; [lia|]. intros u.
  replace (S j * z - z) with (j * z) by lia. apply IH.
Qed.
End Asker.

Section Main.
Context {P : Params} {OK : ParamsOk P}.
Context (k : nat) (t : transcript) (Q : @G1 P) (Gf Hf : list (Fp (@modulus P))) (G H : list (@G1 P)) (a b : list (Fp (@modulus P))).
Context (HG : length G = 2 ^ k) (HH : length H = 2 ^ k) (Ha : length a = 2 ^ k) (Hb : length b = 2 ^ k)
  (HGf : length Gf = 2 ^ k) (HHf : length Hf = 2 ^ k) (H32 : k < 32) (Hk : k <> 0 \/ @batch_invert_empty_panics P = false).
Let s0 : @ipp_state P := (scale_points Gf G, scale_points Hf H, a, b).
Let A : adversary (list query) := ipp_asker Q k s0 (innerproduct_domain_sep (2 ^ k) t) [].
Local Notation qs := (honest_ipp_queries (2 ^ k) t Q Gf Hf G H a b).

Lemma honest_asks O : asked O A = qs O.
Proof.
  unfold honest_ipp_queries.
  destruct (@ipp_complete (@backend P O) (backend_ok O) k t Q Gf Hf G H a b HG HH Ha Hb HGf HHf H32 Hk) as (pf & t' & E & _).
  rewrite E.
  pose proof (@create_ipp_rounds (@backend P O) (backend_ok O) t Q Gf Hf G H a b k pf t' HG HH Ha Hb HGf HHf E) as (Lu & EL & ER & _).
  set (us := fst (@ipp_challenges (@backend P O) _ _ _)) in *.
  assert (Eu : us = map O (@round_queries P (@ipp_L (@backend P O) pf) (@ipp_R (@backend P O) pf) (innerproduct_domain_sep (2 ^ k) t))).
  { refine (eq_sym (eq_trans (map_ext _ _ (fun q => eq_sym (backend_oracle O q)) _) _)).
    exact (@round_queries_challenges (@backend P O) (@ipp_L (@backend P O) pf) (@ipp_R (@backend P O) pf) (innerproduct_domain_sep (2 ^ k) t)). }
  assert (EL' : @ipp_L (@backend P O) pf = map fst (@ipp_rounds P Q s0 us)) by exact EL.
  assert (ER' : @ipp_R (@backend P O) pf = map snd (@ipp_rounds P Q s0 us)) by exact ER.
  rewrite EL', ER' in Eu |- *.
  unfold A. replace k with (length us) at 1 by exact Lu. apply (asker_asks Q O us). exact Eu.
Qed.

Lemma nonzero_accepted O : (forall q, In q (qs O) -> O q <> fzero modulus) -> ipp_rejected (2 ^ k) t Q Gf Hf G H a b O = false.
Proof.
  unfold honest_ipp_queries, ipp_rejected. intros Hz.
  destruct (@ipp_complete (@backend P O) (backend_ok O) k t Q Gf Hf G H a b HG HH Ha Hb HGf HHf H32 Hk) as (pf & t' & E & Hacc).
  rewrite E in Hz |- *.
  assert (Eu : fst (@ipp_challenges (@backend P O) (@ipp_L (@backend P O) pf) (@ipp_R (@backend P O) pf) (innerproduct_domain_sep (2 ^ k) t)) =
    map O (@round_queries P (@ipp_L (@backend P O) pf) (@ipp_R (@backend P O) pf) (innerproduct_domain_sep (2 ^ k) t))).
  { refine (eq_sym (eq_trans (map_ext _ _ (fun q => eq_sym (backend_oracle O q)) _) _)).
    exact (@round_queries_challenges (@backend P O) (@ipp_L (@backend P O) pf) (@ipp_R (@backend P O) pf) (innerproduct_domain_sep (2 ^ k) t)). }
  assert (X : @verify_ipp (@backend P O) (2 ^ k) t Gf Hf (committed_point Q Gf Hf G H a b) Q G H
    (@ipp_a (@backend P O) pf) (@ipp_b (@backend P O) pf) (@ipp_L (@backend P O) pf) (@ipp_R (@backend P O) pf) = Done (Ok tt, t')).
  { apply Hacc. apply Forall_forall. intros u Hu.
    assert (Hu' : In u (map O (@round_queries P (@ipp_L (@backend P O) pf) (@ipp_R (@backend P O) pf) (innerproduct_domain_sep (2 ^ k) t)))) by (rewrite <- Eu; exact Hu).
    apply in_map_iff in Hu' as (q & <- & Hq). exact (Hz q Hq). }
  rewrite X. reflexivity.
Qed.

Lemma ipp_error_times C D : NoDup D -> (forall O, In O (oracles D C) -> incl (qs O) D) ->
  length C * length (filter (ipp_rejected (2 ^ k) t Q Gf Hf G H a b) (oracles D C)) <= k * times C (fzero modulus) * length (oracles D C).
Proof.
  intros HD Hcov. unfold oracles in *. rewrite oracles_length.
  set (bad := fun (_ : query) (_ : @oracle P) (x : Fp (@modulus P)) => is_zero x).
  etransitivity; [|apply (hits_weighted C bad (fun _ => times C (fzero modulus)) (fun q x O O' _ => eq_refl) (fun q O => Nat.eq_le_incl _ _ (zeros_times C))
    A (k * times C (fzero modulus)) D (fun _ => fzero _) (asker_budget Q _ k _ _ _) HD)].
  apply Nat.mul_le_mono_l. apply (cnt_le C (fun _ => fzero _) D). intros O HO Hrej.
  unfold hits. destruct (existsb _ _) eqn:Ex; [reflexivity|exfalso].
  rewrite nonzero_accepted in Hrej; [discriminate|]. intros q Hq Ez.
  assert (Y : existsb (fun q => mem q D && bad q O (O q)) (asked O A) = true); [|rewrite Y in Ex; discriminate].
  apply existsb_exists. exists q. split; [rewrite honest_asks; exact Hq|]. apply andb_true_iff. split; [apply mem_ok, (Hcov O HO), Hq|].
  unfold bad, is_zero. rewrite Ez. destruct (Fp_eq_dec modulus (fzero modulus) (fzero modulus)); [reflexivity|congruence].
Qed.

Lemma ipp_questions C : exists D, NoDup D /\ forall O, In O (oracles D C) -> incl (qs O) D.
Proof.
  destruct (domain_exists (fun l => l) C A) as (D & HD & Hin). exists D. split; [exact HD|]. intros O HO.
  rewrite <- honest_asks. pose proof (Hin O HO) as Hi. unfold A in Hi. rewrite asker_output in Hi. exact Hi.
Qed.

Lemma ipp_error_nodup C D : NoDup C -> NoDup D -> (forall O, In O (oracles D C) -> incl (qs O) D) ->
  length C * length (filter (ipp_rejected (2 ^ k) t Q Gf Hf G H a b) (oracles D C)) <= k * length (oracles D C).
Proof.
  intros HC HD Hcov. etransitivity; [apply ipp_error_times; assumption|].
  apply Nat.mul_le_mono_r. rewrite <- (Nat.mul_1_r k) at 2. apply Nat.mul_le_mono_l. apply (repeats_once C HC).
Qed.
Lemma ipp_error_code D : NoDup D -> (forall O, In O (oracles D code_challenges) -> incl (qs O) D) ->
  (modulus * byte_strings * Z.of_nat (length (filter (ipp_rejected (2 ^ k) t Q Gf Hf G H a b) (oracles D code_challenges))) <=
   Z.of_nat k * (byte_strings + modulus) * Z.of_nat (length (oracles D code_challenges)))%Z.
Proof. intros HD Hcov. apply code_zero_bound. apply ipp_error_times; assumption. Qed.
End Main.
