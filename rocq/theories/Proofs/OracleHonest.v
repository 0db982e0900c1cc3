(** Whoever knows a satisfying assignment convinces [verify] whatever the oracle. *)
From Coq Require Import ZArith String List Lia Bool Arith.
From Verif.Base Require Import Outcome Fp Params Algebra.
From Verif.Model Require Import Transcript LinComb Prog IPP Prover Verifier.
From Verif.Spec Require Import R1CS Protocol IPPSpec Verdict R1CSTree Games.
From Verif.Proofs Require Import VerdictProofs OracleVerify OracleCount HonestStrategy QueryProofs OracleCode.
Import ListNotations.
Local Notation length := List.length.

Section Domain.
Context {P : Params}.

(** all that a prover can output when the answers are in [C] *)
Fixpoint outputs {X} (C : list F) (A : adversary X) : list X :=
  match A with
  | Answer x => [x]
  | Ask q k => flat_map (fun x => outputs C (k x)) C
  end.
Lemma outputs_in {X} C O (A : adversary X) : (forall q, In (O q) C) -> In (output O A) (outputs C A).
Proof.
  intros HO. induction A as [pf|q k IH]; cbn [output outputs]; [left; reflexivity|].
  apply in_flat_map. exists (O q). split; [apply HO|]. apply IH.
Qed.

Theorem domain_exists {X} (qs : X -> list query) C (A : adversary X) : exists D, NoDup D /\
  forall O, In O (oracles D C) -> incl (qs (output O A)) D.
Proof.
  exists (nodup query_eq_dec (flat_map qs (outputs (fzero modulus :: C) A))).
  set (D := nodup _ _). assert (HD : NoDup D) by apply NoDup_nodup. split; [exact HD|].
  intros O HO q Hq. apply nodup_In, in_flat_map. exists (output O A). split; [|exact Hq]. apply outputs_in.
  intros q'. destruct (in_dec query_eq_dec q' D) as [Hin|Hout].
  - right. apply (oracles_inside C D (fun _ => fzero modulus)); assumption.
  - left. symmetry. apply (oracles_outside C D (fun _ => fzero modulus)); assumption.
Qed.
End Domain.

Section Honest.
Context {P : Params} {OK : ParamsOk P}.

Lemma accepted_all_r O g h G H V n cs t0 (pf : @r1cs_proof P) :
  @proof_fits (@backend P O) (@Verifier (@backend P O) t0 cs n V [] None 0 0) (@same_proof P O pf) G H ->
  let c := map O (@proof_queries P (length V) n t0 pf) in
  Forall (fun u => u <> fzero modulus) (skipn 5 c) ->
  @accepted_for P g h G H V n n cs pf c -> forall r, @verify_accepts P O r g h G H V n cs t0 pf.
Proof.
  intros Hf c Hnz Hacc r. apply (backend_accepted O) in Hacc.
  assert (Ec : c = map (@transcript_oracle (@backend P O)) (@proof_queries (@backend P O) (length V) n t0 (@same_proof P O pf))).
  { rewrite (map_ext _ O (backend_oracle O)). unfold c. rewrite (backend_queries O). reflexivity. }
  rewrite Ec in Hnz, Hacc.
  destruct (@verify_asks (@backend P O) (backend_ok O) (@World (@backend P O) (fun _ => fzero modulus) (fun _ => []))
     (@Verifier (@backend P O) t0 cs n V [] None 0 0) (@same_proof P O pf) g h G H eq_refl Hf Hnz) as [[H1 _] _].
  exact (H1 Hacc r).
Qed.

Context {ENC : EncodingOk P}.

Theorem honest_convinces_shaped g h G H n k cs v gam aL aR aO t0 :
  let N := next_power_of_two n in
  let V := zipw (fun x b => g1_add (g1_mul x g) (g1_mul b h)) v gam in
  N = 2 ^ k -> (k < 32)%nat -> (1 < n)%nat \/ batch_invert_empty_panics = false ->
  N <= length G -> N <= length H -> length gam = length v ->
  length aL = n -> length aR = n -> length aO = n ->
  Forall (lc_in_range n (length v)) cs -> satisfies (assignment_of v aL aR aO) n cs ->
  exists A, at_most (5 + k) A /\
    forall O, length (proof_queries (length V) n t0 (output O A)) = 5 + k /\
      (~ In (fzero modulus) (map O (proof_queries (length V) n t0 (output O A))) ->
       forall r, verify_accepts O r g h G H V n cs t0 (output O A)).
Proof.
  intros N V HN Hk Hb HG HH Hgam HaL HaR HaO Hrange Hsat.
  destruct (honest_strategy_exists g h G H n n k cs v gam aL aR aO HN HG HH Hgam HaL HaR HaO Hrange Hsat) as [st Hst].
  exists (fs_prover (length V) n t0 st (5 + k) []). split; [apply fs_prover_most|].
  intros O. destruct (fs_prover_ok (length V) n k t0 st O) as (c & Hc & Eo & Em). rewrite Eo.
  split; [apply proof_queries_length, strategy_shaped, Hc|]. intros HO. rewrite Em in HO.
  assert (HV : length V = length v).
  { unfold V. rewrite zipw_length. lia. }
  intros r. refine (accepted_all_r O g h G H V n cs t0 (strategy_proof st c) _ _ _ r).
  - destruct (strategy_shaped k st c Hc) as [HL HR]. constructor; cbn; rewrite ?HV, ?HL, ?HR; try assumption; reflexivity.
  - refine (eq_ind_r (fun x => Forall (fun u => u <> fzero modulus) (skipn 5 x)) _ Em). apply Forall_forall. intros u Hu ->. apply HO. rewrite <- (firstn_skipn 5 c). apply in_or_app. right. exact Hu.
  - refine (eq_ind_r (fun x => accepted_for g h G H V n n cs (strategy_proof st c) x) _ Em). apply Hst; assumption.
Qed.

Theorem honest_convinces g h G H n k cs v gam aL aR aO t0 :
  let N := next_power_of_two n in
  let V := zipw (fun x b => g1_add (g1_mul x g) (g1_mul b h)) v gam in
  N = 2 ^ k -> (k < 32)%nat -> (1 < n)%nat \/ batch_invert_empty_panics = false ->
  N <= length G -> N <= length H -> length gam = length v ->
  length aL = n -> length aR = n -> length aO = n ->
  Forall (lc_in_range n (length v)) cs -> satisfies (assignment_of v aL aR aO) n cs ->
  exists A, at_most (5 + k) A /\
    forall O, ~ In (fzero modulus) (map O (proof_queries (length V) n t0 (output O A))) ->
      forall r, verify_accepts O r g h G H V n cs t0 (output O A).
Proof.
  intros N V HN Hk Hb HG HH Hgam HaL HaR HaO Hrange Hsat.
  destruct (honest_convinces_shaped g h G H n k cs v gam aL aR aO t0 HN Hk Hb HG HH Hgam HaL HaR HaO Hrange Hsat) as (A & HA & Hacc).
  exists A. split; [exact HA|]. intros O. apply Hacc.
Qed.
End Honest.
