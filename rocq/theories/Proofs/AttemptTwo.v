(** Whether [prove] panics or refuses when there are callbacks. *)
From Coq Require Import ZArith String List Lia Arith Bool.
From Verif.Base Require Import Outcome Fp Params Algebra.
From Verif.Model Require Import Transcript LinComb Prog IPP Prover Verifier.
From Verif.Spec Require Import R1CS Protocol Session Callbacks Verdict CircuitSize Behaviour Attempt.
From Verif.Proofs Require Import Utils IPPProofs RunProofs CircuitProofs ProveProofs VerdictProofs RoundTrip SyncMore R1CSMain CircuitMain TotalMain AttemptMain.
Import ListNotations.
Local Open Scope nat_scope.
Local Notation length := List.length.

Section AttemptTwo.
Context {P : Params} {OK : ParamsOk P}.

(** a constraint on a variable that does not exist *)
Lemma prove_out_of_range W s G H : pwf s -> length (p_aL s) <= length G -> length (p_aL s) <= length H ->
  forall s2, prover_create_randomized_constraints W (hp_state1 W s G H) = Done (Ok s2) ->
  next_power_of_two (length (p_aL s2)) <= length G ->
  ~ Forall (lc_in_range (length (p_aL s2)) (length (p_v s2))) (p_constraints s2) -> prove W s G H = Panic.
Proof.
  intros Hwf HG HH s2 E HG2 HN. unfold prove.
  cbn [p_with_transcript p_with_nrand p_transcript p_aL p_aR p_aO p_g p_h p_v p_v_blinding p_nrand].
  pose proof (pwf_aR _ Hwf) as LaR. pose proof (pwf_aO _ Hwf) as LaO.
  set (n1 := length (p_aL s)) in *.
  destruct (Nat.ltb_spec (length G) n1); [lia|].
  rewrite (slice_to_ok s n1 G), (slice_to_ok s n1 H) by lia. cbn [obind].
  rewrite commit_vectors_ok by (rewrite firstn_length; fold n1; lia). cbn [obind].
  rewrite msm_checked_ok by (rewrite firstn_length; lia). cbn [obind].
  rewrite commit_vectors_ok by (rewrite firstn_length, randoms_length; lia). cbn [obind].
  match goal with |- context [prover_create_randomized_constraints W ?e] => change e with (hp_state1 W s G H) end.
  rewrite E. cbn [orbind].
  destruct (Nat.ltb_spec (length G) (next_power_of_two (length (p_aL s2)))); [lia|].
  assert (HP : forall z, prover_flattened_constraints s2 z = Panic).
  { intros z. destruct (prover_flattened_constraints s2 z) as [r|] eqn:Ez; [|reflexivity].
    destruct HN. exact (prover_flattened_done s2 z r Ez). }
  unfold challenge_scalar at 1 2. cbn [fst snd].
  repeat match goal with
  | |- Panic = Panic => reflexivity
  | |- obind (prover_flattened_constraints s2 _) _ = Panic => rewrite HP; reflexivity
  | |- obind ?e _ = Panic => let a := fresh "a" in destruct e as [a|]; cbn [obind]; [|reflexivity]
  | |- context [let (_, _) := ?x in _] => is_var x; destruct x
  end.
Qed.

Theorem prove_randomized_runs second W s G H : p_reachable second s -> p_deferred s <> [] ->
  let s1 := p_start2 (hp_state1 W s G H) in
  (length G < length (p_aL s) -> prove W s G H = Done (Err InvalidGeneratorsLength)) /\
  (length (p_aL s) <= length G -> length H < length (p_aL s) -> prove W s G H = Panic) /\
  (length (p_aL s) <= length G -> length (p_aL s) <= length H ->
   (forall e, p_failed W (p_deferred s) s1 e -> prove W s G H = Done (Err e)) /\
   ((forall e, ~ p_failed W (p_deferred s) s1 e) -> (forall s2, ~ p_ran W (p_deferred s) s1 s2) -> prove W s G H = Panic) /\
   (forall s2, p_ran W (p_deferred s) s1 s2 ->
      let n := length (p_aL s2) in
      let in_range := Forall (lc_in_range n (length (p_v s2))) (p_constraints s2) in
      (length G < next_power_of_two n -> prove W s G H = Done (Err InvalidGeneratorsLength)) /\
      (next_power_of_two n <= length G -> length H < next_power_of_two n \/ ~ in_range -> prove W s G H = Panic) /\
      (next_power_of_two n <= length G -> next_power_of_two n <= length H -> in_range ->
       exists proof t, prove W s G H = Done (Ok (proof, t)) /\
         length (ipp_L (proof_ipp proof)) = Nat.log2_up n /\ length (ipp_R (proof_ipp proof)) = Nat.log2_up n))).
Proof.
  intros Hr Hd s1. pose proof (reachable_pwf _ _ Hr) as Hwf.
  split; [apply prove_short_G|]. split; [apply prove_short_H|]. intros HG HH.
  destruct (prover_second_phase_spec W (hp_state1 W s G H)) as [_ Hs]. destruct (Hs Hd) as [Ha Hb]. clear Hs.
  pose proof (prove_phase2_eq W s G H Hwf HG HH _ eq_refl) as Hp.
  change (p_deferred (hp_state1 W s G H)) with (p_deferred s) in Ha, Hb. fold s1 in Ha, Hb.
  split; [|split].
  - intros e He. apply Hb in He. rewrite He in Hp. exact Hp.
  - intros N1 N2. destruct (prover_create_randomized_constraints W (hp_state1 W s G H)) as [[s2|e]|] eqn:E2.
    + destruct (N2 s2). apply Ha. reflexivity.
    + destruct (N1 e). apply Hb. reflexivity.
    + exact Hp.
  - intros s2 Hran n in_range. apply Ha in Hran. rewrite Hran in Hp. split; [exact Hp|]. split.
    + intros HG2 [HH2|HN]; [exact (prove_short_padded W s G H Hwf HG HH s2 Hran HG2 HH2)|exact (prove_out_of_range W s G H Hwf HG HH s2 Hran HG2 HN)].
    + intros HG2 HH2 Hi. destruct (prove_char W s G H s2 Hwf Hran HG2 HH2 Hi) as (proof & t' & us & E & _ & HL & HR & _).
      exists proof, t'. split; [exact E|]. split; [exact HL|exact HR].
Qed.
Lemma not_in_range (cs : list lc) n m : ~ Forall (lc_in_range n m) cs ->
  exists l v c, In l cs /\ In (v, c) l /\ ~ var_in_range n m v.
Proof.
  induction cs as [|l cs IH]; intros N; [destruct N; constructor|].
  assert (Hl : lc_in_range n m l \/ exists v c, In (v, c) l /\ ~ var_in_range n m v).
  { clear. induction l as [|[v c] l IH]; [left; intros v c []|].
    destruct (var_in_range_dec n m v) as [Hv|Hv]; [|right; exists v, c; split; [left; reflexivity|exact Hv]].
    destruct IH as [IH|(v' & c' & Hi & Hn)]; [left|right; exists v', c'; split; [right; exact Hi|exact Hn]].
    intros v' c' [E|Hi]; [injection E as <- <-; exact Hv|exact (IH v' c' Hi)]. }
  destruct Hl as [Hl|(v & c & Hi & Hn)].
  - destruct IH as (l' & v & c & H1 & H2 & H3); [intros Hf; apply N; constructor; assumption|].
    exists l', v, c. split; [right; exact H1|]. split; assumption.
  - exists l, v, c. split; [left; reflexivity|]. split; assumption.
Qed.

(** the same of [verify], for any proof *)
Theorem verify_randomized_runs W s proof g h G H : v_deferred s <> [] ->
  let s1 := v_start2 (v_absorb proof s) in
  (forall e, v_failed W (v_deferred s) s1 e -> verify W s proof g h G H = Done (Err e)) /\
  ((forall e, ~ v_failed W (v_deferred s) s1 e) -> (forall s2, ~ v_ran W (v_deferred s) s1 s2) -> verify W s proof g h G H = Panic) /\
  (forall s2, v_ran W (v_deferred s) s1 s2 ->
     let n := v_num_vars s2 in
     let in_range := Forall (lc_in_range n (length (v_V s2))) (v_constraints s2) in
     (length G < next_power_of_two n -> verify W s proof g h G H = Done (Err InvalidGeneratorsLength)) /\
     (next_power_of_two n <= length G -> ~ in_range -> verify W s proof g h G H = Panic) /\
     (in_range ->
      in_class (match verify W s proof g h G H with Panic => Panic | Done (Err e) => Done (Err e) | Done (Ok _) => Done (Ok tt) end)
        (verify_class batch_invert_empty_panics n (length G) (length H) (length (ipp_L (proof_ipp proof))) (length (ipp_R (proof_ipp proof)))))).
Proof.
  intros Hd s1. destruct (verifier_second_phase_spec W (v_absorb proof s)) as [_ Hs]. destruct (Hs Hd) as [Ha Hb]. clear Hs.
  pose proof (verify_phase2_eq W s proof g h G H _ eq_refl) as Hp. fold (v_absorb proof s) in Hp.
  change (v_deferred (v_absorb proof s)) with (v_deferred s) in Ha, Hb. fold s1 in Ha, Hb.
  split; [|split].
  - intros e He. apply Hb in He. rewrite He in Hp. exact Hp.
  - intros N1 N2. destruct (verifier_create_randomized_constraints W (v_absorb proof s)) as [[s2|e]|] eqn:E2.
    + destruct (N2 s2). apply Ha. reflexivity.
    + destruct (N1 e). apply Hb. reflexivity.
    + exact Hp.
  - intros s2 Hran n in_range. apply Ha in Hran. rewrite Hran in Hp. split; [exact Hp|]. split.
    + intros HG HN. destruct (not_in_range _ _ _ HN) as (l & v & c & H1 & H2 & H3).
      exact (verify_panics_out_of_range W s s2 proof g h G H Hran l v c HG H1 H2 H3).
    + intros Hi. exact (verify_in_class W s s2 proof g h G H Hran Hi).
Qed.
End AttemptTwo.
