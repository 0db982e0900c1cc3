(** Knowledge error of the verifying functions with a random oracle. *)
From Coq Require Import ZArith String List Lia Bool.
From Verif.Base Require Import Outcome Fp Params Algebra.
From Verif.Model Require Import Transcript LinComb Prog IPP Prover Verifier.
From Verif.Spec Require Import R1CS Gadget Protocol IPPSpec Extractor R1CSTree R1CSExtractor Knowledge Games Compose GadgetGames Challenges.
From Verif.Proofs Require Import IPPProofs LogProofs VerifyProofs R1CSExtract TreeCount OracleCount GameOracle OracleCode OracleHonest SameCircuit.
From Verif.Proofs Require Import LinCombProofs RunProofs ExtProofs FlattenProofs CircuitProofs SyncMore CircuitMain GadgetTools GadgetPrograms GadgetMain RandomizerMain AnswerMain ComposeMain.
Import ListNotations.
Local Notation length := List.length.

Section Error.
Context {P : Params} {OK : ParamsOk P} {ENC : EncodingOk P}.

Lemma committed_log t V : committed t V = r1cs_domain_sep t ++ map msg_V V.
Proof.
  unfold committed. generalize (r1cs_domain_sep t). induction V as [|C V IH]; intros u; cbn [fold_left map]; [rewrite app_nil_r; reflexivity|].
  rewrite IH. unfold commit_point, append_message. rewrite <- app_assoc. reflexivity.
Qed.
Lemma committed_inj t V V' : committed t V = committed t V' -> V = V'.
Proof.
  rewrite !committed_log. intros E. apply app_inv_head in E. revert V' E.
  induction V as [|C V IH]; intros [|C' V'] E; try discriminate E; [reflexivity|]. cbn [map] in E. injection E as E1 E2.
  apply g1_bytes_inj in E1. f_equal; auto.
Qed.
Lemma committed_length t V : length (committed t V) = (length (r1cs_domain_sep t) + length V)%nat.
Proof. rewrite committed_log, app_length, map_length. reflexivity. Qed.
Lemma run_transcript W t {A} (m : vprog A) a vs : vrun W false m (verifier_new t) = Done (a, vs) ->
  v_transcript vs = committed t (v_V vs).
Proof. intros E. apply vrun_phase1_log in E as (Vs & E1 & E2). cbn in E1, E2. rewrite E1, E2, committed_log. reflexivity. Qed.

(** the prover chooses the commitments to a given circuit *)
Theorem adaptive_verify_repeats g h G H m n k cs M t D C mu R (A : adversary (list G1 * r1cs_proof)) Qn (wins : oracle -> F -> bool) :
  let N := next_power_of_two n in
  N = (2 ^ k)%nat -> (1 < n)%nat \/ batch_invert_empty_panics = false ->
  recovers M m cs -> repeats mu C -> NoDup D -> NoDup R -> at_most Qn A ->
  (forall O r, In O (oracles D C) -> In r R -> wins O r = true ->
     let '(V, pf) := output O A in
     length V = m /\ verify_accepts O r g h G H V n cs (committed t V) pf /\ incl (proof_queries m n (committed t V) pf) D) ->
  ((Qn + 5 + k) * (mu * Nat.max N (Nat.max (length cs) 7) + times C (fzero modulus)) * length C ^ length D * length R + length C * length C ^ length D <
    length C * length (filter (fun Or => wins (fst Or) (snd Or)) (list_prod (oracles D C) R)))%nat ->
  exists V f tree, length V = m /\ proof_tree_wf k (length cs) tree /\
    each_branch (fun pf c => exists O r, In O (oracles D C) /\ In r R /\ wins O r = true /\ output O A = (V, pf) /\
      map O (proof_queries m n (committed t V) pf) = c) f tree /\
    proof_tree_accepted g h G H V n n cs f tree /\
    match r1cs_extract n n (length G) (length H) m cs M (tree_scalars tree) with
    | Got w => witness_ok g h G H V n n cs f w
    | Broken c => generator_relation (g :: h :: G ++ H) c
    end.
Proof.
  intros N HN Hb HM HC HD HR HA Hw Hcount.
  assert (Hwin : forall O r, In O (oracles D C) -> In r R -> wins O r = true ->
     let x := output O A in
     length (committed t (fst x)) = (length (r1cs_domain_sep t) + m)%nat /\ length (fst x) = m /\
     verify_accepts O r g h G H (fst x) n cs (committed t (fst x)) (snd x) /\
     incl (proof_queries m n (committed t (fst x)) (snd x)) D).
  { intros O r HO Hr Hwi. specialize (Hw O r HO Hr Hwi). cbv zeta. destruct (output O A) as [V pf]. cbn [fst snd].
    destruct Hw as (Hl & Hacc & Hin). rewrite committed_length, Hl. auto. }
  destruct (verify_adaptive_repeats (fun x => committed t (fst x)) snd fst g h G H m (length (r1cs_domain_sep t) + m)
    n k cs D C mu R A Qn wins HN Hb HC HD HR HA) as (HG & HH & Hr & O0 & r0 & f & tree & HO0 & Hr0 & Hw0 & Hwf & Ht & Ha).
  - intros O r O' r' _ _ _ _ _ _ E. exact (committed_inj _ _ _ E).
  - exact Hwin.
  - exact Hcount.
  - destruct (Hwin O0 r0 HO0 Hr0 Hw0) as (_ & Hm & _). exists (fst (output O0 A)), f, tree.
    split; [exact Hm|]. split; [exact Hwf|]. split; [|split; [exact Ha|]].
    + intros yn zn un xn w it us Ls Rs a b Hy Hz Hu Hx Hwi Hb'.
      destruct (Ht _ _ _ _ _ _ _ _ _ _ _ Hy Hz Hu Hx Hwi Hb') as (O & r & HO & Hr' & Hwi' & Et & Ep & Ec).
      apply committed_inj in Et. exists O, r. rewrite <- Et. split; [exact HO|]. split; [exact Hr'|]. split; [exact Hwi'|].
      split; [rewrite <- Ep; apply surjective_pairing|exact Ec].
    + rewrite <- Hm in Hr, HM |- *.
      exact (r1cs_extract_ok g h G H (fst (output O0 A)) n n k cs HN HG HH (next_power_of_two_ge n) M f tree Hr HM Hwf Ha).
Qed.

Theorem adaptive_verify g h G H m n k cs M t D C R (A : adversary (list G1 * r1cs_proof)) Qn (wins : oracle -> F -> bool) :
  let N := next_power_of_two n in
  N = (2 ^ k)%nat -> (1 < n)%nat \/ batch_invert_empty_panics = false ->
  recovers M m cs -> NoDup C -> ~ In (fzero modulus) C -> NoDup D -> NoDup R -> at_most Qn A ->
  (forall O r, In O (oracles D C) -> In r R -> wins O r = true ->
     let '(V, pf) := output O A in
     length V = m /\ verify_accepts O r g h G H V n cs (committed t V) pf /\ incl (proof_queries m n (committed t V) pf) D) ->
  ((Qn + 5 + k) * Nat.max N (Nat.max (length cs) 7) * length C ^ length D * length R + length C * length C ^ length D <
    length C * length (filter (fun Or => wins (fst Or) (snd Or)) (list_prod (oracles D C) R)))%nat ->
  exists V f tree, length V = m /\ proof_tree_wf k (length cs) tree /\
    each_branch (fun pf c => exists O r, In O (oracles D C) /\ In r R /\ wins O r = true /\ output O A = (V, pf) /\
      map O (proof_queries m n (committed t V) pf) = c) f tree /\
    proof_tree_accepted g h G H V n n cs f tree /\
    match r1cs_extract n n (length G) (length H) m cs M (tree_scalars tree) with
    | Got w => witness_ok g h G H V n n cs f w
    | Broken c => generator_relation (g :: h :: G ++ H) c
    end.
Proof.
  intros N HN Hb HM HC HC0 HD HR HA Hw Hcount.
  apply (adaptive_verify_repeats g h G H m n k cs M t D C 1 R A Qn wins HN Hb HM (repeats_once C HC) HD HR HA Hw).
  rewrite times_zero, Nat.add_0_r, Nat.mul_1_l by exact HC0. exact Hcount.
Qed.

Lemma sound_same sts : forall commss commss', map (@length G1) commss = map (@length G1) commss' ->
  Forall (fun '(st, comms) => sound_statement st comms) (combine sts commss) ->
  Forall (fun '(st, comms) => sound_statement st comms) (combine sts commss').
Proof.
  induction sts as [|st sts IH]; intros [|c commss] [|c' commss'] Hl HF; try discriminate Hl; cbn [combine] in *; try constructor.
  - injection Hl as Hc Hl. inversion HF as [|? ? H1 H2]; subst. destruct st; cbn [sound_statement] in *; rewrite <- ?Hc; exact H1.
  - injection Hl as Hc Hl. inversion HF as [|? ? H1 H2]; subst. exact (IH _ _ Hl H2).
Qed.

Theorem gadgets_knowledge_error_repeats W t checks g h sts commss0 vs0 G H k D C mu R (A : adversary (list (list G1) * r1cs_proof)) Qn
    (wins : oracle -> F -> bool) :
  let n := v_num_vars vs0 in
  let cs := v_constraints vs0 in
  let N := next_power_of_two n in
  vrun W false (verify_all checks g h (combine sts commss0)) (verifier_new t) = Done (Ok tt, vs0) ->
  Forall (fun '(st, comms) => sound_statement st comms) (combine sts commss0) ->
  N = (2 ^ k)%nat -> (1 < n)%nat \/ batch_invert_empty_panics = false ->
  repeats mu C -> NoDup D -> NoDup R -> at_most Qn A ->
  (forall O r, In O (oracles D C) -> In r R -> wins O r = true ->
     let '(commss, pf) := output O A in
     map (@length G1) commss = map (@length G1) commss0 /\ gadgets_accept W t checks g h G H sts O r commss pf /\
     incl (gadget_queries t g h sts n commss pf) D) ->
  ((Qn + 5 + k) * (mu * Nat.max N (Nat.max (length cs) 7) + times C (fzero modulus)) * length C ^ length D * length R + length C * length C ^ length D <
    length C * length (filter (fun Or => wins (fst Or) (snd Or)) (list_prod (oracles D C) R)))%nat ->
  exists O0 r0 f tree, In O0 (oracles D C) /\ In r0 R /\ wins O0 r0 = true /\
    let l := combine sts (fst (output O0 A)) in
    let V := all_commitments g h l in
    proof_tree_wf k (length cs) tree /\
    each_branch (fun pf c => exists O r commss, In O (oracles D C) /\ In r R /\ wins O r = true /\ output O A = (commss, pf) /\
      all_commitments g h (combine sts commss) = V /\ map O (gadget_queries t g h sts n commss pf) = c) f tree /\
    match circuit_extract n (length G) (length H) (length V) cs (own_positions 0 l) (tree_scalars tree) with
    | Got w =>
        (forall j, (j < length V)%nat ->
           nth j V g1_id = g1_add (g1_mul (nth j (wit_v w) 0%fe) g) (g1_mul (nth j (wit_blinding w) 0%fe) h)) /\
        all_show l (wit_v w)
    | Broken c => generator_relation (g :: h :: G ++ H) c
    end.
Proof.
  intros n cs N E0 Hs HN Hb HC HD HR HA Hw Hcount.
  pose (V := fun x : list (list G1) * r1cs_proof => all_commitments g h (combine sts (fst x))).
  assert (Hrun : forall commss, map (@length G1) commss = map (@length G1) commss0 ->
    exists vs, vrun W false (verify_all checks g h (combine sts commss)) (verifier_new t) = Done (Ok tt, vs) /\
      v_num_vars vs = n /\ v_constraints vs = cs /\ v_V vs = all_commitments g h (combine sts commss) /\
      length (v_V vs) = length (v_V vs0) /\ v_transcript vs = committed t (v_V vs)).
  { intros commss Hl. destruct (same_circuit W t checks g h sts commss0 commss vs0 (eq_sym Hl) E0) as (vs & E & E1 & E2 & E3).
    exists vs. split; [exact E|]. split; [exact E1|]. split; [exact E2|]. split; [|split; [exact E3|exact (run_transcript _ _ _ _ _ E)]].
    apply (all_knowledge W t checks g h (combine sts commss)); [|exact E]. exact (sound_same sts commss0 commss (eq_sym Hl) Hs). }
  assert (Hwin : forall O r, In O (oracles D C) -> In r R -> wins O r = true ->
     let x := output O A in
     map (@length G1) (fst x) = map (@length G1) commss0 /\
     length (committed t (V x)) = (length (r1cs_domain_sep t) + length (v_V vs0))%nat /\ length (V x) = length (v_V vs0) /\
     verify_accepts O r g h G H (V x) n cs (committed t (V x)) (snd x) /\
     incl (proof_queries (length (v_V vs0)) n (committed t (V x)) (snd x)) D).
  { intros O r HO Hr Hwi. specialize (Hw O r HO Hr Hwi). cbv zeta. destruct (output O A) as [commss pf]. cbn [fst snd].
    destruct Hw as (Hl & (vs & E & Hacc) & Hin). destruct (Hrun commss Hl) as (vs' & E' & E1 & E2 & E3 & E4 & E5).
    rewrite E in E'. injection E' as <-. rewrite E5, E1, E2, E3 in Hacc. split; [exact Hl|].
    assert (HV : length (V (commss, pf)) = length (v_V vs0)) by (unfold V; cbn [fst]; rewrite <- E3; exact E4).
    split; [rewrite committed_length, HV; reflexivity|]. split; [exact HV|]. split; [exact Hacc|].
    rewrite <- HV. exact Hin. }
  destruct (verify_adaptive_repeats (fun x => committed t (V x)) snd V g h G H (length (v_V vs0)) (length (r1cs_domain_sep t) + length (v_V vs0))
    n k cs D C mu R A Qn wins HN Hb HC HD HR HA) as (HG & HH & Hr & O0 & r0 & f & tree & HO0 & Hr0 & Hw0 & Hwf & Ht & Ha).
  - intros O r O' r' _ _ _ _ _ _ E. exact (committed_inj _ _ _ E).
  - intros O r HO Hr Hwi. apply (Hwin O r HO Hr Hwi).
  - exact Hcount.
  - exists O0, r0, f, tree. split; [exact HO0|]. split; [exact Hr0|]. split; [exact Hw0|]. cbv zeta. split; [exact Hwf|]. split.
    + intros yn zn un xn w it us Ls Rs a b Hy Hz Hu Hx Hwi Hb'.
      destruct (Ht _ _ _ _ _ _ _ _ _ _ _ Hy Hz Hu Hx Hwi Hb') as (O & r & HO & Hr' & Hwi' & Et & Ep & Ec).
      exists O, r, (fst (output O A)). split; [exact HO|]. split; [exact Hr'|]. split; [exact Hwi'|].
      split; [rewrite <- Ep; apply surjective_pairing|]. split; [exact (committed_inj _ _ _ Et)|].
      unfold gadget_queries. destruct (Hwin O r HO Hr' Hwi') as (_ & _ & HV & _). unfold V in HV. rewrite HV. exact Ec.
    + destruct (Hwin O0 r0 HO0 Hr0 Hw0) as (Hl & _). destruct (Hrun _ Hl) as (vs & E & E1 & E2 & E3 & _).
      destruct (all_knowledge W t checks g h (combine sts (fst (output O0 A))) (sound_same sts commss0 _ (eq_sym Hl) Hs) vs E)
        as (_ & HV & Hk). rewrite E1, E2 in Hk. specialize (Hk G H k f tree HN HG HH Hwf Ha).
      destruct (circuit_extract _ _ _ _ _ _ _); [tauto|exact Hk].
Qed.

Theorem gadgets_knowledge_error W t checks g h sts commss0 vs0 G H k D C R (A : adversary (list (list G1) * r1cs_proof)) Qn
    (wins : oracle -> F -> bool) :
  let n := v_num_vars vs0 in
  let cs := v_constraints vs0 in
  let N := next_power_of_two n in
  vrun W false (verify_all checks g h (combine sts commss0)) (verifier_new t) = Done (Ok tt, vs0) ->
  Forall (fun '(st, comms) => sound_statement st comms) (combine sts commss0) ->
  N = (2 ^ k)%nat -> (1 < n)%nat \/ batch_invert_empty_panics = false ->
  NoDup C -> ~ In (fzero modulus) C -> NoDup D -> NoDup R -> at_most Qn A ->
  (forall O r, In O (oracles D C) -> In r R -> wins O r = true ->
     let '(commss, pf) := output O A in
     map (@length G1) commss = map (@length G1) commss0 /\ gadgets_accept W t checks g h G H sts O r commss pf /\
     incl (gadget_queries t g h sts n commss pf) D) ->
  ((Qn + 5 + k) * Nat.max N (Nat.max (length cs) 7) * length C ^ length D * length R + length C * length C ^ length D <
    length C * length (filter (fun Or => wins (fst Or) (snd Or)) (list_prod (oracles D C) R)))%nat ->
  exists O0 r0 f tree, In O0 (oracles D C) /\ In r0 R /\ wins O0 r0 = true /\
    let l := combine sts (fst (output O0 A)) in
    let V := all_commitments g h l in
    proof_tree_wf k (length cs) tree /\
    each_branch (fun pf c => exists O r commss, In O (oracles D C) /\ In r R /\ wins O r = true /\ output O A = (commss, pf) /\
      all_commitments g h (combine sts commss) = V /\ map O (gadget_queries t g h sts n commss pf) = c) f tree /\
    match circuit_extract n (length G) (length H) (length V) cs (own_positions 0 l) (tree_scalars tree) with
    | Got w =>
        (forall j, (j < length V)%nat ->
           nth j V g1_id = g1_add (g1_mul (nth j (wit_v w) 0%fe) g) (g1_mul (nth j (wit_blinding w) 0%fe) h)) /\
        all_show l (wit_v w)
    | Broken c => generator_relation (g :: h :: G ++ H) c
    end.
Proof.
  intros n cs N E0 Hs HN Hb HC HC0 HD HR HA Hw Hcount.
  apply (gadgets_knowledge_error_repeats W t checks g h sts commss0 vs0 G H k D C 1 R A Qn wins E0 Hs HN Hb (repeats_once C HC) HD HR HA Hw).
  rewrite times_zero, Nat.add_0_r, Nat.mul_1_l by exact HC0. exact Hcount.
Qed.

(** *** An honest prover wins *)
Fixpoint with_output {X Y} (f : X -> Y) (A : adversary X) : adversary Y :=
  match A with Answer x => Answer (f x) | Ask q k => Ask q (fun a => with_output f (k a)) end.
Lemma with_output_most {X Y} (f : X -> Y) A : forall Q, at_most Q A -> at_most Q (with_output f A).
Proof. induction A as [x|q k IH]; intros Q HQ; [exact I|]. destruct Q as [|Q]; [destruct HQ|]. cbn in *. auto. Qed.
Lemma with_output_ok {X Y} (f : X -> Y) A O : output O (with_output f A) = f (output O A).
Proof. induction A as [x|q k IH]; [reflexivity|]. cbn. apply IH. Qed.

Theorem gadgets_honest_shaped (W : world) checks label g h (l : list call) : Forall honest_call l ->
  exists commss vs, Forall2 (good_commitments g h) l commss /\
    let sts := map statement_of l in
    let t := transcript_new label in
    vrun W false (verify_all checks g h (combine sts commss)) (verifier_new t) = Done (Ok tt, vs) /\
    let n := v_num_vars vs in
    let N := next_power_of_two n in
    (Forall (fun '(st, comms) => sound_statement st comms) (combine sts commss) ->
     forall G H k, N = (2 ^ k)%nat -> (k < 32)%nat -> (1 < n)%nat \/ batch_invert_empty_panics = false ->
     (N <= length G)%nat -> (N <= length H)%nat ->
     exists A, at_most (5 + k) A /\ forall O, fst (output O A) = commss /\
       let pf := snd (output O A) in
       length (gadget_queries t g h sts n commss pf) = (5 + k)%nat /\
       (~ In (fzero modulus) (map O (gadget_queries t g h sts n commss pf)) ->
        forall r, gadgets_accept W t checks g h G H sts O r commss pf)).
Proof.
  intros Hl. set (t := transcript_new label).
  destruct (calls_both W W checks l Hl (prover_new g h t) (verifier_new t) eq_refl) as (k0 & r0 & commss & Hgood & Hb); [intros x []|apply sync_base_new|].
  cbn [p_g p_h prover_new] in *.
  destruct Hb as (a & s & b & vs & Ep & Ev & Hg & Hh & Hs & Hd & -> & ->); [intros x []|apply sync_base_new|].
  exists commss, vs. split; [exact Hgood|]. cbv zeta. split; [exact Ev|]. intros Hsound G H k HN Hk Hbi HG HH.
  pose proof (sy_wf _ _ Hs) as Hwf. pose proof (sy_num_vars _ _ Hs) as En.
  pose proof (px_g _ _ (gr_ext _ _ _ _ Hg)) as Eg. pose proof (px_h _ _ (gr_ext _ _ _ _ Hg)) as Eh.
  cbn [p_g p_h prover_new] in Eg, Eh.
  assert (Hsame : Forall2 lc_same (p_constraints s) (v_constraints vs)) by exact (sy_constraints _ _ Hs).
  destruct (all_knowledge W t checks g h _ Hsound vs Ev) as (_ & HV & _).
  pose proof (run_transcript _ _ _ _ _ Ev) as Et.
  pose proof (honest_convinces_shaped g h G H (v_num_vars vs) k (v_constraints vs) (p_v s) (p_v_blinding s) (p_aL s) (p_aR s) (p_aO s) (v_transcript vs)
    HN Hk Hbi HG HH (pwf_vb _ Hwf)) as Hc.
  assert (EV : v_V vs = zipw (fun x b : F => g1_add (g1_mul x g) (g1_mul b h)) (p_v s) (p_v_blinding s)).
  { rewrite (sy_V _ _ Hs), Eg, Eh. reflexivity. }
  rewrite <- EV in Hc.
  destruct Hc as (A & HA & Hacc).
  - rewrite En. reflexivity.
  - rewrite En. exact (pwf_aR _ Hwf).
  - rewrite En. exact (pwf_aO _ Hwf).
  - eapply in_range_same_all; [exact Hsame|]. rewrite En. apply Forall_forall. intros x Hx. exact (lc_has_in_range s x 0%fe (Hh x Hx)).
  - rewrite En. split; [intros i Hi; exact (pwf_gate _ Hwf i Hi)|]. intros l' Hl'.
    destruct (Forall2_in_r _ _ _ _ Hsame Hl') as (x & Hin & He & _).
    rewrite <- (lc_equiv_value _ x l' He). exact (proj2 (Hh x Hin)).
  - exists (with_output (fun pf => (commss, pf)) A). split; [apply with_output_most, HA|]. intros O. rewrite with_output_ok. cbn [fst snd].
    split; [reflexivity|]. destruct (Hacc O) as [Hlen Hok]. unfold gadget_queries. rewrite Et, HV in Hlen. split; [exact Hlen|].
    intros Hnz r. exists vs. split; [exact Ev|]. apply Hok. rewrite Et, HV. exact Hnz.
Qed.

Theorem gadgets_honest (W : world) checks label g h (l : list call) : Forall honest_call l ->
  exists commss vs, Forall2 (good_commitments g h) l commss /\
    let sts := map statement_of l in
    let t := transcript_new label in
    vrun W false (verify_all checks g h (combine sts commss)) (verifier_new t) = Done (Ok tt, vs) /\
    let n := v_num_vars vs in
    let N := next_power_of_two n in
    (Forall (fun '(st, comms) => sound_statement st comms) (combine sts commss) ->
     forall G H k, N = (2 ^ k)%nat -> (k < 32)%nat -> (1 < n)%nat \/ batch_invert_empty_panics = false ->
     (N <= length G)%nat -> (N <= length H)%nat ->
     exists A, at_most (5 + k) A /\ forall O, fst (output O A) = commss /\
       let pf := snd (output O A) in
       (~ In (fzero modulus) (map O (gadget_queries t g h sts n commss pf)) ->
        forall r, gadgets_accept W t checks g h G H sts O r commss pf)).
Proof.
  intros Hl. destruct (gadgets_honest_shaped W checks label g h l Hl) as (commss & vs & Hg & Hrun & Hc).
  exists commss, vs. split; [exact Hg|]. cbv zeta in *. split; [exact Hrun|]. intros Hs G H k HN Hk Hb HG HH.
  destruct (Hc Hs G H k HN Hk Hb HG HH) as (A & HA & Hacc). exists A. split; [exact HA|]. intros O.
  destruct (Hacc O) as (E & _ & Hok). split; [exact E|exact Hok].
Qed.
End Error.
