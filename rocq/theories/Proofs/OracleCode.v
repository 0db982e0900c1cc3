(** Cheating provers against [verify] with a random oracle. *)
From Coq Require Import ZArith String List Lia Bool Arith.
From Verif.Base Require Import Outcome Fp Params Algebra.
From Verif.Model Require Import Transcript LinComb Prog IPP Prover Verifier.
From Verif.Spec Require Import R1CS Protocol IPPSpec Verdict Extractor R1CSTree R1CSExtractor Games Challenges.
From Verif.Proofs Require Import VerifyProofs VerdictProofs R1CSExtract R1CSAccepted OracleVerify TreeCount OracleCount QueryProofs GameOracle OracleZero.
Import ListNotations.
Local Notation length := List.length.

Section Code.
Context {P : Params} {OK : ParamsOk P}.

Lemma backend_ok (O : query -> Fp modulus) : ParamsOk (@backend P O).
Proof. destruct OK. constructor; assumption. Qed.

Lemma backend_accepted (O : query -> Fp modulus) g h G H V n1 n cs (pf : @r1cs_proof P) c :
  @accepted_for P g h G H V n1 n cs pf c <-> @accepted_for (@backend P O) g h G H V n1 n cs (@same_proof P O pf) c.
Proof. split; exact (fun x => x). Qed.

Lemma backend_queries (O : query -> Fp modulus) m n t (pf : @r1cs_proof P) :
  @proof_queries P m n t pf = @proof_queries (@backend P O) m n t (@same_proof P O pf).
Proof. reflexivity. Qed.

Lemma backend_oracle (O : query -> Fp modulus) q : @transcript_oracle (@backend P O) q = O q.
Proof. destruct q as [t l]. unfold transcript_oracle, challenge_value. cbn. apply (of_Z_fval (@modulus P) (O (t, l))). Qed.

(** what acceptance says *)
Lemma accepts_fits O r g h G H V n cs t0 (pf : @r1cs_proof P) :
  @verify_accepts P O r g h G H V n cs t0 pf ->
  (1 < n)%nat \/ @batch_invert_empty_panics P = false ->
  @proof_fits (@backend P O) (@Verifier (@backend P O) t0 cs n V [] None 0 0) (@same_proof P O pf) G H.
Proof.
  intros [t E] Hb. apply (@verify_inv (@backend P O) (backend_ok O)) in E.
  destruct E as (s2 & E & HG & HH & Hr & HLR & H32 & HN & _).
  unfold verifier_create_randomized_constraints in E. cbn in E. injection E as <-. cbn in *. constructor; assumption.
Qed.

Lemma accepts_two O r r' g h G H V n cs t0 (pf : @r1cs_proof P) :
  (1 < n)%nat \/ @batch_invert_empty_panics P = false ->
  let c := map O (@proof_queries P (length V) n t0 pf) in
  Forall (fun u => u <> fzero modulus) (skipn 5 c) -> r <> r' ->
  @verify_accepts P O r g h G H V n cs t0 pf -> @verify_accepts P O r' g h G H V n cs t0 pf ->
  @accepted_for P g h G H V n n cs pf c.
Proof.
  intros Hb c Hnz Hne A1 A2. apply (backend_accepted O).
  assert (Ec : c = map (@transcript_oracle (@backend P O)) (@proof_queries (@backend P O) (length V) n t0 (@same_proof P O pf))).
  { rewrite (map_ext _ O (backend_oracle O)). unfold c. rewrite (backend_queries O). reflexivity. }
  rewrite Ec in Hnz |- *. pose proof (accepts_fits O r g h G H V n cs t0 pf A1 Hb) as Hf.
  destruct (@verify_asks (@backend P O) (backend_ok O) (@World (@backend P O) (fun _ => fzero modulus) (fun _ => []))
     (@Verifier (@backend P O) t0 cs n V [] None 0 0) (@same_proof P O pf) g h G H eq_refl Hf Hnz) as [_ H2].
  exact (H2 r r' Hne A1 A2).
Qed.
End Code.

Section Pairs.
Context {A B : Type}.
Lemma pairs_as_sum (l : list A) (m : list B) (w : A -> B -> bool) :
  length (filter (fun ab => w (fst ab) (snd ab)) (list_prod l m)) = sum_over l (fun a => length (filter (w a) m)).
Proof.
  induction l as [|a l IH]; [reflexivity|]. cbn [list_prod]. rewrite filter_app, app_length, IH, sum_over_cons. f_equal.
  clear IH. induction m as [|b m IH]; [reflexivity|]. cbn [map filter fst snd]. destruct (w a b); cbn [length]; rewrite IH; reflexivity.
Qed.
Lemma filter_short (p : B -> bool) (m : list B) : (length (filter p m) <= length m)%nat.
Proof. induction m as [|b m IH]; [apply le_n|]. cbn [filter]. destruct (p b); cbn [length]; lia. Qed.
Lemma two_in (m : list B) (p : B -> bool) : NoDup m -> (2 <= length (filter p m))%nat ->
  exists b b', b <> b' /\ In b m /\ In b' m /\ p b = true /\ p b' = true.
Proof.
  intros Hn Hl. apply (NoDup_filter p) in Hn. destruct (filter p m) as [|b [|b' l]] eqn:E; cbn in Hl; [lia|lia|].
  assert (I1 : In b (filter p m)) by (rewrite E; left; reflexivity).
  assert (I2 : In b' (filter p m)) by (rewrite E; right; left; reflexivity).
  apply filter_In in I1, I2. exists b, b'. inversion Hn as [|? ? Hx _]; subst.
  split; [intros ->; apply Hx; left; reflexivity|]. tauto.
Qed.
Lemma many_pairs (l : list A) (m : list B) (w : A -> B -> bool) b c : (0 < c)%nat ->
  (b * length m + c * length l < c * length (filter (fun ab => w (fst ab) (snd ab)) (list_prod l m)))%nat ->
  (b < c * length (filter (fun a => Nat.leb 2 (length (filter (w a) m))) l))%nat.
Proof.
  intros Hc. rewrite pairs_as_sum, filter_as_sum. set (good := fun a => Nat.leb 2 (length (filter (w a) m))).
  assert (Hs : (sum_over l (fun a => length (filter (w a) m)) <= sum_over l (fun a => if good a then 1 else 0) * length m + length l)%nat).
  { rewrite <- sum_over_mul. replace (length l) with (sum_over l (fun _ => 1%nat)) by (rewrite sum_over_const; lia).
    rewrite <- sum_over_add. apply sum_over_le. intros a _. unfold good. destruct (Nat.leb_spec 2 (length (filter (w a) m))).
    - pose proof (filter_short (w a) m). lia.
    - lia. }
  intros Hlt. set (x := sum_over l (fun a => length (filter (w a) m))) in *. fold good. set (y := sum_over l (fun a => if good a then 1 else 0)%nat) in *.
  destruct (Nat.le_gt_cases (c * y) b) as [Hle|Hg]; [exfalso|exact Hg].
  assert (c * x <= c * (y * length m + length l))%nat by (apply Nat.mul_le_mono_l; exact Hs).
  assert ((c * y) * length m <= b * length m)%nat by (apply Nat.mul_le_mono_r; exact Hle). nia.
Qed.
End Pairs.

Section Main.
Context {P : Params} {OK : ParamsOk P} {ENC : EncodingOk P}.

(** The output [x] of the prover contains the proof [prf x] and the commitments [V x];
    the verifier's transcript is then [tr x]. *)
Theorem verify_adaptive_repeats {X : Type} (tr : X -> transcript) (prf : X -> r1cs_proof) (V : X -> list G1) g h G H m len n k cs
    D C mu R (A : adversary X) Qn (wins : oracle -> F -> bool) :
  let N := next_power_of_two n in
  N = 2 ^ k -> (1 < n)%nat \/ batch_invert_empty_panics = false ->
  repeats mu C -> NoDup D -> NoDup R -> at_most Qn A ->
  (forall O r O' r', In O (oracles D C) -> In r R -> wins O r = true -> In O' (oracles D C) -> In r' R -> wins O' r' = true ->
     tr (output O A) = tr (output O' A) -> V (output O A) = V (output O' A)) ->
  (forall O r, In O (oracles D C) -> In r R -> wins O r = true ->
     let x := output O A in
     length (tr x) = len /\ length (V x) = m /\
     verify_accepts O r g h G H (V x) n cs (tr x) (prf x) /\ incl (proof_queries m n (tr x) (prf x)) D) ->
  (Qn + 5 + k) * (mu * Nat.max N (Nat.max (length cs) 7) + times C (fzero modulus)) * length C ^ length D * length R + length C * length C ^ length D <
    length C * length (filter (fun Or => wins (fst Or) (snd Or)) (list_prod (oracles D C) R)) ->
  N <= length G /\ N <= length H /\ Forall (lc_in_range n m) cs /\
  exists O0 r0 f t, In O0 (oracles D C) /\ In r0 R /\ wins O0 r0 = true /\ proof_tree_wf k (length cs) t /\
    each_branch (fun pf c => exists O r, In O (oracles D C) /\ In r R /\ wins O r = true /\ tr (output O A) = tr (output O0 A) /\
      prf (output O A) = pf /\ map O (proof_queries m n (tr (output O A)) pf) = c) f t /\
    proof_tree_accepted g h G H (V (output O0 A)) n n cs f t.
Proof.
  intros N HN Hb HC HD HR HA HV Hw Hcount.
  assert (Hc0 : (0 < length C)%nat) by (destruct C; cbn in *; lia).
  rewrite <- (oracles_length C D (fun _ => fzero modulus)) in Hcount at 2.
  apply (many_pairs (oracles D C) R wins _ (length C) Hc0) in Hcount.
  set (good0 := fun O => Nat.leb 2 (length (filter (wins O) R))) in Hcount.
  assert (Hgood0 : forall O, In O (oracles D C) -> good0 O = true -> exists r r', r <> r' /\ In r R /\ In r' R /\ wins O r = true /\ wins O r' = true).
  { intros O _ HO. apply two_in; [exact HR|]. apply Nat.leb_le. exact HO. }
  pose (pts := fun x => proof_queries m n (tr x) (prf x)).
  assert (Hz := zero_answers pts (5 + k) D C A Qn good0 HD HA).
  set (good := fun O => good0 O && no_zero pts A O) in Hz.
  assert (Hcount' : ((Qn + 5 + k) * (mu * Nat.max N (Nat.max (length cs) 7)) * length C ^ length D < length C * length (filter good (oracles D C)))%nat).
  { match type of Hz with ?H -> _ => assert (Hz0 : H) end; [|specialize (Hz Hz0); rewrite Nat.add_assoc in Hz; lia].
    intros O HO Hg. destruct (Hgood0 O HO Hg) as (r & _ & _ & Hr & _ & Hw1 & _).
    destruct (Hw O r HO Hr Hw1) as (_ & _ & A1 & Hincl). split; [|exact Hincl].
    apply proof_queries_length. pose proof (accepts_fits O r g h G H _ n cs _ _ A1 Hb) as [_ _ _ HLR _ Hrounds _].
    cbn in HLR, Hrounds. unfold N in HN. rewrite HN in Hrounds. apply Nat.pow_inj_r in Hrounds; [|lia]. unfold shaped. split; congruence. }
  clear Hcount Hz. rename Hcount' into Hcount.
  assert (Hgood : forall O, In O (oracles D C) -> good O = true -> exists r r', r <> r' /\ In r R /\ In r' R /\ wins O r = true /\ wins O r' = true).
  { intros O HO Hg. apply andb_true_iff in Hg as [Hg _]. apply Hgood0; assumption. }
  assert (Hone : exists O, In O (oracles D C) /\ good O = true).
  { destruct (filter good (oracles D C)) as [|O l] eqn:E; [cbn in Hcount; lia|]. exists O. apply filter_In. rewrite E. left. reflexivity. }
  destruct Hone as (O0 & HO0 & HO0'). destruct (Hgood O0 HO0 HO0') as (r0 & r0' & _ & Hr0 & _ & Hw0 & _).
  destruct (Hw O0 r0 HO0 Hr0 Hw0) as (_ & Hm0 & Hv0 & _).
  pose proof (accepts_fits O0 r0 g h G H _ n cs _ _ Hv0 Hb) as [HG HH Hrange _ _ _ _].
  cbn in HG, HH, Hrange. split; [exact HG|]. split; [exact HH|]. rewrite Hm0 in Hrange. split; [exact Hrange|].
  destruct (adaptive_tree tr prf V g h G H m len n k cs D C mu A Qn good HN HC HD HA) as (O1 & f & t & HO1 & HO1' & Hwf & Hbr & Hacc).
  - intros O O' HO Hg HO' Hg'. destruct (Hgood O HO Hg) as (r & _ & _ & Hr & _ & Hw1 & _).
    destruct (Hgood O' HO' Hg') as (r' & _ & _ & Hr' & _ & Hw1' & _). exact (HV O r O' r' HO Hr Hw1 HO' Hr' Hw1').
  - intros O HO Hg. destruct (Hgood O HO Hg) as (r & r' & Hne & Hr & Hr' & Hw1 & Hw2). cbv zeta.
    destruct (Hw O r HO Hr Hw1) as (Hlen & Hm & A1 & Hincl). destruct (Hw O r' HO Hr' Hw2) as (_ & _ & A2 & _).
    split; [exact Hlen|]. split; [|exact Hincl]. rewrite <- Hm in Hincl |- *.
    apply (accepts_two O r r'); try assumption. apply Forall_forall. intros u Hu E. subst u.
    apply andb_true_iff in Hg as [_ Hz]. apply (no_zero_ok pts A O (fzero modulus) Hz); [|reflexivity].
    rewrite <- (firstn_skipn 5). apply in_or_app. right. unfold pts. rewrite <- Hm. exact Hu.
  - exact Hcount.
  - destruct (Hgood O1 HO1 HO1') as (r1 & _ & _ & Hr1 & _ & Hw1 & _).
    exists O1, r1, f, t. split; [exact HO1|]. split; [exact Hr1|]. split; [exact Hw1|]. split; [exact Hwf|]. split; [|exact Hacc].
    intros yn zn un xn w it us Ls Rs a b Hy Hz Hu Hx Hwi Hbb.
    destruct (Hbr yn zn un xn w it us Ls Rs a b Hy Hz Hu Hx Hwi Hbb) as (O & HO & Hg & Et & Eo & Em).
    destruct (Hgood O HO Hg) as (r & _ & _ & Hr & _ & Hw2 & _). exists O, r. auto 8.
Qed.

Theorem verify_adaptive {X : Type} (tr : X -> transcript) (prf : X -> r1cs_proof) (V : X -> list G1) g h G H m len n k cs
    D C R (A : adversary X) Qn (wins : oracle -> F -> bool) :
  let N := next_power_of_two n in
  N = 2 ^ k -> (1 < n)%nat \/ batch_invert_empty_panics = false ->
  NoDup C -> ~ In (fzero modulus) C -> NoDup D -> NoDup R -> at_most Qn A ->
  (forall O r O' r', In O (oracles D C) -> In r R -> wins O r = true -> In O' (oracles D C) -> In r' R -> wins O' r' = true ->
     tr (output O A) = tr (output O' A) -> V (output O A) = V (output O' A)) ->
  (forall O r, In O (oracles D C) -> In r R -> wins O r = true ->
     let x := output O A in
     length (tr x) = len /\ length (V x) = m /\
     verify_accepts O r g h G H (V x) n cs (tr x) (prf x) /\ incl (proof_queries m n (tr x) (prf x)) D) ->
  (Qn + 5 + k) * Nat.max N (Nat.max (length cs) 7) * length C ^ length D * length R + length C * length C ^ length D <
    length C * length (filter (fun Or => wins (fst Or) (snd Or)) (list_prod (oracles D C) R)) ->
  N <= length G /\ N <= length H /\ Forall (lc_in_range n m) cs /\
  exists O0 r0 f t, In O0 (oracles D C) /\ In r0 R /\ wins O0 r0 = true /\ proof_tree_wf k (length cs) t /\
    each_branch (fun pf c => exists O r, In O (oracles D C) /\ In r R /\ wins O r = true /\ tr (output O A) = tr (output O0 A) /\
      prf (output O A) = pf /\ map O (proof_queries m n (tr (output O A)) pf) = c) f t /\
    proof_tree_accepted g h G H (V (output O0 A)) n n cs f t.
Proof.
  intros N HN Hb HC HC0 HD HR HA HV Hw Hcount.
  apply (verify_adaptive_repeats tr prf V g h G H m len n k cs D C 1 R A Qn wins HN Hb (repeats_once C HC) HD HR HA HV Hw).
  rewrite times_zero, Nat.add_0_r, Nat.mul_1_l by exact HC0. exact Hcount.
Qed.

Theorem verify_tree_repeats g h G H V n k cs t0 D C mu R (A : adversary r1cs_proof) Qn (wins : oracle -> F -> bool) :
  let N := next_power_of_two n in
  let m := length V in
  N = 2 ^ k -> (1 < n)%nat \/ batch_invert_empty_panics = false ->
  repeats mu C -> NoDup D -> NoDup R -> at_most Qn A ->
  (forall O r, In O (oracles D C) -> In r R -> wins O r = true ->
     verify_accepts O r g h G H V n cs t0 (output O A) /\ incl (proof_queries m n t0 (output O A)) D) ->
  (Qn + 5 + k) * (mu * Nat.max N (Nat.max (length cs) 7) + times C (fzero modulus)) * length C ^ length D * length R + length C * length C ^ length D <
    length C * length (filter (fun Or => wins (fst Or) (snd Or)) (list_prod (oracles D C) R)) ->
  N <= length G /\ N <= length H /\ Forall (lc_in_range n m) cs /\
  exists f t, proof_tree_wf k (length cs) t /\
    each_branch (fun pf c => exists O r, In O (oracles D C) /\ In r R /\ wins O r = true /\ output O A = pf /\
      map O (proof_queries m n t0 pf) = c) f t /\
    proof_tree_accepted g h G H V n n cs f t.
Proof.
  intros N m HN Hb HC HD HR HA Hw Hcount.
  destruct (verify_adaptive_repeats (fun _ => t0) (fun pf => pf) (fun _ => V) g h G H m (length t0) n k cs D C mu R A Qn wins HN Hb HC HD HR HA)
    as (HG & HH & Hr & O0 & r0 & f & t & _ & _ & _ & Hwf & Ht & Ha); auto.
  { intros O r HO Hr Hwin. destruct (Hw O r HO Hr Hwin). auto. }
  split; [exact HG|]. split; [exact HH|]. split; [exact Hr|]. exists f, t. split; [exact Hwf|]. split; [|exact Ha].
  intros yn zn un xn w it us Ls Rs a b Hy Hz Hu Hx Hwi Hb'.
  destruct (Ht _ _ _ _ _ _ _ _ _ _ _ Hy Hz Hu Hx Hwi Hb') as (O & r & HO & Hr' & Hwin & _ & Ep & Ec). exists O, r. auto 6.
Qed.

Theorem fiat_shamir_verify_repeats g h G H V n k cs M t0 D C mu R A Qn (wins : oracle -> F -> bool) :
  let N := next_power_of_two n in
  let m := length V in
  N = 2 ^ k -> (1 < n)%nat \/ batch_invert_empty_panics = false ->
  recovers M m cs -> repeats mu C -> NoDup D -> NoDup R -> at_most Qn A ->
  (forall O r, In O (oracles D C) -> In r R -> wins O r = true ->
     verify_accepts O r g h G H V n cs t0 (output O A) /\ incl (proof_queries m n t0 (output O A)) D) ->
  (Qn + 5 + k) * (mu * Nat.max N (Nat.max (length cs) 7) + times C (fzero modulus)) * length C ^ length D * length R + length C * length C ^ length D <
    length C * length (filter (fun Or => wins (fst Or) (snd Or)) (list_prod (oracles D C) R)) ->
  exists f t, proof_tree_wf k (length cs) t /\
    each_branch (fun pf c => exists O r, In O (oracles D C) /\ In r R /\ wins O r = true /\ output O A = pf /\
      map O (proof_queries m n t0 pf) = c) f t /\
    proof_tree_accepted g h G H V n n cs f t /\
    match r1cs_extract n n (length G) (length H) (length V) cs M (tree_scalars t) with
    | Got w => witness_ok g h G H V n n cs f w
    | Broken c => generator_relation (g :: h :: G ++ H) c
    end.
Proof.
  intros N m HN Hb HM HC HD HR HA Hw Hcount.
  destruct (verify_tree_repeats g h G H V n k cs t0 D C mu R A Qn wins HN Hb HC HD HR HA Hw Hcount) as (HG & HH & Hr & f & t & Hwf & Ht & Ha).
  exists f, t. split; [exact Hwf|]. split; [exact Ht|]. split; [exact Ha|].
  exact (r1cs_extract_ok g h G H V n n k cs HN HG HH (next_power_of_two_ge n) M f t Hr HM Hwf Ha).
Qed.

Theorem fiat_shamir_verify g h G H V n k cs M t0 D C R A Qn (wins : oracle -> F -> bool) :
  let N := next_power_of_two n in
  let m := length V in
  N = 2 ^ k -> (1 < n)%nat \/ batch_invert_empty_panics = false ->
  recovers M m cs -> NoDup C -> ~ In (fzero modulus) C -> NoDup D -> NoDup R -> at_most Qn A ->
  (forall O r, In O (oracles D C) -> In r R -> wins O r = true ->
     verify_accepts O r g h G H V n cs t0 (output O A) /\ incl (proof_queries m n t0 (output O A)) D) ->
  (Qn + 5 + k) * Nat.max N (Nat.max (length cs) 7) * length C ^ length D * length R + length C * length C ^ length D <
    length C * length (filter (fun Or => wins (fst Or) (snd Or)) (list_prod (oracles D C) R)) ->
  exists f t, proof_tree_wf k (length cs) t /\
    each_branch (fun pf c => exists O r, In O (oracles D C) /\ In r R /\ wins O r = true /\ output O A = pf /\
      map O (proof_queries m n t0 pf) = c) f t /\
    proof_tree_accepted g h G H V n n cs f t /\
    match r1cs_extract n n (length G) (length H) (length V) cs M (tree_scalars t) with
    | Got w => witness_ok g h G H V n n cs f w
    | Broken c => generator_relation (g :: h :: G ++ H) c
    end.
Proof.
  intros N m HN Hb HM HC HC0 HD HR HA Hw Hcount.
  apply (fiat_shamir_verify_repeats g h G H V n k cs M t0 D C 1 R A Qn wins HN Hb HM (repeats_once C HC) HD HR HA Hw).
  rewrite times_zero, Nat.add_0_r, Nat.mul_1_l by exact HC0. exact Hcount.
Qed.
End Main.
