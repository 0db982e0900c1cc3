(** The rounds of [create_ipp] as the messages of an interactive prover. *)
From Coq Require Import ZArith String List Lia Bool Ring Field.
From Verif.Base Require Import Outcome Fp Params Algebra.
From Verif.Model Require Import Transcript LinComb IPP Prover.
From Verif.Spec Require Import R1CS Protocol IPPSpec R1CSTree Games.
From Verif.Proofs Require Import IPPProofs IPPMore HonestStrategy.
Import ListNotations.
Local Notation length := List.length.

Section HonestRounds.
Context {P : Params} {OK : ParamsOk P}.
Local Open Scope fe_scope.
Add Field FFhr : (Fp_field_theory modulus modulus_prime).

Definition ipp_rounds (Q : G1) (s : ipp_state) (us : list F) : list (G1 * G1) :=
  map (fun j => ipp_message Q (fold_left ipp_step (firstn j us) s)) (seq 0 (length us)).

Lemma ipp_rounds_cons Q s u us : ipp_rounds Q s (u :: us) = ipp_message Q s :: ipp_rounds Q (ipp_step s u) us.
Proof.
  unfold ipp_rounds. cbn [length seq map firstn fold_left]. f_equal. rewrite <- seq_shift, map_map. reflexivity.
Qed.

Lemma fold_scalars_vadd x y l : forall r, fold_scalars x y l r = vadd (vscale x l) (vscale y r).
Proof.
  unfold fold_scalars, vadd, vscale. induction l as [|a l IH]; intros [|b r]; cbn [zipw map]; try reflexivity.
  rewrite IH. f_equal. ring.
Qed.

Lemma ipp_loop_rounds k : forall fuel Q a b G H t Ls Rs af bf t',
  length a = (2 ^ k)%nat -> length b = (2 ^ k)%nat -> length G = (2 ^ k)%nat -> length H = (2 ^ k)%nat ->
  ipp_loop fuel (2 ^ k) Q a b G H t = Done (Ls, Rs, af, bf, t') ->
  let us := fst (ipp_challenges Ls Rs t) in
  let s := (G, H, a, b) in
  length us = k /\ Ls = map fst (ipp_rounds Q s us) /\ Rs = map snd (ipp_rounds Q s us) /\
  (nth 0 af 0, nth 0 bf 0) = ipp_final (fold_left ipp_step us s).
Proof.
  induction k as [|k IH]; intros fuel Q a b G H t Ls Rs af bf t' Ha Hb HG HH E.
  - destruct fuel; injection E as <- <- <- <- <-; cbn; auto.
  - pose proof (pow2_pos k) as Hpos.
    assert (Em : Nat.div2 (length a) = (2 ^ k)%nat) by (apply div2_pow2_len; exact Ha).
    assert (EG : Nat.div2 (length G) = (2 ^ k)%nat) by (apply div2_pow2_len; exact HG).
    assert (EH : Nat.div2 (length H) = (2 ^ k)%nat) by (apply div2_pow2_len; exact HH).
    destruct fuel as [|fuel].
    { cbn [ipp_loop] in E. destruct (Nat.eqb_spec (2 ^ S k) 1) as [Habs|_]; [rewrite pow2_S in Habs; lia|discriminate]. }
    cbn [ipp_loop] in E. rewrite div2_pow in E.
    destruct (Nat.eqb_spec (2 ^ S k) 1) as [Habs|_]; [rewrite pow2_S in Habs; lia|].
    rewrite pow2_S in Ha, Hb, HG, HH. set (m := (2 ^ k)%nat) in *.
    destruct (firstn_skipn_len a m Ha) as [HaL HaR]. destruct (firstn_skipn_len b m Hb) as [HbL HbR].
    destruct (firstn_skipn_len G m HG) as [HGL HGR]. destruct (firstn_skipn_len H m HH) as [HHL HHR].
    rewrite !inner_product_ok in E by lia. cbn [obind] in E.
    rewrite !msm_checked_ok in E by (rewrite !app_length; cbn [length]; lia). cbn [obind] in E.
    rewrite !msm_three in E by lia.
    set (L := g1_add (msm (firstn m a) (skipn m G)) _) in E. set (R := g1_add (msm (skipn m a) (firstn m G)) _) in E.
    unfold challenge_scalar in E. cbv beta iota zeta in E.
    set (u := challenge_value "u" _) in E. set (t1 := _ ++ [TChallenge "u" modbytes]) in E.
    match type of E with context [ipp_loop ?f ?n ?Q ?x ?y ?z ?w ?t] => destruct (ipp_loop f n Q x y z w t) as [[[[[Ls1 Rs1] af1] bf1] tx]|] eqn:E1 end;
      [|discriminate E].
    cbn [obind] in E. injection E as <- <- <- <- <-.
    apply IH in E1; try (rewrite ?fold_scalars_length, ?fold_points_length; lia).
    cbn [ipp_challenges]. unfold challenge_scalar. cbv beta iota zeta. fold u. fold t1.
    destruct (ipp_challenges Ls1 Rs1 t1) as [us t2]. cbn [fst] in *. cbv zeta in E1. destruct E1 as (E1 & E2 & E3 & E4).
    assert (Es : ipp_step (G, H, a, b) u =
      (fold_points (finv u) u (firstn m G) (skipn m G), fold_points u (finv u) (firstn m H) (skipn m H),
       fold_scalars u (finv u) (firstn m a) (skipn m a), fold_scalars (finv u) u (firstn m b) (skipn m b))).
    { unfold ipp_step, fold_halves, fold_points. rewrite Em, EG, EH, !fold_scalars_vadd. reflexivity. }
    rewrite ipp_rounds_cons. cbn [map fold_left length]. rewrite Es.
    assert (EM : ipp_message Q (G, H, a, b) = (L, R)).
    { unfold ipp_message. rewrite Em. unfold L, R. rewrite !g1_add_assoc. reflexivity. }
    rewrite EM. cbn [fst snd]. split; [lia|]. split; [f_equal; exact E2|]. split; [f_equal; exact E3|exact E4].
Qed.

Theorem create_ipp_rounds t Q Gf Hf G H a b k ipp t' :
  length G = (2 ^ k)%nat -> length H = (2 ^ k)%nat -> length a = (2 ^ k)%nat -> length b = (2 ^ k)%nat ->
  length Gf = (2 ^ k)%nat -> length Hf = (2 ^ k)%nat ->
  create_ipp t Q Gf Hf G H a b = Done (ipp, t') ->
  let us := fst (ipp_challenges (ipp_L ipp) (ipp_R ipp) (innerproduct_domain_sep (2 ^ k) t)) in
  let s := (scale_points Gf G, scale_points Hf H, a, b) in
  length us = k /\ ipp_L ipp = map fst (ipp_rounds Q s us) /\ ipp_R ipp = map snd (ipp_rounds Q s us) /\
  (ipp_a ipp, ipp_b ipp) = ipp_final (fold_left ipp_step us s).
Proof.
  intros HG HH Ha Hb HGf HHf E. rewrite (create_ipp_loop t Q Gf Hf G H a b k (2 ^ k)) in E by (assumption || lia).
  match type of E with context [ipp_loop ?f ?n ?Q ?x ?y ?z ?w ?t] => destruct (ipp_loop f n Q x y z w t) as [[[[[Ls1 Rs1] af1] bf1] tx]|] eqn:E1 end;
    [|discriminate E].
  cbn [obind] in E. destruct af1 as [|a0 af1]; [discriminate E|]. cbn [index obind] in E.
  destruct bf1 as [|b0 bf1]; [discriminate E|]. cbn [index obind] in E. injection E as <- <-.
  apply ipp_loop_rounds in E1; [exact E1|assumption|assumption|rewrite scale_points_length; lia|rewrite scale_points_length; lia].
Qed.
End HonestRounds.
