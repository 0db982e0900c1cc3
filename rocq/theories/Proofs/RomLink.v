(** The inner-product argument on backends whose oracles agree on its questions. *)
From Coq Require Import ZArith String List Lia Bool Arith.
From Verif.Base Require Import Outcome Fp Params Algebra.
From Verif.Model Require Import Transcript LinComb Prog IPP Prover Verifier.
From Verif.Spec Require Import R1CS Protocol IPPSpec Indist Simulator Games RomSim.
From Verif.Proofs Require Import OracleCode.
Import ListNotations.
Local Notation length := List.length.

Section Link.
Context {P : Params} {OK : ParamsOk P}.

Lemma backend_challenge (O : query -> Fp modulus) l t : @challenge_value (@backend P O) l t = O (t, l).
Proof. exact (backend_oracle O (t, l)). Qed.

Lemma loop_agree (O S : query -> Fp modulus) fuel : forall n (Q : @G1 P) (a b : list (Fp (@modulus P))) (G H : list (@G1 P)) t Ls Rs af bf t',
  @ipp_loop (@backend P O) fuel n Q a b G H t = Done (Ls, Rs, af, bf, t') ->
  (forall q, In q (@round_queries P Ls Rs t) -> O q = S q) ->
  @ipp_loop (@backend P S) fuel n Q a b G H t = Done (Ls, Rs, af, bf, t').
Proof.
  induction fuel as [|fuel IH]; intros n Q a b G H t Ls Rs af bf t' E Hq.
  - cbn [ipp_loop] in *. destruct (Nat.eqb n 1); [exact E|discriminate].
  - cbn [ipp_loop] in *. destruct (Nat.eqb n 1); [exact E|]. unfold challenge_scalar in *.
    match type of E with obind ?e _ = _ => destruct e as [cL|] eqn:EcL end; [|discriminate].
    match goal with |- obind ?e _ = _ => replace e with (Done cL) by (symmetry; exact EcL) end.
    cbn [obind] in *.
    match type of E with obind ?e _ = _ => destruct e as [cR|] eqn:EcR end; [|discriminate].
    match goal with |- obind ?e _ = _ => replace e with (Done cR) by (symmetry; exact EcR) end.
    cbn [obind] in *.
    match type of E with obind ?e _ = _ => destruct e as [L|] eqn:EL end; [|discriminate].
    match goal with |- obind ?e _ = _ => replace e with (Done L) by (symmetry; exact EL) end.
    cbn [obind] in *.
    match type of E with obind ?e _ = _ => destruct e as [R|] eqn:ER end; [|discriminate].
    match goal with |- obind ?e _ = _ => replace e with (Done R) by (symmetry; exact ER) end.
    cbn [obind] in *.
    rewrite (backend_challenge O) in E. rewrite (backend_challenge S).
    match type of E with obind ?e _ = _ => destruct e as [[[[[Ls0 Rs0] af0] bf0] t0]|] eqn:Er end; [|discriminate].
    cbn [obind] in E. injection E as <- <- <- <- <-.
    assert (Eq : S (@commit_point P "R" R (@commit_point P "L" L t), "u"%string) = O (@commit_point P "R" R (@commit_point P "L" L t), "u"%string)).
    { symmetry. apply Hq. left. reflexivity. }
    change (S (@commit_point (@backend P S) "R" R (@commit_point (@backend P S) "L" L t), "u"%string) =
            O (@commit_point (@backend P O) "R" R (@commit_point (@backend P O) "L" L t), "u"%string)) in Eq.
    rewrite Eq.
    match goal with |- obind ?e _ = _ => replace e with (Done (Ls0, Rs0, af0, bf0, t0)); [reflexivity|symmetry] end.
    apply IH in Er; [exact Er|]. intros q Hin. apply Hq. right. exact Hin.
Qed.

Lemma create_agree (O S : query -> Fp modulus) t (Q : @G1 P) (gf hf : list (Fp (@modulus P))) (G H : list (@G1 P)) (a b : list (Fp (@modulus P)))
    (L R : list (@G1 P)) (a0 b0 : Fp (@modulus P)) t' :
  @create_ipp (@backend P O) t Q gf hf G H a b = Done (@IPPProof (@backend P O) L R a0 b0, t') ->
  (forall q, In q (@round_queries P L R (innerproduct_domain_sep (length G) t)) -> O q = S q) ->
  @create_ipp (@backend P S) t Q gf hf G H a b = Done (@IPPProof (@backend P S) L R a0 b0, t').
Proof.
  unfold create_ipp. intros E Hq.
  do 6 (match type of E with obind (assertb ?c) _ = _ => destruct c eqn:Ec; cbn [assertb obind] in E; [|discriminate E] end;
    match goal with |- obind (assertb ?c) _ = _ => replace c with true by (symmetry; exact Ec) end; clear Ec; cbn [assertb obind]).
  assert (Hend : forall Ls Rs (av bv : list (Fp (@modulus P))) tx,
    obind (@index (Fp (@modulus (@backend P O))) av 0) (fun x => obind (@index (Fp (@modulus (@backend P O))) bv 0) (fun y => Done (@IPPProof (@backend P O) Ls Rs x y, tx))) =
      Done (@IPPProof (@backend P O) L R a0 b0, t') ->
    (Ls = L /\ Rs = R) /\
    obind (@index (Fp (@modulus (@backend P S))) av 0) (fun x => obind (@index (Fp (@modulus (@backend P S))) bv 0) (fun y => Done (@IPPProof (@backend P S) Ls Rs x y, tx))) =
      Done (@IPPProof (@backend P S) L R a0 b0, t')).
  { intros Ls Rs av bv tx X. destruct av as [|x av]; [discriminate X|]. destruct bv as [|y bv]; [discriminate X|].
    cbn in X. injection X as -> -> -> -> ->. split; [auto|reflexivity]. }
  match type of E with obind (if ?c then _ else _) _ = _ => destruct c eqn:E1 end;
    match goal with |- obind (if ?c then _ else _) _ = _ => match type of E1 with _ = ?v => replace c with v by (symmetry; exact E1) end end.
  - cbn [obind] in *. apply Hend in E. exact (proj2 E).
  - unfold challenge_scalar in *.
    do 8 (match type of E with obind (obind ?e _) _ = _ => destruct e as [?x|] eqn:?Ee end; [|discriminate E];
      match goal with |- obind (obind ?e _) _ = _ => match goal with K : _ = Done _ |- _ => match type of K with _ = ?v => replace e with v by (symmetry; exact K); clear K end end end;
      cbn [obind] in E |- *).
    rewrite (backend_challenge O) in E. rewrite (backend_challenge S).
    match type of E with obind (obind ?e _) _ = _ => destruct e as [[[[[Ls0 Rs0] af0] bf0] t1]|] eqn:Er end; [|discriminate].
    cbn [obind] in E. pose proof (proj1 (Hend _ _ _ _ _ E)) as [HL HR]. subst L R.
    match goal with |- obind (obind (@ipp_loop _ _ _ _ (fold_scalars ?u _ _ _) _ _ _ _) _) _ = _ =>
      match type of Er with @ipp_loop _ _ _ _ (fold_scalars ?u' _ _ _) _ _ _ _ = _ =>
        assert (Eq : u = u') by (symmetry; apply Hq; left; reflexivity) end end.
    rewrite Eq.
    match goal with |- obind (obind ?e _) _ = _ => replace e with (Done (Ls0, Rs0, af0, bf0, t1)); [|symmetry] end.
    + cbn [obind]. exact (proj2 (Hend _ _ _ _ _ E)).
    + apply (loop_agree O S) in Er; [exact Er|]. intros q Hin. apply Hq. right. exact Hin.
Qed.
End Link.
