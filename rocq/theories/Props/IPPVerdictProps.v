(** C73: exactly when the inner-product verification panics, and what it accepts otherwise.

    Print Assumptions for every theorem follows it. *)
From Coq Require Import ZArith String List Lia Bool Arith.
From Verif.Base Require Import Outcome Fp Params Algebra Instances.
From Verif.Model Require Import Transcript IPP.
From Verif.Spec Require Import IPPSpec Games IPPVerdict.
From Verif.Proofs Require Import IppVerdict.
From Verif.Props Require Import Demo.
Import ListNotations.
Local Notation length := List.length.

Section Props.
Context {P : Params} {OK : ParamsOk P}.
Local Open Scope fe_scope.

(** ** C73 The inner-product verification on arbitrary arguments *)
(** For all arguments: [verify_ipp] panics exactly when the numbers of elements do not satisfy
    [ipp_counts]; the values of points, scalars and challenges (zero or not) play no part. *)
Theorem C73_panics n t Gf Hf Pt Q G H a b Ls Rs :
  verify_ipp n t Gf Hf Pt Q G H a b Ls Rs = Panic <->
  ~ ipp_counts batch_invert_empty_panics n (length G) (length H) (length Gf) (length Hf) (length Ls) (length Rs).
Proof. exact (verify_ipp_panic n t Gf Hf Pt Q G H a b Ls Rs). Qed.

(** Otherwise it accepts one point [P0] and answers VerificationError, the only error there is,
    for every other; the transcript it leaves depends on [n], the transcript before and the
    points of the proof only. *)
Theorem C73_decides n t Ls Rs : exists t', forall Gf Hf Q G H a b,
  ipp_counts batch_invert_empty_panics n (length G) (length H) (length Gf) (length Hf) (length Ls) (length Rs) ->
  exists P0, forall Pt,
    (Pt = P0 -> verify_ipp n t Gf Hf Pt Q G H a b Ls Rs = Done (Ok tt, t')) /\
    (Pt <> P0 -> verify_ipp n t Gf Hf Pt Q G H a b Ls Rs = Done (Err VerificationError, t')).
Proof. exact (verify_ipp_decides n t Ls Rs). Qed.

(** When one of the round challenges is zero, the accepted point has nothing to do with the
    generators: it is a*b*Q minus the squares of the challenges times the points L. *)
Theorem C73_zero_challenge n t Gf Hf Pt Q G H a b Ls Rs us t' :
  length Ls = length Rs -> (length Ls < 32)%nat -> n = (2 ^ length Ls)%nat ->
  length G = n -> length H = n -> length Gf = n -> length Hf = n ->
  ipp_challenges Ls Rs (innerproduct_domain_sep n t) = (us, t') -> In 0 us ->
  verify_ipp n t Gf Hf Pt Q G H a b Ls Rs = Done (Ok tt, t') <->
  Pt = g1_add (g1_mul (a * b) Q) (g1_neg (msm (map (fun u => u * u) us) Ls)).
Proof. exact (verify_ipp_zero n t Gf Hf Pt Q G H a b Ls Rs us t'). Qed.
End Props.

Print Assumptions C73_panics.
Print Assumptions C73_decides.
Print Assumptions C73_zero_challenge.

(** ** Concrete cases, over the toy backend *)
Section Examples.
#[local] Existing Instance toyP.
#[local] Existing Instance toyP_ok.
Local Open Scope fe_scope.

(** [lG] generators G, and so on; two rounds fit four generators *)
Definition vi_result (n lG lH lGf lHf lL lR : nat) : outcome (result unit) :=
  match verify_ipp n [] (map fe (map Z.of_nat (seq 1 lGf))) (map fe (map Z.of_nat (seq 2 lHf))) (fe 77) demo_g
          (firstn lG demo_G) (firstn lH demo_H) (fe 3) (fe 5) (map fe (map Z.of_nat (seq 7 lL))) (map fe (map Z.of_nat (seq 9 lR))) with
  | Done (r, _) => Done r
  | Panic => Panic
  end.
(** in order: all as they should be; one round too few; R shorter; R longer; too few generators H;
    too few generators H made up for by one more point R; more factors than needed *)
Example C73_outcomes :
  map (fun '(n, (lG, lH), (lGf, lHf), (lL, lR)) => vi_result n lG lH lGf lHf lL lR)
    [(4, (4, 4), (4, 4), (2, 2)); (4, (4, 4), (4, 4), (1, 1)); (4, (4, 4), (4, 4), (2, 1)); (4, (4, 4), (4, 4), (2, 3));
     (4, (4, 3), (4, 4), (2, 2)); (4, (4, 3), (4, 4), (2, 3)); (4, (4, 4), (6, 5), (2, 2))]%nat =
  let rejected := Done (Err VerificationError) in
  [rejected; Panic; Panic; Panic; Panic; rejected; rejected].
Proof. vm_compute. reflexivity. Qed.

Example C73_counts_example : ipp_counts batch_invert_empty_panics 4 4 3 4 4 2 3.
Proof. repeat split; cbn; try lia. Qed.

(** two rounds; the second challenge, the one after four points, is zero.  The point 3 * 5 * Q
    minus 4 times the first L is accepted with any generators. *)
Definition vi_oracle (q : query) : F := if Nat.leb (length (fst q)) 4 then fe 2 else 0.
Definition vi_Ls : list G1 := [fe 7; fe 8]. Definition vi_Rs : list G1 := [fe 9; fe 10].
Definition vi_point : G1 := fe 15 * demo_g - fe 4 * fe 7.
Definition vi_verify (G H : list G1) : outcome (result unit * transcript) :=
  @verify_ipp (@backend toyP vi_oracle) 4 [] (map fe [1; 2; 3; 4]%Z) (map fe [2; 3; 4; 5]%Z) vi_point demo_g G H (fe 3) (fe 5) vi_Ls vi_Rs.
Example C73_zero_example :
  map fval (fst (@ipp_challenges (@backend toyP vi_oracle) vi_Ls vi_Rs (@innerproduct_domain_sep 4 []))) = [2; 0]%Z /\
  map (fun GH => match vi_verify (fst GH) (snd GH) with Done (Ok _, _) => true | _ => false end)
    [(firstn 4 demo_G, firstn 4 demo_H); (firstn 4 demo_H, firstn 4 (rev demo_G))] = [true; true].
Proof. split; vm_compute; reflexivity. Qed.
End Examples.
