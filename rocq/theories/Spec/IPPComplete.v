(** Honest provers of the inner-product argument alone, with a random oracle. *)
From Coq Require Import ZArith String List.
From Verif.Base Require Import Outcome Fp Params Algebra.
From Verif.Model Require Import Transcript IPP.
From Verif.Spec Require Import IPPSpec Games.
Import ListNotations.

Section IPPComplete.
Context {P : Params}.
Context (n : nat) (t : transcript) (Q : @G1 P) (Gf Hf : list (Fp (@modulus P))) (G H : list (@G1 P)) (a b : list (Fp (@modulus P))).

(** the point that commits to [a], [b] and their inner product *)
Definition committed_point : @G1 P :=
  g1_add (g1_add (msm (vmul a Gf) G) (msm (vmul b Hf) H)) (g1_mul (ip a b) Q).

(** With the challenges answered by [O]: [create_ipp] (src/ipp.rs 35-202) panics, or [verify_ipp]
    (204-260), which starts from the same transcript, does not accept its proof. *)
Definition ipp_rejected (O : query -> Fp modulus) : bool :=
  match @create_ipp (backend O) t Q Gf Hf G H a b with
  | Done (pf, _) =>
      match @verify_ipp (backend O) n t Gf Hf committed_point Q G H
              (@ipp_a (backend O) pf) (@ipp_b (backend O) pf) (@ipp_L (backend O) pf) (@ipp_R (backend O) pf) with
      | Done (Ok _, _) => false
      | _ => true
      end
  | Panic => true
  end.

(** the questions behind the challenges of the honest proof *)
Definition honest_ipp_queries (O : query -> Fp modulus) : list query :=
  match @create_ipp (backend O) t Q Gf Hf G H a b with
  | Done (pf, _) => @round_queries P (@ipp_L (backend O) pf) (@ipp_R (backend O) pf) (innerproduct_domain_sep n t)
  | Panic => []
  end.
End IPPComplete.
