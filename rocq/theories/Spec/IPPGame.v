(** Cheating provers of the inner-product argument alone, with a random oracle.

    The generators, the factors, the point and the transcript are fixed before the prover
    starts: [verify_ipp] absorbs the number of generators and the points of the rounds
    only. *)
From Coq Require Import ZArith String List.
From Verif.Base Require Import Outcome Fp Params Algebra.
From Verif.Model Require Import Transcript IPP.
From Verif.Spec Require Import IPPSpec Extractor Games.
Import ListNotations.

(** [verify_ipp] (src/ipp.rs 204-260) accepts [pf], its challenges being the answers of [O] *)
Definition ipp_accepts {P : Params} (O : query -> Fp modulus) (n : nat) (t : transcript) (Gf Hf : list (Fp modulus))
    (Pt Q : G1) (G H : list G1) (pf : ipp_proof) : Prop :=
  exists t', @verify_ipp (backend O) n t Gf Hf Pt Q G H (ipp_a pf) (ipp_b pf) (ipp_L pf) (ipp_R pf) = Done (Ok tt, t').

Section IPPGame.
Context {P : Params}.
Local Open Scope fe_scope.

(** the questions behind its challenges *)
Definition ipp_queries (n : nat) (t : transcript) (pf : ipp_proof) : list query :=
  round_queries (ipp_L pf) (ipp_R pf) (innerproduct_domain_sep n t).

(** every branch of a tree of rounds, with its challenges, satisfies [R] *)
Definition each_round_branch (R : ipp_proof -> list F -> Prop) (t : ipp_tree) : Prop :=
  forall us Ls Rs a b, branch t us Ls Rs a b -> R (IPPProof Ls Rs a b) us.

(** [Pt] commits, with factors [Gf] and [Hf], to vectors [a] and [b] and to their inner product *)
Definition opens_scaled (n : nat) (Q Pt : G1) (Gf Hf : list F) (G H : list G1) (a b : list F) : Prop :=
  length a = n /\ length b = n /\
  Pt = g1_add (g1_add (msm (vmul a Gf) G) (msm (vmul b Hf) H)) (g1_mul (ip a b) Q).
End IPPGame.
