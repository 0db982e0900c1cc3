(** C74: how often honest inner-product proofs are rejected.

    Print Assumptions for every theorem follows it. *)
From Coq Require Import ZArith String List Lia Bool Arith.
From Verif.Base Require Import Outcome Fp Params Algebra Instances.
From Verif.Model Require Import Transcript IPP.
From Verif.Spec Require Import IPPSpec Games Challenges IPPComplete.
From Verif.Proofs Require Import IppComplete.
From Verif.Props Require Import Demo RomCompleteProps.
Import ListNotations.
Local Notation length := List.length.

Section Props.
Context {P : Params} {OK : ParamsOk P}.

(** ** C74 Honest inner-product proofs are rejected with probability at most k / |C| *)
(** Vectors [a] and [b] of 2 ^ k entries with as many generators and factors; [C] are the possible
    answers of the oracle, with repetitions, [D] contains the questions of the honest proofs.  The
    fraction of the oracles with which [create_ipp] panics or [verify_ipp] does not accept its
    proof for the point that commits to [a], [b] and their inner product is at most
    k * times C 0 / |C|. *)
Theorem C74_completeness_error k t Q Gf Hf G H a b (C : list F) D :
  length G = (2 ^ k)%nat -> length H = (2 ^ k)%nat -> length a = (2 ^ k)%nat -> length b = (2 ^ k)%nat ->
  length Gf = (2 ^ k)%nat -> length Hf = (2 ^ k)%nat -> (k < 32)%nat -> k <> 0%nat \/ batch_invert_empty_panics = false ->
  NoDup D -> (forall O, In O (oracles D C) -> incl (honest_ipp_queries (2 ^ k) t Q Gf Hf G H a b O) D) ->
  (length C * length (filter (ipp_rejected (2 ^ k) t Q Gf Hf G H a b) (oracles D C)) <=
   k * times C (fzero modulus) * length (oracles D C))%nat /\
  (NoDup C -> (length C * length (filter (ipp_rejected (2 ^ k) t Q Gf Hf G H a b) (oracles D C)) <= k * length (oracles D C))%nat).
Proof.
  exact (fun HG HH Ha Hb HGf HHf H32 Hk HD Hc => conj
    (ipp_error_times k t Q Gf Hf G H a b HG HH Ha Hb HGf HHf H32 Hk C D HD Hc)
    (fun HC => ipp_error_nodup k t Q Gf Hf G H a b HG HH Ha Hb HGf HHf H32 Hk C D HC HD Hc)).
Qed.

(** With the challenges of the code, made of MODBYTES random bytes, the fraction is at most
    k (1/p + 1/256^MODBYTES), p being the group order. *)
Theorem C74_code k t Q Gf Hf G H a b D :
  let C := code_challenges in
  length G = (2 ^ k)%nat -> length H = (2 ^ k)%nat -> length a = (2 ^ k)%nat -> length b = (2 ^ k)%nat ->
  length Gf = (2 ^ k)%nat -> length Hf = (2 ^ k)%nat -> (k < 32)%nat -> k <> 0%nat \/ batch_invert_empty_panics = false ->
  NoDup D -> (forall O, In O (oracles D C) -> incl (honest_ipp_queries (2 ^ k) t Q Gf Hf G H a b O) D) ->
  (modulus * byte_strings * Z.of_nat (length (filter (ipp_rejected (2 ^ k) t Q Gf Hf G H a b) (oracles D C))) <=
   Z.of_nat k * (byte_strings + modulus) * Z.of_nat (length (oracles D C)))%Z.
Proof. exact (fun HG HH Ha Hb HGf HHf H32 Hk => ipp_error_code k t Q Gf Hf G H a b HG HH Ha Hb HGf HHf H32 Hk D). Qed.

(** There is a set of questions as required. *)
Theorem C74_questions k t Q Gf Hf G H a b (C : list F) :
  length G = (2 ^ k)%nat -> length H = (2 ^ k)%nat -> length a = (2 ^ k)%nat -> length b = (2 ^ k)%nat ->
  length Gf = (2 ^ k)%nat -> length Hf = (2 ^ k)%nat -> (k < 32)%nat -> k <> 0%nat \/ batch_invert_empty_panics = false ->
  exists D, NoDup D /\ forall O, In O (oracles D C) -> incl (honest_ipp_queries (2 ^ k) t Q Gf Hf G H a b O) D.
Proof. exact (fun HG HH Ha Hb HGf HHf H32 Hk => ipp_questions k t Q Gf Hf G H a b HG HH Ha Hb HGf HHf H32 Hk C). Qed.
End Props.

Print Assumptions C74_completeness_error.
Print Assumptions C74_code.
Print Assumptions C74_questions.

(** ** The hypotheses are met *)
Section Examples.
#[local] Existing Instance toyP.
#[local] Existing Instance toyP_ok.
Local Open Scope fe_scope.

Definition ic_Gf : list F := map fe [1; 2; 3; 4]%Z. Definition ic_Hf : list F := map fe [2; 3; 4; 5]%Z.
Definition ic_a : list F := map fe [5; 6; 7; 8]%Z. Definition ic_b : list F := map fe [9; 1; 2; 6]%Z.
Definition ic_G : list G1 := firstn 4 demo_G. Definition ic_H : list G1 := firstn 4 demo_H.

(** four entries, two rounds, the hundred challenges of C67: at most 2 of 100 *)
Example C74_example : In 0 rc_C /\ exists D, NoDup D /\
  (forall O, In O (oracles D rc_C) -> incl (honest_ipp_queries 4 [] demo_g ic_Gf ic_Hf ic_G ic_H ic_a ic_b O) D) /\
  (100 * length (filter (ipp_rejected 4 [] demo_g ic_Gf ic_Hf ic_G ic_H ic_a ic_b) (oracles D rc_C)) <= 2 * length (oracles D rc_C))%nat.
Proof.
  split; [left; reflexivity|].
  destruct (C74_questions 2 [] demo_g ic_Gf ic_Hf ic_G ic_H ic_a ic_b rc_C) as (D & HD & Hin); try reflexivity; [lia|left; lia|].
  exists D. split; [exact HD|]. split; [exact Hin|].
  destruct (C74_completeness_error 2 [] demo_g ic_Gf ic_Hf ic_G ic_H ic_a ic_b rc_C D) as [_ E]; try reflexivity; [lia|left; lia|exact HD|exact Hin|].
  apply E. exact rc_C_nodup.
Qed.
(** answered by 2 throughout the proof is accepted, with a zero in the second round it is not *)
Example C74_example_rejected :
  map (ipp_rejected 4 [] demo_g ic_Gf ic_Hf ic_G ic_H ic_a ic_b)
    [fun _ => fe 2; fun q => if Nat.leb (length (fst q)) 4 then fe 2 else 0] = [false; true].
Proof. vm_compute. reflexivity. Qed.
End Examples.
