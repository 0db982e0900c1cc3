(** How many oracles answer zero to one of the questions of the verifier. *)
From Coq Require Import ZArith String List Lia Bool.
From Verif.Base Require Import Outcome Fp Params Algebra.
From Verif.Model Require Import Transcript LinComb IPP Prover.
From Verif.Spec Require Import Games Challenges.
From Verif.Proofs Require Import IPPProofs TreeCount OracleCount OracleGood GameInteractive.
Import ListNotations.
Local Notation length := List.length.

Section Zero.
Context {P : Params} {OK : ParamsOk P}.
Context {X : Type} (pts : X -> list query) (L : nat) (D : list query) (C : list F) (A : adversary X) (Qn : nat).

Definition is_zero (x : F) : bool := if Fp_eq_dec modulus x (fzero modulus) then true else false.
Lemma is_zero_true x : is_zero x = true <-> x = fzero modulus.
Proof. unfold is_zero. destruct (Fp_eq_dec modulus x (fzero modulus)); split; congruence. Qed.
Lemma zeros_times l : length (filter is_zero l) = times l (fzero modulus).
Proof.
  unfold times, is_zero. induction l as [|a l IH]; [reflexivity|]. cbn [filter count_occ].
  destruct (Fp_eq_dec modulus a (fzero modulus)); cbn [length]; auto.
Qed.

Definition no_zero (O : oracle) : bool := negb (existsb (fun q => is_zero (O q)) (pts (output O A))).
Lemma no_zero_ok O x : no_zero O = true -> In x (map O (pts (output O A))) -> x <> fzero modulus.
Proof.
  intros Hz Hin E. subst x. apply in_map_iff in Hin as (q & E & Hq). apply negb_true_iff in Hz.
  assert (Ht : existsb (fun q => is_zero (O q)) (pts (output O A)) = true).
  { apply existsb_exists. exists q. split; [exact Hq|]. apply is_zero_true, E. }
  congruence.
Qed.

Lemma zero_answers good : NoDup D -> at_most Qn A ->
  (forall O, In O (oracles D C) -> good O = true -> length (pts (output O A)) = L /\ incl (pts (output O A)) D) ->
  (length C * length (filter good (oracles D C)) <=
   length C * length (filter (fun O => good O && no_zero O) (oracles D C)) + (Qn + L) * times C (fzero modulus) * length C ^ length D)%nat.
Proof.
  intros HD HA Hg. pose (Ks := repeat 0%nat L). pose (bad := fun (_ : query) (_ : oracle) x => is_zero x).
  assert (HL : length Ks = L) by apply repeat_length.
  pose proof (hits_count C bad (times C (fzero modulus)) (fun q x O O' _ => eq_refl)
    (fun q O => Nat.eq_le_incl _ _ (zeros_times C)) (then_verify pts Ks A) (Qn + length Ks) D (fun _ => fzero modulus)
    (then_verify_most pts Ks A Qn HA) HD) as Hc.
  assert (Hle : (length (filter good (oracles D C)) <=
    length (filter (fun O => good O && no_zero O) (oracles D C)) + cnt C (fun _ => fzero modulus) D (hits bad D (then_verify pts Ks A)))%nat).
  { unfold cnt. change (oracles_from (fun _ => fzero modulus) D C) with (oracles D C).
    rewrite !filter_as_sum, <- sum_over_add. apply sum_over_le. intros O Hin. destruct (good O) eqn:Eg; [|cbn; lia].
    destruct (no_zero O) eqn:Ez; [cbn; lia|]. cbn [andb]. destruct (Hg O Hin Eg) as [Hl Hi].
    replace (hits bad D (then_verify pts Ks A) O) with true; [cbn; lia|]. symmetry. unfold hits. rewrite then_verify_asked.
    unfold no_zero in Ez. apply negb_false_iff, existsb_exists in Ez as (q & Hq & Ez). apply existsb_exists. exists q. split.
    - apply in_or_app. right. rewrite firstn_all2 by (rewrite HL; lia). exact Hq.
    - apply andb_true_iff. split; [apply mem_ok, Hi, Hq|exact Ez]. }
  rewrite HL in Hc. nia.
Qed.
Lemma no_zero_count : NoDup D -> at_most Qn A ->
  (forall O, In O (oracles D C) -> length (pts (output O A)) = L /\ incl (pts (output O A)) D) ->
  (length C * (length (oracles D C) - length (filter no_zero (oracles D C))) <= (Qn + L) * times C (fzero modulus) * length (oracles D C))%nat.
Proof.
  intros HD HA Hq. pose proof (zero_answers (fun _ => true) HD HA (fun O HO _ => Hq O HO)) as Hz.
  rewrite filter_true in Hz. change (fun O => true && no_zero O) with no_zero in Hz.
  unfold oracles in *. rewrite (oracles_length C D) in *. rewrite Nat.mul_sub_distr_l. lia.
Qed.
End Zero.
