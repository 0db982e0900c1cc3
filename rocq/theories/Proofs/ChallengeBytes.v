(** How often each challenge results from a string of MODBYTES bytes. *)
From Coq Require Import ZArith String List Lia Bool.
From Verif.Base Require Import Outcome Fp Params Algebra.
From Verif.Model Require Import Transcript.
From Verif.Spec Require Import Challenges.
From Verif.Proofs Require Import TreeCount.
Import ListNotations.
Local Notation length := List.length.

Section Bytes.
Context {P : Params} {OK : ParamsOk P}.
Local Open Scope Z_scope.

Lemma modulus_positive : 0 < modulus.
Proof. pose proof (Znumtheory.prime_ge_2 _ modulus_prime). lia. Qed.
Lemma byte_strings_positive : 0 < byte_strings.
Proof. unfold byte_strings. apply Z.pow_pos_nonneg; lia. Qed.
Lemma code_challenges_length : Z.of_nat (length code_challenges) = byte_strings.
Proof. unfold code_challenges. rewrite map_length, seq_length, Z2Nat.id; [reflexivity|]. pose proof byte_strings_positive. lia. Qed.

Lemma residues (x : F) n :
  Z.of_nat (times (map (fun i => of_Z modulus (Z.of_nat i)) (seq 0 n)) x) = (Z.of_nat n + modulus - 1 - fval x) / modulus.
Proof.
  pose proof modulus_positive as Hp. pose proof (fval_range modulus modulus_prime x) as Hx.
  assert (Hp0 : modulus <> 0) by lia.
  induction n as [|n IH].
  - cbn [seq map]. unfold times. cbn [count_occ]. symmetry. apply Z.div_small. lia.
  - rewrite seq_S, map_app. unfold times in *. rewrite count_occ_app, Nat2Z.inj_add, IH. cbn [map Nat.add count_occ].
    pose proof (Z.div_mod (Z.of_nat n) modulus Hp0) as E. pose proof (Z.mod_pos_bound (Z.of_nat n) modulus Hp) as Hr.
    rewrite Nat2Z.inj_succ.
    destruct (Fp_eq_dec modulus (of_Z modulus (Z.of_nat n)) x) as [Ex|Ex].
    + assert (Ev : Z.of_nat n mod modulus = fval x) by (rewrite <- Ex; symmetry; apply fval_of_Z).
      rewrite Ev in E. set (q := Z.of_nat n / modulus) in *.
      rewrite <- (Z.div_unique (Z.of_nat n + modulus - 1 - fval x) modulus q (modulus - 1)) by lia.
      rewrite <- (Z.div_unique (Z.succ (Z.of_nat n) + modulus - 1 - fval x) modulus (q + 1) 0) by lia. reflexivity.
    + assert (Hne : Z.of_nat n mod modulus <> fval x).
      { intros Ev. apply Ex. apply Fp_ext. rewrite fval_of_Z. exact Ev. }
      set (q := Z.of_nat n / modulus) in *. set (r := Z.of_nat n mod modulus) in *. rewrite Z.add_0_r.
      destruct (Z.lt_ge_cases r (fval x)).
      * rewrite <- (Z.div_unique (Z.of_nat n + modulus - 1 - fval x) modulus q (modulus - 1 + r - fval x)) by lia.
        apply (Z.div_unique _ modulus q (modulus + r - fval x)); lia.
      * rewrite <- (Z.div_unique (Z.of_nat n + modulus - 1 - fval x) modulus (q + 1) (r - fval x - 1)) by lia.
        apply (Z.div_unique _ modulus (q + 1) (r - fval x)); lia.
Qed.

Theorem code_times (x : F) : Z.of_nat (times code_challenges x) = (byte_strings + modulus - 1 - fval x) / modulus.
Proof.
  unfold code_challenges. rewrite residues. rewrite Z2Nat.id; [reflexivity|]. pose proof byte_strings_positive. lia.
Qed.
Theorem code_times_bounds (x : F) :
  byte_strings / modulus <= Z.of_nat (times code_challenges x) <= byte_strings / modulus + 1.
Proof.
  pose proof modulus_positive as Hp. pose proof (fval_range modulus modulus_prime x) as Hx. rewrite code_times. split.
  - apply Z.div_le_mono; lia.
  - replace (byte_strings / modulus + 1) with ((byte_strings + 1 * modulus) / modulus) by (rewrite Z.div_add by lia; reflexivity).
    apply Z.div_le_mono; lia.
Qed.

Definition code_mu : nat := Z.to_nat (byte_strings / modulus + 1).
Lemma code_mu_Z : Z.of_nat code_mu = byte_strings / modulus + 1.
Proof.
  unfold code_mu. apply Z2Nat.id. pose proof (Z.div_pos byte_strings modulus (Z.lt_le_incl _ _ byte_strings_positive) modulus_positive). lia.
Qed.
Lemma code_mu_bound : modulus * Z.of_nat code_mu <= byte_strings + modulus.
Proof. rewrite code_mu_Z. pose proof (Z.mul_div_le byte_strings modulus modulus_positive). lia. Qed.
Lemma code_repeats : repeats code_mu code_challenges.
Proof. intros x. apply Nat2Z.inj_le. rewrite code_mu_Z. apply code_times_bounds. Qed.

Lemma code_challenge_at label t : 0 <= xof t label modbytes < byte_strings ->
  nth_error code_challenges (Z.to_nat (xof t label modbytes)) = Some (challenge_value label t).
Proof.
  intros Hx. unfold challenge_value, code_challenges.
  assert (Hn : (Z.to_nat (xof t label modbytes) < Z.to_nat byte_strings)%nat) by (apply Z2Nat.inj_lt; lia).
  assert (E : nth_error (seq 0 (Z.to_nat byte_strings)) (Z.to_nat (xof t label modbytes)) = Some (Z.to_nat (xof t label modbytes))).
  { rewrite (nth_error_nth' _ 0%nat) by (rewrite seq_length; exact Hn). rewrite seq_nth by exact Hn. reflexivity. }
  rewrite (map_nth_error _ _ _ E), Z2Nat.id by lia. reflexivity.
Qed.

Lemma times_app (l l' : list F) x : times (l ++ l') x = (times l x + times l' x)%nat.
Proof. apply count_occ_app. Qed.
Lemma times_repeat (a x : F) n : times (repeat a n) x = if Fp_eq_dec modulus a x then n else 0%nat.
Proof.
  unfold times. induction n as [|n IH]; cbn [repeat count_occ]; [destruct (Fp_eq_dec modulus a x); reflexivity|].
  rewrite IH. destruct (Fp_eq_dec modulus a x); reflexivity.
Qed.

(** the bounds, with the numbers of the code *)
Lemma code_bound a K T R W :
  Z.of_nat a * (Z.of_nat K + 1) * (byte_strings + modulus) * Z.of_nat T * Z.of_nat R + modulus * byte_strings * Z.of_nat T <
    modulus * byte_strings * Z.of_nat W ->
  (a * (code_mu * K + times code_challenges (fzero modulus)) * T * R + length code_challenges * T < length code_challenges * W)%nat.
Proof.
  intros Hlt. apply Nat2Z.inj_lt. rewrite !Nat2Z.inj_add, !Nat2Z.inj_mul, Nat2Z.inj_add, Nat2Z.inj_mul, code_challenges_length.
  pose proof (code_repeats (fzero modulus)) as Hz. apply Nat2Z.inj_le in Hz. pose proof code_mu_bound as Hm.
  pose proof modulus_positive as Hp.
  set (mu := Z.of_nat code_mu) in *. set (z := Z.of_nat (times code_challenges (fzero modulus))) in *.
  set (B := byte_strings) in *. set (p := modulus) in *.
  assert (H1 : p * (mu * Z.of_nat K + z) <= (Z.of_nat K + 1) * (B + p)) by nia.
  apply (Z.mul_lt_mono_pos_l p); [exact Hp|].
  eapply Z.le_lt_trans; [|replace (p * (B * Z.of_nat W)) with (p * B * Z.of_nat W) by ring; exact Hlt].
  rewrite Z.mul_add_distr_l.
  assert (H2 : p * (mu * Z.of_nat K + z) * (Z.of_nat a * Z.of_nat T * Z.of_nat R) <= (Z.of_nat K + 1) * (B + p) * (Z.of_nat a * Z.of_nat T * Z.of_nat R)).
  { apply Z.mul_le_mono_nonneg_r; [|exact H1]. apply Z.mul_nonneg_nonneg; [apply Z.mul_nonneg_nonneg|]; apply Nat2Z.is_nonneg. }
  nia.
Qed.
Lemma code_zero_bound a T W : (length code_challenges * W <= a * times code_challenges (fzero modulus) * T)%nat ->
  modulus * byte_strings * Z.of_nat W <= Z.of_nat a * (byte_strings + modulus) * Z.of_nat T.
Proof.
  intros Hle. apply Nat2Z.inj_le in Hle. rewrite !Nat2Z.inj_mul, code_challenges_length in Hle.
  pose proof (code_repeats (fzero modulus)) as Hz. apply Nat2Z.inj_le in Hz. pose proof code_mu_bound as Hm.
  pose proof modulus_positive as Hp.
  set (z := Z.of_nat (times code_challenges (fzero modulus))) in *. set (mu := Z.of_nat code_mu) in *.
  assert (H1 : modulus * z <= byte_strings + modulus) by nia.
  transitivity (modulus * (Z.of_nat a * z * Z.of_nat T)); [nia|].
  replace (modulus * (Z.of_nat a * z * Z.of_nat T)) with (modulus * z * (Z.of_nat a * Z.of_nat T)) by ring.
  replace (Z.of_nat a * (byte_strings + modulus) * Z.of_nat T) with ((byte_strings + modulus) * (Z.of_nat a * Z.of_nat T)) by ring.
  apply Z.mul_le_mono_nonneg_r; [|exact H1]. apply Z.mul_nonneg_nonneg; apply Nat2Z.is_nonneg.
Qed.
End Bytes.
