(** Concrete backends satisfying [ParamsOk] and [EncodingOk].

    The group is the additive group of the field itself (so discrete
    logarithms are trivial); hash functions are polynomial hashes.  They exist
    only to show that the hypotheses of the theorems are satisfiable, and to
    run the model on examples. *)
From Coq Require Import ZArith Znumtheory String List Lia Bool Ring Field.
From Verif.Base Require Import Outcome Fp Params.
Import ListNotations.

(** primality of small numbers by trial division *)
Definition no_divisor_upto (p : Z) : bool :=
  forallb (fun k => negb (Z.eqb (p mod (Z.of_nat k)) 0)) (seq 2 (Z.to_nat (Z.sqrt p) - 1)).

Lemma prime_by_trial (p : Z) : (1 < p)%Z -> no_divisor_upto p = true -> prime p.
Proof.
  intros Hp H. apply prime_alt. split; [assumption|].
  intros n [Hn1 Hn2] [k Hk].
  assert (D : forall d, (1 < d)%Z -> (d | p)%Z -> (d * d <= p)%Z -> False).
  { intros d Hd [q Hq] Hdd.
    assert (Hs : (d <= Z.sqrt p)%Z) by (apply Z.sqrt_le_square; lia).
    unfold no_divisor_upto in H. rewrite forallb_forall in H.
    specialize (H (Z.to_nat d)).
    rewrite Z2Nat.id in H by lia.
    assert (Hin : In (Z.to_nat d) (seq 2 (Z.to_nat (Z.sqrt p) - 1))).
    { apply in_seq. lia. }
    apply H in Hin. rewrite Hq, Z_mod_mult in Hin. discriminate. }
  destruct (Z_le_gt_dec (n * n) p) as [Hle|Hgt].
  - apply (D n); [lia|exists k; assumption|assumption].
  - apply (D k); [nia|exists n; lia|nia].
Qed.

(** a (non-cryptographic) polynomial hash of bytes *)
Definition poly_hash (l : list Z) : Z :=
  fold_left (fun acc b => ((acc * 263 + b + 17) mod 1000003)%Z) l 7%Z.

Definition event_bytes (e : tevent) : list Z :=
  match e with
  | TMessage label msg => 1%Z :: (bytes_of_string label ++ 256%Z :: msg)
  | TChallenge label n => 2%Z :: (bytes_of_string label ++ [256%Z; Z.of_nat n])
  end.

Definition toy_xof (t : transcript) (label : string) (n : nat) : Z :=
  poly_hash (flat_map event_bytes t ++ bytes_of_string label ++ [Z.of_nat n]).

Definition toy (p : Z) (bi_panics : bool) : Params := {|
  modulus := p;
  modbytes := 48;
  G1 := Fp p;
  g1_id := fzero p;
  g1_add := fadd;
  g1_neg := fopp;
  g1_mul := fmul;
  g1_eqb := feqb;
  g1_bytes := fun x => [fval x];
  fe_bytes := fun x => [fval x];
  g1_from_msg_hash := fun l => of_Z p (poly_hash l);
  fe_from_msg_hash := fun l => of_Z p (poly_hash l);
  g1_generator := fone p;
  xof := toy_xof;
  shake256 := fun l n => map (fun i => (poly_hash (Z.of_nat i :: l) mod 256)%Z) (seq 0 n);
  batch_invert_empty_panics := bi_panics
|}.

Lemma toy_ok (p : Z) (b : bool) : prime p -> ParamsOk (toy p b).
Proof.
  intros Hp.
  pose proof (Fp_ring_theory p) as R.
  constructor; simpl; intros.
  - assumption.
  - apply (Radd_assoc R).
  - apply (Radd_comm R).
  - apply (Radd_0_l R).
  - rewrite (Radd_comm R). apply (Ropp_def R).
  - apply (Rmul_1_l R).
  - apply (Rmul_assoc R).
  - apply (Rdistr_l R).
  - rewrite (Rmul_comm R), (Rdistr_l R), (Rmul_comm R a), (Rmul_comm R b0). reflexivity.
  - destruct (feqb_spec p a b0); split; congruence.
Qed.

Lemma toy_enc (p : Z) (b : bool) : EncodingOk (toy p b).
Proof.
  constructor; simpl; intros a c H; injection H; apply Fp_ext.
Qed.

Lemma prime_10007 : prime 10007.
Proof. apply prime_by_trial; [lia|vm_compute; reflexivity]. Qed.

(** the backends used in examples *)
Definition toyP : Params := toy 10007 false.
Definition toyP' : Params := toy 10007 true.
Lemma toyP_ok : ParamsOk toyP. Proof. apply toy_ok. apply prime_10007. Qed.
Lemma toyP'_ok : ParamsOk toyP'. Proof. apply toy_ok. apply prime_10007. Qed.
Lemma toyP_enc : EncodingOk toyP. Proof. apply toy_enc. Qed.
