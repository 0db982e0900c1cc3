(** Pocklington's criterion, and the primality of the order of the BLS12-381 groups. *)
From Coq Require Import ZArith Znumtheory Zpow_facts List Lia Bool.
From Verif.Base Require Import Outcome Fp Params Algebra Instances.
From Verif.Spec Require Import PoseidonSpec.
From Verif.Proofs Require Import Fermat.
Import ListNotations.
Local Open Scope Z_scope.

(** the field with [q] elements *)
Lemma fpow_toy q a (k : nat) : 1 < q -> fval (@fpow (toy q false) (of_Z q a) k) = a ^ Z.of_nat k mod q.
Proof.
  intros Hq. induction k as [|k IH].
  - cbn [fpow]. unfold fone. rewrite fval_of_Z. reflexivity.
  - cbn [fpow]. unfold fmul. rewrite fval_of_Z.
    change (@modulus (toy q false)) with q in *. rewrite IH. rewrite fval_of_Z.
    rewrite Nat2Z.inj_succ, Z.pow_succ_r by lia. rewrite <- Zmult_mod. reflexivity.
Qed.

Lemma fermat_Z q a : prime q -> a mod q <> 0 -> a ^ (q - 1) mod q = 1.
Proof.
  intros Hq Ha. pose proof (prime_ge_2 q Hq) as H2.
  pose proof (@fermat (toy q false) (toy_ok q false Hq) (of_Z q a)) as E.
  assert (Hn : of_Z q a <> fzero q).
  { intros E0. apply (f_equal (@fval _)) in E0. unfold fzero in E0. rewrite !fval_of_Z, Z.mod_0_l in E0 by lia. contradiction. }
  specialize (E Hn). apply (f_equal (@fval _)) in E.
  pose proof (fpow_toy q a (Z.to_nat q - 1) ltac:(lia)) as E'.
  rewrite Nat2Z.inj_sub, Z2Nat.id in E' by lia. change (Z.of_nat 1) with 1 in E'. rewrite <- E'.
  etransitivity; [exact E|]. exact (Z.mod_1_l q ltac:(lia)).
Qed.

Lemma prime_divisor n : 1 < n -> exists q, prime q /\ (q | n).
Proof.
  intros Hn. assert (H0 : 0 <= n) by lia. revert Hn. pattern n. apply Z_lt_induction; [|exact H0].
  clear n H0. intros n IH Hn. destruct (prime_dec n) as [Hp|Hp].
  - exists n. split; [exact Hp|apply Z.divide_refl].
  - destruct (not_prime_divide n Hn Hp) as (d & Hd & Hdiv).
    destruct (IH d ltac:(lia) ltac:(lia)) as (q & Hq & Hqd). exists q. split; [exact Hq|].
    eapply Z.divide_trans; eassumption.
Qed.

(** the exponents [k] with [a ^ k = 1] are closed under gcd *)
Lemma pow_one_mul q a x k : 1 < q -> 0 <= x -> 0 <= k -> a ^ x mod q = 1 -> a ^ (x * k) mod q = 1.
Proof.
  intros Hq Hx Hk E. rewrite Z.pow_mul_r by lia. rewrite Zpower_mod by lia. rewrite E, Z.pow_1_l by lia.
  apply Z.mod_1_l. lia.
Qed.
Lemma pow_one_gcd q a y : 1 < q -> forall x, 0 <= y -> 0 <= x -> a ^ x mod q = 1 -> a ^ y mod q = 1 -> a ^ (Z.gcd x y) mod q = 1.
Proof.
  intros Hq x Hy. revert x. pattern y. apply Z_lt_induction; [|exact Hy]. clear y Hy.
  intros y IH x Hx Ex Ey.
  destruct (Z.eq_dec y 0) as [->|Hy0].
  - rewrite Z.gcd_0_r, Z.abs_eq by lia. exact Ex.
  - assert (Hyr : 0 <= y \/ y < 0) by lia. destruct Hyr as [Hyr|Hyr].
    + rewrite Z.gcd_comm. rewrite <- (Z.gcd_mod x y) by lia. rewrite Z.gcd_comm.
      pose proof (Z.mod_pos_bound x y ltac:(lia)) as Hb.
      apply IH; [lia|lia|exact Ey|].
      pose proof (Z.div_mod x y ltac:(lia)) as D.
      assert (Hd : 0 <= x / y) by (apply Z.div_pos; lia).
      rewrite D in Ex. rewrite Z.pow_add_r in Ex by nia. rewrite Zmult_mod, pow_one_mul, Z.mul_1_l, Zmod_mod in Ex by lia.
      exact Ex.
    + rewrite Z.pow_neg_r in Ey by lia. rewrite Z.mod_0_l in Ey by lia. discriminate.
Qed.

Theorem pocklington n A a (fs : list Z) :
  1 < n -> 0 < A -> n < A * A -> (A | n - 1) ->
  (forall f, prime f -> (f | A) -> In f fs) ->
  a ^ (n - 1) mod n = 1 ->
  (forall f, In f fs -> 0 < f /\ Z.gcd (a ^ ((n - 1) / f) - 1) n = 1) ->
  prime n.
Proof.
  intros Hn HA Hbig HAn Hfs Ea Hg.
  assert (Hall : forall q, prime q -> (q | n) -> A < q).
  { intros q Hq Hqn. pose proof (prime_ge_2 q Hq) as H2.
    assert (Eq : a ^ (n - 1) mod q = 1).
    { destruct Hqn as (c & Hc). pose proof (Z.div_mod (a ^ (n - 1)) n ltac:(lia)) as D. rewrite Ea in D.
      set (e := a ^ (n - 1)) in *. clearbody e. rewrite D. set (e' := e / n). clearbody e'. rewrite Hc.
      replace (c * q * e' + 1) with (1 + (c * e') * q) by ring.
      rewrite Z_mod_plus_full. apply Z.mod_1_l. lia. }
    assert (Ha : a mod q <> 0).
    { intros E0. rewrite Zpower_mod, E0, Z.pow_0_l, Z.mod_0_l in Eq by lia. discriminate. }
    pose proof (fermat_Z q a Hq Ha) as Ef.
    set (g := Z.gcd (n - 1) (q - 1)).
    assert (Eg : a ^ g mod q = 1) by (apply pow_one_gcd; [lia|lia|lia|exact Eq|exact Ef]).
    assert (Hdiv : (A | q - 1)).
    { assert (Hg0 : 0 < g).
      { pose proof (Z.gcd_nonneg (n - 1) (q - 1)). unfold g.
        assert (Z.gcd (n - 1) (q - 1) <> 0) by (intros E0; apply Z.gcd_eq_0 in E0; lia). lia. }
      destruct (Z.gcd_divide_l (n - 1) (q - 1)) as (m & Hm). fold g in Hm.
      assert (Hm0 : 0 < m) by nia.
      apply (Z.divide_trans _ g); [|apply Z.gcd_divide_r].
      destruct (Z.eq_dec (Z.gcd A m) 1) as [E1|E1].
      - apply Z.gauss with m; [|exact E1]. rewrite <- Hm. exact HAn.
      - exfalso. assert (Hg1 : 1 < Z.gcd A m).
        { pose proof (Z.gcd_nonneg A m). assert (Z.gcd A m <> 0) by (intros E0; apply Z.gcd_eq_0 in E0; lia). lia. }
        destruct (prime_divisor _ Hg1) as (f & Hf & Hfd).
        assert (HfA : (f | A)) by (eapply Z.divide_trans; [exact Hfd|apply Z.gcd_divide_l]).
        assert (Hfm : (f | m)) by (eapply Z.divide_trans; [exact Hfd|apply Z.gcd_divide_r]).
        destruct (Hg f (Hfs f Hf HfA)) as (Hf0 & Hgf). destruct Hfm as (m' & Hm').
        assert (Ed : (n - 1) / f = g * m').
        { rewrite Hm, Hm'. replace (m' * f * g) with (g * m' * f) by ring. apply Z.div_mul. lia. }
        rewrite Ed in Hgf.
        assert (E2 : a ^ (g * m') mod q = 1) by (apply pow_one_mul; [lia|lia|nia|exact Eg]).
        assert (Hq1 : (q | a ^ (g * m') - 1)).
        { apply Z.mod_divide; [lia|]. rewrite Zminus_mod, E2, Z.mod_1_l by lia. reflexivity. }
        assert (Hq2 : (q | 1)) by (rewrite <- Hgf; apply Z.gcd_greatest; assumption).
        apply Z.divide_1_r_nonneg in Hq2; lia. }
    apply Z.divide_pos_le in Hdiv; lia. }
  destruct (prime_dec n) as [Hp|Hp]; [exact Hp|exfalso].
  destruct (not_prime_divide n Hn Hp) as (d & Hd & (c & Hc)).
  assert (Hc1 : 1 < c) by nia.
  destruct (prime_divisor d ltac:(lia)) as (q & Hq & Hqd). destruct (prime_divisor c Hc1) as (q' & Hq' & Hqc).
  pose proof (Hall q Hq ltac:(eapply Z.divide_trans; [exact Hqd|exists c; exact Hc])) as L1.
  pose proof (Hall q' Hq' ltac:(eapply Z.divide_trans; [exact Hqc|exists d; rewrite Hc; ring])) as L2.
  apply Z.divide_pos_le in Hqd; [|lia]. apply Z.divide_pos_le in Hqc; [|lia]. nia.
Qed.

(** the primes that divide a product of primes are among them *)
Lemma prime_in_product (fs : list Z) : Forall prime fs -> forall f, prime f -> (f | fold_right Z.mul 1 fs) -> In f fs.
Proof.
  induction 1 as [|q fs Hq Hfs IH]; intros f Hf Hd; cbn [fold_right] in Hd.
  - pose proof (prime_ge_2 f Hf). apply Z.divide_1_r_nonneg in Hd; lia.
  - apply prime_mult in Hd; [|exact Hf]. destruct Hd as [Hd|Hd].
    + left. symmetry. apply prime_div_prime; assumption.
    + right. apply IH; assumption.
Qed.

(** the checks by computation; the powers are computed from a common one *)
Definition pocklington_b (n a : Z) (fs : list Z) : bool :=
  let A := fold_right Z.mul 1 fs in
  let ps := nodup Z.eq_dec fs in
  let r := fold_right Z.mul 1 ps in
  let b := Zpow_mod a ((n - 1) / r) n in
  let xs := map (fun f => (f, Zpow_mod b (r / f) n)) ps in
  ((1 <? n) && (0 <? A) && (n <? A * A) && ((n - 1) mod A =? 0) && (0 <? r) && ((n - 1) mod r =? 0) &&
   forallb (fun fx => (0 <? fst fx) && (r mod fst fx =? 0) && (Z.gcd (snd fx - 1) n =? 1)) xs &&
   match xs with [] => false | (f, x) :: _ => Zpow_mod x f n =? 1 end)%bool.

Lemma pow_pow_mod a x y n : 0 < n -> 0 <= x -> 0 <= y -> Zpow_mod (Zpow_mod a x n) y n = a ^ (x * y) mod n.
Proof.
  intros Hn Hx Hy. rewrite !Zpow_mod_correct by lia. rewrite Z.pow_mul_r by lia.
  rewrite <- Zpower_mod by lia. reflexivity.
Qed.

Theorem pocklington_ok n a fs : Forall prime fs -> pocklington_b n a fs = true -> prime n.
Proof.
  intros Hfs H. unfold pocklington_b in H.
  set (A := fold_right Z.mul 1 fs) in H. set (ps := nodup Z.eq_dec fs) in H. set (r := fold_right Z.mul 1 ps) in H.
  apply andb_prop in H as [H Hlast]. apply andb_prop in H as [H Hall]. apply andb_prop in H as [H Hr]. apply andb_prop in H as [H Hr0].
  apply andb_prop in H as [H HA]. apply andb_prop in H as [H HnA]. apply andb_prop in H as [Hn HA0].
  apply Z.ltb_lt in Hn, HA0, HnA, Hr0. apply Z.eqb_eq in HA, Hr.
  assert (Er : (n - 1) = r * ((n - 1) / r)) by (apply Z_div_exact_2; lia).
  set (e := (n - 1) / r) in *. assert (He : 0 <= e) by (unfold e; apply Z.div_pos; lia). clearbody e.
  assert (Hf : forall f, In f ps -> 0 < f /\ r = f * (r / f) /\ 0 <= r / f /\ Z.gcd (a ^ ((n - 1) / f) - 1) n = 1).
  { intros f Hf. rewrite forallb_forall in Hall. specialize (Hall (f, Zpow_mod (Zpow_mod a e n) (r / f) n)).
    assert (Hin : In (f, Zpow_mod (Zpow_mod a e n) (r / f) n) (map (fun f => (f, Zpow_mod (Zpow_mod a e n) (r / f) n)) ps))
      by (apply in_map_iff; exists f; auto).
    specialize (Hall Hin). cbn [fst snd] in Hall. apply andb_prop in Hall as [Hall Hg]. apply andb_prop in Hall as [Hf0 Hfr].
    apply Z.ltb_lt in Hf0. apply Z.eqb_eq in Hfr, Hg.
    assert (Erf : r = f * (r / f)) by (apply Z_div_exact_2; lia).
    assert (0 <= r / f) by (apply Z.div_pos; lia). split; [exact Hf0|]. split; [exact Erf|]. split; [assumption|].
    rewrite pow_pow_mod in Hg by lia.
    replace ((n - 1) / f) with (e * (r / f)).
    2:{ assert (E : n - 1 = (e * (r / f)) * f) by (etransitivity; [exact Er|]; rewrite Erf at 1; ring).
        rewrite E. rewrite Z.div_mul by lia. reflexivity. }
    set (b := a ^ (e * (r / f))) in *. clearbody b. etransitivity; [|exact Hg].
    rewrite (Z.gcd_comm (b - 1)), (Z.gcd_comm (b mod n - 1)).
    rewrite <- (Z.gcd_mod (b - 1) n), <- (Z.gcd_mod (b mod n - 1) n) by lia.
    rewrite <- (Zminus_mod_idemp_l b). reflexivity. }
  apply (pocklington n A a fs); try assumption.
  - apply Z.mod_divide; [lia|assumption].
  - apply prime_in_product. exact Hfs.
  - destruct ps as [|f ps'] eqn:Eps; [discriminate|]. cbn [map] in Hlast. apply Z.eqb_eq in Hlast.
    destruct (Hf f (or_introl eq_refl)) as (Hf0 & Erf & Hrf & _).
    rewrite (Zpow_mod_correct _ f n), pow_pow_mod in Hlast by lia. rewrite <- Zpower_mod in Hlast by lia.
    rewrite <- Z.pow_mul_r in Hlast by nia. etransitivity; [|exact Hlast]. f_equal. f_equal.
    etransitivity; [exact Er|]. rewrite Erf at 1. ring.
  - intros f Hin. destruct (Hf f) as (Hf0 & _ & _ & Hg); [apply nodup_In; exact Hin|]. split; assumption.
Qed.

(** trial division with a counter *)
Fixpoint trial (p k : Z) (fuel : nat) : bool :=
  match fuel with
  | O => true
  | S fuel => (negb (p mod k =? 0) && trial p (k + 1) fuel)%bool
  end.
Lemma trial_sound p fuel : forall k, trial p k fuel = true -> forall d, k <= d < k + Z.of_nat fuel -> p mod d <> 0.
Proof.
  induction fuel as [|fuel IH]; intros k H d Hd; [lia|]. cbn [trial] in H. apply andb_prop in H as [H1 H2].
  destruct (Z.eq_dec d k) as [->|Hn].
  - intros E. rewrite E in H1. discriminate.
  - apply (IH (k + 1) H2). lia.
Qed.
Lemma prime_by_counter p : 1 < p -> trial p 2 (Z.to_nat (Z.sqrt p - 1)) = true -> prime p.
Proof.
  intros Hp H. apply prime_alt. split; [exact Hp|]. intros n Hn [k Hk].
  assert (D : forall d e, 1 < d -> p = d * e -> d * d <= p -> False).
  { intros d e Hd He Hdd. assert (Hs : d <= Z.sqrt p) by (apply Z.sqrt_le_square; lia).
    apply (trial_sound _ _ _ H d); [rewrite Z2Nat.id; lia|]. rewrite He, Z.mul_comm. apply Z_mod_mult. }
  destruct (Z_le_gt_dec (n * n) p) as [Hle|Hgt].
  - apply (D n k); nia.
  - apply (D k n); nia.
Qed.


Ltac by_factors a fs := apply (pocklington_ok _ a fs); [repeat apply Forall_cons; try apply Forall_nil; assumption|vm_compute; reflexivity].
Ltac small_prime := apply prime_by_counter; [lia|vm_compute; reflexivity].

Lemma bls381_prime : prime bls381_order.
Proof.
  assert (prime 359) by small_prime.
  assert (prime 110573) by by_factors 2 [359].
  assert (prime 2653753) by by_factors 2 [110573].
  assert (prime 63690073) by by_factors 2 [2653753].
  assert (prime 254760293) by by_factors 2 [63690073].
  assert (prime 449) by small_prime.
  assert (prime 97) by small_prime.
  assert (prime 609743) by by_factors 2 [97; 449].
  assert (prime 52437899) by by_factors 2 [609743].
  assert (prime 79) by small_prime.
  assert (prime 29) by small_prime.
  assert (prime 18329) by by_factors 2 [29; 79].
  assert (prime 2529403) by by_factors 2 [18329].
  pose proof prime_2.
  by_factors 7 [2; 2; 2; 2; 2; 2; 2; 2; 2; 2; 2; 2; 2; 2; 2; 2; 2; 2; 2; 2; 2; 2; 2; 2; 2; 2; 2; 2; 2; 2; 2; 2;
    2529403; 52437899; 254760293; 254760293].
Qed.
