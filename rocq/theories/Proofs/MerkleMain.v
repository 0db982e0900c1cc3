(** The theorems on trees in the form of the properties. *)
From Coq Require Import ZArith List Bool Lia Arith.
From Verif.Base Require Import Outcome Fp Params Algebra.
From Verif.Model Require Import Transcript IPP Hash Merkle.
From Verif.Spec Require Import HashSpec MerkleSpec.
From Verif.Proofs Require Import HashTools MerkleTools MerkleTree MerkleBind.
Import ListNotations.

Section Repr.
Context {P : Params} {OK : ParamsOk P}.

Lemma repr_correct bits (Hb : (0 < bits)%nat) (x : F) n ds : get_base_repr (2 ^ bits) x n = Done ds ->
  length ds = n /\ Forall (fun d => (d < 2 ^ bits)%nat) ds /\
  number (2 ^ bits) ds = (fval x mod Z.of_nat (2 ^ bits) ^ Z.of_nat n)%Z.
Proof.
  rewrite (base_repr_done bits Hb). destruct (Nat.leb _ _); [|discriminate]. injection 1 as <-.
  assert (Ha : (1 < 2 ^ bits)%nat) by (apply Nat.pow_gt_1; lia).
  split; [rewrite map_length, rev_length, seq_length; reflexivity|]. split.
  - apply Forall_forall. intros d Hd. apply in_map_iff in Hd as (k & <- & _). apply digit_lt. exact Ha.
  - apply number_digits; [exact Ha|]. pose proof (fval_range modulus modulus_prime x). lia.
Qed.

Lemma repr_panics bits (Hb : (0 < bits)%nat) (x : F) n :
  get_base_repr (2 ^ bits) x n = Panic <-> (8 * modbytes < n * bits)%nat.
Proof.
  rewrite (base_repr_done bits Hb).
  pose proof (Nat.div_mod_eq (n * bits + 7) 8). pose proof (Nat.mod_upper_bound (n * bits + 7) 8 ltac:(lia)).
  set (q := ((n * bits + 7) / 8)%nat) in *. set (r := ((n * bits + 7) mod 8)%nat) in *. clearbody q r.
  destruct (Nat.leb_spec q modbytes); split; intros E; try discriminate; try reflexivity; lia.
Qed.
End Repr.

Section Main.
Context {P : Params} {OK : ParamsOk P} {ENC : EncodingOk P}.
Local Open Scope fe_scope.
Context (bits : nat) (Hbits : (0 < bits)%nat).
Local Notation arity := (2 ^ bits)%nat.
Local Notation A := (Z.of_nat arity).
Context (hash : list F -> outcome F) (H : list F -> F).
Context (Hhash : forall l, length l = arity -> hash l = Done (H l)).
Local Notation history := (history (tree_new arity hash) (tree_update arity hash)).

Theorem tree_as_map d db0 us : (d * bits <= 8 * modbytes)%nat -> collision_free arity H d us ->
  (exists t db, history d db0 us t db) /\
  forall t db, history d db0 us t db ->
    depth t = d /\ root t = node arity H (after arity d us) d 0 /\
    (forall idx proof, tree_get arity t idx proof db
      = Done (Ok (after arity d us (leaf arity d idx)),
              option_map (fun p => p ++ siblings arity H (after arity d us) d (leaf arity d idx)) proof)) /\
    (forall idx v, exists t' db', tree_update arity hash t idx v db = Done (Ok (root t'), t', db')).
Proof.
  intros Hf Hc. split; [eapply history_exists; eassumption|]. intros t db Hh.
  destruct (history_done bits Hbits hash H Hhash d db0 us t db Hf Hh Hc) as [Ht Hdb].
  split; [rewrite Ht; reflexivity|]. split; [rewrite Ht; reflexivity|]. split.
  - intros. eapply history_get; eassumption.
  - intros idx v. destruct (history_update bits Hbits hash H Hhash d db0 us t db idx v Hf Hh Hc) as [db' E].
    eexists (MerkleTree _ _), db'. exact E.
Qed.

Theorem tree_proofs_verify d db0 us t db idx v proof0 proof : (d * bits <= 8 * modbytes)%nat ->
  (forall k c, db_get db0 k = Ok c -> k = fe_bytes (H c) /\ length c = arity) ->
  history d db0 us t db ->
  tree_get arity t idx (Some proof0) db = Done (Ok v, proof) ->
  exists proof', proof = Some (proof0 ++ proof') /\ length proof' = d /\
    tree_verify_proof arity hash t idx v proof' None = Done true.
Proof.
  intros Hf H0 Hh E. destruct (history_consistent bits Hbits hash H Hhash d db0 us t db Hf H0 Hh) as [Hd Hc].
  destruct (get_verifies bits Hbits hash H Hhash t idx db v proof0 proof) as (proof' & E1 & _ & E2 & E3);
    [rewrite Hd; exact Hf|exact Hc|exact E|].
  exists proof'. rewrite Hd in E2. split; [exact E1|]. split; [exact E2|exact E3].
Qed.

Theorem tree_proofs_bind t idx v v' proof proof' r : (depth t * bits <= 8 * modbytes)%nat ->
  Forall (fun s => length s = (arity - 1)%nat) proof -> Forall (fun s => length s = (arity - 1)%nat) proof' ->
  length proof = depth t -> length proof' = depth t ->
  tree_verify_proof arity hash t idx v proof r = Done true ->
  tree_verify_proof arity hash t idx v' proof' r = Done true ->
  (v = v' /\ proof = proof') \/
  (exists c c', In (c, c') (combine (climb arity H (leaf arity (depth t) idx) 0 v (rev proof))
                                    (climb arity H (leaf arity (depth t) idx) 0 v' (rev proof'))) /\ collision H c c').
Proof.
  intros Hf Ht Ht' Hl Hl'. rewrite !(verify_done bits Hbits hash H Hhash) by assumption.
  intros [= E] [= E']. apply feqb_eq in E. apply feqb_eq in E'.
  apply (proofs_bind bits Hbits); try assumption; [congruence|]. rewrite E, E'. reflexivity.
Qed.

Theorem climbed_contents m d i v proof : (0 <= i < Z.of_nat arity ^ Z.of_nat d)%Z ->
  Forall (fun s => length s = (arity - 1)%nat) proof -> length proof = d ->
  climbed arity H i v proof = node arity H m d 0 ->
  (v = m i /\ proof = siblings arity H m d i) \/
  (exists c k, nth_error (climb arity H i 0 v (rev proof)) k = Some c /\ (k < d)%nat /\
    collision H c (children arity H m k (ancestor arity i (S k)))).
Proof.
  intros Hi Ht Hl E.
  rewrite <- (siblings_climbed bits Hbits H m d i) in E by exact Hi.
  apply (proofs_bind bits Hbits) in E; [|exact Ht|apply siblings_typed; exact Hbits|rewrite siblings_length; exact Hl].
  destruct E as [E|(c & c' & Hin & Hc)]; [left; exact E|]. right.
  rewrite (siblings_climb bits Hbits) in Hin.
  apply In_nth_error in Hin as [k Hk]. exists c, k.
  assert (Hcomb : forall {S T} (a : list S) (b : list T) n x y, nth_error (combine a b) n = Some (x, y) ->
            nth_error a n = Some x /\ nth_error b n = Some y).
  { clear. induction a as [|u a IH]; intros [|w b] [|n] x y E; cbn in *; try discriminate.
    - injection E as <- <-. split; reflexivity.
    - apply IH. exact E. }
  apply Hcomb in Hk as [Hk1 Hk2].
  assert (Hkd : (k < d)%nat).
  { assert (Hlt : nth_error (map (fun k => children arity H m k (ancestor arity i (S k))) (seq 0 d)) k <> None) by congruence.
    apply nth_error_Some in Hlt. rewrite map_length, seq_length in Hlt. exact Hlt. }
  split; [exact Hk1|]. split; [exact Hkd|].
  replace (children arity H m k (ancestor arity i (S k))) with c'; [exact Hc|].
  rewrite nth_error_map in Hk2. rewrite (nth_error_nth' _ O) in Hk2 by (rewrite seq_length; exact Hkd).
  rewrite seq_nth in Hk2 by exact Hkd. cbn in Hk2. congruence.
Qed.

Theorem tree_proofs_contents t m idx v proof r : (depth t * bits <= 8 * modbytes)%nat ->
  Forall (fun s => length s = (arity - 1)%nat) proof -> length proof = depth t ->
  tree_verify_proof arity hash t idx v proof r = Done true ->
  match r with Some r => r | None => root t end = node arity H m (depth t) 0 ->
  let i := leaf arity (depth t) idx in
  (v = m i /\ proof = siblings arity H m (depth t) i) \/
  (exists c k, nth_error (climb arity H i 0 v (rev proof)) k = Some c /\ (k < depth t)%nat /\
    collision H c (children arity H m k (ancestor arity i (S k)))).
Proof.
  intros Hf Ht Hl E Er i. rewrite (verify_done bits Hbits hash H Hhash) in E by assumption. injection E as E.
  apply feqb_eq in E. fold i in E. rewrite Er in E. apply climbed_contents; try assumption. apply leaf_range, Hbits.
Qed.

Theorem tree_short_proof t idx v proof r : (depth t * bits <= 8 * modbytes)%nat -> (length proof < depth t)%nat ->
  tree_verify_proof arity hash t idx v proof r = Panic.
Proof.
  intros Hf Hl. unfold tree_verify_proof. rewrite (path_done bits Hbits) by exact Hf. cbn [obind].
  rewrite <- map_rev, rev_involutive, map_length, rev_length, seq_length.
  destruct (depth t) as [|n] eqn:Ed; [lia|].
  change (seq 0 (S n)) with (O :: seq 1 n). cbn [map combine foldM].
  rewrite index_out by lia. reflexivity.
Qed.

Theorem tree_roots d db0 us t db db0' us' t' db' : (d * bits <= 8 * modbytes)%nat ->
  history d db0 us t db -> history d db0' us' t' db' ->
  collision_free arity H d us -> collision_free arity H d us' ->
  root t = root t' ->
  (forall idx proof, tree_get arity t idx proof db = tree_get arity t' idx proof db') \/
  (exists k i, (k < d)%nat /\ (0 <= i < A ^ Z.of_nat (d - S k))%Z /\
     collision H (children arity H (after arity d us) k i) (children arity H (after arity d us') k i)).
Proof.
  intros Hf Hh Hh' Hc Hc' E.
  pose proof (history_get bits Hbits hash H Hhash d db0 us t db) as G1.
  pose proof (history_get bits Hbits hash H Hhash d db0' us' t' db') as G2.
  destruct (history_done bits Hbits hash H Hhash d db0 us t db Hf Hh Hc) as [Ht _].
  destruct (history_done bits Hbits hash H Hhash d db0' us' t' db' Hf Hh' Hc') as [Ht' _].
  assert (En : node arity H (after arity d us) d 0 = node arity H (after arity d us') d 0)
    by (rewrite Ht, Ht' in E; exact E).
  destruct (equal_roots bits Hbits H _ _ d En) as [Ha|Hcol]; [|right; exact Hcol].
  left. intros idx proof.
  rewrite (G1 idx proof Hf Hh Hc), (G2 idx proof Hf Hh' Hc').
  rewrite Ha by (apply leaf_range; exact Hbits). f_equal. f_equal.
  assert (Hs : siblings arity H (after arity d us) d (leaf arity d idx) = siblings arity H (after arity d us') d (leaf arity d idx)).
  { assert (Hnode : forall k i, (k <= d)%nat -> (0 <= i < A ^ Z.of_nat (d - k))%Z ->
       node arity H (after arity d us) k i = node arity H (after arity d us') k i).
    { induction k as [|k IH]; intros i Hk Hi.
      - cbn. apply Ha. rewrite Nat.sub_0_r in Hi. exact Hi.
      - cbn [node]. f_equal. apply map_ext_in. intros c Hin. apply in_seq in Hin. apply IH; [lia|].
        replace (d - k)%nat with (S (d - S k)) by lia.
        rewrite (pow_S arity (arity_gt bits Hbits) (d - S k)). nia. }
    unfold siblings. apply map_ext_in. intros k Hk. apply in_rev in Hk. apply in_seq in Hk. f_equal.
    unfold children. apply map_ext_in. intros c Hin. apply in_seq in Hin. apply Hnode; [lia|].
    pose proof (ancestor_range arity (arity_gt bits Hbits) (leaf arity d idx) d (S k) (leaf_range bits Hbits idx d) ltac:(lia)) as Hr.
    replace (d - k)%nat with (S (d - S k)) by lia. rewrite (pow_S arity (arity_gt bits Hbits) (d - S k)). nia. }
  rewrite Hs. reflexivity.
Qed.
End Main.

(** *** Checking [collision_free] by computation *)
Section Check.
Context {P : Params}.
Context (arity : nat) (H : list F -> F).

Definition places (d : nat) : list (nat * Z) :=
  flat_map (fun k => map (fun i => (k, Z.of_nat i)) (seq 0 (arity ^ (d - S k)))) (seq 0 d).

Fixpoint list_eqb (a b : list F) : bool :=
  match a, b with
  | [], [] => true
  | x :: a, y :: b => feqb x y && list_eqb a b
  | _, _ => false
  end.

Lemma list_eqb_eq a : forall b, list_eqb a b = true -> a = b.
Proof.
  induction a as [|x a IH]; intros [|y b] E; cbn in E; try discriminate; [reflexivity|].
  apply andb_prop in E as [E1 E2]. apply feqb_eq in E1. apply IH in E2. congruence.
Qed.

Definition tuples_ok (ts : list (F * list F)) : bool :=
  forallb (fun '(h, t) => forallb (fun '(h', t') =>
    negb (feqb h h') || list_eqb t t') ts) ts.

Definition moment_ok (d : nat) (past : list (F * F)) : bool :=
  tuples_ok (map (fun '(k, i) => let t := children arity H (after arity d past) k i in (H t, t)) (places d)).

Fixpoint history_ok (d : nat) (us : list (F * F)) : bool :=
  moment_ok d us && match us with [] => true | _ :: us => history_ok d us end.

Lemma places_in d k i : (k < d)%nat -> (0 <= i < Z.of_nat arity ^ Z.of_nat (d - S k))%Z -> In (k, i) (places d).
Proof.
  intros Hk Hi. unfold places. apply in_flat_map. exists k. split; [apply in_seq; lia|].
  apply in_map_iff. exists (Z.to_nat i). split; [f_equal; lia|]. apply in_seq.
  assert (E : Z.of_nat (arity ^ (d - S k)) = (Z.of_nat arity ^ Z.of_nat (d - S k))%Z).
  { generalize (d - S k)%nat. clear. induction n as [|n IH]; [reflexivity|].
    rewrite Nat2Z.inj_succ, Z.pow_succ_r, <- IH by lia. cbn [Nat.pow]. lia. }
  lia.
Qed.

Lemma history_ok_spec d us : history_ok d us = true -> collision_free arity H d us.
Proof.
  intros Hok past k k' i i' Hm Hk Hk' Hi Hi' t t' E.
  assert (Hmok : moment_ok d past = true).
  { destruct Hm as [later ->]. induction later as [|u later IH]; cbn [app history_ok] in Hok.
    - destruct past; cbn [history_ok] in Hok; apply andb_prop in Hok; apply Hok.
    - apply andb_prop in Hok as [_ Hok]. apply IH. exact Hok. }
  unfold moment_ok, tuples_ok in Hmok. rewrite forallb_forall in Hmok.
  assert (Hin : forall k i, (k < d)%nat -> (0 <= i < Z.of_nat arity ^ Z.of_nat (d - S k))%Z ->
     In (H (children arity H (after arity d past) k i), children arity H (after arity d past) k i)
        (map (fun '(k, i) => let t := children arity H (after arity d past) k i in (H t, t)) (places d))).
  { intros k0 i0 Hk0 Hi0. apply in_map_iff. exists (k0, i0). split; [reflexivity|]. apply places_in; assumption. }
  specialize (Hmok _ (Hin k i Hk Hi)). cbn beta iota in Hmok. rewrite forallb_forall in Hmok.
  specialize (Hmok _ (Hin k' i' Hk' Hi')). cbn beta iota in Hmok.
  fold t t' in Hmok. rewrite E in Hmok.
  assert (Ef : feqb (H t') (H t') = true) by (apply feqb_eq; reflexivity). rewrite Ef in Hmok. cbn in Hmok.
  apply list_eqb_eq. exact Hmok.
Qed.
End Check.
