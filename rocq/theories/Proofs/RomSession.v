(** Zero knowledge of whole sessions. *)
From Coq Require Import ZArith String List Lia Bool Ring Field Arith Permutation.
From Verif.Base Require Import Outcome Fp Params Algebra.
From Verif.Model Require Import Transcript LinComb Prog IPP Prover Verifier Gadgets Hash Merkle MerkleGadget Randomizer.
From Verif.Spec Require Import R1CS Session Protocol Gadget HashSpec MerkleSpec OpeningSpec RandomizerSpec Compose Indist Simulator Games RomSim GadgetGames RomSession Challenges.
From Verif.Proofs Require Import LinCombProofs RunProofs ExtProofs CircuitProofs SyncMore CircuitMain
  GadgetTools GadgetBasic GadgetComplete GadgetPrograms GadgetMain GadgetEnd
  HashTools HashSound HashComplete HashPrograms HashMain MerkleTools MerkleTree MerkleBind MerkleMain MerkleSound MerkleComplete MerkleOpen
  RandomizerMap RandomizerSound RandomizerComplete RandomizerMain AnswerMain ComposeMain SameCircuit TreeCount GameInteractive OracleCount Utils RomCount RomZK.
Import ListNotations.
Local Notation length := List.length.

Section Calls.
Context {P : Params} {OK : ParamsOk P} {ENC : EncodingOk P}.
Local Open Scope fe_scope.
Add Field FFrs : (Fp_field_theory modulus modulus_prime).

(** what is in the commitments of a call *)
Definition contents (c : call) : list F :=
  match c with
  | PNonZero x _ _ => [x; finv x]
  | PBounded x _ lower upper _ _ => [fe_of x; fe_of (x - lower); fe_of (upper - x)]
  | PMember x _ set _ => x :: map (fun e => e - x) set
  | PMemberAlt x _ set _ => map (fun e => if Z.eqb e x then 1 else 0) set ++ [fe_of x]
  | PNotMember x _ set _ => x :: flat_map (fun e => [e - x; finv (e - x)]) set
  | PHamming xs _ _ => xs
  | PMimc xs _ _ _ _ _ | PHash2 xs _ _ _ _ _ | PHash4 xs _ _ _ _ _ | PHash8 xs _ _ _ _ _ => xs
  | PLeaf4 x idx _ proof _ _ _ _ _ | PLeaf8 x idx _ proof _ _ _ _ _ => x :: idx :: concat proof
  | PRandomized us t _ _ _ _ indices _ depth p =>
      Merkle.root t :: flat_map (fun idx => after 4 depth us (leaf 4 depth idx) ::
            concat (siblings 4 (hash_value p Quint) (after 4 depth us) depth (leaf 4 depth idx))) indices
  end.

Context (W W' : world) (checks : bool).
Definition draws (a n : nat) : list F := map (w_random W) (seq a n).
Lemma draws_app a n m : draws a (n + m) = draws a n ++ draws (a + n) m.
Proof. unfold draws. rewrite seq_app, map_app. reflexivity. Qed.
Lemma draws_S a n : draws a (S n) = w_random W a :: draws (S a) n.
Proof. reflexivity. Qed.
Lemma draws_length a n : length (draws a n) = n.
Proof. unfold draws. rewrite map_length, seq_length. reflexivity. Qed.

Lemma map_seq_draws (f : F -> F) set N g h :
  map (fun i => commit g h (f (nth i set 0)) (w_random W (N + i))) (seq 0 (length set)) = commit_all g h (map f set) (draws N (length set)).
Proof.
  revert N. induction set as [|e set IH]; intros N; [reflexivity|].
  change (length (e :: set)) with (S (length set)). rewrite draws_S. cbn [seq map commit_all combine nth]. unfold commit_all in IH |- *. cbn [map combine]. rewrite Nat.add_0_r. f_equal.
  rewrite <- seq_shift, map_map, <- IH. apply map_ext. intros i. cbn [nth]. do 2 f_equal. lia.
Qed.
Lemma map_seq_draws2 (f f' : F -> F) set N g h :
  flat_pairs (map (fun i => (commit g h (f (nth i set 0)) (w_random W (N + 2 * i)), commit g h (f' (nth i set 0)) (w_random W (N + 2 * i + 1))))
    (seq 0 (length set))) = commit_all g h (flat_map (fun e => [f e; f' e]) set) (draws N (2 * length set)).
Proof.
  revert N. induction set as [|e set IH]; intros N; [reflexivity|].
  change (length (e :: set)) with (S (length set)). replace (2 * S (length set))%nat with (S (S (2 * length set))) by lia.
  rewrite !draws_S. unfold commit_all in IH |- *. cbn [seq map flat_map app combine nth flat_pairs].
  replace (N + 2 * 0)%nat with N by lia. replace (N + 1)%nat with (S N) by lia. do 2 f_equal.
  rewrite <- seq_shift, map_map. rewrite <- IH. unfold flat_pairs. f_equal. apply map_ext. intros i. cbn [nth]. do 3 f_equal; lia.
Qed.

Lemma contents_length c : honest_call c -> length (contents c) = size c.
Proof.
  destruct c as [x rnd rng|x rnd lower upper n rng|x rnd set rng|x rnd set rng|x rnd set rng|xs new count|xs rnd image constants n rng
    |xs rnd output p sbox rng|xs rnd output p sbox rng|xs rnd output p sbox rng
    |x idx rnd proof root depth p sbox rng|x idx rnd proof root depth p sbox rng|us t db us' t' db' indices values depth p];
    cbn [honest_call contents size]; intros Hh; cbn [length]; rewrite ?app_length, ?map_length; try reflexivity; try tauto.
  - f_equal. clear. induction set as [|e set IH]; [reflexivity|]. cbn [flat_map app length]. rewrite IH. lia.
  - rewrite (concat_len _ 3); [lia|tauto].
  - rewrite (concat_len _ 7); [lia|tauto].
  - cbn [Nat.add]. apply (f_equal S). clear Hh. induction indices as [|i indices IH]; [reflexivity|]. cbn [flat_map app length]. rewrite app_length, IH.
    destruct (siblings_3 4 (hash_value p Quint) 2 (after 4 depth us) depth (leaf 4 depth i) eq_refl ltac:(lia)) as [Ht Hl].
    rewrite (concat_len _ 3) by exact Ht. rewrite Hl. lia.
Qed.

Lemma call_draws c ps vs : honest_call c -> draws_all c -> p_pending ps = None ->
  let comms := commit_all (p_g ps) (p_h ps) (contents c) (draws (p_nrand ps) (size c)) in
  exists k, both W W' false k (size c) (calls checks c) (verifies checks (p_g ps) (p_h ps) (statement_of c) comms) ps vs
      (fun a b _ => a = Ok comms /\ b = Ok tt).
Proof.
  intros Hh Hf Hpend. pose proof (contents_length c Hh) as Hlen.
  destruct c as [x rnd rng|x rnd lower upper n rng|x rnd set rng|x rnd set rng|x rnd set rng|xs new count|xs rnd image constants n rng
    |xs rnd output p sbox rng|xs rnd output p sbox rng|xs rnd output p sbox rng
    |x idx rnd proof root depth p sbox rng|x idx rnd proof root depth p sbox rng|us t db us' t' db' indices values depth p];
    cbn [honest_call calls statement_of verifies draws_all] in *; try subst rnd; cbv zeta.
  - destruct Hh as [Hr Hx]. pose proof (both_non_zero_val W W' x None rng ps vs Hr Hx) as X. cbv zeta in X. cbn [rand_of rand_used] in X.
    cbn [contents size]. rewrite (Nat.add_1_r (p_nrand ps)) in X. eexists. exact X.
  - destruct Hh as (Hr & Hx & Ha & Hb). pose proof (both_bounded_num W W' checks x None lower upper n rng ps vs Hr Hx Ha Hb) as X.
    cbv zeta in X. cbn [rand_of rand_used] in X. rewrite (Nat.add_1_r (p_nrand ps)) in X. eexists. exact X.
  - destruct Hh as (Hr & Hx). pose proof (both_set_membership W W' x None set rng ps vs Hr Hx) as X.
    cbv zeta in X. cbn [rand_of rand_used] in X. unfold diff_comms in X. rewrite (map_seq_draws (fun e => e - x)) in X. rewrite (Nat.add_1_r (p_nrand ps)) in X. eexists. exact X.
  - destruct Hh as (Hr & Hx). pose proof (both_set_membership_alt W W' x None set rng ps vs Hr Hx) as X.
    cbv zeta in X. cbn [rand_of rand_used] in X. unfold alt_bit_comms in X. rewrite (map_seq_draws (fun e => e)) in X. rewrite map_id, map_length in X.
    cbn [contents size]. rewrite draws_app, commit_all_app by (rewrite map_length, draws_length; reflexivity). eexists. exact X.
  - destruct Hh as (Hr & Hx). pose proof (both_non_membership W W' x None set rng ps vs Hr Hx) as X.
    cbv zeta in X. cbn [rand_of rand_used] in X. unfold diff_inv_comms in X. rewrite (map_seq_draws2 (fun e => e - x) (fun e => finv (e - x))) in X.
    rewrite (Nat.add_1_r (p_nrand ps)) in X. eexists. exact X.
  - destruct Hh as (Hl & Hx). cbn [contents size] in *.
    assert (X : fsum (map (fun '(x, y) => differs x y) (combine xs new)) = fe_of count) by (rewrite (differs_count xs new Hl), Hx; reflexivity).
    pose proof (both_hamming W W' xs new count ps vs Hl Hpend X) as Y. cbv zeta in Y. unfold vector_comms in Y.
    rewrite (map_seq_draws (fun e => e)) in Y. rewrite map_id in Y. rewrite Hl in Y. eexists. exact Y.
  - destruct Hh as (Hb & Hl & Hn & Hi). destruct (AnswerMain.list_two xs Hl) as (a & b & ->).
    assert (X : exists x y, [a; b] = [x; y] /\ mimc x y (firstn n constants) n = Done image).
    { exists a, b. split; [reflexivity|]. rewrite <- Hi. apply mimc_firstn'. exact Hn. }
    eexists. exact (both_mimc_preimage W W' [a; b] None rng image n constants ps vs Hb X).
  - destruct Hh as (Hb & Hl & Ho & Hp & Hsbox & Hw). destruct (AnswerMain.list_two xs Hl) as (a & b & ->).
    assert (X : exists x y, [a; b] = [x; y] /\ Poseidon_hash_2 p sbox x y = Done output).
    { exists a, b. split; [reflexivity|]. rewrite <- Ho. apply hash_2_native; assumption. }
    eexists. exact (both_Poseidon_2 W W' p sbox Hsbox [a; b] None rng output ps vs Hb X).
  - destruct Hh as (Hb & Hl & Ho & Hp & Hsbox & Hw).
    assert (X : Poseidon_hash_4 p sbox xs = Done output) by (rewrite <- Ho; apply hash_4_native; assumption).
    eexists. exact (both_Poseidon_4 W W' p sbox Hsbox xs None rng output ps vs Hb Hl X).
  - destruct Hh as (Hb & Hl & Ho & Hp & Hsbox & Hw).
    assert (X : Poseidon_hash_8 p sbox xs = Done output) by (rewrite <- Ho; apply hash_8_native; assumption).
    eexists. exact (both_Poseidon_8 W W' p sbox Hsbox xs None rng output ps vs Hb Hl X).
  - destruct Hh as (Hb & Ht & Hd & Hm & Hi & Hr & Hp & Hsbox & Hw).
    pose proof (both_leaf_inclusion_4 W W' p sbox x idx None rng proof root depth ps vs Hp Hsbox Hw Hb Ht Hd Hm Hi (eq_sym Hr)) as X.
    cbv zeta in X. unfold opening_blindings in X. cbn [rands_of rands_used] in X. cbn [contents] in *. rewrite <- Hlen. cbn [length]. 
    change (S (S (length (concat proof)))) with (2 + length (concat proof))%nat. rewrite draws_app. eexists. exact X.
  - destruct Hh as (Hb & Ht & Hd & Hm & Hi & Hr & Hp & Hsbox & Hw).
    pose proof (both_leaf_inclusion_8 W W' p sbox x idx None rng proof root depth ps vs Hp Hsbox Hw Hb Ht Hd Hm Hi (eq_sym Hr)) as X.
    cbv zeta in X. unfold opening_blindings in X. cbn [rands_of rands_used] in X. cbn [contents] in *. rewrite <- Hlen. cbn [length]. 
    change (S (S (length (concat proof)))) with (2 + length (concat proof))%nat. rewrite draws_app. eexists. exact X.
  - destruct Hh as (Hp & Hw & Hd & Hd0 & (db0 & Hh) & Hc & (db0' & Hh') & Hc' & Hsame & ->).
    destruct (built p Hp Hw depth Hd _ _ _ _ Hh Hc) as [Ht Hdb]. destruct (built p Hp Hw depth Hd _ _ _ _ Hh' Hc') as [Ht' Hdb'].
    pose proof (randomizer_both W W' p Hp Hw depth Hd Hd0 (after 4 depth us) t db Ht
      (built_get p Hp Hw depth Hd _ _ _ _ Hh Hc) indices us' t' db' Ht' Hdb' Hsame ps vs) as X. cbv zeta in X.
    rewrite <- Hlen.
    match goal with |- context [contents ?c] => replace (contents c) with (committed_values p depth (after 4 depth us) indices)
      by (cbn [contents]; rewrite Ht; reflexivity) end.
    eexists. exact X.
Qed.

Definition total (l : list call) : nat := list_sum (map size l).
Lemma cut_commit g h a b n ns x y : length a = n -> length a = length x -> commit_all g h (a ++ b) (x ++ y) = commit_all g h a x ++ commit_all g h b y ->
  cut (n :: ns) (commit_all g h (a ++ b) (x ++ y)) = commit_all g h a x :: cut ns (commit_all g h b y).
Proof.
  intros <- Hl E. cbn [cut]. rewrite E. assert (L : length (commit_all g h a x) = length a).
  { unfold commit_all. rewrite map_length, combine_length, <- Hl. apply Nat.min_id. }
  rewrite <- L. rewrite firstn_app, skipn_app, Nat.sub_diag, firstn_all, skipn_all, app_nil_r. reflexivity.
Qed.

Lemma calls_draw l : Forall honest_call l -> Forall draws_all l -> forall ps vs, p_pending ps = None -> honest ps -> sync_base ps vs ->
  let commss := cut (map size l) (commit_all (p_g ps) (p_h ps) (flat_map contents l) (draws (p_nrand ps) (total l))) in
  exists k, both W W' false k (total l) (prove_all checks l) (verify_all checks (p_g ps) (p_h ps) (combine (map statement_of l) commss)) ps vs
      (fun a b _ => a = Ok commss /\ b = Ok tt).
Proof.
  intros Hl. induction Hl as [|c l Hc Hl IH]; intros Hf ps vs Hpend Hhon Hs; cbv zeta.
  - exists O. cbn. apply both_ret. auto.
  - inversion Hf as [|? ? Hf1 Hf2]; subst. destruct (call_draws c ps vs Hc Hf1 Hpend) as (k1 & Hb). cbv zeta in Hb.
    destruct (Hb Hhon Hs) as (a & ps1 & b & vs1 & E & E' & Hgr & Hhon1 & Hs1 & Hd & -> & ->).
    pose proof (px_g _ _ (gr_ext _ _ _ _ Hgr)) as Eg. pose proof (px_h _ _ (gr_ext _ _ _ _ Hgr)) as Eh.
    destruct (IH Hf2 ps1 vs1) as (k2 & Hb2); [rewrite (gr_pending _ _ _ _ Hgr); exact Hpend|exact Hhon1|exact Hs1|]. cbv zeta in Hb2.
    rewrite Eg, Eh, (gr_rand _ _ _ _ Hgr) in Hb2.
    change (total (c :: l)) with (size c + total l)%nat. cbn [flat_map map]. rewrite draws_app.
    assert (La : length (contents c) = length (draws (p_nrand ps) (size c))) by (rewrite draws_length; apply contents_length, Hc).
    rewrite (cut_commit _ _ _ _ _ _ _ _ (contents_length c Hc) La) by (apply commit_all_app, La).
    destruct (Hb2 Hhon1 Hs1) as (a2 & ps2 & b2 & vs2 & E2 & E2' & Hgr2 & Hhon2 & Hs2 & Hd2 & -> & ->).
    exists (k1 + k2)%nat.
    intros _ _. do 4 eexists.
    split; [|split; [|split; [eapply grew_trans; eassumption|]]].
    + cbn [prove_all]. unfold ptry. rewrite prun_bind, E. cbn [obind]. rewrite prun_bind, E2. reflexivity.
    + cbn [verify_all map combine]. unfold ptry. rewrite vrun_bind, E'. cbn [obind]. exact E2'.
    + split; [exact Hhon2|]. split; [exact Hs2|]. split; [congruence|]. split; reflexivity.
Qed.
End Calls.

Section Cut.
Lemma cut_lengths {X} ns : forall l : list X, length l = list_sum ns -> map (@length X) (cut ns l) = ns.
Proof.
  induction ns as [|n ns IH]; intros l Hl; [reflexivity|]. cbn [list_sum fold_right] in Hl. change (length l = n + list_sum ns)%nat in Hl.
  cbn [cut map]. f_equal; [rewrite firstn_length; lia|]. apply IH. rewrite skipn_length. lia.
Qed.
Lemma cut_concat {X} (ls : list (list X)) : cut (map (@length X) ls) (concat ls) = ls.
Proof.
  induction ls as [|l ls IH]; [reflexivity|]. cbn [map concat cut].
  rewrite firstn_app, skipn_app, Nat.sub_diag, firstn_all, skipn_all, app_nil_r. cbn [firstn skipn app]. f_equal. exact IH.
Qed.
Lemma concat_sum {X} (ls : list (list X)) : length (concat ls) = list_sum (map (@length X) ls).
Proof. induction ls as [|l ls IH]; [reflexivity|]. cbn [map concat]. rewrite app_length, IH. reflexivity. Qed.
Lemma count_prod {A B} (f : A * B -> bool) (la : list A) (lb : list B) :
  length (filter f (list_prod la lb)) = sum_over la (fun a => length (filter (fun b => f (a, b)) lb)).
Proof.
  induction la as [|a la IH]; [reflexivity|]. cbn [list_prod]. rewrite filter_app, app_length, IH, sum_over_cons. f_equal.
  rewrite !filter_as_sum, sum_over_map. reflexivity.
Qed.
Lemma sum_both {A} (sim real games : A -> nat) order c Q (l : list A) :
  (forall a, In a l -> order * (c * real a) <= order * sim a + Q * games a /\ order * sim a <= order * (c * real a) + Q * games a) ->
  order * (c * sum_over l real) <= order * sum_over l sim + Q * sum_over l games /\
  order * sum_over l sim <= order * (c * sum_over l real) + Q * sum_over l games.
Proof.
  induction l as [|a l IH]; intros Ha; [cbn; lia|]. rewrite !sum_over_cons.
  destruct (IH (fun x Hx => Ha x (or_intror Hx))) as [I1 I2]. destruct (Ha a (or_introl eq_refl)) as [J1 J2].
  rewrite !Nat.mul_add_distr_l. lia.
Qed.
End Cut.

Section Sessions.
Context {P : Params} {OK : ParamsOk P} {ENC : EncodingOk P}.
Local Open Scope fe_scope.
Add Field FFrs2 : (Fp_field_theory modulus modulus_prime).

Lemma tape_draws W tape : draws (with_tape W 0 tape) 0 (length tape) = tape.
Proof.
  unfold draws. apply (nth_ext _ _ 0 0); [rewrite map_length, seq_length; reflexivity|].
  intros i Hi. rewrite map_length, seq_length in Hi. rewrite (nth_map_seq _ _ _ 0 Hi). cbn [with_tape w_random Nat.leb andb].
  rewrite Nat.sub_0_r. destruct (Nat.ltb_spec i (length tape)); [reflexivity|lia].
Qed.

Lemma contents_total l : Forall honest_call l -> length (flat_map contents l) = total l.
Proof.
  intros Hl. unfold total. induction Hl as [|c l' Hc Hl' IH]; [reflexivity|]. cbn [flat_map map]. rewrite app_length, (contents_length c Hc), IH. reflexivity.
Qed.

Section Fixed.
Context (W W' : world) (checks : bool) (t : transcript) (g h : G1) (l : list call).
Hypothesis Hl : Forall honest_call l.
Hypothesis Hf : Forall draws_all l.
Let sts := map statement_of l.
Let ns := map size l.
Let vals := flat_map contents l.

Lemma session_states tape : length tape = total l ->
  let commss := cut ns (commit_all g h vals tape) in
  exists s vs, prun (with_tape W 0 tape) false (prove_all checks l) (prover_new g h t) = Done (Ok commss, s) /\
    session_verifier W' checks t g h sts commss = Some vs /\ p_g s = g /\ p_h s = h /\
    p_reachable false s /\ p_deferred s = [] /\ Session.same_circuit s vs /\
    satisfies (prover_assignment s) (length (p_aL s)) (p_constraints s) /\
    Forall (lc_in_range (length (p_aL s)) (length (p_v s))) (p_constraints s).
Proof.
  intros Ht commss.
  destruct (calls_draw (with_tape W 0 tape) W' checks l Hl Hf (prover_new g h t) (verifier_new t) eq_refl) as (k & Hb); [intros x []|apply sync_base_new|].
  cbv zeta in Hb. cbn [p_g p_h p_nrand prover_new] in Hb. rewrite <- Ht, tape_draws in Hb. fold vals ns commss in Hb.
  destruct Hb as (a & s & b & vs & E & E' & Hgr & Hhon & Hs & Hd & -> & ->); [intros x []|apply sync_base_new|].
  exists s, vs. split; [exact E|]. split; [unfold session_verifier; fold sts in E'; rewrite E'; reflexivity|].
  split; [exact (px_g _ _ (gr_ext _ _ _ _ Hgr))|]. split; [exact (px_h _ _ (gr_ext _ _ _ _ Hgr))|].
  split; [econstructor; exact E|]. split; [exact (gr_deferred _ _ _ _ Hgr)|].
  pose proof (sy_wf _ _ Hs) as Hwf. split; [|split].
  - constructor.
    + apply (sy_num_vars _ _ Hs).
    + split; apply Hwf.
    + apply (sy_V _ _ Hs).
    + rewrite (sy_V _ _ Hs), zipw_length, (pwf_vb _ Hwf). lia.
    + apply (sy_constraints _ _ Hs).
    + apply (sy_pending _ _ Hs).
    + apply (sy_transcript _ _ Hs).
  - split; [intros i Hi; apply (pwf_gate _ Hwf i Hi)|]. intros x Hx. apply (Hhon x Hx).
  - apply Forall_forall. intros x Hx. apply (lc_has_in_range s x 0). apply honest_has; assumption.
Qed.

Hypothesis Hg : generates h.
(** the simulated commitments are the real ones, for other random values *)
Lemma shifted : exists f : list F -> list F,
  (forall tape, length tape = total l -> map (fun r => g1_mul r h) (f tape) = commit_all g h vals tape) /\
  Permutation (map f (vectors every_scalar (total l))) (vectors every_scalar (total l)).
Proof.
  destruct (proj2 Hg g) as [d Ed]. pose proof (contents_total l Hl) as Hv. fold vals in Hv.
  exists (fun tape => zipw (fun v r => v * d + r) vals tape). split.
  - intros tape Ht. unfold commit_all. rewrite <- Hv in Ht. clear -Ht Ed OK. revert tape Ht.
    induction vals as [|v vs IH]; intros [|r tape] Ht; try discriminate Ht; [reflexivity|].
    cbn [zipw map combine]. injection Ht as Ht. f_equal; [|apply IH, Ht]. unfold commit. rewrite Ed, g1_mul_mul, g1_mul_add_l. reflexivity.
  - apply NoDup_Permutation_bis.
    + apply NoDup_map_inj; [|apply vectors_NoDup, every_scalar_nodup].
      intros x y Hx Hy. apply in_vectors in Hx as [Hx _]. apply in_vectors in Hy as [Hy _]. rewrite <- Hv in Hx, Hy. clear -Hx Hy OK.
      revert x y Hx Hy. induction vals as [|v vs IH]; intros [|a x] [|b y] Hx Hy E; try discriminate Hx; try discriminate Hy; [reflexivity|].
      cbn [zipw] in E. injection Hx as Hx. injection Hy as Hy. assert (E1 := f_equal (hd 0) E). assert (E2 := f_equal (@tl F) E). cbn [hd tl] in E1, E2.
      f_equal; [|apply IH; assumption]. replace a with ((v * d + a) - v * d) by ring. rewrite E1. ring.
    + rewrite map_length. reflexivity.
    + intros x Hx. apply in_map_iff in Hx as (y & <- & Hy). apply in_vectors in Hy as [Hy _]. apply in_vectors. split.
      * rewrite zipw_length, Hv, Hy. apply Nat.min_id.
      * intros z _. apply every_scalar_all.
Qed.

Context (G H : list G1) (k kt : nat) (C : list F) (D : list query) (A : session_distinguisher) (Q : nat).
Context (commss0 : list (list G1)) (vs0 : verifier).
Hypothesis Hs0 : map (@length G1) commss0 = ns.
Hypothesis E0 : session_verifier W' checks t g h sts commss0 = Some vs0.
Let n := v_num_vars vs0.
Hypothesis Hk : next_power_of_two n = (2 ^ k)%nat.
Hypothesis HG : (2 ^ k <= length G)%nat.
Hypothesis HH : (2 ^ k <= length H)%nat.
Hypothesis Hkt : (11 + 2 * n <= kt)%nat.
Hypothesis HD : NoDup D.
Hypothesis Hcov : forall commss vs pf, map (@length G1) commss = ns -> session_verifier W' checks t g h sts commss = Some vs ->
  length (ipp_L (proof_ipp pf)) = k -> length (ipp_R (proof_ipp pf)) = k ->
  incl (proof_queries (length (v_V vs)) n (v_transcript vs) pf) D.
Hypothesis HQ : forall commss, at_most Q (handed A commss).

Let tapes1 := vectors every_scalar (total l).
Let tapes2 := vectors every_scalar kt.
Let reals := list_prod (oracles D C) tapes2.
Let sims := list_prod (list_prod (oracles D C) (vectors C (5 + k))) tapes2.

Lemma all_verify commss : map (@length G1) commss = ns -> exists vs, session_verifier W' checks t g h sts commss = Some vs /\ v_num_vars vs = n.
Proof.
  intros Hc. unfold session_verifier in E0 |- *.
  destruct (vrun W' false (verify_all checks g h (combine sts commss0)) (verifier_new t)) as [[[[]|] vs]|] eqn:E; try discriminate E0.
  injection E0 as ->. destruct (SameCircuit.same_circuit W' t checks g h sts commss0 commss vs0 ltac:(congruence) E) as (vs & E1 & En & _).
  exists vs. rewrite E1. split; [reflexivity|exact En].
Qed.

(** the simulator's guess, for given commitments *)
Definition guess_on (commss : list (list G1)) (ro : oracle) (c tape : list F) : bool :=
  match session_verifier W' checks t g h sts commss with
  | Some vs => simulated_guess g h G H (v_V vs) (v_num_vars vs) (v_constraints vs) (v_transcript vs) (handed A commss) ro c tape
  | None => false
  end.
Lemma guess_on_ok ro c tape1 tape2 :
  simulated_session_guess W' checks t g h sts ns G H A ro c tape1 tape2 = guess_on (simulated_commitments h ns tape1) ro c tape2.
Proof.
  unfold simulated_session_guess, simulated_session, guess_on, simulated_guess. destruct (session_verifier W' checks t g h sts (simulated_commitments h ns tape1)) as [vs|]; [|reflexivity].
  destruct (simulated_proof _ _ _ _ _ _ _ _ _ _); reflexivity.
Qed.

Let order := Z.to_nat modulus.
Let real1 (tape1 : list F) : nat := length (filter (fun '(ro, tape) => real_session_guess W checks t g h l G H A ro tape1 tape) reals).
Let sim1 (commss : list (list G1)) : nat := length (filter (fun '(ro, c, tape) => guess_on commss ro c tape) sims).

Let error := (Q * length C + 2 * order * times C (fzero _))%nat.
Lemma one_tape tape1 : In tape1 tapes1 ->
  (order * length C * (length C ^ (5 + k) * real1 tape1) <= order * length C * sim1 (cut ns (commit_all g h vals tape1)) + error * length sims /\
   order * length C * sim1 (cut ns (commit_all g h vals tape1)) <= order * length C * (length C ^ (5 + k) * real1 tape1) + error * length sims)%nat.
Proof.
  intros Hin. apply in_vectors in Hin as [Ht _]. set (commss := cut ns (commit_all g h vals tape1)).
  destruct (session_states tape1 Ht) as (s & vs & E & Ev & Eg & Eh & Hr & Hd & Hsame & Hsat & Hran). fold commss in E, Ev.
  assert (Lc : map (@length G1) commss = ns).
  { apply cut_lengths. unfold commit_all. rewrite map_length, combine_length, Ht. unfold vals. rewrite (contents_total l Hl). apply Nat.min_id. }
  destruct (all_verify commss Lc) as (vs' & Ev' & En). rewrite Ev in Ev'. injection Ev' as <-.
  assert (Enl : length (p_aL s) = n) by (rewrite <- En; symmetry; apply (same_multipliers _ _ Hsame)).
  pose proof (rom_zk_times s vs G H k kt C D (handed A commss) Q Hr Hd Hsame) as X. rewrite Eh, Eg, Enl in X. rewrite Enl in Hsat, Hran.
  specialize (X Hg Hsat Hran Hk HG HH Hkt HD (fun pf => Hcov commss vs pf Lc Ev) (HQ commss)). cbv zeta in X. fold tapes2 reals sims in X.
  unfold real1, sim1, error, order.
  rewrite (filter_same (fun '(ro, tape) => real_session_guess W checks t g h l G H A ro tape1 tape)
    (fun '(ro, tape) => real_guess s G H (handed A commss) ro tape)).
  2: { intros [ro tape]. unfold real_session_guess, real_session, real_guess. rewrite E. reflexivity. }
  rewrite (filter_same (fun '(ro, c, tape) => guess_on commss ro c tape)
    (fun '(ro, c, tape) => simulated_guess g h G H (v_V vs) n (v_constraints vs) (v_transcript vs) (handed A commss) ro c tape)).
  2: { intros [[ro c] tape]. unfold guess_on. rewrite Ev, En. reflexivity. }
  exact X.
Qed.

Theorem session_zk_times :
  let real := length (filter (fun '(tape1, (ro, tape2)) => real_session_guess W checks t g h l G H A ro tape1 tape2) (list_prod tapes1 reals)) in
  let games := list_prod tapes1 sims in
  let simulated := length (filter (fun '(tape1, (ro, c, tape2)) => simulated_session_guess W' checks t g h sts ns G H A ro c tape1 tape2) games) in
  (order * length C * (length C ^ (5 + k) * real) <= order * length C * simulated + error * length games /\
   order * length C * simulated <= order * length C * (length C ^ (5 + k) * real) + error * length games)%nat.
Proof.
  intros real games simulated.
  assert (Er : real = sum_over tapes1 real1).
  { unfold real. rewrite count_prod. apply sum_over_ext. intros a _. unfold real1. apply filter_same. intros [ro tape]. reflexivity. }
  destruct shifted as (f & Hsf & Hp). fold tapes1 in Hp.
  assert (Es : simulated = sum_over tapes1 (fun tape1 => sim1 (cut ns (commit_all g h vals tape1)))).
  { unfold simulated, games. rewrite count_prod. rewrite <- (sum_over_perm _ _ _ Hp), sum_over_map. apply sum_over_ext. intros a Ha.
    apply in_vectors in Ha as [Ha _]. rewrite <- (Hsf a Ha). unfold sim1. apply filter_same. intros [[ro c] tape]. apply guess_on_ok. }
  assert (Eg : length games = sum_over tapes1 (fun _ => length sims)) by (unfold games; rewrite prod_length, sum_over_const; reflexivity).
  rewrite Er, Es, Eg. unfold real, simulated, games. clear Er Es Eg. pose proof one_tape as One.
  apply (sum_both (fun tape1 => sim1 (cut ns (commit_all g h vals tape1))) real1 (fun _ => length sims)). exact One.
Qed.

Theorem session_zk : NoDup C -> ~ In 0 C ->
  let real := length (filter (fun '(tape1, (ro, tape2)) => real_session_guess W checks t g h l G H A ro tape1 tape2) (list_prod tapes1 reals)) in
  let games := list_prod tapes1 sims in
  let simulated := length (filter (fun '(tape1, (ro, c, tape2)) => simulated_session_guess W' checks t g h sts ns G H A ro c tape1 tape2) games) in
  (order * (length C ^ (5 + k) * real) <= order * simulated + Q * length games /\
   order * simulated <= order * (length C ^ (5 + k) * real) + Q * length games)%nat.
Proof.
  intros _ HC0 real games simulated. pose proof session_zk_times as X. cbv zeta in X. unfold error in X.
  rewrite (times_none C HC0) in X. refine (no_zero_bound (length C) _ _ _ _ _ _ X).
  intros E. rewrite E. split; [reflexivity|]. apply Nat.le_0_r. etransitivity; [apply filter_few|].
  unfold games, sims. rewrite !prod_length, vectors_length, E. cbn [Nat.pow Nat.add Nat.mul]. lia.
Qed.
End Fixed.

Lemma same_verifier W checks t g h sts commss0 commss vs0 : map (@length G1) commss = map (@length G1) commss0 ->
  session_verifier W checks t g h sts commss0 = Some vs0 ->
  exists vs, session_verifier W checks t g h sts commss = Some vs /\
    vrun W false (verify_all checks g h (combine sts commss)) (verifier_new t) = Done (Ok tt, vs) /\
    v_num_vars vs = v_num_vars vs0 /\ v_constraints vs = v_constraints vs0 /\ length (v_V vs) = length (v_V vs0).
Proof.
  unfold session_verifier. intros Hc E0.
  destruct (vrun W false (verify_all checks g h (combine sts commss0)) (verifier_new t)) as [[[[]|] vs]|] eqn:E; try discriminate E0.
  injection E0 as ->. destruct (SameCircuit.same_circuit W t checks g h sts commss0 commss vs0 (eq_sym Hc) E) as (vs & E1 & E2 & E3 & E4).
  exists vs. rewrite E1. auto.
Qed.

Lemma session_accepted W checks t g h sts ns G H k c tape1 tape2 commss0 vs0 :
  let n := v_num_vars vs0 in
  map (@length G1) commss0 = ns -> session_verifier W checks t g h sts commss0 = Some vs0 ->
  Forall (lc_in_range n (length (v_V vs0))) (v_constraints vs0) ->
  next_power_of_two n = (2 ^ k)%nat -> (2 ^ k <= length G)%nat -> (2 ^ k <= length H)%nat -> (k < 32)%nat ->
  (1 < n)%nat \/ batch_invert_empty_panics = false ->
  length tape1 = list_sum ns -> length c = (5 + k)%nat -> ~ In 0 c ->
  exists commss pf tp qs, simulated_session W checks t g h sts ns G H c tape1 tape2 = Some (commss, Some ((pf, tp), qs)) /\
    forall O r, gadgets_accept W t checks g h G H sts (programmed O qs c) r commss pf.
Proof.
  intros n Hs0 E0 Hr Hk HG HH Hk32 Hn Ht Hc Hz. set (commss := simulated_commitments h ns tape1).
  assert (Lc : map (@length G1) commss = map (@length G1) commss0) by (rewrite Hs0; apply cut_lengths; rewrite map_length; exact Ht).
  destruct (same_verifier W checks t g h sts commss0 commss vs0 Lc E0) as (vs & E & Er & En & Ec & El).
  destruct (rom_accepted g h G H (v_V vs) n k (v_constraints vs) (v_transcript vs) c tape2 Hk HG HH Hk32 Hn) as (pf & tp & Ep & Ha);
    [rewrite Ec, El; exact Hr|exact Hc|exact Hz|].
  exists commss, pf, tp, (proof_queries (length (v_V vs)) n (v_transcript vs) pf). split.
  - unfold simulated_session. fold commss. rewrite E, En. fold n. rewrite Ep. reflexivity.
  - intros O r. exists vs. split; [exact Er|]. rewrite En. apply Ha.
Qed.

Lemma session_questions W checks t g h sts ns n k : generates h ->
  exists D, NoDup D /\ forall commss vs pf, map (@length G1) commss = ns -> session_verifier W checks t g h sts commss = Some vs ->
    length (ipp_L (proof_ipp pf)) = k -> length (ipp_R (proof_ipp pf)) = k -> incl (proof_queries (length (v_V vs)) n (v_transcript vs) pf) D.
Proof.
  intros Hg.
  assert (X : forall L : list (list F), exists D, forall tape vs pf, In tape L -> session_verifier W checks t g h sts (simulated_commitments h ns tape) = Some vs ->
    length (ipp_L (proof_ipp pf)) = k -> length (ipp_R (proof_ipp pf)) = k -> incl (proof_queries (length (v_V vs)) n (v_transcript vs) pf) D).
  { induction L as [|a L (D & HD)]; [exists []; intros tape vs pf []|].
    destruct (session_verifier W checks t g h sts (simulated_commitments h ns a)) as [vs|] eqn:E.
    - destruct (rom_questions h (length (v_V vs)) n (v_transcript vs) k Hg) as (D' & _ & HD'). exists (D' ++ D).
      intros tape vs' pf [->|Hin] Ev HL HR.
      + rewrite E in Ev. injection Ev as <-. apply incl_appl, HD'; assumption.
      + apply incl_appr. exact (HD tape vs' pf Hin Ev HL HR).
    - exists D. intros tape vs' pf [->|Hin] Ev; [rewrite E in Ev; discriminate Ev|]. exact (HD tape vs' pf Hin Ev). }
  destruct (X (vectors every_scalar (list_sum ns))) as (D & HD). exists (nodup query_eq_dec D). split; [apply NoDup_nodup|].
  intros commss vs pf Hc Ev HL HR q Hq. apply nodup_In.
  assert (Y : forall l : list G1, exists tape, length tape = length l /\ map (fun r => g1_mul r h) tape = l).
  { induction l as [|p l (tape & El & Em)]; [exists []; split; reflexivity|]. destruct (proj2 Hg p) as [r Er].
    exists (r :: tape). cbn [length map]. rewrite El, Em, <- Er. split; reflexivity. }
  destruct (Y (concat commss)) as (tape & El & Em).
  assert (Hs : simulated_commitments h ns tape = commss) by (unfold simulated_commitments; rewrite Em, <- Hc; apply cut_concat).
  apply (HD tape vs pf); [|rewrite Hs; exact Ev|exact HL|exact HR|exact Hq].
  apply in_vectors. split; [rewrite El, concat_sum, Hc; reflexivity|]. intros x _. apply every_scalar_all.
Qed.

Lemma session_total (C : list F) D k kt m :
  length (list_prod (vectors every_scalar m) (list_prod (list_prod (oracles D C) (vectors C (5 + k))) (vectors every_scalar kt))) =
  (length C ^ (5 + k) * length (list_prod (vectors every_scalar m) (list_prod (oracles D C) (vectors every_scalar kt))))%nat.
Proof. rewrite !prod_length, !vectors_length. lia. Qed.

(** whatever the honest calls and the tape, the session succeeds *)
Lemma session_succeeds W W' checks t g h l tape1 : Forall honest_call l -> Forall draws_all l -> length tape1 = total l ->
  exists commss s vs, prun (with_tape W 0 tape1) false (prove_all checks l) (prover_new g h t) = Done (Ok commss, s) /\
    map (@length G1) commss = map size l /\ session_verifier W' checks t g h (map statement_of l) commss = Some vs.
Proof.
  intros Hl Hf Ht. destruct (session_states W W' checks t g h l Hl Hf tape1 Ht) as (s & vs & E & E' & _).
  eexists _, s, vs. split; [exact E|]. split; [|exact E'].
  apply cut_lengths. unfold commit_all. rewrite map_length, combine_length, Ht, (contents_total l Hl). apply Nat.min_id.
Qed.
End Sessions.
