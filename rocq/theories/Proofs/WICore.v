(** [Prover::prove] as a function of the witness and of the random values. *)
From Coq Require Import ZArith String List Lia Bool Ring Field.
From Verif.Base Require Import Outcome Fp Params Algebra.
From Verif.Model Require Import Transcript LinComb Prog VectorPoly IPP Prover Verifier.
From Verif.Spec Require Import R1CS Sim Protocol Session.
From Verif.Proofs Require Import LinCombProofs RunProofs ExtProofs FlattenProofs IPPProofs VerifyProofs ProveProofs.
Import ListNotations.

Section WICore.
Context {P : Params} {OK : ParamsOk P}.
Local Open Scope fe_scope.
Add Field FFwi : (Fp_field_theory modulus modulus_prime).

Lemma slice_to_ok {A} k (l : list A) : (k <= length l)%nat -> slice_to k l = Done (firstn k l).
Proof. intros E. unfold slice_to. destruct (Nat.leb_spec k (length l)); [reflexivity|lia]. Qed.
Lemma slice_ok {A} a b (l : list A) : (a <= b)%nat -> (b <= length l)%nat ->
  slice a b l = Done (firstn (b - a) (skipn a l)).
Proof.
  intros E1 E2. unfold slice. destruct (Nat.leb_spec a b); [|lia]. destruct (Nat.leb_spec b (length l)); [|lia].
  reflexivity.
Qed.

(** all random values [prove] draws *)
Record masks : Type := Masks {
  m_i1 : F; m_o1 : F; m_b1 : F;
  m_i2 : F; m_o2 : F; m_b2 : F;
  m_sL : list F; m_sR : list F;
  m_t1 : F; m_t3 : F; m_t4 : F; m_t5 : F; m_t6 : F
}.
Record wit : Type := Wit { wit_aL : list F; wit_aR : list F; wit_aO : list F; wit_vb : list F }.

Section Core.
Context (g h : G1) (G H : list G1) (n1 n : nat) (wf : F -> var -> F) (t0 : transcript).
Let N := next_power_of_two n.

Definition first_point (a b : list F) (r : F) : G1 :=
  g1_add (g1_add (msm (firstn n1 a) (firstn n1 G)) (msm (firstn n1 b) (firstn n1 H))) (g1_mul r h).
Definition first_point_o (a : list F) (r : F) : G1 := g1_add (msm (firstn n1 a) (firstn n1 G)) (g1_mul r h).
Definition second_point (a b : list F) (r : F) : G1 :=
  g1_add (g1_add (msm (skipn n1 a) (firstn (n - n1) (skipn n1 G))) (msm (skipn n1 b) (firstn (n - n1) (skipn n1 H)))) (g1_mul r h).
Definition second_point_o (a : list F) (r : F) : G1 :=
  g1_add (msm (skipn n1 a) (firstn (n - n1) (skipn n1 G))) (g1_mul r h).

(** what remains when the six points are known *)
Definition finish (AI1 AO1 SS1 AI2 AO2 SS2 : G1) (TT : F -> F -> G1 * G1 * G1 * G1 * G1)
    (tx txb eb : F -> F -> F -> F -> F) (l r : F -> F -> F -> F -> nat -> F) : outcome (result (r1cs_proof * transcript)) :=
  let t := commit_point "S2" SS2 (commit_point "A_O2" AO2 (commit_point "A_I2" AI2 t0)) in
  let y := challenge_value "y" t in
  let t := t ++ [TChallenge "y" modbytes] in
  let z := challenge_value "z" t in
  let t := t ++ [TChallenge "z" modbytes] in
  let '(T1, T3, T4, T5, T6) := TT y z in
  let t := commit_point "T_6" T6 (commit_point "T_5" T5 (commit_point "T_4" T4
             (commit_point "T_3" T3 (commit_point "T_1" T1 t)))) in
  let u := challenge_value "u" t in
  let t := t ++ [TChallenge "u" modbytes] in
  let x := challenge_value "x" t in
  let t := t ++ [TChallenge "x" modbytes] in
  let t := commit_scalar "e_blinding" (eb y z u x) (commit_scalar "t_x_blinding" (txb y z u x)
             (commit_scalar "t_x" (tx y z u x) t)) in
  let w := challenge_value "w" t in
  let t := t ++ [TChallenge "w" modbytes] in
  (obind (create_ipp t (g1_mul w g) (tab N (phase_factor n1 u)) (tab N (fun i => fpow (finv y) i * phase_factor n1 u i))
    (firstn N G) (firstn N H) (tab N (padded n (l y z u x))) (tab N (r y z u x)))
  (fun '(ipp, t) =>
  Done (Ok (R1CSProof AI1 AO1 SS1 AI2 AO2 SS2 T1 T3 T4 T5 T6 (tx y z u x) (txb y z u x) (eb y z u x) ipp, t)))).

(** if everything published agrees for the challenges of the proof, so does the proof *)
Lemma finish_same AI1 AO1 SS1 AI2 AO2 SS2 TT TT' tx txb eb l r tx' txb' eb' l' r' pf tp :
  finish AI1 AO1 SS1 AI2 AO2 SS2 TT tx txb eb l r = Done (Ok (pf, tp)) ->
  let c := protocol_challenges t0 pf in
  TT' (c_y c) (c_z c) = TT (c_y c) (c_z c) ->
  tx' (c_y c) (c_z c) (c_u c) (c_x c) = tx (c_y c) (c_z c) (c_u c) (c_x c) ->
  txb' (c_y c) (c_z c) (c_u c) (c_x c) = txb (c_y c) (c_z c) (c_u c) (c_x c) ->
  eb' (c_y c) (c_z c) (c_u c) (c_x c) = eb (c_y c) (c_z c) (c_u c) (c_x c) ->
  (forall i, (i < n)%nat -> l' (c_y c) (c_z c) (c_u c) (c_x c) i = l (c_y c) (c_z c) (c_u c) (c_x c) i) ->
  (forall i, (i < N)%nat -> r' (c_y c) (c_z c) (c_u c) (c_x c) i = r (c_y c) (c_z c) (c_u c) (c_x c) i) ->
  finish AI1 AO1 SS1 AI2 AO2 SS2 TT' tx' txb' eb' l' r' = Done (Ok (pf, tp)).
Proof.
  unfold finish. set (y := challenge_value "y" _). set (z := challenge_value "z" _).
  destruct (TT y z) as [[[[T1 T3] T4] T5] T6] eqn:ET.
  set (u := challenge_value "u" _). set (x := challenge_value "x" _). set (w := challenge_value "w" _).
  intros E. destruct (create_ipp _ _ _ _ _ _ _ _) as [[ipp tp']|] eqn:EI; [|discriminate E].
  cbn [obind] in E. injection E as Epf Etp. subst pf tp'. unfold protocol_challenges.
  cbn [A_I1 A_O1 S1 A_I2 A_O2 S2 T_1 T_3 T_4 T_5 T_6 t_x t_x_blinding e_blinding]. cbn zeta.
  fold y. fold z. fold u. fold x. fold w. cbn [c_y c_z c_u c_x c_w c_t]. intros E1 E2 E3 E4 E5 E6.
  rewrite E1, ET. fold u. fold x. rewrite E2, E3, E4. fold w.
  rewrite (tab_ext N (padded n (l' y z u x)) (padded n (l y z u x))).
  2:{ intros i Hi. unfold padded. destruct (Nat.ltb_spec i n); [apply E5; assumption|reflexivity]. }
  rewrite (tab_ext N (r' y z u x) (r y z u x)) by exact E6.
  rewrite EI. reflexivity.
Qed.

Section Wit.
Context (wt : wit) (m : masks).
Let aL i := nth i (wit_aL wt) 0.
Let aR i := nth i (wit_aR wt) 0.
Let aO i := nth i (wit_aO wt) 0.
Let sL i := nth i (m_sL m) 0.
Let sR i := nth i (m_sR m) 0.
Let wL z i := wf z (VLeft i).
Let wR z i := wf z (VRight i).
Let wO z i := wf z (VOut i).
Let wV z i := - wf z (VCommitted i).

Definition c_l1 (y z : F) (i : nat) : F := aL i + fpow (finv y) i * wR z i.
Definition c_r0 (y z : F) (i : nat) : F := wO z i - fpow y i.
Definition c_r1 (y z : F) (i : nat) : F := fpow y i * aR i + wL z i.
Definition c_r3 (y z : F) (i : nat) : F := fpow y i * sR i.
Definition c_poly (y z : F) : poly6 :=
  Poly6 (sum_n n (fun i => c_l1 y z i * c_r0 y z i))
    (sum_n n (fun i => c_l1 y z i * c_r1 y z i) + sum_n n (fun i => aO i * c_r0 y z i))
    (sum_n n (fun i => aO i * c_r1 y z i) + sum_n n (fun i => sL i * c_r0 y z i))
    (sum_n n (fun i => c_l1 y z i * c_r3 y z i) + sum_n n (fun i => sL i * c_r1 y z i))
    (sum_n n (fun i => aO i * c_r3 y z i)) (sum_n n (fun i => sL i * c_r3 y z i)).
Definition c_TT (y z : F) : G1 * G1 * G1 * G1 * G1 :=
  (commit g h (t1 (c_poly y z)) (m_t1 m), commit g h (t3 (c_poly y z)) (m_t3 m), commit g h (t4 (c_poly y z)) (m_t4 m),
   commit g h (t5 (c_poly y z)) (m_t5 m), commit g h (t6 (c_poly y z)) (m_t6 m)).
Definition c_tx (y z u x : F) : F := poly6_eval (c_poly y z) x.
Definition c_t2b (z : F) : F := ip (tab (length (wit_vb wt)) (wV z)) (wit_vb wt).
Definition c_txb (y z u x : F) : F :=
  poly6_eval (Poly6 (m_t1 m) (c_t2b z) (m_t3 m) (m_t4 m) (m_t5 m) (m_t6 m)) x.
Definition c_eb (y z u x : F) : F :=
  x * ((m_i1 m + u * m_i2 m) + x * ((m_o1 m + u * m_o2 m) + x * (m_b1 m + u * m_b2 m))).
Definition c_lx (y z u x : F) (i : nat) : F := x * (c_l1 y z i + x * (aO i + x * sL i)).
Definition c_rx (y z u x : F) (i : nat) : F :=
  if Nat.ltb i n then c_r0 y z i + x * (c_r1 y z i + x * (x * c_r3 y z i)) else - fpow y i.

Definition core : outcome (result (r1cs_proof * transcript)) :=
  finish (first_point (wit_aL wt) (wit_aR wt) (m_i1 m)) (first_point_o (wit_aO wt) (m_o1 m))
    (first_point (m_sL m) (m_sR m) (m_b1 m)) (second_point (wit_aL wt) (wit_aR wt) (m_i2 m))
    (second_point_o (wit_aO wt) (m_o2 m)) (second_point (m_sL m) (m_sR m) (m_b2 m))
    c_TT c_tx c_txb c_eb c_lx c_rx.
End Wit.
End Core.

(** the values [prove] draws from position [c0] and, after the second phase, from [c1] *)
Definition draw (W : world) (c0 c1 n1 n : nat) : masks :=
  let has := Nat.ltb 0 (n - n1) in
  let c2 := if has then (c1 + 3)%nat else c1 in
  let c3 := (c2 + (n - n1) + (n - n1))%nat in
  {| m_i1 := w_random W c0; m_o1 := w_random W (c0 + 1); m_b1 := w_random W (c0 + 2);
     m_i2 := if has then w_random W c1 else 0;
     m_o2 := if has then w_random W (c1 + 1) else 0;
     m_b2 := if has then w_random W (c1 + 2) else 0;
     m_sL := randoms W (c0 + 3) n1 ++ randoms W c2 (n - n1);
     m_sR := randoms W (c0 + 3 + n1) n1 ++ randoms W (c2 + (n - n1)) (n - n1);
     m_t1 := w_random W c3; m_t3 := w_random W (c3 + 1); m_t4 := w_random W (c3 + 2);
     m_t5 := w_random W (c3 + 3); m_t6 := w_random W (c3 + 4) |}.

Definition wit_of (s : prover) : wit := Wit (p_aL s) (p_aR s) (p_aO s) (p_v_blinding s).

Lemma app_split (a b : list F) k : length a = k -> firstn k (a ++ b) = a /\ skipn k (a ++ b) = b.
Proof.
  intros El. rewrite <- El, firstn_app, skipn_app, Nat.sub_diag, firstn_all, skipn_all. cbn. rewrite app_nil_r. auto.
Qed.

Theorem prove_core W s G H s2 :
  let n := length (p_aL s2) in
  let n1 := length (p_aL s) in
  let N := next_power_of_two n in
  pwf s -> prover_create_randomized_constraints W (hp_state1 W s G H) = Done (Ok s2) ->
  (N <= length G)%nat -> (N <= length H)%nat -> Forall (lc_in_range n (length (p_v s2))) (p_constraints s2) ->
  prove W s G H = core (p_g s) (p_h s) G H n1 n (weight (p_constraints s2)) (p_transcript s2) (wit_of s2) (draw W (p_nrand s) (p_nrand s2) n1 n).
Proof.
  intros n n1 N Hwf E2 HG HH Hr. set (c0 := p_nrand s). set (cs := p_constraints s2) in *.
  assert (Hwf1 : pwf (hp_state1 W s G H)) by (eapply pwf_same_wires; [..|exact Hwf]; reflexivity).
  destruct (prover_second_phase_ext _ _ _ Hwf1 E2) as
    (Hwf2 & Eg & Eh & Ev & Evb & Hle & EaL & EaR & EaO & _ & _ & _).
  cbn [hp_state1 p_with_transcript p_with_nrand p_aL p_aR p_aO p_g p_h p_v p_v_blinding] in *.
  fold n1 in Hle, EaL, EaR, EaO. fold n in Hle.
  pose proof (next_power_of_two_ge n : n <= N)%nat as HnN.
  pose proof (pwf_aR _ Hwf) as LaR. pose proof (pwf_aO _ Hwf) as LaO. fold n1 in LaR, LaO.
  pose proof (pwf_aR _ Hwf2) as LaR2. pose proof (pwf_aO _ Hwf2) as LaO2. fold n in LaR2, LaO2.
  unfold prove. cbn [p_with_transcript p_with_nrand p_transcript p_aL p_aR p_aO p_g p_h p_v p_v_blinding p_nrand].
  fold n1 c0. destruct (Nat.ltb_spec (length G) n1); [lia|].
  rewrite (slice_to_ok n1 G) by lia. cbn [obind]. rewrite (slice_to_ok n1 H) by lia. cbn [obind].
  rewrite commit_vectors_ok by (rewrite firstn_length; fold n1; lia). cbn [obind].
  rewrite msm_checked_ok by (rewrite firstn_length; lia). cbn [obind].
  rewrite commit_vectors_ok by (rewrite firstn_length, randoms_length; lia). cbn [obind].
  match goal with |- context [prover_create_randomized_constraints W ?e] => change e with (hp_state1 W s G H) end.
  rewrite E2. cbn [orbind].
  fold n. fold N. destruct (Nat.ltb_spec (length G) N); [lia|].
  set (has := Nat.ltb 0 (n - n1)). set (c1 := p_nrand s2).
  set (ib2 := if has then w_random W c1 else 0).
  set (ob2 := if has then w_random W (c1 + 1) else 0).
  set (sb2 := if has then w_random W (c1 + 2) else 0).
  set (c2 := if has then (c1 + 3)%nat else c1).
  set (sL2 := randoms W c2 (n - n1)). set (sR2 := randoms W (c2 + (n - n1)) (n - n1)).
  set (h := p_h s2).
  set (AI2 := g1_add (g1_add (msm (skipn n1 (p_aL s2)) (firstn (n - n1) (skipn n1 G)))
                             (msm (skipn n1 (p_aR s2)) (firstn (n - n1) (skipn n1 H)))) (g1_mul ib2 h)).
  set (AO2 := g1_add (msm (skipn n1 (p_aO s2)) (firstn (n - n1) (skipn n1 G))) (g1_mul ob2 h)).
  set (SS2 := g1_add (g1_add (msm sL2 (firstn (n - n1) (skipn n1 G)))
                             (msm sR2 (firstn (n - n1) (skipn n1 H)))) (g1_mul sb2 h)).
  match goal with |- obind ?e _ = _ => assert (Esec : e = Done (AI2, AO2, SS2)) end.
  { unfold has in *. destruct (Nat.ltb_spec 0 (n - n1)) as [Hn2|Hn2].
    - rewrite (slice_ok n1 n G) by lia. rewrite (slice_ok n1 n H) by lia. fold n. rewrite (slice_ok n1 n (p_aL s2)) by (fold n; lia).
      rewrite (slice_ok n1 (length (p_aR s2)) (p_aR s2)) by lia. rewrite (slice_ok n1 (length (p_aO s2)) (p_aO s2)) by lia. cbn [obind].
      rewrite (firstn_all2 (skipn n1 (p_aL s2))) by (rewrite skipn_length; lia).
      rewrite (firstn_all2 (skipn n1 (p_aR s2))) by (rewrite skipn_length; lia).
      rewrite (firstn_all2 (skipn n1 (p_aO s2))) by (rewrite skipn_length; lia).
      rewrite commit_vectors_ok by (rewrite ?firstn_length, ?skipn_length; fold n; lia). cbn [obind].
      rewrite msm_checked_ok by (rewrite ?firstn_length, ?skipn_length; fold n; lia). cbn [obind].
      rewrite commit_vectors_ok
        by (unfold sL2, sR2; rewrite ?firstn_length, ?skipn_length, ?randoms_length; fold n; lia).
      reflexivity.
    - assert (n - n1 = 0)%nat as Z by lia. unfold AI2, AO2, SS2, ib2, ob2, sb2. rewrite Z. cbn [firstn].
      rewrite !msm_nil_r, !g1_mul_zero, !g1_id_r. reflexivity. }
  rewrite Esec. cbn [obind]. clear Esec.
  unfold core, finish. fold N.
  set (m := draw W c0 c1 n1 n).
  assert (EsL : m_sL m = randoms W (c0 + 3) n1 ++ sL2) by reflexivity.
  assert (EsR : m_sR m = randoms W (c0 + 3 + n1) n1 ++ sR2) by reflexivity.
  destruct (app_split (randoms W (c0 + 3) n1) sL2 n1 (randoms_length _ _ _)) as [F1 F2].
  destruct (app_split (randoms W (c0 + 3 + n1) n1) sR2 n1 (randoms_length _ _ _)) as [F3 F4].
  assert (A1 : second_point (p_h s) G H n1 n (wit_aL (wit_of s2)) (wit_aR (wit_of s2)) (m_i2 m) = AI2)
    by (unfold second_point, AI2, h; rewrite Eh; reflexivity).
  assert (A2 : second_point_o (p_h s) G n1 n (wit_aO (wit_of s2)) (m_o2 m) = AO2)
    by (unfold second_point_o, AO2, h; rewrite Eh; reflexivity).
  assert (A3 : second_point (p_h s) G H n1 n (m_sL m) (m_sR m) (m_b2 m) = SS2)
    by (unfold second_point, SS2, h; rewrite Eh, EsL, EsR, F2, F4; reflexivity).
  assert (B1 : first_point (p_h s) G H n1 (wit_aL (wit_of s2)) (wit_aR (wit_of s2)) (m_i1 m) =
     g1_add (g1_add (msm (p_aL s) (firstn n1 G)) (msm (p_aR s) (firstn n1 H))) (g1_mul (w_random W c0) (p_h s)))
    by (unfold first_point; cbn [wit_of wit_aL wit_aR]; rewrite EaL, EaR; reflexivity).
  assert (B2 : first_point_o (p_h s) G n1 (wit_aO (wit_of s2)) (m_o1 m) =
     g1_add (msm (p_aO s) (firstn n1 G)) (g1_mul (w_random W (c0 + 1)) (p_h s)))
    by (unfold first_point_o; cbn [wit_of wit_aO]; rewrite EaO; reflexivity).
  assert (B3 : first_point (p_h s) G H n1 (m_sL m) (m_sR m) (m_b1 m) =
     g1_add (g1_add (msm (randoms W (c0 + 3) n1) (firstn n1 G)) (msm (randoms W (c0 + 3 + n1) n1) (firstn n1 H)))
       (g1_mul (w_random W (c0 + 2)) (p_h s)))
    by (unfold first_point; rewrite EsL, EsR, F1, F3; reflexivity).
  rewrite A1, A2, A3, B1, B2, B3. clear A1 A2 A3 B1 B2 B3 F1 F2 F3 F4.
  unfold challenge_scalar at 1 2. cbn [fst snd].
  set (y := challenge_value "y" _). set (z := challenge_value "z" _).
  rewrite (prover_flattened_ok s2 z Hr). cbn [obind]. fold n cs.
  set (wL := fun j => weight cs z (VLeft j)). set (wR := fun j => weight cs z (VRight j)).
  set (wO := fun j => weight cs z (VOut j)). set (wV := fun j => - weight cs z (VCommitted j)).
  rewrite <- EsL, <- EsR.
  assert (LsL : length (m_sL m) = n) by (rewrite EsL; unfold sL2; rewrite app_length, !randoms_length; lia).
  assert (LsR : length (m_sR m) = n) by (rewrite EsR; unfold sR2; rewrite app_length, !randoms_length; lia).
  rewrite LsL, LsR, Nat.min_id.
  set (aL := fun i => nth i (p_aL s2) 0). set (aR := fun i => nth i (p_aR s2) 0). set (aO := fun i => nth i (p_aO s2) 0).
  set (fsL := fun i => nth i (m_sL m) 0). set (fsR := fun i => nth i (m_sR m) 0).
  set (yi := finv y).
  rewrite (mapM_ok _ (fun i => (aL i + fpow yi i * wR i, aO i, fsL i, wO i - fpow y i,
     fpow y i * aR i + wL i, fpow y i * fsR i))).
  2:{ intros i Hi. apply in_seq in Hi. unfold prover_lr_entry.
      rewrite (index_ok (p_aL s2) i 0) by (fold n; lia). cbn [obind].
      rewrite (index_ok (p_aR s2) i 0) by lia. cbn [obind].
      rewrite (index_ok (p_aO s2) i 0) by lia. cbn [obind].
      rewrite tab_vandermonde, (index_ok _ i 0) by (rewrite tab_length; lia). cbn [obind].
      rewrite (index_ok (tab n wL) i 0) by (rewrite tab_length; lia). rewrite (index_ok (tab n wR) i 0) by (rewrite tab_length; lia).
      rewrite (index_ok (tab n wO) i 0) by (rewrite tab_length; lia). rewrite (index_ok (m_sL m) i 0) by lia. rewrite (index_ok (m_sR m) i 0) by lia.
      cbn [obind]. rewrite !tab_nth by lia. reflexivity. }
  cbn [obind]. rewrite !map_map.
  change (map (fun i => aL i + fpow yi i * wR i) (seq 0 n)) with (tab n (fun i => aL i + fpow yi i * wR i)).
  change (map (fun i => aO i) (seq 0 n)) with (tab n aO).
  change (map (fun i => fsL i) (seq 0 n)) with (tab n fsL).
  change (map (fun i => wO i - fpow y i) (seq 0 n)) with (tab n (fun i => wO i - fpow y i)).
  change (map (fun i => fpow y i * aR i + wL i) (seq 0 n)) with (tab n (fun i => fpow y i * aR i + wL i)).
  change (map (fun i => fpow y i * fsR i) (seq 0 n)) with (tab n (fun i => fpow y i * fsR i)).
  rewrite !overwrite_tab. cbn [obind].
  unfold special_inner_product. cbn [vp3_0 vp3_1 vp3_2 vp3_3].
  rewrite !inner_product_ok by (rewrite !tab_length; reflexivity). cbn [obind]. rewrite !ip_tab.
  set (tp := Poly6 _ _ _ _ _ _).
  change (c_poly n (weight cs) (wit_of s2) m y z) with tp. unfold c_TT. fold h. rewrite <- Eg, <- Eh. fold h.
  change (c_poly n (weight cs) (wit_of s2) m y z) with tp.
  cbn [t1 t2 t3 t4 t5 t6].
  change (m_t1 m) with (w_random W (c2 + (n - n1) + (n - n1))%nat).
  change (m_t3 m) with (w_random W (c2 + (n - n1) + (n - n1) + 1)%nat).
  change (m_t4 m) with (w_random W (c2 + (n - n1) + (n - n1) + 2)%nat).
  change (m_t5 m) with (w_random W (c2 + (n - n1) + (n - n1) + 3)%nat).
  change (m_t6 m) with (w_random W (c2 + (n - n1) + (n - n1) + 4)%nat).
  set (T1 := commit _ _ (t1 tp) _). set (T3 := commit _ _ (t3 tp) _). set (T4 := commit _ _ (t4 tp) _).
  set (T5 := commit _ _ (t5 tp) _). set (T6 := commit _ _ (t6 tp) _).
  unfold challenge_scalar at 1 2. cbn [fst snd].
  set (u := challenge_value "u" _). set (x := challenge_value "x" _).
  rewrite inner_product_ok by (rewrite tab_length; symmetry; apply (pwf_vb _ Hwf2)). cbn [obind].
  unfold vec_poly3_eval at 1 2. cbn [vp3_0 vp3_1 vp3_2 vp3_3].
  rewrite zeros_length, tab_length.
  set (lx := c_lx (weight cs) (wit_of s2) m y z u x).
  set (rx := c_rx n (weight cs) (wit_of s2) m y z u x).
  rewrite (mapM_ok _ lx).
  2:{ intros i Hi. apply in_seq in Hi. rewrite tab_zeros.
      rewrite !(index_ok (tab n _) i 0) by (rewrite tab_length; lia). cbn [obind]. rewrite !tab_nth by lia. f_equal.
      unfold lx, c_lx, c_l1. cbn [wit_of wit_aL wit_aO]. fold (aL i) (aO i) (fsL i) (wR i). fold yi. ring. }
  cbn [obind].
  rewrite (mapM_ok _ rx).
  2:{ intros i Hi. apply in_seq in Hi. rewrite tab_zeros.
      rewrite !(index_ok (tab n _) i 0) by (rewrite tab_length; lia). cbn [obind]. rewrite !tab_nth by lia. f_equal.
      unfold rx, c_rx, c_r0, c_r1, c_r3. destruct (Nat.ltb_spec i n); [|lia].
      cbn [wit_of wit_aR]. fold (aR i) (fsR i) (wL i) (wO i). ring. }
  cbn [obind].
  change (map lx (seq 0 n)) with (tab n lx). change (map rx (seq 0 n)) with (tab n rx).
  rewrite (tab_app_zeros n N lx) by assumption.
  assert (Erx : tab n rx ++ map (fun i => - fpow y (n + i)) (seq 0 (N - n)) = tab N rx).
  { apply nth_ext with (d := 0) (d' := 0).
    - rewrite app_length, map_length, seq_length, !tab_length. lia.
    - rewrite app_length, map_length, seq_length, tab_length. intros i Hi. rewrite (tab_nth N) by lia.
      destruct (Nat.lt_ge_cases i n).
      + rewrite app_nth1 by (rewrite tab_length; lia). apply tab_nth. assumption.
      + rewrite app_nth2 by (rewrite tab_length; lia). rewrite tab_length.
        rewrite nth_map_seq by lia. unfold rx, c_rx. destruct (Nat.ltb_spec i n); [lia|]. do 2 f_equal. lia. }
  rewrite Erx. clear Erx.
  unfold challenge_scalar at 1. cbn [fst snd].
  rewrite (phase_factors_tab n1 n N u) by assumption.
  rewrite tab_vandermonde, zipw_tab. change (map _ (seq 0 N)) with (tab N (fun i => fpow yi i * phase_factor n1 u i)).
  rewrite !slice_to_ok by assumption. cbn [obind].
  assert (Etb : c_txb (weight cs) (wit_of s2) m y z u x =
    poly6_eval (Poly6 (w_random W (c2 + (n - n1) + (n - n1))%nat) (ip (tab (length (p_v s2)) wV) (p_v_blinding s2))
      (w_random W (c2 + (n - n1) + (n - n1) + 1)%nat) (w_random W (c2 + (n - n1) + (n - n1) + 2)%nat)
      (w_random W (c2 + (n - n1) + (n - n1) + 3)%nat) (w_random W (c2 + (n - n1) + (n - n1) + 4)%nat)) x).
  { unfold c_txb, c_t2b. cbn [wit_of wit_vb]. rewrite (pwf_vb _ Hwf2). reflexivity. }
  rewrite Etb. reflexivity.
Qed.
End WICore.
