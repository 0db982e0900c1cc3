(** A concrete two-phase session over the toy backend, used to show that the
    hypotheses of the theorems are met: knowledge of x, y, z with x * y = z,
    re-checked in the second phase at a random point. *)
From Coq Require Import ZArith String List Bool.
From Verif.Base Require Import Outcome Fp Params Algebra Instances.
From Verif.Model Require Import Transcript LinComb Prog VectorPoly IPP Prover Verifier.
From Verif.Spec Require Import R1CS Sim Session Protocol.
Import ListNotations.
Local Open Scope prog_scope.

#[local] Existing Instance toyP.
#[local] Existing Instance toyP_ok.

Definition fe (z : Z) : F := of_Z _ z.

Section Circuit.
Context {CA CR : Type}.
Definition circuit2 (x y z : var) : prog CA CR (result unit) :=
  (c <- cs_challenge "gamma" ;;
   vs <- cs_multiply [(x, fe 1); (VOne, fopp c)] [(y, fe 1); (VOne, fopp c)] ;;
   cs_constrain [(snd vs, fe 1); (z, fopp (fe 1)); (x, c); (y, c); (VOne, fopp (fmul c c))] ;;;
   PRet (Ok tt))%prog.

Definition circuit (x y z : var) (wit : option (F * F)) : prog CA CR (result unit) :=
  (vs <- cs_multiply [(x, fe 1)] [(y, fe 1)] ;;
   cs_constrain [(snd vs, fe 1); (z, fopp (fe 1))] ;;;
   a <-? cs_allocate (option_map fst wit) ;;
   b <-? cs_allocate (option_map snd wit) ;;
   cs_constrain [(a, fe 1); (x, fopp (fe 1))] ;;;
   cs_constrain [(b, fe 1); (y, fopp (fe 1))] ;;;
   cs_specify (circuit2 x y z))%prog.
End Circuit.

Definition demo_prove (x y z : F) : pprog (result unit) :=
  (vx <- cs_commit (x, fe 11) ;; vy <- cs_commit (y, fe 12) ;; vz <- cs_commit (z, fe 13) ;;
   circuit (snd vx) (snd vy) (snd vz) (Some (x, y)))%prog.
Definition demo_verify (X Y Z : G1) : vprog (result unit) :=
  (vx <- cs_commit X ;; vy <- cs_commit Y ;; vz <- cs_commit Z ;; circuit vx vy vz None)%prog.

Definition demoW : world := World (fun n => fe (Z.of_nat (7 * n + 3))) (fun n => [n]).
Definition demoW' : world := World (fun n => fe (Z.of_nat (5 * n + 1))) (fun n => []).
Definition demo_g : G1 := fe 5.
Definition demo_h : G1 := fe 8.
Definition demo_G : list G1 := map (fun n => fe (Z.of_nat (31 * n + 2))) (seq 0 8).
Definition demo_H : list G1 := map (fun n => fe (Z.of_nat (37 * n + 5))) (seq 0 8).

Definition demo_pp : pprog (result unit) := demo_prove (fe 6) (fe 7) (fe 42).
Definition demo_V (v b : Z) : G1 := commit demo_g demo_h (fe v) (fe b).
Definition demo_vp : vprog (result unit) := demo_verify (demo_V 6 11) (demo_V 7 12) (demo_V 42 13).

Lemma lc_same_refl l : lc_same l l.
Proof. split; [intro; reflexivity|intro; tauto]. Qed.

Lemma demo_sim x y z : sim demo_g demo_h eq (demo_prove x y z)
  (demo_verify (commit demo_g demo_h x (fe 11)) (commit demo_g demo_h y (fe 12)) (commit demo_g demo_h z (fe 13))).
Proof.
  repeat (cbn [pbind ptry cs_commit cs_multiply cs_allocate cs_constrain cs_specify cs_challenge option_map fst snd
               demo_prove demo_verify circuit circuit2];
          unfold demo_prove, demo_verify, circuit, circuit2, cs_commit, cs_multiply, cs_allocate, cs_constrain, cs_specify, cs_challenge, ptry;
          first [apply sim_commit|apply sim_multiply|apply sim_constrain|apply sim_allocate|apply sim_specify
                |apply sim_challenge|apply sim_ret|apply lc_same_refl|reflexivity|intros]).
Qed.

(** the prover's state after the first phase, its second phase, and the proof *)
Definition demo_s : prover :=
  match prun demoW false demo_pp (prover_new demo_g demo_h []) with
  | Done (_, s) => s | Panic => prover_new demo_g demo_h [] end.
Definition demo_s2 : prover :=
  match prover_create_randomized_constraints demoW (hp_state1 demoW demo_s demo_G demo_H) with
  | Done (Ok s) => s | _ => demo_s end.
Definition demo_result : r1cs_proof * transcript :=
  match prove demoW demo_s demo_G demo_H with
  | Done (Ok r) => r
  | _ => (R1CSProof g1_id g1_id g1_id g1_id g1_id g1_id g1_id g1_id g1_id g1_id g1_id (fe 0) (fe 0) (fe 0)
            (IPPProof [] [] (fe 0) (fe 0)), [])
  end.
Definition demo_proof := fst demo_result.
Definition demo_vs : verifier :=
  match vrun demoW' false demo_vp (verifier_new []) with
  | Done (_, s) => s | Panic => verifier_new [] end.
Definition demo_vs2 : verifier :=
  match verifier_create_randomized_constraints demoW'
    (v_with_transcript (first_phase_transcript demo_proof (length (v_V demo_vs)) (v_transcript demo_vs)) demo_vs) with
  | Done (Ok s) => s | _ => demo_vs end.

Definition is_done {A} (o : outcome (result A)) : bool := match o with Done (Ok _) => true | _ => false end.

Lemma demo_run : prun demoW false demo_pp (prover_new demo_g demo_h []) = Done (Ok tt, demo_s).
Proof. unfold demo_s. destruct (prun demoW false demo_pp (prover_new demo_g demo_h [])) as [[[[]|] s]|] eqn:E; [reflexivity| |];
  assert (X : match prun demoW false demo_pp (prover_new demo_g demo_h []) with Done (Ok tt, _) => true | _ => false end = true) by (vm_compute; reflexivity);
  rewrite E in X; discriminate X.
Qed.

Ltac run_ok d := match goal with |- ?t = Done (Ok _) =>
  assert (is_done t = true) as X by (vm_compute; reflexivity); unfold d; destruct t as [[|]|]; [reflexivity|discriminate X|discriminate X] end.

Lemma demo_second : prover_create_randomized_constraints demoW (hp_state1 demoW demo_s demo_G demo_H) = Done (Ok demo_s2).
Proof. run_ok demo_s2. Qed.

Lemma demo_prove_ok : prove demoW demo_s demo_G demo_H = Done (Ok (demo_proof, snd demo_result)).
Proof. transitivity (Done (Ok demo_result)); [run_ok demo_result|]. unfold demo_proof. destruct demo_result. reflexivity. Qed.

Lemma demo_vrun : vrun demoW' false demo_vp (verifier_new []) = Done (Ok tt, demo_vs).
Proof. unfold demo_vs. destruct (vrun demoW' false demo_vp (verifier_new [])) as [[[[]|] s]|] eqn:E; [reflexivity| |];
  assert (X : match vrun demoW' false demo_vp (verifier_new []) with Done (Ok tt, _) => true | _ => false end = true) by (vm_compute; reflexivity);
  rewrite E in X; discriminate X.
Qed.

Lemma demo_vsecond : verifier_create_randomized_constraints demoW'
    (v_with_transcript (first_phase_transcript demo_proof (length (v_V demo_vs)) (v_transcript demo_vs)) demo_vs) = Done (Ok demo_vs2).
Proof. run_ok demo_vs2. Qed.

Lemma demo_reachable : p_reachable false demo_s.
Proof. econstructor. exact demo_run. Qed.
