(** The tables of the feature bn254 on amcl's curve BN254, whose order is not the one
    the tables are made for. *)
From Coq Require Import ZArith Znumtheory String List Lia Bool Ring Field HexString.
From Verif.Base Require Import Outcome Fp Params Algebra.
From Verif.Model Require Import Hash PoseidonNew.
From Verif.Spec Require Import R1CS HashSpec PoseidonSpec.
From Verif.Proofs Require Import HashTools Fermat PoseidonMain PoseidonBijection.
Import ListNotations.

Definition bn254_inverse_3 : list (list Z) := [
  [0x22982cc3c0d2aa02e376009f466b3fcc49ab0aa3bf207b87d59c5fea85e851a6;
   0x3fa3dc2b552175f69694667326c572907f7bdcc95368108bfcfe33c9f9c8ad6;
   0x1189a1616bb3c9febcc04feee0379989c0b8e79e198b8994d34b5df64c6df899];
  [0x3fa3dc2b552175f69694667326c572907f7bdcc95368108bfcfe33c9f9c8ad6;
   0xdbbc6323f2f2e37afe8293a6ff22a0e3bc1f7e54c819b8574ede968f9e673b6;
   0x9ecef1063d744d8269bb1721ef84b3eb194ab94883e36073ba75e6f5e779ade];
  [0x1189a1616bb3c9febcc04feee0379989c0b8e79e198b8994d34b5df64c6df899;
   0x9ecef1063d744d8269bb1721ef84b3eb194ab94883e36073ba75e6f5e779ade;
   0x189d3edae259c517081cbf73d302ff3cd4aa0397de18e5329f708a7e990a5a42]
]%Z.
Definition bn254_inverse_5 : list (list Z) := [
  [0xb27afb4ca2371ff3f4e647df433f8a6042c4f66a2fc8b76f9fe4457adda31e9;
   0x12b5ad56a030fb087e4575c9911b3942246e4ae2b41b37b017c76b532bd7b2d9;
   0x551e871468868257d443a1d4571ab90663245da7028136fb040d5aad4f214d2;
   0x125a37a20a86d43945e9ecbd58ed2ea69d84bd4a61a240f8a2305d024321e405;
   0x20dc3857023c6a45d906411c678fa677448fd4185e0b87cdba5388a99562ab04];
  [0x12b5ad56a030fb087e4575c9911b3942246e4ae2b41b37b017c76b532bd7b2d9;
   0x214cdd3ccc0a6a332f1928f8a718ceddc9cb77fa0b355c6eedbdb249878c22e7;
   0x1232cccae2ba77844170f28ec1864cd519d9eed464331f532ace61aa5521dba7;
   0xca616b4086c169058d6132a10d9ecb6a1dfc5395363e6b39e64bef022ca2d5f;
   0x1d2d5de63d862f17be0b80bbc3a2f1b62f8a304ce661f1ce2fafd5357325d01a];
  [0x551e871468868257d443a1d4571ab90663245da7028136fb040d5aad4f214d2;
   0x1232cccae2ba77844170f28ec1864cd519d9eed464331f532ace61aa5521dba7;
   0x2127d75a357dd33cc458bc7e5257d2bdccba356b953c169922501335e7038b6;
   0x13c07a2ca380cad299786cf67a17bcd541153e8307627b5e7feeb14d3594e04b;
   0x8c3f1edc41ee27281a3aba31cfc047bc01159ab7756e031d067f91959377d73];
  [0x125a37a20a86d43945e9ecbd58ed2ea69d84bd4a61a240f8a2305d024321e405;
   0xca616b4086c169058d6132a10d9ecb6a1dfc5395363e6b39e64bef022ca2d5f;
   0x13c07a2ca380cad299786cf67a17bcd541153e8307627b5e7feeb14d3594e04b;
   0xd5caa86c545f7596b70f05d7edc90d6352eca660d074cecb37d6fcabe54f60;
   0xa4083eb5abe50a68aada7f8bd64f04585223ee9007adfc10b0cb5be3ce7f940];
  [0x20dc3857023c6a45d906411c678fa677448fd4185e0b87cdba5388a99562ab04;
   0x1d2d5de63d862f17be0b80bbc3a2f1b62f8a304ce661f1ce2fafd5357325d01a;
   0x8c3f1edc41ee27281a3aba31cfc047bc01159ab7756e031d067f91959377d73;
   0xa4083eb5abe50a68aada7f8bd64f04585223ee9007adfc10b0cb5be3ce7f940;
   0x62c88922d7645b6efae308cc2a84965408c0c9c3896a537a92fc4185d434ade]
]%Z.
Definition bn254_inverse_9 : list (list Z) := [
  [0x1552e842e8400f37b84c563d25c55497699068d6db9882d6f4d499ec68df793a;
   0x16bc0f0515a0ccb26bb411078402b9b15f99d91b1a0d9fba105b285b088a2df7;
   0xf02735fc69e8f47e68be1e0f2b782643cdb11c990d756163eb53389c623517f;
   0x8240497d90be5207779d09cb7cb241a16b3945d5109f569d853b5c9c26c38f3;
   0x733118d50f7088c7d856fb329a273c309ada655661c1e9ef6f28d5c8ea85750;
   0x242a846779bc5c689263c75ef89fe2f1aa07fdb995bcd973f3a25e90443e69c0;
   0x9da8d434a89a038000af10d77284cdd482a11cc72358554e056ed4658762c57;
   0x24785af655d206961a99165d8d9d2cc3eae0d7cbcd98d47ecb24d0ab7acb5746;
   0x1a555d23f6454f86b2c1e079b96ac42c799324981398e7499905d8b7cc75ef88];
  [0x16bc0f0515a0ccb26bb411078402b9b15f99d91b1a0d9fba105b285b088a2df7;
   0x3b6ed80d12723afa025bfb332b32fe6dd42c9086813138cdd1e18006712d1bf;
   0x1775dd87ebba2f0b6f96cd22043b58a40a6a757db671f13cc569dbd700c0900e;
   0x2efdd8052ba83fcd8e3a7c0621a2eeddb206301524d0c752afef4e9c6dd7498;
   0x11396bcccda82b24c5444ca22600b848342862d78ed1171efacf9227128a3e8e;
   0xff3b2bbd767c31b56bcd25e3dcf7a2498f7a835a71cae6db142152a4834a1c1;
   0x1e48d859fc4783d287788e5111f003bdc66d799c633c4980e37966219dc7e6c3;
   0x781a56ea439693826ddfbb2c579525cca4347000cb751a2dcd3e688cf746d3b;
   0xc3f3d460f9307e16d9f0e639a15a6adb42ab328f9f5e4ef42c7671cfc0f1ae6];
  [0xf02735fc69e8f47e68be1e0f2b782643cdb11c990d756163eb53389c623517f;
   0x1775dd87ebba2f0b6f96cd22043b58a40a6a757db671f13cc569dbd700c0900e;
   0x10397896069117d1b33a0ba62038068924276868ac1792c927c700b57d20ddbe;
   0x19625a87b754d9b5664eff47758dc2b59a0c7dc39ba82ed593c9b3ad671ab089;
   0xf6aec057cd2045ca980deabd3a5a0dd662c0f0c1401a3444c73560530435657;
   0x18ea4beadf18571621f86d120d00ce8fc128c9fc8b6eb0ec3ec6de7ca406e4;
   0x20c49faca459f50bbc7cc9a9ea18476ff06128d37f2f7c9a5ffa1b11367aa441;
   0x15f44f0d7d6d339a81dc41b5ec40c4c1f1aef549ff3be812acd75fb29688d53c;
   0x19c77726b5e69bc9ae8e78adc1d1ecd317844b16a7d1752da12a3c6f7bb059bf];
  [0x8240497d90be5207779d09cb7cb241a16b3945d5109f569d853b5c9c26c38f3;
   0x2efdd8052ba83fcd8e3a7c0621a2eeddb206301524d0c752afef4e9c6dd7498;
   0x19625a87b754d9b5664eff47758dc2b59a0c7dc39ba82ed593c9b3ad671ab089;
   0x36bc253523f099a6402ed5823d535f535dcb83d03373a1289e1f76227bb2ab7;
   0x206b1cfae3a7961fc5daa80f18771223c69d1da85b12438667d37dcd3c178d4d;
   0x200521a689cbd59937f7fd45350a364cd174a408fd7d0039dda18a254f9742c5;
   0x8102449aa00e666158ab0a6e50e3ffc919336fc9bbbbfc3e79807f96224a236;
   0xb9c64e42f83480ac7f39d2af65cdda3d4f88f2d9b9f01878a5ce6a81982363d;
   0xa406d3c3e382457daf0953feec8a2eb8dac0cd6030ce602424ac0b26de298e7];
  [0x733118d50f7088c7d856fb329a273c309ada655661c1e9ef6f28d5c8ea85750;
   0x11396bcccda82b24c5444ca22600b848342862d78ed1171efacf9227128a3e8e;
   0xf6aec057cd2045ca980deabd3a5a0dd662c0f0c1401a3444c73560530435657;
   0x206b1cfae3a7961fc5daa80f18771223c69d1da85b12438667d37dcd3c178d4d;
   0x6bd500b8df20c57ac829218b0c29ee3ccc4535842ac6961af8a71e1bd05440a;
   0x95fd9fe40bbb985f3fcf0a25f7972240701163d8eb122406e38ef938db1dbd3;
   0x12df288f45eb401b774d114b8fd48351f9784d23973e65cda3258eccfcb388f2;
   0x19991eb90c1d7319cca8b14f2544b0eb266a2c6334b0db7861801ed4f932ba4e;
   0x21c5ea3b74ed240687662cb01ec6a86e28db37d610b5db714011626c602e8fcb];
  [0x242a846779bc5c689263c75ef89fe2f1aa07fdb995bcd973f3a25e90443e69c0;
   0xff3b2bbd767c31b56bcd25e3dcf7a2498f7a835a71cae6db142152a4834a1c1;
   0x18ea4beadf18571621f86d120d00ce8fc128c9fc8b6eb0ec3ec6de7ca406e4;
   0x200521a689cbd59937f7fd45350a364cd174a408fd7d0039dda18a254f9742c5;
   0x95fd9fe40bbb985f3fcf0a25f7972240701163d8eb122406e38ef938db1dbd3;
   0x4fd800d8f9965dfcfe03d0a52b3badb1b7180fc35a47cf64d52b0fb17bfb56a;
   0x2316008624a0ecac7a6c69c968e35d607dcff5847f318c756a4ae2cfbb2cb3d9;
   0x538363bf4e19a77816fb2f3a1affc1aa570a6a9f6f609dfef9d833e19c1b0ba;
   0x88e2e53b1857fe4f1cea0ff0cd0ae2aa62316522cda44d9be59de2be572c3e];
  [0x9da8d434a89a038000af10d77284cdd482a11cc72358554e056ed4658762c57;
   0x1e48d859fc4783d287788e5111f003bdc66d799c633c4980e37966219dc7e6c3;
   0x20c49faca459f50bbc7cc9a9ea18476ff06128d37f2f7c9a5ffa1b11367aa441;
   0x8102449aa00e666158ab0a6e50e3ffc919336fc9bbbbfc3e79807f96224a236;
   0x12df288f45eb401b774d114b8fd48351f9784d23973e65cda3258eccfcb388f2;
   0x2316008624a0ecac7a6c69c968e35d607dcff5847f318c756a4ae2cfbb2cb3d9;
   0x19bf9f298a2f265d6247ab706cd83880a5be43dfe2e3fd6da1a85b392e649a2f;
   0xc675da3ebbe1b637c902c722d6d67cd07f09d1a5387a5692383ae6b16a9c433;
   0x1436275d481929df12c138d328137db5242daea42eff88466235b487bb07f2a0];
  [0x24785af655d206961a99165d8d9d2cc3eae0d7cbcd98d47ecb24d0ab7acb5746;
   0x781a56ea439693826ddfbb2c579525cca4347000cb751a2dcd3e688cf746d3b;
   0x15f44f0d7d6d339a81dc41b5ec40c4c1f1aef549ff3be812acd75fb29688d53c;
   0xb9c64e42f83480ac7f39d2af65cdda3d4f88f2d9b9f01878a5ce6a81982363d;
   0x19991eb90c1d7319cca8b14f2544b0eb266a2c6334b0db7861801ed4f932ba4e;
   0x538363bf4e19a77816fb2f3a1affc1aa570a6a9f6f609dfef9d833e19c1b0ba;
   0xc675da3ebbe1b637c902c722d6d67cd07f09d1a5387a5692383ae6b16a9c433;
   0x2087caa4ba001661e03175f95e9dc4c5bd2a263b64ec951c2c933a460ac91e9f;
   0x198fe824bbb6126667070a3d595529372983a2d01a18a455fb07f5045fa80a00];
  [0x1a555d23f6454f86b2c1e079b96ac42c799324981398e7499905d8b7cc75ef88;
   0xc3f3d460f9307e16d9f0e639a15a6adb42ab328f9f5e4ef42c7671cfc0f1ae6;
   0x19c77726b5e69bc9ae8e78adc1d1ecd317844b16a7d1752da12a3c6f7bb059bf;
   0xa406d3c3e382457daf0953feec8a2eb8dac0cd6030ce602424ac0b26de298e7;
   0x21c5ea3b74ed240687662cb01ec6a86e28db37d610b5db714011626c602e8fcb;
   0x88e2e53b1857fe4f1cea0ff0cd0ae2aa62316522cda44d9be59de2be572c3e;
   0x1436275d481929df12c138d328137db5242daea42eff88466235b487bb07f2a0;
   0x198fe824bbb6126667070a3d595529372983a2d01a18a455fb07f5045fa80a00;
   0xec82e9267ac5075ecb046947503e9cbbc52bc6c531d302d4270db50e9d8102f]
]%Z.
Definition bn254_inverse (w : nat) : list (list Z) :=
  if Nat.eqb w 3 then bn254_inverse_3 else if Nat.eqb w 5 then bn254_inverse_5 else bn254_inverse_9.

Definition inverse_ok (q : Z) (w : nat) : bool :=
  let m := map (map HexString.to_Z) (mds_entries Bn254 w) in
  forallb (fun j => forallb (fun k =>
    Z.eqb (fold_right Z.add 0%Z (map (fun i => nth i (nth j m []) 0 * nth k (nth i (bn254_inverse w) []) 0)%Z (seq 0 w)) mod q)
          (if Nat.eqb j k then 1 else 0)%Z) (seq 0 w)) (seq 0 w).
Lemma inverses_checked : forallb (inverse_ok amcl_bn254_order) [3; 5; 9]%nat = true.
Proof. vm_compute. reflexivity. Qed.

Section Matrix.
Context {P : Params} {OK : ParamsOk P}.
Local Open Scope fe_scope.
Add Field Fp_pbn : (Fp_field_theory modulus modulus_prime).

Lemma fsum_swap {A B} (f : A -> B -> F) l k :
  fsum (map (fun a => fsum (map (fun b => f a b) k)) l) = fsum (map (fun b => fsum (map (fun a => f a b) l)) k).
Proof.
  induction l as [|a l IH]; cbn [map fsum].
  - symmetry. apply fsum_map_zero. reflexivity.
  - rewrite IH. rewrite <- fsum_map_add. reflexivity.
Qed.

(** a matrix with a right inverse *)
Lemma inverse_injective w (m inv : list (list F)) : length m = w ->
  (forall j k, (j < w)%nat -> (k < w)%nat ->
     fsum (map (fun i => nth i (nth j m []) 0 * nth k (nth i inv []) 0) (seq 0 w)) = if Nat.eqb j k then 1 else 0) ->
  forall x y, length x = w -> length y = w -> vec_mat w x m = vec_mat w y m -> x = y.
Proof.
  intros Hl Hi x y Hx Hy E.
  assert (Hd : length (vsub x y) = w) by (rewrite vsub_length; congruence).
  assert (Hz : forall i, (i < w)%nat -> fsum (map (fun j => nth j (vsub x y) 0 * nth i (nth j m []) 0) (seq 0 w)) = 0).
  { intros i Hiw. assert (Ez : nth i (vec_mat w (vsub x y) m) 0 = 0).
    { rewrite vec_mat_sub, E by congruence. pose proof (vsub_refl (vec_mat w y m)) as Hr. rewrite Forall_forall in Hr.
      apply Hr. apply nth_In. rewrite vsub_length, vec_mat_length; [exact Hiw|reflexivity]. }
    etransitivity; [|exact Ez]. unfold vec_mat.
    rewrite (nth_indep _ 0 (dot (vsub x y) (column m O))) by (rewrite map_length, seq_length; exact Hiw).
    rewrite (map_nth (fun i => dot (vsub x y) (column m i))), seq_nth by exact Hiw. cbn [Nat.add].
    rewrite dot_seq by (unfold column; rewrite map_length; congruence). rewrite Hd. apply fsum_map_ext. intros j Hj. apply in_seq in Hj.
    unfold column. rewrite (nth_indep (map _ m) 0 (nth i [] 0)) by (rewrite map_length; lia).
    rewrite (map_nth (fun row => nth i row 0) m []). reflexivity. }
  apply vsub_zero; [congruence|]. apply Forall_forall. intros a Ha. apply (In_nth _ _ 0) in Ha as (k & Hk & <-). rewrite Hd in Hk.
  transitivity (fsum (map (fun j => nth j (vsub x y) 0 * (if Nat.eqb j k then 1 else 0)) (seq 0 w))).
  { symmetry. clear - OK Hk. assert (G : forall n, fsum (map (fun j => nth j (vsub x y) 0 * (if Nat.eqb j k then 1 else 0)) (seq 0 n)) =
      if Nat.ltb k n then nth k (vsub x y) 0 else 0).
    { induction n as [|n IH]; [reflexivity|]. rewrite seq_S, map_app, fsum_app, IH. cbn [map fsum Nat.add].
      destruct (Nat.ltb_spec k n), (Nat.ltb_spec k (S n)), (Nat.eqb_spec n k); try lia; subst; ring. }
    rewrite G. destruct (Nat.ltb_spec k w); [reflexivity|lia]. }
  transitivity (fsum (map (fun i => fsum (map (fun j => nth j (vsub x y) 0 * nth i (nth j m []) 0 * nth k (nth i inv []) 0) (seq 0 w))) (seq 0 w))).
  - rewrite fsum_swap. apply fsum_map_ext. intros j Hj. apply in_seq in Hj. rewrite <- (Hi j k) by lia. rewrite <- fsum_map_scale.
    apply fsum_map_ext. intros i _. ring.
  - apply fsum_map_zero. intros i Hi'. apply in_seq in Hi'.
    transitivity (nth k (nth i inv []) 0 * fsum (map (fun j => nth j (vsub x y) 0 * nth i (nth j m []) 0) (seq 0 w))).
    + rewrite <- fsum_map_scale. apply fsum_map_ext. intros j _. ring.
    + rewrite Hz by lia. ring.
Qed.

Context (Hbytes : (32 <= modbytes)%nat) (Hmod : modulus = amcl_bn254_order).

Lemma fsum_of_Z l : fsum (map (of_Z modulus) l) = of_Z modulus (fold_right Z.add 0%Z l).
Proof. induction l as [|a l IH]; [reflexivity|]. cbn [map fsum fold_right]. rewrite IH, of_Z_add. reflexivity. Qed.
Lemma nth_nth_map {A B} (f : A -> B) (m : list (list A)) i j d e : (i < length m)%nat -> (j < length (nth i m []))%nat ->
  nth j (nth i (map (map f) m) []) e = f (nth j (nth i m []) d).
Proof.
  intros Hi Hj. rewrite (nth_indep _ [] (map f [])) by (rewrite map_length; exact Hi). rewrite map_nth.
  rewrite (nth_indep _ e (f d)) by (rewrite map_length; exact Hj). apply map_nth.
Qed.

Lemma known_bn w : known_width Bn254 w -> In w [3; 5; 9]%nat.
Proof. intros [[-> _]|[->|[-> _]]]; cbn; tauto. Qed.
Lemma inverse_shape w : known_width Bn254 w -> length (bn254_inverse w) = w /\ (forall i, (i < w)%nat -> length (nth i (bn254_inverse w) []) = w).
Proof.
  intros H. apply known_bn in H. assert (X : forallb (fun w => (Nat.eqb (length (bn254_inverse w)) w && forallb (fun i => Nat.eqb (length (nth i (bn254_inverse w) [])) w) (seq 0 w))%bool) [3; 5; 9]%nat = true) by reflexivity.
  rewrite forallb_forall in X. specialize (X w H). apply andb_prop in X as [X1 X2]. apply Nat.eqb_eq in X1. split; [exact X1|].
  rewrite forallb_forall in X2. intros i Hi. apply Nat.eqb_eq. apply X2. apply in_seq. lia.
Qed.

Theorem bn254_injective w : known_width Bn254 w -> forall x y, length x = w -> length y = w ->
  vec_mat w x (map (map constant) (mds_entries Bn254 w)) = vec_mat w y (map (map constant) (mds_entries Bn254 w)) -> x = y.
Proof.
  intros Hw. destruct (entries_ok Bn254 w Hw) as [Hl Hr]. destruct (inverse_shape w Hw) as [Il Ir].
  apply (inverse_injective w _ (map (map (of_Z modulus)) (bn254_inverse w))); [rewrite map_length; exact Hl|].
  intros j k Hj Hk.
  pose proof inverses_checked as Hc. rewrite forallb_forall in Hc. specialize (Hc w (known_bn w Hw)). unfold inverse_ok in Hc. cbv zeta in Hc.
  rewrite forallb_forall in Hc. specialize (Hc j ltac:(apply in_seq; lia)).
  rewrite forallb_forall in Hc. specialize (Hc k ltac:(apply in_seq; lia)). apply Z.eqb_eq in Hc.
  transitivity (of_Z modulus (fold_right Z.add 0%Z (map (fun i => nth i (nth j (map (map HexString.to_Z) (mds_entries Bn254 w)) []) 0 *
     nth k (nth i (bn254_inverse w) []) 0)%Z (seq 0 w)))).
  - rewrite <- fsum_of_Z, map_map. apply fsum_map_ext. intros i Hi. apply in_seq in Hi.
    assert (Hlr : length (nth j (mds_entries Bn254 w) []) = w) by (apply Hr; apply nth_In; rewrite Hl; exact Hj).
    rewrite of_Z_mul.
    rewrite (nth_nth_map constant (mds_entries Bn254 w) j i EmptyString 0) by (rewrite ?Hl, ?Hlr; lia).
    rewrite (nth_nth_map HexString.to_Z (mds_entries Bn254 w) j i EmptyString 0%Z) by (rewrite ?Hl, ?Hlr; lia).
    rewrite (nth_nth_map (of_Z modulus) (bn254_inverse w) i k 0%Z 0) by (rewrite ?Il, ?Ir; lia). reflexivity.
  - rewrite <- of_Z_mod, Hmod, Hc. destruct (Nat.eqb j k); reflexivity.
Qed.

Theorem bn254_bijective w fb fe pr p sbox : PoseidonParams_new Bn254 w fb fe pr = Done p -> sbox = Quint \/ sbox = Inverse ->
  forall y, length y = w -> exists! x, Poseidon_permutation p sbox x = Done y.
Proof.
  intros E Hs y Hy. apply new_done in E as (Hsup & Ew & _ & _ & _ & _ & Em & Hp); [|exact Hbytes].
  apply supported_eq in Hsup as [Hw _].
  apply permutation_bijective_matrix; [exact Hp| | |congruence].
  - rewrite Em, Ew. apply bn254_injective. exact Hw.
  - destruct Hs as [-> | ->]; cbn [sbox_invertible]; [|exact I]. rewrite Hmod. vm_compute. reflexivity.
Qed.

(** the matrix is not the one of the inverses of [w + i + j], and constants are not reduced *)
Theorem bn254_not_cauchy w : known_width Bn254 w ->
  nth O (nth O (map (map constant) (mds_entries Bn254 w)) []) 0 * of_Z modulus (Z.of_nat w) <> 1.
Proof.
  intros Hw. destruct (entries_ok Bn254 w Hw) as [Hl Hr].
  assert (H0 : (0 < w)%nat) by (unfold known_width in Hw; lia).
  rewrite (nth_nth_map constant (mds_entries Bn254 w) 0 0 EmptyString 0).
  2:{ rewrite Hl. exact H0. } 2:{ rewrite (proj1 (Hr _ (nth_In _ _ ltac:(rewrite Hl; exact H0)))). exact H0. }
  unfold constant. rewrite <- of_Z_mul. intros E. apply (f_equal (@fval _)) in E. unfold fone in E. rewrite !fval_of_Z, Hmod in E.
  apply known_bn in Hw. cbn [In] in Hw. destruct Hw as [<-|[<-|[<-|[]]]]; vm_compute in E; discriminate E.
Qed.
Lemma new_bn254_not_cauchy w fb fe pr p : PoseidonParams_new Bn254 w fb fe pr = Done p ->
  nth 0 (nth 0 (MDS_matrix p) []) 0 * of_Z modulus (Z.of_nat w) <> 1.
Proof.
  intros E. apply new_done in E as (Hsup & _ & _ & _ & _ & _ & Em & _); [|exact Hbytes]. apply supported_eq in Hsup as [Hw _].
  rewrite Em. apply bn254_not_cauchy. exact Hw.
Qed.
Theorem bn254_not_reduced w : known_width Bn254 w -> exists s, In s (round_consts Bn254 w) /\ fval (constant s) <> HexString.to_Z s.
Proof.
  intros Hw.
  assert (X : forallb (fun w => existsb (fun s => negb (Z.eqb (HexString.to_Z s mod amcl_bn254_order) (HexString.to_Z s))) (round_consts Bn254 w)) [3; 5; 9]%nat = true) by (vm_compute; reflexivity).
  rewrite forallb_forall in X. specialize (X w (known_bn w Hw)). apply existsb_exists in X as (s & Hs & Hn). exists s. split; [exact Hs|].
  unfold constant. rewrite fval_of_Z, Hmod. intros E. rewrite E, Z.eqb_refl in Hn. discriminate Hn.
Qed.
End Matrix.
