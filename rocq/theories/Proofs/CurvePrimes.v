(** The orders of the other curves are prime. *)
From Coq Require Import ZArith Znumtheory List Lia.
From Verif.Spec Require Import PoseidonSpec.
From Verif.Proofs Require Import Pocklington.
Import ListNotations.
Local Open Scope Z_scope.

Lemma bn128_order_prime : prime bn128_order.
Proof.
  assert (prime 1637) by small_prime.
  assert (prime 853) by small_prime.
  assert (prime 639533339) by by_factors 2 [853; 1637].
  assert (prime 65865678001877903) by by_factors 2 [639533339].
  assert (prime 13818364434197438864469338081) by by_factors 2 [65865678001877903].
  assert (prime 31) by small_prime.
  assert (prime 5) by small_prime.
  assert (prime 93001) by by_factors 2 [5; 5; 31].
  assert (prime 661) by small_prime.
  assert (prime 12048837557) by by_factors 2 [661; 93001].
  assert (prime 5156902474397) by by_factors 2 [12048837557].
  assert (prime 1670836401704629) by by_factors 2 [5156902474397].
  by_factors 2 [1670836401704629; 13818364434197438864469338081].
Qed.

Lemma amcl_bn254_order_prime : prime amcl_bn254_order.
Proof.
  assert (prime 13) by small_prime.
  assert (prime 2) by small_prime.
  assert (prime 3329) by by_factors 3 [2; 2; 2; 13].
  assert (prime 159793) by by_factors 2 [3329].
  assert (prime 1069) by small_prime.
  assert (prime 14334859726775219) by by_factors 2 [1069; 159793].
  assert (prime 1254043595354617963043866617659) by by_factors 2 [14334859726775219].
  assert (prime 359) by small_prime.
  assert (prime 103393) by by_factors 2 [359].
  assert (prime 541) by small_prime.
  assert (prime 25969) by by_factors 2 [541].
  assert (prime 1176035613847) by by_factors 2 [25969; 103393].
  assert (prime 101148471075752777) by by_factors 2 [1176035613847].
  by_factors 2 [101148471075752777; 1254043595354617963043866617659].
Qed.

Lemma secp256k1_order_prime : prime secp256k1_order.
Proof.
  assert (prime 1871) by small_prime.
  assert (prime 1627771) by by_factors 2 [1871].
  assert (prime 297159362677) by by_factors 2 [1627771].
  assert (prime 1409) by small_prime.
  assert (prime 28181) by by_factors 2 [1409].
  assert (prime 545358713) by by_factors 2 [28181].
  assert (prime 29047611873442575647497758179) by by_factors 2 [545358713; 297159362677].
  assert (prime 341948486974166000522343609283189) by by_factors 2 [29047611873442575647497758179].
  assert (prime 41) by small_prime.
  assert (prime 19) by small_prime.
  assert (prime 9349) by by_factors 2 [19; 41].
  assert (prime 44706919) by by_factors 2 [9349].
  assert (prime 113) by small_prime.
  assert (prime 120233) by by_factors 2 [19; 113].
  assert (prime 174723607534414371449) by by_factors 2 [120233; 44706919].
  by_factors 2 [174723607534414371449; 341948486974166000522343609283189].
Qed.

Lemma ed25519_order_prime : prime ed25519_order.
Proof.
  assert (prime 2551) by small_prime.
  assert (prime 1224481) by by_factors 2 [2551].
  assert (prime 73) by small_prime.
  assert (prime 3797) by by_factors 2 [73].
  assert (prime 531581) by by_factors 2 [3797].
  assert (prime 1257559732178653) by by_factors 2 [531581; 1224481].
  assert (prime 4434155615661930479) by by_factors 2 [1257559732178653].
  assert (prime 172054593956031949258510691) by by_factors 2 [4434155615661930479].
  assert (prime 19757330305831588566944191468367130476339) by by_factors 2 [172054593956031949258510691].
  assert (prime 276602624281642239937218680557139826668747) by by_factors 2 [19757330305831588566944191468367130476339].
  by_factors 2 [276602624281642239937218680557139826668747].
Qed.
