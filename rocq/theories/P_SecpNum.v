(** The modulus and the order of secp256k1 are prime. *)
From Coq Require Import ZArith Znumtheory Lia Bool List.
From Verif Require Import NumThy NumPow SecpCert SpecKeys SpecEcdsa.
Import ListNotations.
Open Scope Z_scope.

Lemma sprime_1871 : prime 1871. Proof. trial. Qed.
#[local] Hint Resolve sprime_1871 : core.
Lemma sprime_1627771 : prime 1627771.
Proof. pock [{|pk_q:=1871;pk_a:=2|}]. Qed.
#[local] Hint Resolve sprime_1627771 : core.
Lemma sprime_297159362677 : prime 297159362677.
Proof. pock [{|pk_q:=1627771;pk_a:=2|}]. Qed.
#[local] Hint Resolve sprime_297159362677 : core.
Lemma sprime_28181 : prime 28181. Proof. trial. Qed.
#[local] Hint Resolve sprime_28181 : core.
Lemma sprime_545358713 : prime 545358713.
Proof. pock [{|pk_q:=28181;pk_a:=2|}]. Qed.
#[local] Hint Resolve sprime_545358713 : core.
Lemma sprime_29047611873442575647497758179 : prime 29047611873442575647497758179.
Proof. pockq [({|pk_q:=297159362677;pk_a:=2|}, (qs_s95_0, (0x19772c4448ea2e06c03560dd, 0xe14e85d1eb8bfd9135de5fb)));
    ({|pk_q:=545358713;pk_a:=2|}, (qs_s95_1, (0x1f290afd90303f0ce9efa9ef, 0x1a94db4f354d429a1e4309c)))]. Qed.
#[local] Hint Resolve sprime_29047611873442575647497758179 : core.
Lemma sprime_341948486974166000522343609283189 : prime 341948486974166000522343609283189.
Proof. pockq [({|pk_q:=29047611873442575647497758179;pk_a:=2|}, (qs_s109_0, (0xb628645e03e3bc891eeb6c2ac0a, 0x9b6f2dd0eb95e1c8a4b38881aef)))]. Qed.
#[local] Hint Resolve sprime_341948486974166000522343609283189 : core.
Lemma sprime_120233 : prime 120233. Proof. trial. Qed.
#[local] Hint Resolve sprime_120233 : core.
Lemma sprime_4051 : prime 4051. Proof. trial. Qed.
#[local] Hint Resolve sprime_4051 : core.
Lemma sprime_59 : prime 59. Proof. trial. Qed.
#[local] Hint Resolve sprime_59 : core.
Lemma sprime_174723607534414371449 : prime 174723607534414371449.
Proof. pockq [({|pk_q:=120233;pk_a:=2|}, (qs_s68_0, (0xc63ad50804f2104e, 0x6ef0a1b884084831)));
    ({|pk_q:=4051;pk_a:=2|}, (qs_s68_1, (0x11291e06f56384732, 0xce658da284a47681)));
    ({|pk_q:=59;pk_a:=2|}, (qs_s68_2, (0x2ad50ab410a2053da, 0x13250af997059ff97)))]. Qed.
#[local] Hint Resolve sprime_174723607534414371449 : core.
Lemma sprime_secp_n : prime 115792089237316195423570985008687907852837564279074904382605163141518161494337.
Proof. pockq [({|pk_q:=341948486974166000522343609283189;pk_a:=2|}, (qs_secp_n_0, (0x7e44a52d4b46b005ca417d91243e86645b66fffd04cce22537827794f1dcf541, 0x5e7bb86e5fdf5478542d5d10c793b0952af41b8a9baf728d11ec83bb8b3e6320)));
    ({|pk_q:=174723607534414371449;pk_a:=2|}, (qs_secp_n_1, (0xb71d6f711f135bed1fea75409caa7f11ceaae5f4618a3e28e0a0711f1f2d3d66, 0x5bf0e7ec055e92c900f661e11b085cd295dafafcddb58559d48dab7c4f572df9)))]. Qed.
#[local] Hint Resolve sprime_secp_n : core.
Lemma sprime_96557 : prime 96557. Proof. trial. Qed.
#[local] Hint Resolve sprime_96557 : core.
Lemma sprime_41201 : prime 41201. Proof. trial. Qed.
#[local] Hint Resolve sprime_41201 : core.
Lemma sprime_4423 : prime 4423. Proof. trial. Qed.
#[local] Hint Resolve sprime_4423 : core.
Lemma sprime_2657 : prime 2657. Proof. trial. Qed.
#[local] Hint Resolve sprime_2657 : core.
Lemma sprime_1627 : prime 1627. Proof. trial. Qed.
#[local] Hint Resolve sprime_1627 : core.
Lemma sprime_255515944373312847190720520512484175977 : prime 255515944373312847190720520512484175977.
Proof. pockq [({|pk_q:=96557;pk_a:=2|}, (qs_s128_0, (0x275f06e520cf17b3013a76586486da13, 0x74e7283cdf390edd3e6f1d05c6cc498)));
    ({|pk_q:=41201;pk_a:=2|}, (qs_s128_1, (0x6b4fbe7a24c3a1db9285a5e7f2daf547, 0x1909a20ff4ce6b3162aa704001c18db0)));
    ({|pk_q:=4423;pk_a:=2|}, (qs_s128_2, (0x937f7783ef3f53f2b577bceb8049d1c8, 0x56342c9965a10cc42c7b27800bb68827)));
    ({|pk_q:=2657;pk_a:=2|}, (qs_s128_3, (0x5cf4f62ba99356f7ff34cb9a3696fce3, 0x345f20c31aa36d1abc06ab8e43971330)));
    ({|pk_q:=1627;pk_a:=2|}, (qs_s128_4, (0x24aa6db90e2fcf54be15ea1741ce6810, 0x13fef71070c4709897183e8f05cda147)))]. Qed.
#[local] Hint Resolve sprime_255515944373312847190720520512484175977 : core.
Lemma sprime_205115282021455665897114700593932402728804164701536103180137503955397371 : prime 205115282021455665897114700593932402728804164701536103180137503955397371.
Proof. pockq [({|pk_q:=255515944373312847190720520512484175977;pk_a:=2|}, (qs_s237_0, (0xbce1bae6645f252963752a74333138f457aaf3fbc9c842fbcd0b8d48aeb, 0x30df27ef44f1b0d7c0e67e1b615d72f105e1fae692a5c772c6dd0acacbe)))]. Qed.
#[local] Hint Resolve sprime_205115282021455665897114700593932402728804164701536103180137503955397371 : core.
Lemma sprime_secp_p : prime 115792089237316195423570985008687907853269984665640564039457584007908834671663.
Proof. pockq [({|pk_q:=205115282021455665897114700593932402728804164701536103180137503955397371;pk_a:=2|}, (qs_secp_p_0, (0x55a50f4e5cae279e7cab8b266ff58ccd44df516a804a84c110b6adb787d46fc7, 0x1649abf4b0bd3b6524397b629ea1c88c293cd1ac44ff54631ec325633b8cb5d8)))]. Qed.
#[local] Hint Resolve sprime_secp_p : core.
Theorem prime_secp_n : prime secp_n. Proof. exact sprime_secp_n. Qed.
Theorem prime_secp_p : prime secp_p. Proof. change secp_p with 115792089237316195423570985008687907853269984665640564039457584007908834671663. exact sprime_secp_p. Qed.
