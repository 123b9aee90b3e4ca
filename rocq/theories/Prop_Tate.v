(** The sample proof shipped with the program, with hash functions and pairing written out. *)
From Coq Require Import ZArith List.
From Verif Require Import Params Go Curve Api FrOps Agg SpecMisc SpecVerify SpecSample SpecPairing SpecTamper P_PairEx P_TamperEx.
Import ListNotations.
Open Scope Z_scope.

(** C61: with SHA-256, Keccak-256 and the Tate pairing of BN254, the sample proof is accepted *)
Theorem C61_sample_accepted : forall O s, real_hashes O -> degen_sane O -> real_pairing O -> Define O Test sample s = Done (None, s).
Proof. exact c61. Qed.
Print Assumptions C61_sample_accepted.
Theorem C61_sample_pairing : tate_product [(sample_W, g20_const); (sample_R, g21_const)] = o1 zp12.
Proof. exact sample_tate. Qed.
Print Assumptions C61_sample_pairing.

Example C61_case : real_hashes tate_O /\ degen_sane tate_O /\ real_pairing tate_O.
Proof. exact tate_O_ok. Qed.

(** C62: the same proof with the sign of its last point changed passes every other check and is rejected by the pairing *)
Theorem C62_flipped_rejected : forall O s, real_hashes O -> degen_sane O -> real_pairing O ->
  o_pairing O [(flipped_W, g20_const); (flipped_R, g21_const)] = false /\ forall e s', Define O Test flipped s <> Done (e, s').
Proof. exact c62. Qed.
Print Assumptions C62_flipped_rejected.
Theorem C62_only_pairing : forall O s, real_hashes O -> degen_sane O ->
  Define O Test flipped s = (emul_assert Test (o_pairing O [(flipped_W, g20_const); (flipped_R, g21_const)]) ;;; ret None) s.
Proof. exact flp_run. Qed.
Print Assumptions C62_only_pairing.

Example C62_case : real_hashes tate_O /\ degen_sane tate_O /\ real_pairing tate_O.
Proof. exact tate_O_ok. Qed.
