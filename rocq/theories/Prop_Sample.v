(** The sample proof shipped with the program. *)
From Coq Require Import ZArith List.
From Verif Require Import Params Go Curve Api FrOps Agg SpecMisc SpecVerify SpecSha SpecSample P_SampleEx.
Import ListNotations.
Open Scope Z_scope.

(** C60: with SHA-256 and Keccak-256 as hash functions, every check made on the sample proof before the pairing
    passes, and the pairing is asked about the second opening proof and the accumulated point *)
Theorem C60_sample_verdict : forall O s, real_hashes O -> degen_sane O ->
  (Define O Test sample s = Done (None, s) <-> o_pairing O [(sample_W, g20_const); (sample_R, g21_const)] = true).
Proof. exact c60. Qed.
Print Assumptions C60_sample_verdict.

Example C60_case : real_hashes sam_O /\ degen_sane sam_O /\ forall s, Define sam_O Test sample s = Done (None, s).
Proof. exact sam_case. Qed.
Example C60_sha256_case : sha256 [97; 98; 99] = 0xba7816bf8f01cfea414140de5dae2223b00361a396177a9cb410ff61f20015ad.
Proof. exact sha_abc. Qed.
Example C60_keccak256_case : keccak256 [97; 98; 99] = 0x4e03657aea45a94fc7d47ba826c8d667c0d1e6e33a64a036ec44f58fa12d6c45.
Proof. exact keccak_abc. Qed.
