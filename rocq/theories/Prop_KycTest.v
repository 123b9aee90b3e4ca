(** C66: the repository's KYC test.  Specifications: SpecEcdsa.v, SpecKycTest.v. *)
From Coq Require Import ZArith List.
From Verif Require Import Api Agg SpecEcdsa SpecKycTest P_SecpEx P_KycTest.
Import ListNotations.
Open Scope Z_scope.

Theorem C66_signature_valid : ecdsa_valid kyc_pub_x kyc_pub_y kt_hash kt_r kt_s.
Proof. exact kt_valid. Qed.
Print Assumptions C66_signature_valid.
Theorem C66_other_hash_invalid : ~ ecdsa_valid kyc_pub_x kyc_pub_y kt_other kt_r kt_s.
Proof. exact kt_invalid. Qed.
Print Assumptions C66_other_hash_invalid.
Theorem C66_test_accepted : forall O : oracles, ecdsa_right O kyc_pub_x kyc_pub_y kt_hash kt_r kt_s ->
  exists S w, compile_kyc O 5 1 1 = inl S /\ kt_witness kt_hash w /\ sat O w S.
Proof. exact c66_accepts. Qed.
Print Assumptions C66_test_accepted.
Theorem C66_other_hash_rejected : forall (O : oracles) (S : cs) (w : asg),
  ecdsa_right O kyc_pub_x kyc_pub_y kt_other kt_r kt_s -> compile_kyc O 5 1 1 = inl S ->
  ae w 0%nat = kt_r -> ae w 1%nat = kt_s -> ae w 2%nat = kt_other -> ~ sat O w S.
Proof. exact c66_rejects. Qed.
Print Assumptions C66_other_hash_rejected.
(** one oracle that answers both queries as the standard does *)
Example C66_case : ecdsa_right ktO kyc_pub_x kyc_pub_y kt_hash kt_r kt_s /\ ecdsa_right ktO kyc_pub_x kyc_pub_y kt_other kt_r kt_s.
Proof. exact c66_case. Qed.
