(** The values recorded in the repository's test file (SpecRecord.v). *)
From Coq Require Import ZArith List.
From Verif Require Import Params Go Curve Api FrOps Lib Steps Agg SpecMisc SpecVerify SpecSha SpecSample SpecRecord P_SampleEx P_RecordEx P_Record3Ex.
Import ListNotations.
Open Scope Z_scope.

(** C63: instance commitment, challenges and registers after the first step are the recorded ones *)
Theorem C63_instance : forall O b0 b1 rest s, real_hashes O ->
  exists k, VerifyInstanceHash O Test (map VBig (sample_target ++ [sample_verify])) s = Done ((VBig k, None), s) /\
    CalcVerifyCircuitLagrange O Test (b0 :: b1 :: VBig k :: rest) s =
    Done ((map VBig (firstn 2 recorded_start) ++ VBig k :: rest, None), s).
Proof. exact c63_instance. Qed.
Print Assumptions C63_instance.
Theorem C63_challenges : forall O rest s, real_hashes O -> (8 <= length rest)%nat ->
  GetChallengesShPlonkCircuit O Test (map VBig (firstn 2 recorded_start ++ rest)) (map VBig sample_proof) s =
  Done ((map VBig (recorded_start ++ skipn 8 rest), None), s).
Proof. exact c63_challenges. Qed.
Print Assumptions C63_challenges.
Theorem C63_step1 : forall O s, degen_sane O ->
  VerifyProof1 O Test (map VBig sample_proof) (map VBig sample_aux) (map VBig (recorded_start ++ repeat 0 33)) s =
  Done ((map VBig recorded_step1, None), s).
Proof. exact c63_step1. Qed.
Print Assumptions C63_step1.

Example C63_case : real_hashes sam_O /\ degen_sane sam_O /\ length recorded_start = 10%nat /\ length recorded_step1 = 43%nat.
Proof. exact (conj sam_O_real (conj sam_O_sane (conj eq_refl eq_refl))). Qed.

(** C67: registers 10 to 13 after the second and the third step are the recorded ones *)
Theorem C67_steps_2_and_3 : forall O s, degen_sane O -> exists b2 b3,
  VerifyProof2 O Test (map VBig sample_proof) (map VBig sample_aux) (map VBig recorded_step1) s = Done ((map VBig b2, None), s) /\
  firstn 4 (skipn 10 b2) = recorded_step2 /\
  VerifyProof3 O Test (map VBig sample_proof) (map VBig sample_aux) (map VBig b2) s = Done ((map VBig b3, None), s) /\
  firstn 4 (skipn 10 b3) = recorded_step3.
Proof. exact c67. Qed.
Print Assumptions C67_steps_2_and_3.

Example C67_case : degen_sane sam_O /\ firstn 2 recorded_step2 = firstn 2 (skipn 10 recorded_step1) /\
  sample_W = Curve.Aff (nth 0 recorded_step3 0) (nth 1 recorded_step3 0) /\ sample_R = Curve.Aff (nth 2 recorded_step3 0) (nth 3 recorded_step3 0).
Proof. exact (conj sam_O_sane (conj eq_refl (conj eq_refl eq_refl))). Qed.
