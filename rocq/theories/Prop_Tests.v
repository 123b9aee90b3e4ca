(** The repository's own tests, run in the model (C68).  [is_solved] is test.IsSolved; the values are in
    SpecTests.v. *)
From Coq Require Import ZArith List.
From Verif Require Import Params Go Curve Api FrOps Lib Agg SpecCurve SpecHash SpecVerify SpecSample SpecPairing SpecTamper SpecTests
  P_PairEx P_TamperEx P_Tests.
Import ListNotations.
Open Scope Z_scope.

(** a circuit is solved exactly when its run ends without panic and without error *)
Theorem C68_solved : forall m : M (option goerr), is_solved m = None <-> exists s, m empty_cs = Done (None, s).
Proof. exact solved_iff. Qed.
Print Assumptions C68_solved.

(** circuit_test.go:59-90 TestCircuit passes; with the sign of the last point changed it would fail *)
Theorem C68_TestCircuit : forall O : oracles, real_hashes O -> degen_sane O -> real_pairing O ->
  is_solved (Define O Test sample) = None /\ is_solved (Define O Test flipped) <> None.
Proof. exact c68_circuit. Qed.
Print Assumptions C68_TestCircuit.

(** pairing_circuit_test.go:77-95 TestPairingCheckTestSolve passes *)
Theorem C68_TestPairingCheckTestSolve : forall O : oracles, real_pairing O ->
  is_solved (pairing_test O 2920616387084030925907755037226454382846345550621956833249622258647667607078
    16502678157049327323910877548707266122319935523346850792311342099791838736912
    7162082828732168937516361335135022403650719329242056518668518043784043198510
    18768486256042060147567165227366772940689098806912976766549486364846889365307) = None.
Proof. exact c68_pairing. Qed.
Print Assumptions C68_TestPairingCheckTestSolve.

(** msm_test.go:85-122 TestBN254MultiScalarMul and msm_test.go:19-83 TestMultiScalarMul pass with the true
    product and with no other point *)
Theorem C68_TestBN254MultiScalarMul : forall (O : oracles) (res : Z * Z), canon res ->
  (is_solved (VerifyBN254ScalarMul O Test (VBig (fst t_point), VBig (snd t_point)) (VBig t_scalar)
     (VBig (fst res), VBig (snd res))) = None <-> res = t_product).
Proof. exact c68_scalar_mul. Qed.
Print Assumptions C68_TestBN254MultiScalarMul.
Theorem C68_TestMultiScalarMul : forall (O : oracles) (res : Z * Z), canon res ->
  (is_solved (VerifyMultiScalarMul O Test [t_point] [t_scalar] res) = None <-> res = t_product).
Proof. exact c68_multi. Qed.
Print Assumptions C68_TestMultiScalarMul.

(** aggregator_lib_circuit_test.go:18-75 TestMsmSolve: with the values of its witness the result is determined
    modulo r; with the zero values of its circuit, which are not witness variables, every scalar passes *)
Theorem C68_TestMsmSolve : forall res : Z * Z,
  is_solved (msm_circuit Test t_point t_scalar res) = None <->
  fst res mod r_mod = fst t_product /\ snd res mod r_mod = snd t_product.
Proof. exact c68_legacy. Qed.
Print Assumptions C68_TestMsmSolve.
Theorem C68_TestMsmSolve_zero_values : forall k : Z, is_solved (msm_circuit Test (0, 0) k (0, 0)) = None.
Proof. exact c68_legacy_zero. Qed.
Print Assumptions C68_TestMsmSolve_zero_values.

(** aggregator_lib_circuit_test.go:77-129 TestSha2Circuit, TestKeccak256Circuit *)
Theorem C68_TestSha2Circuit : forall (O : oracles) (hs : list Z), real_hashes O -> length hs = 32%nat ->
  (is_solved (VerifySha256 O Test (map VBig (be_bytes 32 t_scalar)) (map VBig hs)) = None <-> hs = be_bytes 32 t_sha).
Proof. exact c68_sha. Qed.
Print Assumptions C68_TestSha2Circuit.
Theorem C68_TestKeccak256Circuit : forall (O : oracles) (hs : list Z), real_hashes O -> length hs = 32%nat ->
  (is_solved (VerifyKeccak256 O Test (map VBig (be_bytes 32 t_scalar)) (map VBig hs)) = None <-> hs = be_bytes 32 t_keccak).
Proof. exact c68_keccak. Qed.
Print Assumptions C68_TestKeccak256Circuit.

(** aggregator_lib_circuit_test.go:131-156 TestCheckOnCurveCircuit passes whatever its two fr.Element values
    are; the values it stores are not those of a point of the curve, although the integers it starts from are *)
Theorem C68_TestCheckOnCurveCircuit_passes_always : forall a b : Z,
  is_solved (VerifyCheckOnCurveVar Test (VFr a) (VFr b)) = None.
Proof. exact c68_curve_vacuous. Qed.
Print Assumptions C68_TestCheckOnCurveCircuit_passes_always.
Theorem C68_TestCheckOnCurveCircuit_point : curve_or_zero 1 t_curve_y /\ ~ curve_or_zero 1 (t_curve_y mod r_mod).
Proof. exact c68_curve_point. Qed.
Print Assumptions C68_TestCheckOnCurveCircuit_point.

Example C68_case : canon t_product /\ length (be_bytes 32 t_sha) = 32%nat /\ length (be_bytes 32 t_keccak) = 32%nat /\
  real_hashes tate_O /\ degen_sane tate_O /\ real_pairing tate_O.
Proof. exact ex68. Qed.
