(** BN254 parameters and modular arithmetic on Z used by the model. *)
From Coq Require Import ZArith.
Open Scope Z_scope.

(** aggregator_lib_circuit.go:25 [FrModulus] (and [MODULUS] = emulated.BN254Fr{}.Modulus(), line 26):
    the order r of the BN254 groups; also the native field of every circuit in the repo,
    [ecc.BN254.ScalarField()] (main.go:180, circuit_test.go:88). *)
Definition r_mod : Z := 21888242871839275222246405745257275088548364400416034343698204186575808495617.

(** aggregator_lib_circuit.go:24 [FpModulus]: the base field of BN254. *)
Definition p_mod : Z := 21888242871839275222246405745257275088696311157297823662689037894645226208583.

(** Inverse modulo [m] by the extended Euclidean algorithm (0 for non-invertible 0).
    Models the field inversions inside gnark-crypto / go-ethereum (library code). *)
Fixpoint egcd (fuel : nat) (r0 r1 s0 s1 : Z) : Z :=
  if r1 =? 0 then s0 else
  match fuel with
  | O => s0
  | S f => let q := r0 / r1 in egcd f r1 (r0 - q * r1) s1 (s0 - q * s1)
  end.

(** Inversion used by the library point operations called at aggregator_lib_circuit.go:58,88,119,207
    and msm.go:77,139. *)
Definition inv_mod (m a : Z) : Z :=
  egcd (Z.to_nat (2 * Z.log2_up m + 2)) m (a mod m) 0 1 mod m.
