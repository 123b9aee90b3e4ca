(** The values used by the repository's own tests, and the test runs as programs. *)
From Coq Require Import ZArith String List.
From Verif Require Import Params Go Curve Api FrOps Lib Agg SpecCurve SpecHash.
Import ListNotations.
Open Scope Z_scope.

(** msm_test.go:21-22, 31, aggregator_lib_circuit_test.go:20-21, 34 *)
Definition t_point : Z * Z :=
  (13534086339230182803823178260078315691269243572458753455438283544709107378988,
   9053077977614827188269653632534212501565186534180282672519599630892718179094).
Definition t_scalar : Z := 21018549926786911420919261871844456760738199621624594828144407595472474813958.
(** the product; the same two numbers are the first ones of the buffer at
    aggregator_lib_circuit_test.go:173-174 *)
Definition t_product : Z * Z :=
  (14518669122153204107438001167275775392293121025028421520190945678452919453116,
   17093993445643899230068359428052269750701581214259397668825355106622530890359).
(** aggregator_lib_circuit_test.go:79, 106: SHA-256 and Keccak-256 of the 32 bytes of the scalar, computed
    with independent implementations *)
Definition t_sha : Z := 51205177419780052282593897133102886532293367183243061936997835773072345221485.
Definition t_keccak : Z := 16626227205871351818159287669074418831524755693793722306319348682991354235984.
(** aggregator_lib_circuit_test.go:133-134 *)
Definition t_curve_y : Z := 21888242871839275222246405745257275088696311157297823662689037894645226208581.

(** the value of a canonical coordinate pair *)
Definition canon (P : Z * Z) : Prop := 0 <= fst P < p_mod /\ 0 <= snd P < p_mod.

(** aggregator_lib_circuit.go:44-50 BN256MsmCircuit.Define: the error of VerifyBN256Msm *)
Definition msm_circuit (en : engine) (g : Z * Z) (k : Z) (res : Z * Z) : M (option goerr) :=
  r <- VerifyBN256Msm en g k res ;; ret (snd r).
(** pairing_circuit_test.go:77-95: both Fill calls, then BN256PairingCircuit.Define *)
Definition pairing_test (O : oracles) (a b c d : Z) : M (option goerr) :=
  g1s <- FillVerifyCircuitsG1 (VStr (Some a)) (VStr (Some b)) (VStr (Some c)) (VStr (Some d)) ;;
  g2s <- FillVerifyCircuitsG2 ;;
  VerifyBN256Pairing O Test g1s g2s.

(** circuit_test.go:32-57 TestOnBn254: whether it prints that the point is on the curve; the modulus used is
    FrModulus (:41) *)
Definition on_bn254 (x y : Z) : bool := ((x ^ 3) mod r_mod + 3) mod r_mod =? (y * y) mod r_mod.
