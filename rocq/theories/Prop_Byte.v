(** The byte check of the hash circuits (circuit.go:142,146). *)
From Coq Require Import ZArith List.
From Verif Require Import Params Go Curve Api FrOps Lib Agg P_Byte.
Open Scope Z_scope.

(** C64: exactly the integers 0..255 are accepted as bytes, by the test engine and in the compiled circuit *)
Theorem C64_byte_test_engine : forall (v : var) (x : Z) (s : cs), to_big v = Done x ->
  (0 <= x < 256 -> exists u, byte_value_of Test v s = Done (u, s) /\ to_big u = Done x) /\
  (~ 0 <= x < 256 -> exists w, byte_value_of Test v s = Panicked w).
Proof. exact c64_test. Qed.
Print Assumptions C64_byte_test_engine.
Theorem C64_byte_compiled : forall (v : var) (e : expr) (s : cs), to_expr v = Done e ->
  exists s', byte_value_of Build v s = Done (v, s') /\ forall O w, sat O w s' <-> sat O w s /\ 0 <= eval w e < 256.
Proof. exact c64_build. Qed.
Print Assumptions C64_byte_compiled.

Example C64_case : byte_value_of Test (VBig 255) empty_cs = Done (VBig 255, empty_cs) /\
  (exists w, byte_value_of Test (VBig 256) empty_cs = Panicked w) /\
  exists s', byte_value_of Build (VExpr (EWire 0)) empty_cs = Done (VExpr (EWire 0), s') /\
    forall O, sat O {| aw := fun _ => 255; ae := fun _ => 0 |} s' /\ ~ sat O {| aw := fun _ => 256; ae := fun _ => 0 |} s'.
Proof. exact ex64. Qed.
