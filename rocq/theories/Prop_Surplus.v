(** Surplus proof and helper words are ignored, missing ones are rejected: C74. *)
From Coq Require Import ZArith Bool List.
From Verif Require Import Params Go Curve Api FrOps Lib Steps Agg FField FpField SpecCurve SpecHash SpecMisc SpecVerify SpecExact P_RunEx P_Surplus P_SurplusEx.
Import ListNotations.
Open Scope Z_scope.

(** C74: in both engines the outcome is a function of the instances, the first 104 proof words and the first 21 helper words *)
Theorem C74_surplus_ignored : forall (O : oracles) (en : engine) (c c' : AggregatorCircuit) (s : cs),
  TargetInst c ++ VerifyInst c = TargetInst c' ++ VerifyInst c' ->
  firstn 104 (Proof_ c) = firstn 104 (Proof_ c') -> firstn 21 (Aux c) = firstn 21 (Aux c') ->
  Define O en c s = Define O en c' s.
Proof. exact c74_surplus. Qed.
Print Assumptions C74_surplus_ignored.
(** a shorter input is never accepted *)
Theorem C74_missing_rejected : forall (O : oracles) c (zs T A : list Z) (s s' : cs),
  TargetInst c ++ VerifyInst c = map VBig zs -> Proof_ c = map VBig T -> Aux c = map VBig A -> degen_sane O ->
  (length T < 104 \/ length A < 21)%nat -> Define O Test c s <> Done (None, s').
Proof. exact c74_missing. Qed.
Print Assumptions C74_missing_rejected.
(** the accepted run of C48 with arbitrary words appended to proof and helpers *)
Example C74_surplus_case : forall ps qs s, exists s', Define run_O Test (longer run_circuit ps qs) s = Done (None, s').
Proof. exact surplus_case. Qed.
Print Assumptions C74_surplus_case.
Example C74_missing_case : forall s s', Define run_O Test run_circuit s = Done (None, s) /\
  Define run_O Test (shorter run_circuit) s <> Done (None, s').
Proof. exact missing_case. Qed.
Print Assumptions C74_missing_case.
