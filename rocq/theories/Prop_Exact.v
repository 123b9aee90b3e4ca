(** Exactly which inputs the aggregation circuit accepts: C70, C71. *)
From Coq Require Import ZArith Bool List.
From Verif Require Import Params Go Curve Api FrOps Lib Steps Agg FField FpField SpecCurve SpecHash SpecMisc SpecVerify SpecExact
  P_Exact P_RunEx P_EvalMod.
Import ListNotations.
Open Scope Z_scope.

(** C70: the circuit accepts exactly the acceptable inputs; nothing is assumed about the lengths of the
    lists, the points, the challenges or the helper words, only that the evaluation point is not one of the
    2^23 nodes of the domain *)
Theorem C70_exact : forall (O : oracles) c (zs T A : list Z) (s : cs),
  TargetInst c ++ VerifyInst c = map VBig zs -> Proof_ c = map VBig T -> Aux c = map VBig A ->
  degen_sane O -> outside_domain O zs T ->
  ((exists s', Define O Test c s = Done (None, s')) <-> acceptable O zs T A).
Proof. exact c70_exact. Qed.
Print Assumptions C70_exact.
(** an accepted proof contains neither infinity nor a coordinate outside 0..p-1, whatever the evaluation point *)
Theorem C70_points_canonical : forall (O : oracles) c (zs T A : list Z) (s s' : cs),
  TargetInst c ++ VerifyInst c = map VBig zs -> Proof_ c = map VBig T -> Aux c = map VBig A ->
  degen_sane O -> Define O Test c s = Done (None, s') -> (104 <= length T)%nat /\ coms_valid T.
Proof. exact c70_points. Qed.
Print Assumptions C70_points_canonical.
Example C70_case : outside_domain run_O [7] run_proof /\ acceptable run_O [7] run_proof (map val (helpers (fc rx) (fc ru) 0%fr)).
Proof. exact (conj run_outside run_acceptable). Qed.
Print Assumptions C70_case.
(** the same proof with infinity as first commitment passes the curve check but is never accepted *)
Example C70_infinity_case : coms_on_curve inf_proof /\ forall c s s', TargetInst c ++ VerifyInst c = map VBig [7] -> Proof_ c = map VBig inf_proof ->
  forall A, Aux c = map VBig A -> Define run_O Test c s <> Done (None, s').
Proof. exact inf_rejected. Qed.
Print Assumptions C70_infinity_case.

(** C71: beyond the transcript, the evaluations (words 44 to 99) matter only modulo r *)
Theorem C71_evaluations_mod_r : forall (O : oracles) c c' (zs T T' A : list Z) (s : cs),
  TargetInst c ++ VerifyInst c = map VBig zs -> Proof_ c = map VBig T -> Aux c = map VBig A ->
  TargetInst c' ++ VerifyInst c' = map VBig zs -> Proof_ c' = map VBig T' -> Aux c' = map VBig A ->
  length T' = length T -> (forall i, (i < 44 \/ 100 <= i)%nat -> nth i T' 0 = nth i T 0) ->
  (forall i, (44 <= i < 100)%nat -> nth i T' 0 mod r_mod = nth i T 0 mod r_mod) ->
  Forall small (firstn 102 T) -> Forall small (firstn 102 T') ->
  (forall ix iy, instance_commitment O zs ix iy -> transcript_values O ix iy T' = transcript_values O ix iy T) ->
  degen_sane O -> outside_domain O zs T ->
  ((exists s', Define O Test c s = Done (None, s')) <-> (exists s', Define O Test c' s = Done (None, s'))).
Proof. exact c71. Qed.
Print Assumptions C71_evaluations_mod_r.
(** so an accepted proof need not have canonical evaluations *)
Theorem C71_evaluations_canonical_refuted : ~ (forall (O : oracles) c (zs T A : list Z) (s s' : cs),
  TargetInst c ++ VerifyInst c = map VBig zs -> Proof_ c = map VBig T -> Aux c = map VBig A ->
  degen_sane O -> outside_domain O zs T -> Define O Test c s = Done (None, s') ->
  forall i, (44 <= i < 100)%nat -> 0 <= nth i T 0 < r_mod).
Proof. exact c71_refuted. Qed.
Print Assumptions C71_evaluations_canonical_refuted.
Example C71_case : nth 45 shift45 0 = nth 45 run_proof 0 + r_mod /\
  forall s, exists s', Define run_O Test shift_circuit s = Done (None, s').
Proof. exact (conj eq_refl shift_accepted). Qed.
Print Assumptions C71_case.
