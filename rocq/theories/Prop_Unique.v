(** Proofs that differ in the last opening point only. *)
From Coq Require Import ZArith List.
From Verif Require Import Params Go Curve Api FrOps Lib Steps Agg NumThy FField FpField SpecCurve SpecHash SpecMisc SpecVerify SpecRows P_RunEx P_CircuitEx P_Unique P_UniqueEx.
Import ListNotations.
Open Scope Z_scope.

(** C65: of all proofs with the same first 102 words, at most one last point (modulo p) is accepted, whatever the helper
    values, unless the last challenge is the trapdoor; the helper values that are read are determined as well *)
Theorem C65_last_point_unique : forall (O : oracles) c1 c2 (zs S A1 A2 : list Z) (a1 b1 a2 b2 : Z) (s1 s1' s2 s2' : cs) (tau : Fr) (ix iy : Z),
  TargetInst c1 ++ VerifyInst c1 = map VBig zs -> TargetInst c2 ++ VerifyInst c2 = map VBig zs ->
  length S = 102%nat -> Proof_ c1 = map VBig (S ++ [a1; b1]) -> Proof_ c2 = map VBig (S ++ [a2; b2]) ->
  Aux c1 = map VBig A1 -> Aux c2 = map VBig A2 ->
  degen_sane O -> kzg_pairing O g20_const g21_const tau ->
  multiple (Aff lagrange_x lagrange_y) ((o_keccak O (encoding (map (fun z => z mod p_mod) zs)) mod 2 ^ 256) mod r_mod) (Aff ix iy) ->
  let d := transcript_values O ix iy (S ++ [a1; b1]) in
  fexp (fc (nth 4 d 0)) dom_n <> 1%fr -> fc (nth 7 d 0) <> tau ->
  Define O Test c1 s1 = Done (None, s1') -> Define O Test c2 s2 = Done (None, s2') ->
  a1 mod p_mod = a2 mod p_mod /\ b1 mod p_mod = b2 mod p_mod /\ forall i, (i < 21)%nat -> nth i A1 0 = nth i A2 0.
Proof. exact c65. Qed.
Print Assumptions C65_last_point_unique.

Example C65_case : forall s, exists tau, kzg_pairing (run_Op (kzg_check tau)) g20_const g21_const tau /\ degen_sane (run_Op (kzg_check tau)) /\
  length run_front = 102%nat /\ Proof_ run_circuit = map VBig (run_front ++ [1; 2]) /\
  TargetInst run_circuit ++ VerifyInst run_circuit = map VBig [7] /\
  multiple (Aff lagrange_x lagrange_y) ((o_keccak (run_Op (kzg_check tau)) (encoding (map (fun z => z mod p_mod) [7])) mod 2 ^ 256) mod r_mod)
    (Aff lagrange_x lagrange_y) /\
  (let d := transcript_values (run_Op (kzg_check tau)) lagrange_x lagrange_y (run_front ++ [1; 2]) in
   fexp (fc (nth 4 d 0)) dom_n <> 1%fr /\ fc (nth 7 d 0) <> tau) /\
  Define (run_Op (kzg_check tau)) Test run_circuit s = Done (None, s).
Proof. exact uq_case. Qed.
