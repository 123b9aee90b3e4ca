(** Hard-coded keys: C59.  Specification: SpecKeys.v. *)
From Coq Require Import ZArith String Bool List.
From Verif Require Import Params Go Curve Api FrOps Lib Steps Agg SpecMisc SpecKeys P_FrEx P_MsmEx P_Misc P_Kyc P_MiscEx P_Keys.
Import ListNotations.
Open Scope Z_scope.

(** C59 *)
Theorem C59_kyc_key_on_curve : exists px py, on_secp px py /\
  (forall O c s s1, KycDefine O Test c s = Done (None, s1) ->
     exists h r' s', kyc_hash c = EmConst h /\ kyc_sig c = (EmConst r', EmConst s') /\ o_ecdsa O px py h r' s' = true) /\
  (forall O n m l S w, compile_kyc O n m l = inl S -> sat O w S -> o_ecdsa O px py (ae w 2%nat) (ae w 0%nat) (ae w 1%nat) = true).
Proof. exact c59_kyc. Qed.
Print Assumptions C59_kyc_key_on_curve.
Theorem C59_verifying_key_on_curve : NoDup (literals (prog1 ++ prog2 ++ prog3)) /\ Forall on_g1 (literals (prog1 ++ prog2 ++ prog3)) /\
  length (literals (prog1 ++ prog2 ++ prog3)) = 21%nat /\ on_g1 (lagrange_x, lagrange_y).
Proof. exact c59_g1. Qed.
Print Assumptions C59_verifying_key_on_curve.
Example C59_case : KycDefine plainO Test kyc_example s0 = Done (None, s0) /\ ~ on_secp kyc_pub_x (kyc_pub_y + 1) /\ ~ on_g1 (lagrange_x, lagrange_y + 1) /\
  nth_error (literals (prog1 ++ prog2 ++ prog3)) 0 = Some (1, p_mod - 2).
Proof. exact ex59. Qed.
