(** Property theorems: the signatures for a hash and a number r (C76).  Specifications: SpecEcdsa.v, SpecMalle.v,
    SpecMisc.v, SpecKycTest.v. *)
From Coq Require Import ZArith List.
From Verif Require Import Params Go Api Agg SpecMisc SpecKeys SpecEcdsa SpecKycTest SpecMalle P_SecpNum P_KycTest P_Malle P_MalleEx.
Open Scope Z_scope.

(** C76: the hard-coded key and the base point have order exactly n *)
Theorem C76_key_order : order_n kyc_pub_x kyc_pub_y /\ order_n secp_gx secp_gy.
Proof. exact (conj key_order_n gen_order_n). Qed.
Print Assumptions C76_key_order.
Theorem C76_order : forall px py k : Z, order_n px py -> 0 <= k -> (smultz k (SAff px py) SInf <-> (secp_n | k)).
Proof. exact c76_order. Qed.
Print Assumptions C76_order.
(** with (r, s) also (r, n - s) is a signature of the same hash, and it is another one *)
Theorem C76_negated_valid : forall px py h r s : Z, order_n px py -> ecdsa_valid px py h r s ->
  ecdsa_valid px py h r (secp_n - s) /\ secp_n - s <> s.
Proof. exact c76_valid. Qed.
Print Assumptions C76_negated_valid.
(** the verifier's point keeps its first coordinate and changes the sign of the second *)
Theorem C76_negated_point : forall px py h r s x y : Z, order_n px py -> signs_at px py h r s x y ->
  secp_n - s <> s /\ exists y', eqp (y + y') 0 /\ signs_at px py h r (secp_n - s) x y'.
Proof. exact c76_negate. Qed.
Print Assumptions C76_negated_point.
(** there is no third: the first coordinate is r or r + n, and it determines s up to sign *)
Theorem C76_coordinate : forall px py h r s x y : Z, order_n px py -> signs_at px py h r s x y -> x = r \/ x = r + secp_n.
Proof. exact c76_x. Qed.
Print Assumptions C76_coordinate.
Theorem C76_only_sign : forall px py h r s s' x y y' : Z, order_n px py ->
  signs_at px py h r s x y -> signs_at px py h r s' x y' -> s' = s \/ s' = secp_n - s.
Proof. exact c76_only. Qed.
Print Assumptions C76_only_sign.
(** the KYC circuit accepts the second signature wherever it accepts the first *)
Theorem C76_kyc_test_engine : forall (O : oracles) (c : KycCircuit) (h r s : Z) (st st' : cs),
  ecdsa_right O kyc_pub_x kyc_pub_y h r s -> ecdsa_right O kyc_pub_x kyc_pub_y h r (secp_n - s) ->
  kyc_hash c = EmConst h -> kyc_sig c = (EmConst r, EmConst s) ->
  KycDefine O Test c st = Done (None, st') -> KycDefine O Test (with_s c (secp_n - s)) st = Done (None, st').
Proof. exact c76_test. Qed.
Print Assumptions C76_kyc_test_engine.
Theorem C76_kyc_compiled : forall (O : oracles) (n m l : nat) (S : cs) (w : asg),
  ecdsa_right O kyc_pub_x kyc_pub_y (ae w 2%nat) (ae w 0%nat) (ae w 1%nat) ->
  ecdsa_right O kyc_pub_x kyc_pub_y (ae w 2%nat) (ae w 0%nat) (secp_n - ae w 1%nat) ->
  compile_kyc O n m l = inl S -> sat O w S ->
  let N := (2 + n + m + l)%nat in
  exists w', sat O w' S /\ (forall i, (i < N + 4)%nat -> aw w' i = aw w i) /\
    ae w' 0%nat = ae w 0%nat /\ ae w' 1%nat = secp_n - ae w 1%nat /\ ae w' 2%nat = ae w 2%nat /\ ae w' 1%nat <> ae w 1%nat.
Proof. exact c76_compiled. Qed.
Print Assumptions C76_kyc_compiled.
(** the signature of the repository's KYC test and the one with n - s *)
Example C76_case : ecdsa_valid kyc_pub_x kyc_pub_y kt_hash kt_r kt_s' /\ kt_s' = secp_n - kt_s /\
  ecdsa_right ktO kyc_pub_x kyc_pub_y kt_hash kt_r kt_s /\ ecdsa_right ktO kyc_pub_x kyc_pub_y kt_hash kt_r kt_s'.
Proof. exact (conj kt_valid' (conj kt_s'_eq kt_rights)). Qed.
Example C76_case_compiled : exists S w w', compile_kyc ktO 5 1 1 = inl S /\ kt_witness kt_hash w /\ sat ktO w S /\ sat ktO w' S /\
  (forall i, (i < 13)%nat -> aw w' i = nth i kt_wires 0) /\ ae w' 0%nat = kt_r /\ ae w' 1%nat = kt_s' /\ ae w' 2%nat = kt_hash.
Proof. exact kt_both. Qed.
