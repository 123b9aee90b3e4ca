(** Property theorems: signatures made from the public key alone (C75).  Specifications: SpecEcdsa.v, SpecForge.v,
    SpecMisc.v, SpecKycTest.v. *)
From Coq Require Import ZArith List.
From Verif Require Import Params Go Api Agg SpecMisc SpecEcdsa SpecKycTest SpecForge P_Forge P_ForgeEx.
Open Scope Z_scope.

(** C75: a triple (hash, r, s) is valid under a public key exactly if it comes from two multipliers by [forged],
    which uses only the public key *)
Theorem C75_valid_iff_forged : forall px py h r s : Z, ecdsa_valid px py h r s <-> exists a b, forged px py a b h r s.
Proof. exact c75_iff. Qed.
Print Assumptions C75_valid_iff_forged.
(** any two multipliers give such a triple, unless the sum of the two multiples is infinity or has r = 0 *)
Theorem C75_multipliers_suffice : forall (px py a b : Z) (A B : spt) (x y : Z), 0 <= a < secp_n -> 1 <= b < secp_n ->
  smultz a (SAff secp_gx secp_gy) A -> smultz b (SAff px py) B -> ssum A B (SAff x y) -> x mod secp_n <> 0 ->
  exists h s, 0 <= h < secp_n /\ forged px py a b h (x mod secp_n) s.
Proof. exact c75_exists. Qed.
Print Assumptions C75_multipliers_suffice.
(** the KYC circuit accepts every such triple with any attributes that meet the public conditions *)
Theorem C75_kyc_test_engine : forall (O : oracles) (c : KycCircuit) (a b h r s age mn mx country : Z) (cs_ : list Z) (st : cs),
  forged kyc_pub_x kyc_pub_y a b h r s -> ecdsa_right O kyc_pub_x kyc_pub_y h r s ->
  kyc_hash c = EmConst h -> kyc_sig c = (EmConst r, EmConst s) ->
  to_big (k_age (kyc c)) = Done age -> to_big (fst (c_age (kyc_cond c))) = Done mn ->
  to_big (snd (c_age (kyc_cond c))) = Done mx -> to_big (k_country (kyc c)) = Done country ->
  Forall2 (fun v z => to_big v = Done z) (c_country (kyc_cond c)) cs_ ->
  0 <= age -> mn <= age <= mx -> listed country cs_ -> KycDefine O Test c st = Done (None, st).
Proof. exact c75_test. Qed.
Print Assumptions C75_kyc_test_engine.
Theorem C75_kyc_compiled : forall (O : oracles) (n m l : nat) (w : asg) (a b h r s : Z),
  forged kyc_pub_x kyc_pub_y a b h r s -> ecdsa_right O kyc_pub_x kyc_pub_y h r s ->
  let N := (2 + n + m + l)%nat in
  aw w 0%nat mod r_mod <= aw w N mod r_mod <= aw w 1%nat mod r_mod ->
  listed (aw w (N + 1)%nat) (map (fun i => aw w i mod r_mod) (seq 2 n)) ->
  exists S w', compile_kyc O n m l = inl S /\ sat O w' S /\ (forall i, (i < N + 4)%nat -> aw w' i = aw w i) /\
    ae w' 0%nat = r /\ ae w' 1%nat = s /\ ae w' 2%nat = h.
Proof. exact c75_compiled. Qed.
Print Assumptions C75_kyc_compiled.
(** the multipliers 1 and 2 and the hard-coded key; the triple differs from the one of the repository's test, and the
    test's conditions and attributes are accepted with it *)
Example C75_case : forged kyc_pub_x kyc_pub_y 1 2 fg_h fg_r fg_s /\ (fg_r <> kt_r /\ fg_s <> kt_s /\ fg_h <> kt_hash) /\
  ecdsa_right fgO kyc_pub_x kyc_pub_y fg_h fg_r fg_s.
Proof. exact (conj fg_forged (conj fg_other fg_right)). Qed.
Example C75_case_compiled : exists S w, compile_kyc fgO 5 1 1 = inl S /\ sat fgO w S /\
  (forall i, (i < 13)%nat -> aw w i = nth i kt_wires 0) /\ ae w 0%nat = fg_r /\ ae w 1%nat = fg_s /\ ae w 2%nat = fg_h.
Proof. exact fg_accepted. Qed.
