(** ECDSA with the point computed by the verifier in view, and the keys for which the standard is meant. *)
From Coq Require Import ZArith List.
From Verif Require Import Agg Api SpecKeys SpecEcdsa.
Import ListNotations.
Open Scope Z_scope.

(** a point of secp256k1 whose multiple n is infinity (SEC 1, section 3.2.2.1) *)
Definition order_n (px py : Z) : Prop := on_secp px py /\ smultz secp_n (SAff px py) SInf.
(** (r, s) signs h, and the verifier's point is (x, y) *)
Definition signs_at (px py h r s x y : Z) : Prop :=
  1 <= r < secp_n /\ 1 <= s < secp_n /\
  exists w A B, (s * w) mod secp_n = 1 /\
    smultz ((h * w) mod secp_n) (SAff secp_gx secp_gy) A /\ smultz ((r * w) mod secp_n) (SAff px py) B /\
    ssum A B (SAff x y) /\ x mod secp_n = r.
(** the same KYC witness with another second half of the signature *)
Definition with_s (c : KycCircuit) (s : Z) : KycCircuit :=
  {| kyc_sig := (fst (kyc_sig c), EmConst s); kyc_hash := kyc_hash c; kyc := kyc c; kyc_cond := kyc_cond c |}.
