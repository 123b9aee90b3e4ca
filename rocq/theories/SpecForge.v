(** Signatures made from the public key alone (SEC 1, section 4.1.4 read backwards): choose multipliers a and b, add
    the multiple a of the base point and the multiple b of the public key, and read off r, s and the hash. *)
From Coq Require Import ZArith List.
From Verif Require Import SpecEcdsa.
Import ListNotations.
Open Scope Z_scope.

(** the triple (h, r, s) read off from the multipliers a and b: s = r/b and h = a r/b modulo n *)
Definition forged (px py a b h r s : Z) : Prop :=
  0 <= a < secp_n /\ 1 <= b < secp_n /\ 1 <= r < secp_n /\ 1 <= s < secp_n /\
  (exists A B x y, smultz a (SAff secp_gx secp_gy) A /\ smultz b (SAff px py) B /\ ssum A B (SAff x y) /\ x mod secp_n = r) /\
  (b * s) mod secp_n = r /\ (b * h) mod secp_n = (a * r) mod secp_n.
