(** Specification of usable keys: finite points of secp256k1 and of BN254 G1, in canonical coordinates. *)
From Coq Require Import ZArith List.
From Verif Require Import Params Curve Steps.
Import ListNotations.
Open Scope Z_scope.

(** the base field of secp256k1 and its equation y^2 = x^3 + 7 (SEC 2, section 2.4.1) *)
Definition secp_p : Z := 2 ^ 256 - 2 ^ 32 - 977.
Definition on_secp (x y : Z) : Prop :=
  0 <= x < secp_p /\ 0 <= y < secp_p /\ (y * y) mod secp_p = (x * x * x + 7) mod secp_p.

(** finite point of y^2 = x^3 + 3 over Z/p *)
Definition on_g1 (P : Z * Z) : Prop :=
  0 <= fst P < p_mod /\ 0 <= snd P < p_mod /\ (snd P * snd P) mod p_mod = (fst P * fst P * fst P + 3) mod p_mod.

(** the pairs of literals assigned to two registers in a program, in order *)
Definition literals (p : list stmt) : list (Z * Z) :=
  flat_map (fun s => match s with SSet2 _ _ (FStr a) (FStr b) => [(a, b)] | _ => [] end) p.
