(** Specification of ECDSA over secp256k1 (SEC 1, section 4.1.4; SEC 2, section 2.4.1), on integers.  Sums of
    points are relations: the slope is any integer with the right product. *)
From Coq Require Import ZArith List.
From Verif Require Import SpecKeys.
Import ListNotations.
Open Scope Z_scope.

(** order of the group and base point *)
Definition secp_n : Z := 115792089237316195423570985008687907852837564279074904382605163141518161494337.
Definition secp_gx : Z := 55066263022277343669578718895168534326250603453777594175500187360389116729240.
Definition secp_gy : Z := 32670510020758816978083085130507043184471273380659243275938904335757337482424.

Definition eqp (a b : Z) : Prop := a mod secp_p = b mod secp_p.
Inductive spt : Type := SInf | SAff (x y : Z).
(** chord and tangent; coordinates in [0, p) *)
Inductive ssum : spt -> spt -> spt -> Prop :=
| ss_l Q : ssum SInf Q Q
| ss_r P : ssum P SInf P
| ss_opp x y y' : eqp (y + y') 0 -> ssum (SAff x y) (SAff x y') SInf
| ss_chord x1 y1 x2 y2 t x3 y3 : x1 <> x2 -> eqp (t * (x2 - x1)) (y2 - y1) ->
    x3 = (t * t - x1 - x2) mod secp_p -> y3 = (t * (x1 - x3) - y1) mod secp_p ->
    ssum (SAff x1 y1) (SAff x2 y2) (SAff x3 y3)
| ss_tangent x y t x3 y3 : ~ eqp (2 * y) 0 -> eqp (t * (2 * y)) (3 * (x * x)) ->
    x3 = (t * t - x - x) mod secp_p -> y3 = (t * (x - x3) - y) mod secp_p ->
    ssum (SAff x y) (SAff x y) (SAff x3 y3).
(** multiples, from the binary expansion *)
Fixpoint smult (k : positive) (P R : spt) : Prop :=
  match k with
  | xH => R = P
  | xO k' => exists Q, smult k' P Q /\ ssum Q Q R
  | xI k' => exists Q D, smult k' P Q /\ ssum Q Q D /\ ssum D P R
  end.
Definition smultz (k : Z) (P R : spt) : Prop :=
  match k with Z0 => R = SInf | Zpos k => smult k P R | Zneg _ => False end.

(** (r, s) signs the integer h under the public key (px, py) *)
Definition ecdsa_valid (px py h r s : Z) : Prop :=
  1 <= r < secp_n /\ 1 <= s < secp_n /\
  exists w A B x y, (s * w) mod secp_n = 1 /\
    smultz ((h * w) mod secp_n) (SAff secp_gx secp_gy) A /\ smultz ((r * w) mod secp_n) (SAff px py) B /\
    ssum A B (SAff x y) /\ x mod secp_n = r.
