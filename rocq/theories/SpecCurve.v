(** Specification of BN254 G1 encodings. *)
From Coq Require Import ZArith List.
From Verif Require Import Params Curve.
Import ListNotations.
Open Scope Z_scope.

(** The pair of integers (a,b) is the affine encoding of the group element P: (0,0) for infinity,
    otherwise canonical coordinates of a point of y^2 = x^3 + 3 over Z/p. *)
Definition encodes (a b : Z) (P : pt) : Prop :=
  (a = 0 /\ b = 0 /\ P = Inf) \/
  (0 <= a < p_mod /\ 0 <= b < p_mod /\ (b * b) mod p_mod = (a * a * a + 3) mod p_mod /\ P = Aff a b).

(** The curve equation for integers, together with the encoding of infinity. *)
Definition curve_or_zero (a b : Z) : Prop :=
  (a mod p_mod = 0 /\ b mod p_mod = 0) \/ (b * b) mod p_mod = (a * a * a + 3) mod p_mod.

(** coordinates as the hints return them *)
Definition printed (P : pt) : Z * Z := match P with Inf => (0, 1) | Aff X Y => (X, Y) end.

(** ** The group law, stated without formulas for slopes or coordinates *)
Definition is_point (P : pt) : Prop := exists a b, encodes a b P.
Definition eqp (a b : Z) : Prop := a mod p_mod = b mod p_mod.
(** R is the sum of P and Q: infinity is neutral, points with the same abscissa and opposite ordinates add
    up to infinity, and otherwise some line y = l x + c meets the curve in P, Q and -R, counted with
    multiplicity. *)
Inductive group_sum : pt -> pt -> pt -> Prop :=
| gs_zero_l Q : is_point Q -> group_sum Inf Q Q
| gs_zero_r P : is_point P -> group_sum P Inf P
| gs_opposite x y y' : is_point (Aff x y) -> is_point (Aff x y') -> eqp (y + y') 0 -> group_sum (Aff x y) (Aff x y') Inf
| gs_line x1 y1 x2 y2 x3 y3 l c :
    is_point (Aff x1 y1) -> is_point (Aff x2 y2) -> is_point (Aff x3 y3) ->
    eqp y1 (l * x1 + c) -> eqp y2 (l * x2 + c) -> eqp (- y3) (l * x3 + c) ->
    (forall t, eqp (t * t * t + 3 - (l * t + c) * (l * t + c)) ((t - x1) * (t - x2) * (t - x3))) ->
    group_sum (Aff x1 y1) (Aff x2 y2) (Aff x3 y3).
(** Q is k times P: repeated addition of P (for negative k, P + ... + P + Q is infinity) *)
Inductive multiple (P : pt) : Z -> pt -> Prop :=
| mu_zero : is_point P -> multiple P 0 Inf
| mu_succ k Q R : multiple P k Q -> group_sum P Q R -> multiple P (k + 1) R
| mu_pred k Q R : multiple P k Q -> group_sum P R Q -> multiple P (k - 1) R.

(** R is the sum of k times (a,b) over the entries ((a,b),k) of the list *)
Inductive lin_comb : list ((Z * Z) * Z) -> pt -> Prop :=
| lc_nil : lin_comb [] Inf
| lc_cons a b k l P Q S R :
    encodes a b P -> multiple P k Q -> lin_comb l S -> group_sum Q S R -> lin_comb (((a, b), k) :: l) R.

(** opposite ordinates but different abscissas *)
Definition add_degenerate (P Q : pt) : Prop :=
  exists x1 y1 x2 y2, P = Aff x1 y1 /\ Q = Aff x2 y2 /\ x1 <> x2 /\ (y1 + y2) mod p_mod = 0.
