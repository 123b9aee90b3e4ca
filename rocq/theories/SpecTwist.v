(** The group of the twist y^2 = x^3 + 3/(9+u) over Fp2 = Fp[u]/(u^2+1), stated without formulas for slopes or
    coordinates, as in SpecCurve.v.  [zp2] (SpecPairing.v) is the arithmetic of Fp2 on pairs of integers. *)
From Coq Require Import ZArith List.
From Verif Require Import Params Go Curve SpecCurve SpecMisc SpecPairing.
Open Scope Z_scope.

Declare Scope fp2_scope.
Delimit Scope fp2_scope with f2.
Notation "a + b" := (oadd zp2 a b) : fp2_scope.
Notation "a - b" := (osub zp2 a b) : fp2_scope.
Notation "a * b" := (omul zp2 a b) : fp2_scope.

Definition canon2 (a : Z * Z) : Prop := 0 <= fst a < p_mod /\ 0 <= snd a < p_mod.
(** infinity, or a pair of canonical coordinates satisfying the equation *)
Definition twist_point (P : option g2) : Prop :=
  match P with None => True | Some (x, y) => canon2 x /\ canon2 y /\ on_twist (x, y) end.
(** R is the sum of P and Q: infinity is neutral, points with the same abscissa and opposite ordinates add up to
    infinity, and otherwise some line y = l x + c meets the curve in P, Q and -R, counted with multiplicity:
    (9+u) times the difference of (t-x1)(t-x2)(t-x3) and t^3 - (lt+c)^2 is 3 for every t. *)
Inductive twist_sum : option g2 -> option g2 -> option g2 -> Prop :=
| ts_zero_l Q : twist_point Q -> twist_sum None Q Q
| ts_zero_r P : twist_point P -> twist_sum P None P
| ts_opposite x y y' : twist_point (Some (x, y)) -> twist_point (Some (x, y')) -> (y + y')%f2 = (0, 0) ->
    twist_sum (Some (x, y)) (Some (x, y')) None
| ts_line x1 y1 x2 y2 x3 y3 l c :
    twist_point (Some (x1, y1)) -> twist_point (Some (x2, y2)) -> twist_point (Some (x3, y3)) ->
    y1 = (l * x1 + c)%f2 -> y2 = (l * x2 + c)%f2 -> ((0, 0) - y3)%f2 = (l * x3 + c)%f2 ->
    (forall t, ((9, 1) * ((t - x1) * (t - x2) * (t - x3) - (t * t * t - (l * t + c) * (l * t + c))))%f2 = (3, 0)) ->
    twist_sum (Some (x1, y1)) (Some (x2, y2)) (Some (x3, y3)).
(** Q is k times P *)
Inductive twist_multiple (P : option g2) : Z -> option g2 -> Prop :=
| tm_zero : twist_point P -> twist_multiple P 0 None
| tm_succ k Q R : twist_multiple P k Q -> twist_sum P Q R -> twist_multiple P (k + 1) R
| tm_pred k Q R : twist_multiple P k Q -> twist_sum P R Q -> twist_multiple P (k - 1) R.
(** the generator of G2 fixed by EIP-197, the precompile specification for this curve *)
Definition g2_generator : g2 :=
  ((10857046999023057135944570762232829481370756359578518086990519993285655852781,
    11559732032986387107991004021392285783925812861821192530917403151452391805634),
   (8495653923123431417604973247489272438418190587263600148770280649306958101930,
    4082367875863433681332203403145435568316851327593401208105741076214120093531)).
