(** Property theorems: the group of the twist and the hard-coded points of G2 (C69). *)
From Coq Require Import ZArith List.
From Verif Require Import Params Go Curve Agg SpecCurve SpecMisc SpecPairing SpecTwist P_Tw P_TwEx P_TwFin.
Open Scope Z_scope.

(** C69: any two points of the twist have exactly one sum, and the sum is commutative and associative, with
    infinity as neutral element (by definition of [twist_sum]) and a negative for every point. *)
Theorem C69_sum_exists : forall P Q, twist_point P -> twist_point Q -> exists R, twist_sum P Q R.
Proof. exact c69_total. Qed.
Print Assumptions C69_sum_exists.
Theorem C69_sum_unique : forall P Q R R', twist_sum P Q R -> twist_sum P Q R' -> R = R'.
Proof. exact c69_unique. Qed.
Print Assumptions C69_sum_unique.
Theorem C69_sum_comm : forall P Q R, twist_sum P Q R -> twist_sum Q P R.
Proof. exact c69_comm. Qed.
Print Assumptions C69_sum_comm.
Theorem C69_sum_assoc : forall P Q R S T U, twist_sum P Q S -> twist_sum S R T -> twist_sum Q R U -> twist_sum P U T.
Proof. exact c69_assoc. Qed.
Print Assumptions C69_sum_assoc.

Theorem C69_sum_negative : forall P, twist_point P -> exists Q, twist_sum P Q None.
Proof. exact c69_neg. Qed.
Print Assumptions C69_sum_negative.

(** C69: GetVerifyCircuitsG2Jac does not panic, both points it returns lie on the twist and have order exactly r,
    and the second is the negative of the standard generator of G2. *)
Theorem C69_GetVerifyCircuitsG2Jac_order : exists s t, GetVerifyCircuitsG2Jac = Done (s, t) /\
  twist_point (Some s) /\ (forall k, twist_multiple (Some s) k None <-> (r_mod | k)) /\
  twist_point (Some t) /\ (forall k, twist_multiple (Some t) k None <-> (r_mod | k)) /\
  twist_sum (Some t) (Some g2_generator) None.
Proof. exact c69_points. Qed.
Print Assumptions C69_GetVerifyCircuitsG2Jac_order.

(** the check made by the program (the curve equation) does not imply the order *)
Theorem C69_curve_check_implies_order_refuted :
  exists P, g2_is_on_curve P = true /\ twist_point (Some P) /\ ~ twist_multiple (Some P) r_mod None.
Proof. exact c69_check. Qed.
Print Assumptions C69_curve_check_implies_order_refuted.

(** the generator doubled and tripled; a multiple of the first point that is not infinity *)
Example C69_case : twist_sum (Some g2_generator) (Some g2_generator) (Some gen2) /\ twist_multiple (Some g2_generator) 3 (Some gen3) /\
  twist_point (Some g20_const) /\ ~ twist_multiple (Some g20_const) 12345 None.
Proof. exact ex69. Qed.
