(** The curve arithmetic is the group law of BN254 G1, of prime order r: C49, C50.  [is_point], [group_sum] and
    [multiple] are defined in SpecCurve.v by secant and tangent lines and by repeated addition; [padd] and [pmul] are the
    arithmetic every gadget and hint of the model computes with. *)
From Coq Require Import ZArith List.
From Verif Require Import Params Curve SpecCurve P_MsmEx P_GroupSpec P_Restate.
Open Scope Z_scope.

(** C49 *)
Theorem C49_padd_is_group_sum : forall P Q R : pt, is_point P -> is_point Q -> (group_sum P Q R <-> padd P Q = R).
Proof. exact c49_sum. Qed.
Print Assumptions C49_padd_is_group_sum.
Theorem C49_sum_exists : forall P Q : pt, is_point P -> is_point Q -> exists R, is_point R /\ group_sum P Q R.
Proof. exact c49_total. Qed.
Print Assumptions C49_sum_exists.
Theorem C49_sum_unique : forall P Q R R' : pt, group_sum P Q R -> group_sum P Q R' -> R = R'.
Proof. exact c49_unique. Qed.
Print Assumptions C49_sum_unique.
Theorem C49_commutative : forall P Q R : pt, group_sum P Q R -> group_sum Q P R.
Proof. exact c49_comm. Qed.
Print Assumptions C49_commutative.
Theorem C49_associative : forall P Q R S T U : pt,
  group_sum P Q S -> group_sum S R T -> group_sum Q R U -> group_sum P U T.
Proof. exact c49_assoc. Qed.
Print Assumptions C49_associative.
Theorem C49_inverse : forall P : pt, is_point P -> group_sum P (pneg P) Inf.
Proof. exact c49_inverse. Qed.
Print Assumptions C49_inverse.
Example C49_case : is_point (Aff 1 2) /\ group_sum (Aff 1 2) (Aff 1 2) (Aff double_x double_y).
Proof. exact (conj gen_point gen_double). Qed.

(** C50 *)
Theorem C50_pmul_is_multiple : forall (P : pt) (k : Z) (R : pt), is_point P -> (multiple P k R <-> pmul k P = R).
Proof. exact c50_multiple. Qed.
Print Assumptions C50_pmul_is_multiple.
Theorem C50_multiple_exists : forall (P : pt) (k : Z), is_point P -> exists R, is_point R /\ multiple P k R.
Proof. exact c50_total. Qed.
Print Assumptions C50_multiple_exists.
Theorem C50_multiple_unique : forall (P : pt) (k : Z) (R R' : pt), multiple P k R -> multiple P k R' -> R = R'.
Proof. exact c50_unique. Qed.
Print Assumptions C50_multiple_unique.
(** every point other than infinity has order exactly r *)
Theorem C50_order : forall (P : pt) (k : Z), is_point P -> P <> Inf -> (multiple P k Inf <-> (r_mod | k)).
Proof. exact c50_order. Qed.
Print Assumptions C50_order.
(** the group is generated by (1,2), hence has exactly r elements *)
Theorem C50_generated : forall P : pt, is_point P -> exists k, 0 <= k < r_mod /\ multiple (Aff 1 2) k P.
Proof. exact c50_cyclic. Qed.
Print Assumptions C50_generated.
Theorem C50_additive : forall (P : pt) (a b : Z) (Q R S : pt),
  multiple P a Q -> multiple P b R -> group_sum Q R S -> multiple P (a + b) S.
Proof. exact c50_add. Qed.
Print Assumptions C50_additive.
Theorem C50_distributive : forall (P Q R : pt) (k : Z) (A B C : pt),
  group_sum P Q R -> multiple P k A -> multiple Q k B -> multiple R k C -> group_sum A B C.
Proof. exact c50_distr. Qed.
Print Assumptions C50_distributive.
Theorem C50_iterated : forall (P : pt) (a b : Z) (Q R : pt), multiple P a Q -> multiple Q b R -> multiple P (b * a) R.
Proof. exact c50_mul. Qed.
Print Assumptions C50_iterated.
Example C50_case : multiple (Aff 1 2) 3 (Aff triple_x triple_y).
Proof. exact gen_multiple_3. Qed.
