(** Exactly which inputs the aggregation circuit accepts, for every evaluation point: C72. *)
From Coq Require Import ZArith Bool List.
From Verif Require Import Params Go Curve Api FrOps Lib Steps Agg FField FpField SpecCurve SpecHash SpecMisc SpecVerify SpecExact SpecAll
  P_RunEx P_All P_AllEx.
Import ListNotations.
Open Scope Z_scope.

(** C72: the set of accepted inputs, with no assumption on the evaluation point *)
Theorem C72_exact_everywhere : forall (O : oracles) c (zs T A : list Z) (s : cs),
  TargetInst c ++ VerifyInst c = map VBig zs -> Proof_ c = map VBig T -> Aux c = map VBig A -> degen_sane O ->
  ((exists s', Define O Test c s = Done (None, s')) <-> acceptable_all O zs T A).
Proof. exact c72_exact. Qed.
Print Assumptions C72_exact_everywhere.
(** outside the domain the helper words are determined: the inverses, Lagrange values and quotient *)
Theorem C72_helpers_outside_domain : forall (T A : list Z) (th be ga y x u : Fr), fexp x dom_n <> 1%fr ->
  (helper_words T A th be ga y x u <->
   x <> 0%fr /\ u <> rot x (-1) /\ u <> rot x 2 /\
   forall i, (i < 21)%nat -> nth i A 0 = val (nth i (helpers x u (quotient (word T) th be ga x y)) 0%fr)).
Proof. exact helper_words_outside. Qed.
Print Assumptions C72_helpers_outside_domain.
(** for an evaluation point of the domain any canonical scalar passes as quotient *)
Theorem C72_quotient_free_inside_domain : forall (T A : list Z) (th be ga y x u : Fr) (z : Z),
  fexp x dom_n = 1%fr -> helper_words T A th be ga y x u -> 0 <= z < r_mod ->
  helper_words T (firstn 16 A ++ z :: skipn 17 A) th be ga y x u.
Proof. exact helper_words_inside. Qed.
Print Assumptions C72_quotient_free_inside_domain.
(** C71 without the assumption on the evaluation point *)
Theorem C72_evaluations_mod_r : forall (O : oracles) c c' (zs T T' A : list Z) (s : cs),
  TargetInst c ++ VerifyInst c = map VBig zs -> Proof_ c = map VBig T -> Aux c = map VBig A ->
  TargetInst c' ++ VerifyInst c' = map VBig zs -> Proof_ c' = map VBig T' -> Aux c' = map VBig A ->
  length T' = length T -> (forall i, (i < 44 \/ 100 <= i)%nat -> nth i T' 0 = nth i T 0) ->
  (forall i, (44 <= i < 100)%nat -> nth i T' 0 mod r_mod = nth i T 0 mod r_mod) ->
  Forall small (firstn 102 T) -> Forall small (firstn 102 T') ->
  (forall ix iy, instance_commitment O zs ix iy -> transcript_values O ix iy T' = transcript_values O ix iy T) ->
  degen_sane O ->
  ((exists s', Define O Test c s = Done (None, s')) <-> (exists s', Define O Test c' s = Done (None, s'))).
Proof. exact c72_mod. Qed.
Print Assumptions C72_evaluations_mod_r.
(** the accepted run of C48 meets the predicate *)
Example C72_case : acceptable_all run_O [7] run_proof (map val (helpers (fc rx) (fc ru) 0%fr)).
Proof. exact run_acceptable_all. Qed.
Print Assumptions C72_case.
(** evaluation point 1 is in the domain; all evaluations zero, any quotient *)
Example C72_inside_case : forall (th be ga y : Fr) (z : Z), 0 <= z < r_mod ->
  fexp 1%fr dom_n = 1%fr /\ helper_words (repeat 0 104) (map val (helpers 1%fr 0%fr (fc z))) th be ga y 1%fr 0%fr.
Proof. exact inside_case. Qed.
Print Assumptions C72_inside_case.
