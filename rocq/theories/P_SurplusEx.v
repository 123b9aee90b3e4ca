(** Cases for C74: the accepted run of C48 with surplus words, and with a missing word. *)
From Coq Require Import ZArith Bool List Lia.
From Verif Require Import Params Go Curve Api FrOps Lib Steps Agg FField SpecMisc SpecVerify P_RunEx P_EvalMod P_Surplus.
Import ListNotations.
Open Scope Z_scope.

Definition longer (c : AggregatorCircuit) (ps qs : list var) : AggregatorCircuit :=
  {| Proof_ := Proof_ c ++ ps; VerifyInst := VerifyInst c; Aux := Aux c ++ qs; TargetInst := TargetInst c |}.
Lemma run_lengths : length (Proof_ run_circuit) = 104%nat /\ length (Aux run_circuit) = 21%nat.
Proof. unfold run_circuit. cbn [Proof_ Aux]. rewrite !map_length. split; reflexivity. Qed.
Lemma firstn_longer {A} n (l t : list A) : length l = n -> firstn n l = firstn n (l ++ t).
Proof. intros <-. rewrite firstn_app, Nat.sub_diag, firstn_O, app_nil_r. reflexivity. Qed.
Lemma longer_accepted O c ps qs s s' : length (Proof_ c) = 104%nat -> length (Aux c) = 21%nat ->
  Define O Test c s = Done (None, s') -> Define O Test (longer c ps qs) s = Done (None, s').
Proof.
  intros L1 L2 D. refine (eq_trans (eq_sym _) D). apply c74_surplus; [reflexivity|..]; cbn [longer Proof_ Aux]; apply firstn_longer; assumption.
Qed.
Lemma surplus_case : forall ps qs s, exists s', Define run_O Test (longer run_circuit ps qs) s = Done (None, s').
Proof. intros ps qs s. exact (ex_intro _ s (longer_accepted run_O run_circuit ps qs s s (proj1 run_lengths) (proj2 run_lengths) (run_accepted s))). Qed.
Definition shorter (c : AggregatorCircuit) : AggregatorCircuit :=
  {| Proof_ := firstn 103 (Proof_ c); VerifyInst := VerifyInst c; Aux := Aux c; TargetInst := TargetInst c |}.
Lemma shorter_rejected O c zs T A s s' : TargetInst c ++ VerifyInst c = map VBig zs -> Proof_ c = map VBig T -> Aux c = map VBig A -> degen_sane O ->
  Define O Test (shorter c) s <> Done (None, s').
Proof.
  intros E1 E2 E3 Hd. apply (c74_missing O (shorter c) zs (firstn 103 T) A); cbn [shorter TargetInst VerifyInst Proof_ Aux]; try assumption.
  - rewrite E2. apply firstn_map.
  - left. rewrite firstn_length. lia.
Qed.
Lemma missing_case : forall s s', Define run_O Test run_circuit s = Done (None, s) /\ Define run_O Test (shorter run_circuit) s <> Done (None, s').
Proof.
  intros s s'. exact (conj (run_accepted s) (shorter_rejected run_O run_circuit [7] run_proof _ s s' eq_refl eq_refl eq_refl run_degen)).
Qed.
