(** C71 for every evaluation point, and cases for C72. *)
From Coq Require Import ZArith Bool List Lia.
From Verif Require Import Params Go Curve Api FrOps Lib Steps Agg FField FpField SpecCurve SpecHash SpecMisc SpecVerify SpecExact SpecAll
  P_Hash P_Trans P_RunEx P_EvalMod P_All.
Import ListNotations.
Open Scope Z_scope.

Lemma expressions_at_ext t t' th be ga x L0 LL LA : (forall i, t i = t' i) ->
  expressions_at t th be ga x L0 LL LA = expressions_at t' th be ga x L0 LL LA.
Proof.
  intros H. unfold expressions_at, gates, permutation_at, lookup_at, chunk_at, gate_main, limbs, pick.
  cbn [map combine seq length filter negb Z.eqb Pos.eqb]. rewrite !H. reflexivity.
Qed.

Lemma acceptable_all_ext T T' O zs A : length T' = length T ->
  (forall i, (i < 44 \/ 100 <= i)%nat -> nth i T' 0 = nth i T 0) ->
  (forall i, (44 <= i < 100)%nat -> nth i T' 0 mod r_mod = nth i T 0 mod r_mod) ->
  (forall ix iy, instance_commitment O zs ix iy -> transcript_values O ix iy T' = transcript_values O ix iy T) ->
  Forall SpecHash.small (firstn 102 T') -> acceptable_all O zs T A -> acceptable_all O zs T' A.
Proof.
  intros L Out Ev TV SM (LZ & LT & LA & VT & _ & ix & iy & X & Y & HI & RX & RY & R). cbv zeta in R.
  split; [exact LZ|]. split; [rewrite L; exact LT|]. split; [exact LA|]. split; [exact (coms_ext T T' L Out VT)|]. split; [exact SM|].
  exists ix, iy, X, Y. split; [exact HI|]. split; [exact RX|]. split; [exact RY|]. cbv zeta.
  rewrite (TV ix iy HI), (queries_ext T T' L Out Ev), (terms_ext T T' L Out Ev). rewrite !Out by lia.
  destruct R as [(H1 & H2 & H3) R]. split; [|exact R]. split; [exact H1|]. split; [exact H2|].
  cbv zeta in H3 |- *. rewrite (expressions_at_ext (word T') (word T)) by exact (word_ext T T' L Out Ev). exact H3.
Qed.

Lemma c72_mod O c c' zs T T' A s :
  TargetInst c ++ VerifyInst c = map VBig zs -> Proof_ c = map VBig T -> Aux c = map VBig A ->
  TargetInst c' ++ VerifyInst c' = map VBig zs -> Proof_ c' = map VBig T' -> Aux c' = map VBig A ->
  length T' = length T -> (forall i, (i < 44 \/ 100 <= i)%nat -> nth i T' 0 = nth i T 0) ->
  (forall i, (44 <= i < 100)%nat -> nth i T' 0 mod r_mod = nth i T 0 mod r_mod) ->
  Forall SpecHash.small (firstn 102 T) -> Forall SpecHash.small (firstn 102 T') ->
  (forall ix iy, instance_commitment O zs ix iy -> transcript_values O ix iy T' = transcript_values O ix iy T) ->
  degen_sane O ->
  ((exists s', Define O Test c s = Done (None, s')) <-> (exists s', Define O Test c' s = Done (None, s'))).
Proof.
  intros E1 E2 E3 F1 F2 F3 L Out Ev S S' TV Hd.
  rewrite (c72_exact O c zs T A s E1 E2 E3 Hd), (c72_exact O c' zs T' A s F1 F2 F3 Hd).
  split; [apply acceptable_all_ext | apply acceptable_all_ext]; auto; intros; symmetry; auto.
Qed.

Lemma run_acceptable_all : acceptable_all run_O [7] run_proof (map val (helpers (fc rx) (fc ru) 0%fr)).
Proof.
  exact (c72_fwd run_O run_circuit [7] run_proof _ (mk_cs 0 [] []) _ eq_refl eq_refl eq_refl run_degen (run_accepted _)).
Qed.
