(** The byte check of the hash circuits: C64. *)
From Coq Require Import ZArith String Bool List Lia.
From Verif Require Import Params Go Curve Api FrOps Lib Agg SpecHash P_Fr P_Curve P_Hash.
Open Scope Z_scope.
Lemma c64_test v x s : to_big v = Done x ->
  (0 <= x < 256 -> exists u, byte_value_of Test v s = Done (u, s) /\ to_big u = Done x) /\
  (~ 0 <= x < 256 -> exists w, byte_value_of Test v s = Panicked w).
Proof.
  intros H. unfold byte_value_of, bind, lift. rewrite H. unfold is_byte. split; intros A.
  - exists v. destruct (Z.leb_spec 0 x), (Z.ltb_spec x 256); try lia. split; [reflexivity | exact H].
  - destruct (Z.leb_spec 0 x), (Z.ltb_spec x 256); try lia; eexists; reflexivity.
Qed.
Lemma c64_build v e s : to_expr v = Done e ->
  exists s', byte_value_of Build v s = Done (v, s') /\
    forall O w, sat O w s' <-> sat O w s /\ 0 <= eval w e < 256.
Proof.
  intros H. unfold byte_value_of, bind, lift. rewrite H. unfold emit, ret. eexists. split; [reflexivity|].
  intros O w. unfold sat. cbn [cs_cons]. rewrite Forall_cons_iff. cbn [sat1].
  pose proof (eval_range w e). intuition lia.
Qed.
Lemma ex64 : byte_value_of Test (VBig 255) empty_cs = Done (VBig 255, empty_cs) /\
  (exists w, byte_value_of Test (VBig 256) empty_cs = Panicked w) /\
  exists s', byte_value_of Build (VExpr (EWire 0)) empty_cs = Done (VExpr (EWire 0), s') /\
    forall O, sat O {| aw := fun _ => 255; ae := fun _ => 0 |} s' /\ ~ sat O {| aw := fun _ => 256; ae := fun _ => 0 |} s'.
Proof.
  split; [reflexivity|]. split; [eexists; reflexivity|].
  destruct (c64_build (VExpr (EWire 0)) (EWire 0) empty_cs eq_refl) as (s' & E & H). exists s'. split; [exact E|]. intros O. split.
  - apply H. split; [constructor | vm_compute; split; [discriminate | reflexivity]].
  - intros S. apply H in S. destruct S as [_ S]. vm_compute in S. destruct S as [_ S]. discriminate.
Qed.
