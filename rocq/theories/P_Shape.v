(** The compiled aggregation circuit has one wire per leaf (C37). *)
From Coq Require Import ZArith String List.
From Verif Require Import Params Go Curve Api Lib Agg SpecKinds SpecShape.
Import ListNotations.
Open Scope Z_scope.

Open Scope list_scope.

Lemma wires_app a n m : wires_from a n ++ wires_from (a + n)%nat m = wires_from a (n + m)%nat.
Proof. unfold wires_from. rewrite <- map_app, <- seq_app. reflexivity. Qed.
Lemma wires_len a n : length (wires_from a n) = n.
Proof. unfold wires_from. rewrite map_length, seq_length. reflexivity. Qed.
Lemma leaves_eq np nv na nt : agg_leaves (agg_shape np nv na nt) = wires_from 0 (nt + np + nv + na)%nat.
Proof.
  unfold agg_leaves, agg_shape. cbn [TargetInst Proof_ VerifyInst Aux].
  change (wires_from nt np) with (wires_from (0 + nt)%nat np). rewrite !app_assoc, wires_app.
  change (wires_from (nt + np)%nat nv) with (wires_from (0 + (nt + np))%nat nv). rewrite wires_app.
  change (wires_from (nt + np + nv)%nat na) with (wires_from (0 + (nt + np + nv))%nat na). rewrite wires_app. reflexivity.
Qed.
Lemma c37_wires O np nv na nt : exists c : AggregatorCircuit,
  length (Proof_ c) = np /\ length (VerifyInst c) = nv /\ length (Aux c) = na /\ length (TargetInst c) = nt /\
  agg_leaves c = numbered (length (agg_leaves c)) /\ compile_agg O np nv na nt = compile (length (agg_leaves c)) (Define O Build c).
Proof.
  exists (agg_shape np nv na nt). cbn [agg_shape TargetInst Proof_ VerifyInst Aux]. rewrite !wires_len.
  repeat (split; [reflexivity|]). rewrite leaves_eq, wires_len. split; reflexivity.
Qed.
(** a symbolic argument anywhere is refused *)
Lemma with_fp_none v (k : Z -> M (option goerr)) s s' : with_fp v Some k s = Done (None, s') -> fp_kind v /\ exists z, k z s = Done (None, s').
Proof.
  unfold with_fp. destruct v as [| |z0|z0|[z0|]|z0|z0|e|e]; cbn; intros H; try discriminate H; split; eauto.
Qed.
Lemma c37_mul_kinds O en x y k u v s s' : VerifyBN254ScalarMul O en (x, y) k (u, v) s = Done (None, s') ->
  fp_kind x /\ fp_kind y /\ fp_kind k /\ fp_kind u /\ fp_kind v.
Proof.
  unfold VerifyBN254ScalarMul. cbn [fst snd]. intros H. apply with_fp_none in H. destruct H as [Hx [zx H]].
  apply with_fp_none in H. destruct H as [Hy [zy H]]. apply with_fp_none in H. destruct H as [Hk [zk H]].
  unfold bind at 1 in H. destruct (emul_smul O en zx zy (zk mod r_mod) s) as [[res s1]|w]; [|discriminate].
  apply with_fp_none in H. destruct H as [Hu [zu H]]. apply with_fp_none in H. destruct H as [Hv _]. auto.
Qed.
Lemma c37_add_kinds en x1 y1 x2 y2 u v s s' : VerifyBN254Add en (x1, y1) (x2, y2) (u, v) s = Done (None, s') ->
  fp_kind x1 /\ fp_kind y1 /\ fp_kind x2 /\ fp_kind y2 /\ fp_kind u /\ fp_kind v.
Proof.
  unfold VerifyBN254Add. cbn [fst snd]. intros H. apply with_fp_none in H. destruct H as [H1 [z1 H]].
  apply with_fp_none in H. destruct H as [H2 [z2 H]]. apply with_fp_none in H. destruct H as [H3 [z3 H]].
  apply with_fp_none in H. destruct H as [H4 [z4 H]].
  apply with_fp_none in H. destruct H as [H5 [z5 H]]. apply with_fp_none in H. destruct H as [H6 _]. repeat split; assumption.
Qed.
Lemma ex37_kinds : exists s', VerifyBN254Add Test (VInt 1, VInt 2) (VInt 1, VBig (p_mod - 2)) (VBig 0, VStr (Some 0)) (mk_cs 0 [] []) = Done (None, s').
Proof. eexists. vm_compute. reflexivity. Qed.
