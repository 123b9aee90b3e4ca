(** Value kinds accepted by the legacy gadgets (C19); the hint registry (C38). *)
From Coq Require Import ZArith String Bool List.
From Verif Require Import Params Go Curve Api FrOps Lib Agg SpecKinds.
Import ListNotations.
Open Scope Z_scope.

Lemma sop_done v s z s' : set_or_panic v s = Done (z, s') -> fp_kind v /\ s' = s.
Proof.
  unfold set_or_panic. destruct v as [| |z0|z0|[z0|]|z0|z0|e|e]; cbn; intros H; try discriminate H; injection H as _ <-; split; auto; exact I.
Qed.
Lemma hint_build h n ins s r e s' : new_hint Build h n ins s = Done ((r, e), s') ->
  forall i v, nth_error r i = Some v -> exists w, v = VExpr (EWire w).
Proof.
  unfold new_hint. destruct n; [intros H; injection H as <- _ _; intros [|i] v K; discriminate K|].
  unfold bind. destruct (mapM _ ins s) as [[es s1]|w]; [|discriminate].
  destruct (alloc (S n) s1) as [[ws s2]|w]; [|discriminate]. destruct (log_hint (hf_id h) es ws s2) as [[u s3]|w]; [|discriminate].
  intros H. injection H as <- _ _. intros i v K. rewrite nth_error_map in K. destruct (nth_error ws i) as [j|]; [|discriminate K].
  injection K as <-. exists j. reflexivity.
Qed.
Lemma get_done (l : list var) i v : get l i = Done v -> nth_error l i = Some v.
Proof. unfold get. destruct (nth_error l i); intros H; [injection H as ->; reflexivity | discriminate H]. Qed.

Lemma c19_msm_kinds en x y k s vx vy e s' : CalcVerifyBN256Msm1 en x y k s = Done (((vx, vy), e), s') ->
  fp_kind x /\ fp_kind y /\ (e = None -> en = Test).
Proof.
  unfold CalcVerifyBN256Msm1. unfold bind at 1. destruct (new_hint en MsmHint 2 [x; y; k] s) as [[[res err] s1]|w] eqn:E0; [|discriminate].
  destruct err as [er|]; [discriminate|]. unfold bind at 1. destruct (set_or_panic x s1) as [[gx s2]|w] eqn:E1; [|discriminate].
  unfold bind at 1. destruct (set_or_panic y s2) as [[gy s3]|w] eqn:E2; [|discriminate].
  apply sop_done in E1. apply sop_done in E2. intros H. split; [tauto|]. split; [tauto|]. intros ->.
  destruct (negb (g1_is_on_curve gx gy)); [discriminate|]. unfold bind at 1, lift at 1 in H.
  destruct (get res 0) as [r0|w] eqn:G; [|discriminate]. unfold bind at 1 in H.
  destruct (set_or_panic r0 s3) as [[rx s4]|w] eqn:E3; [|discriminate]. apply sop_done in E3. destruct E3 as [E3 _].
  destruct en; [reflexivity|]. apply get_done in G. destruct (hint_build _ _ _ _ _ _ _ E0 _ _ G) as [i ->]. destruct E3.
Qed.
Lemma c19_add_kinds en x1 y1 x2 y2 s vx vy e s' : CalcVerifyBN256Add1 en x1 y1 x2 y2 s = Done (((vx, vy), e), s') ->
  fp_kind x1 /\ fp_kind y1 /\ (e = None -> fp_kind x2 /\ fp_kind y2 /\ en = Test).
Proof.
  unfold CalcVerifyBN256Add1. unfold bind at 1. destruct (new_hint en AddHint 2 [x1; y1; x2; y2] s) as [[[res err] s1]|w] eqn:E0; [|discriminate].
  unfold bind at 1. destruct (set_or_panic x1 s1) as [[ax s2]|w] eqn:E1; [|discriminate].
  unfold bind at 1. destruct (set_or_panic y1 s2) as [[ay s3]|w] eqn:E2; [|discriminate].
  apply sop_done in E1. apply sop_done in E2. intros H. split; [tauto|]. split; [tauto|]. intros ->.
  destruct (negb (g1_is_on_curve ax ay)); [discriminate|].
  unfold bind at 1 in H. destruct (set_or_panic x2 s3) as [[bx s4]|w] eqn:E3; [|discriminate].
  unfold bind at 1 in H. destruct (set_or_panic y2 s4) as [[by_ s5]|w] eqn:E4; [|discriminate].
  apply sop_done in E3. apply sop_done in E4. split; [tauto|]. split; [tauto|].
  destruct (negb (g1_is_on_curve bx by_)); [discriminate|]. unfold bind at 1, lift at 1 in H.
  destruct (get res 0) as [r0|w] eqn:G; [|discriminate]. unfold bind at 1 in H.
  destruct (set_or_panic r0 s5) as [[rx s6]|w] eqn:E5; [|discriminate]. apply sop_done in E5. destruct E5 as [E5 _].
  destruct en; [reflexivity|]. apply get_done in G. destruct (hint_build _ _ _ _ _ _ _ E0 _ _ G) as [i ->]. destruct E5.
Qed.
Lemma c38_registry (O : oracles) : (forall h, In h [MsmHint; AddHint; Keccak256Hint O] -> In (hf_id h) registered_hints) /\
  (forall h, In h [modHint; toBytes] -> ~ In (hf_id h) registered_hints).
Proof.
  split; intros h H.
  - destruct H as [<-|[<-|[<-|[]]]]; cbn; auto.
  - destruct H as [<-|[<-|[]]]; cbn; intros [K|[K|[K|[]]]]; discriminate K.
Qed.
(** both outcomes occur *)
Lemma ex19_kinds : (exists s', CalcVerifyBN256Msm1 Build (VInt 1) (VInt 1) (VInt 3) empty_cs =
    Done (((VNil, VNil), Some "bn256.G1Affine is not on curve"%string), s')) /\
  CalcVerifyBN256Msm1 Build (VInt 1) (VInt 2) (VInt 3) empty_cs = Panicked "can't set fp.Element from type"%string /\
  CalcVerifyBN256Msm1 Test (VFr 1) (VInt 2) (VInt 3) empty_cs = Panicked "can't set fp.Element from type"%string.
Proof. split; [eexists|split]; vm_compute; reflexivity. Qed.
