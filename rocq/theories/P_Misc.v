(** Pairing inputs, error propagation, compilation, hint registry, KYC: C34, C37-C39, C41, C42, C44, C46. *)
From Coq Require Import ZArith String Bool List Lia.
From Verif Require Import Params Go Curve Api FrOps Lib Steps Agg SpecCurve SpecHash SpecMisc P_Fr P_Curve P_Msm P_Hash P_Trans P_MsmEx.
Import ListNotations.
Open Scope Z_scope.

(** ** C34 *)
Lemma c34_g2 : exists P Q, GetVerifyCircuitsG2Jac = Done (P, Q) /\ on_twist P /\ on_twist Q.
Proof.
  exists g20_const, g21_const. split; [vm_compute; reflexivity|].
  split; (split; vm_compute; reflexivity).
Qed.
Lemma c34_g2_fill s : exists P Q, FillVerifyCircuitsG2 s = Done ([P; Q], s) /\ on_twist P /\ on_twist Q.
Proof.
  destruct c34_g2 as (P & Q & E & A & B). exists P, Q. unfold FillVerifyCircuitsG2, bind, lift. rewrite E. auto.
Qed.

Lemma fp_set_canonical v z : fp_set_interface v = inl z -> 0 <= z < p_mod.
Proof. destruct v as [| | | |[|]| | | |]; cbn; intros H; try discriminate; injection H as <-; apply modp_range. Qed.

Lemma g1_iff a b : 0 <= a < p_mod -> 0 <= b < p_mod -> (g1_is_on_curve a b = true <-> curve_or_zero a b).
Proof. intros Ha Hb. rewrite <- (modp_small a Ha) at 1. rewrite <- (modp_small b Hb) at 1. apply g1_is_on_curve_iff. Qed.

Lemma c34_ok x1 y1 x2 y2 a b c d s :
  fp_set_interface x1 = inl a -> fp_set_interface y1 = inl b -> fp_set_interface x2 = inl c -> fp_set_interface y2 = inl d ->
  curve_or_zero a b -> curve_or_zero c d ->
  FillVerifyCircuitsG1 x1 y1 x2 y2 s = Done ([(a, b); (c, d)], s).
Proof.
  intros H1 H2 H3 H4 C1 C2. unfold FillVerifyCircuitsG1. rewrite H1, H2, H3, H4.
  apply g1_iff in C1; [|eapply fp_set_canonical; eassumption ..].
  apply g1_iff in C2; [|eapply fp_set_canonical; eassumption ..]. rewrite C1, C2. reflexivity.
Qed.

Lemma c34_panics x1 y1 x2 y2 s :
  ~ (exists a b c d, fp_set_interface x1 = inl a /\ fp_set_interface y1 = inl b /\ fp_set_interface x2 = inl c /\
       fp_set_interface y2 = inl d /\ curve_or_zero a b /\ curve_or_zero c d) ->
  exists w, FillVerifyCircuitsG1 x1 y1 x2 y2 s = Panicked w.
Proof.
  intros N. unfold FillVerifyCircuitsG1, panic.
  destruct (fp_set_interface x1) as [a|] eqn:H1; [|eexists; reflexivity].
  destruct (fp_set_interface y1) as [b|] eqn:H2; [|eexists; reflexivity].
  destruct (g1_is_on_curve a b) eqn:C1; cbn [negb]; [|eexists; reflexivity].
  destruct (fp_set_interface x2) as [c|] eqn:H3; [|eexists; reflexivity].
  destruct (fp_set_interface y2) as [d|] eqn:H4; [|eexists; reflexivity].
  destruct (g1_is_on_curve c d) eqn:C2; cbn [negb]; [|eexists; reflexivity].
  exfalso. apply N. exists a, b, c, d. repeat (split; [reflexivity|]).
  split; apply g1_iff; auto; eapply fp_set_canonical; eassumption.
Qed.

(** ** C46 *)
Lemma lagrange_encodes : encodes lagrange_x lagrange_y (Aff lagrange_x lagrange_y).
Proof.
  right. split; [split; [discriminate | reflexivity]|]. split; [split; [discriminate | reflexivity]|].
  split; [vm_compute; reflexivity | reflexivity].
Qed.

Lemma put01 {A} (b0 b1 a b : A) t : obind (put (b0 :: b1 :: t) 0 a) (fun l => put l 1 b) = Done (a :: b :: t).
Proof. reflexivity. Qed.

Lemma c46_frame O en buf s b e s' : CalcVerifyCircuitLagrange O en buf s = Done ((b, e), s') ->
  length b = length buf /\ skipn 2 b = skipn 2 buf.
Proof.
  unfold CalcVerifyCircuitLagrange, bind. destruct buf as [|b0 [|b1 [|b2 t]]]; cbn [get nth_error lift]; try discriminate.
  destruct (CalcVerifyBN256Msm O en (VBig lagrange_x) (VBig lagrange_y) b2 s) as [[[[rx ry] e0] s1]|]; [|discriminate].
  cbn. intros H. injection H as <- <- <-. auto.
Qed.
Lemma c46_value O buf k s b e s' : nth_error buf 2 = Some (VBig k) -> 0 <= k < p_mod -> k mod r_mod <> 0 ->
  CalcVerifyCircuitLagrange O Test buf s = Done ((b, e), s') ->
  e = None /\ s' = s /\ exists X Y, pmul k (Aff lagrange_x lagrange_y) = Aff X Y /\
    nth_error b 0 = Some (VBig X) /\ nth_error b 1 = Some (VBig Y) /\ encodes X Y (Aff X Y).
Proof.
  intros Hk R1 R2. unfold CalcVerifyCircuitLagrange, bind. destruct buf as [|b0 [|b1 [|b2 t]]]; try discriminate Hk.
  cbn [nth_error] in Hk. injection Hk as ->. cbn [get nth_error lift].
  destruct (CalcVerifyBN256Msm O Test (VBig lagrange_x) (VBig lagrange_y) (VBig k) s) as [[[[rx ry] e0] s1]|] eqn:E; [|discriminate].
  destruct (c13 O lagrange_x lagrange_y k s lagrange_encodes R1 R2 _ _ _ _ E) as (-> & -> & X & Y & P & -> & -> & C & _).
  cbn. intros H. injection H as <- <- <-. split; [reflexivity|]. split; [reflexivity|]. exists X, Y. auto.
Qed.
Lemma c46_accepts O buf k s X Y : (3 <= length buf)%nat -> nth_error buf 2 = Some (VBig k) -> 0 <= k < p_mod -> k mod r_mod <> 0 ->
  pmul k (Aff lagrange_x lagrange_y) = Aff X Y -> X < r_mod -> Y < r_mod ->
  CalcVerifyCircuitLagrange O Test buf s = Done ((VBig X :: VBig Y :: skipn 2 buf, None), s).
Proof.
  intros _ Hk R1 R2 P HX HY. unfold CalcVerifyCircuitLagrange, bind. destruct buf as [|b0 [|b1 [|b2 t]]]; try discriminate Hk.
  cbn [nth_error] in Hk. injection Hk as ->. cbn [get nth_error lift].
  destruct (c14 O lagrange_x lagrange_y k s lagrange_encodes R1 R2 X Y P) as [A _]. rewrite A by auto. reflexivity.
Qed.

(** ** C39 *)
Ltac eqbs := repeat match goal with |- context [Nat.eqb ?a ?b] => destruct (Nat.eqb_spec a b); try lia end; try reflexivity; try assumption; try congruence.
Lemma get_nth {A} (l : list A) i a : nth_error l i = Some a -> get l i = Done a.
Proof. intros H. unfold get. rewrite H. reflexivity. Qed.

Lemma c39_mul_error O en input off x y k s rx ry e s' :
  nth_error input off = Some x -> nth_error input (off + 1) = Some y -> nth_error input (off + 2) = Some k ->
  CalcVerifyBN256Msm O en x y k s = Done (((rx, ry), Some e), s') ->
  ecc_mul O en input off s = Done ((input, Some e), s').
Proof.
  intros H1 H2 H3 E. unfold ecc_mul, bind, lift. rewrite (get_nth _ _ _ H1), (get_nth _ _ _ H2), (get_nth _ _ _ H3), E. reflexivity.
Qed.
Lemma c39_mul_ok O en input off x y k s rx ry s' :
  nth_error input off = Some x -> nth_error input (off + 1) = Some y -> nth_error input (off + 2) = Some k ->
  CalcVerifyBN256Msm O en x y k s = Done (((rx, ry), None), s') ->
  exists b, ecc_mul O en input off s = Done ((b, None), s') /\ length b = length input /\
    forall i, nth_error b i = if Nat.eqb i (off + 1) then Some ry else if Nat.eqb i off then Some rx else nth_error input i.
Proof.
  intros H1 H2 H3 E. unfold ecc_mul, bind, lift. rewrite (get_nth _ _ _ H1), (get_nth _ _ _ H2), (get_nth _ _ _ H3), E.
  assert (L : (off + 1 < length input)%nat) by (apply nth_error_Some; congruence).
  destruct (set_nth_some input off rx ltac:(lia)) as (l1 & A1 & A2 & A3). unfold put. rewrite A1.
  destruct (set_nth_some l1 (off + 1) ry ltac:(lia)) as (l2 & B1 & B2 & B3). rewrite B1.
  exists l2. split; [reflexivity|]. split; [lia|]. intros i. rewrite B3, A3. reflexivity.
Qed.

Lemma ecc_mul_inv O en input off s b e s' : ecc_mul O en input off s = Done ((b, e), s') ->
  exists x y k rx ry, nth_error input off = Some x /\ nth_error input (off + 1) = Some y /\ nth_error input (off + 2) = Some k /\
    CalcVerifyBN256Msm O en x y k s = Done (((rx, ry), e), s').
Proof.
  unfold ecc_mul, bind, lift, get.
  destruct (nth_error input off) as [x|]; [|discriminate].
  destruct (nth_error input (off + 1)) as [y|]; [|discriminate].
  destruct (nth_error input (off + 2)) as [k|]; [|discriminate].
  destruct (CalcVerifyBN256Msm O en x y k s) as [[[[rx ry] e0] s1]|] eqn:E; [|discriminate].
  intros H. exists x, y, k, rx, ry. repeat (split; [reflexivity|]). destruct e0 as [e0|].
  - injection H as <- <- <-. first [reflexivity | exact E].
  - destruct (put input off rx); [|discriminate]. destruct (put a (off + 1) ry); [|discriminate].
    injection H as <- <- <-. first [reflexivity | exact E].
Qed.

Lemma c39_mul_add_mul_error O en buf off x y k s rx ry e s' :
  nth_error buf (off + 2) = Some x -> nth_error buf (off + 3) = Some y -> nth_error buf (off + 4) = Some k ->
  CalcVerifyBN256Msm O en x y k s = Done (((rx, ry), Some e), s') ->
  ecc_mul_add O en buf off s = Done ((buf, Some e), s').
Proof.
  intros H1 H2 H3 E. unfold ecc_mul_add, bind at 1.
  rewrite (c39_mul_error O en buf (off + 2) x y k s rx ry e s'); auto.
  - rewrite <- Nat.add_assoc. exact H2.
  - rewrite <- Nat.add_assoc. exact H3.
Qed.

(** the error of the addition gadget is dropped *)
Lemma c39_mul_add_drops O en buf off a b x y k s mx my s1 rx ry e s' :
  nth_error buf off = Some a -> nth_error buf (off + 1) = Some b ->
  nth_error buf (off + 2) = Some x -> nth_error buf (off + 3) = Some y -> nth_error buf (off + 4) = Some k ->
  CalcVerifyBN256Msm O en x y k s = Done (((mx, my), None), s1) ->
  CalcVerifyBN256Add en a b mx my s1 = Done (((rx, ry), e), s') ->
  exists buf', ecc_mul_add O en buf off s = Done ((buf', None), s') /\ length buf' = length buf /\
    nth_error buf' off = Some rx /\ nth_error buf' (off + 1) = Some ry /\
    nth_error buf' (off + 2) = Some mx /\ nth_error buf' (off + 3) = Some my /\
    (forall i, (i < off \/ off + 4 <= i)%nat -> nth_error buf' i = nth_error buf i).
Proof.
  intros H1 H2 H3 H4 H5 E EA. unfold ecc_mul_add, bind at 1.
  destruct (c39_mul_ok O en buf (off + 2) x y k s mx my s1) as (b1 & -> & L & N); auto.
  { rewrite <- Nat.add_assoc. exact H4. }
  { rewrite <- Nat.add_assoc. exact H5. }
  unfold bind, lift. rewrite <- Nat.add_assoc in N. cbn [Nat.add] in N.
  assert (LL : (off + 4 < length buf)%nat) by (apply nth_error_Some; congruence).
  rewrite (get_nth b1 off a), (get_nth b1 (off + 1) b), (get_nth b1 (off + 2) mx), (get_nth b1 (off + 3) my).
  2-5: rewrite N; eqbs.
  rewrite EA. unfold put.
  destruct (set_nth_some b1 off rx ltac:(lia)) as (l1 & A1 & A2 & A3). rewrite A1.
  destruct (set_nth_some l1 (off + 1) ry ltac:(lia)) as (l2 & B1 & B2 & B3). rewrite B1.
  exists l2. split; [reflexivity|]. split; [lia|].
  repeat split; intros; rewrite ?B3, ?A3, ?N; eqbs.
Qed.

Lemma c39_errors_from_mul O en buf off s b e s' : ecc_mul_add O en buf off s = Done ((b, Some e), s') ->
  b = buf /\ exists x y k rx ry, nth_error buf (off + 2) = Some x /\ nth_error buf (off + 3) = Some y /\
    nth_error buf (off + 4) = Some k /\ CalcVerifyBN256Msm O en x y k s = Done (((rx, ry), Some e), s').
Proof.
  unfold ecc_mul_add, bind at 1. destruct (ecc_mul O en buf (off + 2) s) as [[[b1 e1] s1]|] eqn:E; [|discriminate].
  destruct e1 as [e1|].
  - intros H. unfold ret in H. injection H as <- <- <-.
    destruct (ecc_mul_inv _ _ _ _ _ _ _ _ E) as (x & y & k & rx & ry & H1 & H2 & H3 & EM).
    pose proof (c39_mul_error O en buf (off + 2) x y k s rx ry e1 s1 H1 H2 H3 EM) as EQ. rewrite EQ in E.
    apply done_inj in E. split; [auto|]. exists x, y, k, rx, ry.
    rewrite <- Nat.add_assoc in H2, H3. auto.
  - unfold bind, lift, get. intros H.
    destruct (nth_error b1 off); [|discriminate]. destruct (nth_error b1 (off + 1)); [|discriminate].
    destruct (nth_error b1 (off + 2)); [|discriminate]. destruct (nth_error b1 (off + 3)); [|discriminate].
    destruct (CalcVerifyBN256Add en v v0 v1 v2 s1) as [[[[rx ry] ?] s2]|]; [|discriminate].
    destruct (put b1 off rx) as [l1|]; [|discriminate]. destruct (put l1 (off + 1) ry); discriminate.
Qed.

Lemma add_fr_error x2 y2 Q s : encodes x2 y2 Q ->
  exists rx ry e, CalcVerifyBN256Add Test (VFr 1) (VFr 2) (VBig x2) (VBig y2) s = Done (((rx, ry), Some e), s).
Proof.
  intros HQ. unfold CalcVerifyBN256Add, bind at 1.
  pose proof (encodes_range _ _ _ HQ) as [R1 R2].
  rewrite (new_hint_test2 AddHint [1; 2; x2; y2] _ (fst (printed (padd (Aff 1 2) Q))) (snd (printed (padd (Aff 1 2) Q)))).
  - unfold bind. cbn [lift get nth_error]. rewrite !mod_test_mod. do 3 eexists. reflexivity.
  - unfold mapM, bind, lift, ret. cbn [to_big]. rewrite !modr_small by (split; reflexivity || discriminate). reflexivity.
  - apply c12_ok; rewrite ?Z.abs_eq by lia; [exact gen_encodes | exact HQ].
Qed.

Definition plainO : oracles := {| o_keccak := fun _ => 0; o_sha256 := fun _ => 0; o_smul_degen := fun _ _ _ => None;
  o_pairing := fun _ => true; o_ecdsa := fun _ _ _ _ _ => true |}.

Lemma no_err_diff (b b' : list var) (e : goerr) (s s' : cs) : Done ((b, None), s) <> Done ((b', Some e), s').
Proof. discriminate. Qed.

Lemma c39_refuted : ~ (forall O en buf off a b x y k s mx my s1 rx ry e s',
  nth_error buf off = Some a -> nth_error buf (off + 1) = Some b ->
  nth_error buf (off + 2) = Some x -> nth_error buf (off + 3) = Some y -> nth_error buf (off + 4) = Some k ->
  CalcVerifyBN256Msm O en x y k s = Done (((mx, my), None), s1) ->
  CalcVerifyBN256Add en a b mx my s1 = Done (((rx, ry), Some e), s') ->
  exists buf' s2, ecc_mul_add O en buf off s = Done ((buf', Some e), s2)).
Proof.
  intros H.
  destruct ex13 as (G & K1 & K2 & E). specialize (E plainO (mk_cs 0 [] [])).
  destruct (c13 plainO 1 2 3 (mk_cs 0 [] []) G K1 K2 _ _ _ _ E) as (_ & _ & X & Y & _ & EX & EY & C & _).
  injection EX as <-. injection EY as <-.
  destruct (add_fr_error triple_x triple_y _ (mk_cs 0 [] []) C) as (rx & ry & e & EA).
  set (buf := [VFr 1; VFr 2; VBig 1; VBig 2; VBig 3]).
  destruct (H plainO Test buf 0%nat (VFr 1) (VFr 2) (VBig 1) (VBig 2) (VBig 3) _ _ _ _ _ _ e _ eq_refl eq_refl eq_refl eq_refl eq_refl E EA)
    as (b1 & s2 & B).
  destruct (c39_mul_add_drops plainO Test buf 0 (VFr 1) (VFr 2) (VBig 1) (VBig 2) (VBig 3) _ _ _ _ _ _ (Some e) _
     eq_refl eq_refl eq_refl eq_refl eq_refl E EA) as (b2 & D & _).
  apply (no_err_diff b2 b1 e (mk_cs 0 [] []) s2). rewrite <- D. exact B.
Qed.

(** ** C37 *)
Lemma mod_build_inv v s u s' : mod_ Build v s = Done (u, s') ->
  exists e, to_expr v = Done e /\ u = VExpr (EWire (S (cs_next s))) /\ s' = mod_cs e s.
Proof.
  destruct (to_expr v) as [e|w] eqn:E.
  - rewrite (mod_build v e) by exact E. intros H. injection H as <- <-. eauto.
  - unfold mod_, bind at 1, new_hint, mapM, bind, lift. rewrite E. discriminate.
Qed.

Lemma mul_expr_expected O en point scalar a b s e s' :
  VerifyBN254ScalarMul O en point scalar (VExpr a, b) s = Done (e, s') -> e <> None.
Proof.
  unfold VerifyBN254ScalarMul, with_fp. destruct point as [x y]. cbn [fst snd].
  destruct (fp_set_interface x); [|intros H; injection H as <- <-; discriminate].
  destruct (fp_set_interface y); [|intros H; injection H as <- <-; discriminate].
  destruct (fp_set_interface scalar); [|intros H; injection H as <- <-; discriminate].
  unfold bind. destruct (emul_smul O en z z0 (z1 mod r_mod) s) as [[r s1]|]; [|discriminate].
  cbn [fp_set_interface]. intros H. injection H as <- <-. discriminate.
Qed.
Lemma add_expr_expected en p q a b s e s' : VerifyBN254Add en p q (VExpr a, b) s = Done (e, s') -> e <> None.
Proof.
  unfold VerifyBN254Add, with_fp. destruct p as [x1 y1], q as [x2 y2]. cbn [fst snd].
  destruct (fp_set_interface x1); [|intros H; injection H as <- <-; discriminate].
  destruct (fp_set_interface y1); [|intros H; injection H as <- <-; discriminate].
  destruct (fp_set_interface x2); [|intros H; injection H as <- <-; discriminate].
  destruct (fp_set_interface y2); [|intros H; injection H as <- <-; discriminate].
  cbn [fp_set_interface]. intros H. injection H as <- <-. discriminate.
Qed.

Lemma msm_build_errors O x y k s r e s' : CalcVerifyBN256Msm O Build x y k s = Done ((r, e), s') -> e <> None.
Proof.
  unfold CalcVerifyBN256Msm, bind at 1. destruct (new_hint Build MsmHint 2 [x; y; k] s) as [[[res err] s1]|]; [|discriminate].
  destruct err; [discriminate|]. unfold bind, lift.
  destruct (get res 0) as [r0|]; [|discriminate]. destruct (mod_ Build r0 s1) as [[ex s2]|] eqn:E1; [|discriminate].
  destruct (get res 1) as [r1|]; [|discriminate]. destruct (mod_ Build r1 s2) as [[ey s3]|]; [|discriminate].
  destruct (mod_build_inv _ _ _ _ E1) as (e1 & _ & -> & _).
  destruct (VerifyBN254ScalarMul O Build (x, y) k (VExpr (EWire (S (cs_next s1))), ey) s3) as [[e3 s4]|] eqn:E3; [|discriminate].
  apply mul_expr_expected in E3. intros H. injection H as <- <- <-. exact E3.
Qed.
Lemma add_build_errors a b c d s r e s' : CalcVerifyBN256Add Build a b c d s = Done ((r, e), s') -> e <> None.
Proof.
  unfold CalcVerifyBN256Add, bind at 1. destruct (new_hint Build AddHint 2 [a; b; c; d] s) as [[[res err] s1]|]; [|discriminate].
  unfold bind, lift.
  destruct (get res 0) as [r0|]; [|discriminate]. destruct (mod_ Build r0 s1) as [[ex s2]|] eqn:E1; [|discriminate].
  destruct (get res 1) as [r1|]; [|discriminate]. destruct (mod_ Build r1 s2) as [[ey s3]|]; [|discriminate].
  destruct (mod_build_inv _ _ _ _ E1) as (e1 & _ & -> & _).
  destruct (VerifyBN254Add Build (a, b) (c, d) (VExpr (EWire (S (cs_next s1))), ey) s3) as [[e3 s4]|] eqn:E3; [|discriminate].
  apply add_expr_expected in E3. intros H. injection H as <- <- <-. exact E3.
Qed.

Lemma lagrange_build_errors O buf s b e s' : CalcVerifyCircuitLagrange O Build buf s = Done ((b, e), s') -> e <> None.
Proof.
  unfold CalcVerifyCircuitLagrange, bind, lift. destruct (get buf 2) as [k|]; [|discriminate].
  destruct (CalcVerifyBN256Msm O Build (VBig lagrange_x) (VBig lagrange_y) k s) as [[[[rx ry] e0] s1]|] eqn:E; [|discriminate].
  apply msm_build_errors in E. destruct (put buf 0 rx) as [b1|]; [|discriminate]. destruct (put b1 1 ry); [|discriminate].
  intros H. injection H as <- <- <-. exact E.
Qed.

Lemma define_build_errors O circuit s e s' : Define O Build circuit s = Done (e, s') -> e <> None.
Proof.
  unfold Define, bind at 1, lift at 1. destruct (copy_into (repeat (VBig 0) 43) 0 (TargetInst circuit)) as [[b1 n1]|]; [|discriminate].
  unfold bind at 1, lift at 1. destruct (copy_into b1 n1 (VerifyInst circuit)) as [[b2 n2]|]; [|discriminate].
  unfold bind at 1. destruct (VerifyInstanceHash O Build (firstn n2 b2) s) as [[[hv err] s1]|]; [|discriminate].
  destruct err; [intros H; injection H as <- <-; discriminate|].
  unfold bind at 1. destruct (mod_ Build hv s1) as [[hm s2]|]; [|discriminate].
  unfold bind at 1, lift at 1. destruct (put b2 2 hm) as [b3|]; [|discriminate].
  unfold bind at 1. destruct (CalcVerifyCircuitLagrange O Build b3 s2) as [[[b4 e4] s4]|] eqn:E; [|discriminate].
  apply lagrange_build_errors in E. destruct e4; [|congruence]. intros H. injection H as <- <-. discriminate.
Qed.

Lemma c37_agg O n1 n2 n3 n4 : exists e, compile_agg O n1 n2 n3 n4 = inr e.
Proof.
  unfold compile_agg, compile. destruct (Define _ _ _ _) as [[[e|] s]|w] eqn:E; eauto.
  apply define_build_errors in E. congruence.
Qed.
Lemma c37_mul O : exists e, compile_scalar_mul O = inr e.
Proof. eexists. reflexivity. Qed.
Lemma c37_add : exists e, compile_add = inr e.
Proof. eexists. reflexivity. Qed.
Lemma c37_main O rest : exists w, main_go O rest = Panicked w.
Proof. unfold main_go. destruct (c37_agg O 104 1 21 4) as [e ->]. eauto. Qed.

(** ** C38 *)

Lemma calls_mod_unavailable s : calls HMod s -> hints_available s = false.
Proof.
  intros (i & o & H). unfold hints_available. apply not_true_iff_false. intros F. rewrite forallb_forall in F.
  specialize (F _ H). discriminate.
Qed.
Lemma c38_mod v s u s' : mod_ Build v s = Done (u, s') -> calls HMod s' /\ hints_available s' = false.
Proof.
  intros H. destruct (mod_build_inv _ _ _ _ H) as (e & _ & _ & ->).
  assert (C : calls HMod (mod_cs e s)) by (do 2 eexists; left; reflexivity).
  split; [exact C | apply calls_mod_unavailable, C].
Qed.
Lemma bind_done {A B} (m : M A) (k : A -> M B) s b s' : bind m k s = Done (b, s') ->
  exists a s1, m s = Done (a, s1) /\ k a s1 = Done (b, s').
Proof. unfold bind. destruct (m s) as [[a s1]|]; [eauto | discriminate]. Qed.
Lemma c38_ops a b c s u s' :
  (fr_mul Build a b s = Done (u, s') \/ fr_add Build a b s = Done (u, s') \/ fr_sub Build a b s = Done (u, s') \/
   fr_div Build a b c s = Done (u, s') \/ fr_pow Build a b s = Done (u, s')) ->
  calls HMod s' /\ hints_available s' = false.
Proof.
  intros [H|[H|[H|[H|H]]]]; apply bind_done in H; destruct H as (x & s1 & _ & H).
  1-3: apply c38_mod in H; exact H.
  - apply bind_done in H. destruct H as (y & s2 & _ & H). apply c38_mod in H. exact H.
  - apply bind_done in H. destruct H as (y & s2 & _ & H). apply c38_mod in H. exact H.
Qed.

Lemma mapM_pure_state {A B} (f : A -> M B) l : (forall a s b s', f a s = Done (b, s') -> cs_hints s' = cs_hints s) ->
  forall s bs s', mapM f l s = Done (bs, s') -> cs_hints s' = cs_hints s.
Proof.
  intros Hf. induction l as [|a l IH]; intros s bs s' H; cbn in H.
  - injection H as <- <-. reflexivity.
  - apply bind_done in H. destruct H as (b & s1 & H1 & H). apply bind_done in H. destruct H as (b2 & s2 & H2 & H).
    injection H as <- <-. rewrite (IH _ _ _ H2). eapply Hf. exact H1.
Qed.
Lemma lift_state {A} (o : outcome A) s a s' : lift o s = Done (a, s') -> s' = s.
Proof. unfold lift. destruct o; [|discriminate]. intros H. injection H. auto. Qed.
Lemma new_hint_calls h n ins s r s' : new_hint Build h n ins s = Done (r, s') ->
  cs_hints s' = cs_hints s \/ exists e o, cs_hints s' = (hf_id h, e, o) :: cs_hints s.
Proof.
  destruct n as [|n]; cbn [new_hint].
  - intros H. injection H as <- <-. auto.
  - intros H. apply bind_done in H. destruct H as (es & s1 & H1 & H).
    apply mapM_pure_state in H1; [|intros a s2 b s3 HL; apply lift_state in HL; subst; reflexivity].
    apply bind_done in H. destruct H as (ws & s2 & H2 & H). unfold alloc in H2. injection H2 as <- <-.
    apply bind_done in H. destruct H as ([] & s3 & H3 & H). unfold log_hint in H3. injection H3 as <-.
    unfold ret in H. injection H as <- <-. right. cbn [cs_hints]. rewrite H1. do 2 eexists. reflexivity.
Qed.
Lemma c38_registered h n ins s r s' : In (hf_id h) registered_hints -> new_hint Build h n ins s = Done (r, s') ->
  hints_available s = true -> hints_available s' = true.
Proof.
  intros HI H A. unfold hints_available in *. destruct (new_hint_calls _ _ _ _ _ _ H) as [->|(e & o & ->)]; [exact A|].
  cbn [forallb fst]. rewrite A, andb_true_r. apply existsb_exists. exists (hf_id h). split; [exact HI|].
  destruct (hf_id h); reflexivity.
Qed.
Lemma c38_refuted : ~ (forall v s u s', hints_available s = true -> mod_ Build v s = Done (u, s') -> hints_available s' = true).
Proof.
  intros H. specialize (H (VInt 1) empty_cs _ _ eq_refl (mod_build (VInt 1) (EConst 1) empty_cs eq_refl)).
  pose proof (c38_mod _ _ _ _ (mod_build (VInt 1) (EConst 1) empty_cs eq_refl)) as [_ F]. congruence.
Qed.
