(** Hints, multiplication and addition gadgets, on-curve checks: lemmas for C11-C20. *)
From Coq Require Import ZArith Lia String Bool List.
From Verif Require Import Params Go Curve Api FrOps Lib SpecCurve SpecRuns P_Fr P_Str P_Curve.
Import ListNotations.
Open Scope Z_scope.

Lemma fill32_ok z : Z.abs z < 2 ^ 256 -> exists l, fill_bytes32 z = Done l /\ of_be l = Z.abs z.
Proof.
  intros H. unfold fill_bytes32. replace (Z.abs z <? 2 ^ 256) with true by (symmetry; apply Z.ltb_lt; exact H).
  eexists. split; [reflexivity|]. apply of_be_32. pose proof (Z.abs_nonneg z). lia.
Qed.

Lemma fill32_bad z : 2 ^ 256 <= Z.abs z -> exists w, fill_bytes32 z = Panicked w.
Proof.
  intros H. unfold fill_bytes32. replace (Z.abs z <? 2 ^ 256) with false by (symmetry; apply Z.ltb_ge; exact H).
  eauto.
Qed.

Lemma unmarshal_pair_ok a b : Z.abs a < 2 ^ 256 -> Z.abs b < 2 ^ 256 ->
  unmarshal_pair a b = Done (bn256_unmarshal (Z.abs a) (Z.abs b)).
Proof.
  intros Ha Hb. unfold unmarshal_pair.
  destruct (fill32_ok a Ha) as (l & -> & E1). cbn [obind].
  destruct (fill32_ok b Hb) as (l' & -> & E2). cbn [obind]. rewrite E1, E2. reflexivity.
Qed.

Lemma unmarshal_pair_bad a b : 2 ^ 256 <= Z.abs a \/ 2 ^ 256 <= Z.abs b ->
  exists w, unmarshal_pair a b = Panicked w.
Proof.
  intros H. unfold unmarshal_pair. destruct (Z.lt_ge_cases (Z.abs a) (2 ^ 256)) as [La|La].
  - destruct (fill32_ok a La) as (l & -> & _). cbn [obind].
    destruct (fill32_bad b) as [w ->]; [lia|]. cbn [obind]. eauto.
  - destruct (fill32_bad a La) as [w ->]. cbn [obind]. eauto.
Qed.

Lemma encodes_range a b P : encodes a b P -> 0 <= a < p_mod /\ 0 <= b < p_mod.
Proof. pose proof p_pos. intros [(-> & -> & _)|(Ha & Hb & _)]; lia. Qed.

Lemma encodes_valid a b P : encodes a b P -> valid_pt P = true.
Proof.
  intros [(_ & _ & ->)|(Ha & Hb & E & ->)]; [reflexivity|]. apply valid_aff.
  repeat split; try lia. unfold on_curve. apply Z.eqb_eq. exact E.
Qed.

Lemma encodes_coords a b P : encodes a b P -> coords0 P = (a, b).
Proof. intros [(-> & -> & ->)|(_ & _ & _ & ->)]; reflexivity. Qed.

Lemma not_on_curve_00 : on_curve 0 0 = false. Proof. apply on_curve_y0. Qed.

Lemma unmarshal_encodes a b P : 0 <= a -> 0 <= b -> (bn256_unmarshal a b = inl P <-> encodes a b P).
Proof.
  intros Ha Hb. unfold bn256_unmarshal. split.
  - destruct (p_mod <=? a) eqn:E1; [discriminate|]. destruct (p_mod <=? b) eqn:E2; [discriminate|].
    apply Z.leb_gt in E1, E2. cbn [orb]. destruct ((a =? 0) && (b =? 0)) eqn:E.
    + apply andb_true_iff in E. rewrite !Z.eqb_eq in E. destruct E as [-> ->]. intros H. injection H as <-. left. auto.
    + destruct (on_curve a b) eqn:C; [|discriminate]. intros H. injection H as <-. right.
      repeat split; try lia. unfold on_curve in C. apply Z.eqb_eq in C. exact C.
  - intros H. pose proof (encodes_range _ _ _ H) as [Ra Rb].
    replace (p_mod <=? a) with false by (symmetry; apply Z.leb_gt; lia).
    replace (p_mod <=? b) with false by (symmetry; apply Z.leb_gt; lia). cbn [orb].
    destruct H as [(-> & -> & ->)|(_ & _ & E & ->)]; [reflexivity|].
    assert (C : on_curve a b = true) by (apply Z.eqb_eq; exact E). rewrite C.
    destruct ((a =? 0) && (b =? 0)) eqn:E0; [|reflexivity].
    apply andb_true_iff in E0. rewrite !Z.eqb_eq in E0. destruct E0 as [-> ->].
    rewrite not_on_curve_00 in C. discriminate.
Qed.

Lemma unmarshal_not a b : 0 <= a -> 0 <= b -> ~ (exists P, encodes a b P) ->
  exists e, bn256_unmarshal a b = inr e.
Proof.
  intros Ha Hb N. destruct (bn256_unmarshal a b) as [P|e] eqn:E; [|eauto].
  exfalso. apply N. exists P. apply unmarshal_encodes; assumption.
Qed.

Lemma unmarshal_pair_inl a b P : unmarshal_pair a b = Done (inl P) -> encodes (Z.abs a) (Z.abs b) P.
Proof.
  intros H. destruct (Z.lt_ge_cases (Z.abs a) (2 ^ 256)) as [La|La];
    [destruct (Z.lt_ge_cases (Z.abs b) (2 ^ 256)) as [Lb|Lb]|].
  - rewrite unmarshal_pair_ok in H by assumption. injection H as H.
    apply unmarshal_encodes; auto using Z.abs_nonneg.
  - destruct (unmarshal_pair_bad a b) as [w E]; [lia|]. congruence.
  - destruct (unmarshal_pair_bad a b) as [w E]; [lia|]. congruence.
Qed.

Lemma unmarshal_pair_encodes a b P : encodes (Z.abs a) (Z.abs b) P -> unmarshal_pair a b = Done (inl P).
Proof.
  intros H. pose proof (encodes_range _ _ _ H) as [Ra Rb]. pose proof p_lt_2256.
  rewrite unmarshal_pair_ok by lia. f_equal. apply unmarshal_encodes; auto using Z.abs_nonneg.
Qed.

Lemma store_point_ok P o1 o2 : valid_pt P = true ->
  store_point P [o1; o2] = Done (None, [Some (fst (printed P)); Some (snd (printed P))]).
Proof.
  intros H. unfold store_point, bn256_string. change (coords_printed P) with (printed P).
  assert (R : 0 <= fst (printed P) < 2 ^ 256 /\ 0 <= snd (printed P) < 2 ^ 256).
  { destruct P as [|X Y]; cbn [printed fst snd]; [lia|]. apply valid_aff in H. pose proof p_lt_2256. lia. }
  destruct (printed P) as [X Y]. cbn [fst snd] in *.
  rewrite c10_extract by tauto. rewrite !set_string10_dec. reflexivity.
Qed.

(** ** C11, C12 *)
Lemma c11_ok x y k P o1 o2 : encodes (Z.abs x) (Z.abs y) P ->
  msm_hint_run [x; y; k] [o1; o2] =
  Done (None, [Some (fst (printed (pmul k P))); Some (snd (printed (pmul k P)))]).
Proof.
  intros H. unfold msm_hint_run. rewrite (unmarshal_pair_encodes _ _ _ H). cbn [obind].
  apply store_point_ok. apply pmul_valid. eapply encodes_valid. eassumption.
Qed.

Lemma c11_bad x y k o : Z.abs x < 2 ^ 256 -> Z.abs y < 2 ^ 256 ->
  ~ (exists P, encodes (Z.abs x) (Z.abs y) P) ->
  exists e, msm_hint_run [x; y; k] o = Done (Some e, o).
Proof.
  intros Hx Hy N. unfold msm_hint_run. rewrite unmarshal_pair_ok by assumption. cbn [obind].
  destruct (unmarshal_not (Z.abs x) (Z.abs y)) as [e ->]; auto using Z.abs_nonneg. eauto.
Qed.

Lemma c11_panic x y k o : 2 ^ 256 <= Z.abs x \/ 2 ^ 256 <= Z.abs y ->
  exists w, msm_hint_run [x; y; k] o = Panicked w.
Proof.
  intros H. unfold msm_hint_run. destruct (unmarshal_pair_bad x y H) as [w ->]. cbn [obind]. eauto.
Qed.

Lemma c11_arity ins o : length ins <> 3%nat -> exists w, msm_hint_run ins o = Panicked w.
Proof.
  intros H. destruct ins as [|a [|b [|c [|d t]]]]; cbn in *; try lia; unfold msm_hint_run; eauto.
Qed.

Lemma c12_ok x1 y1 x2 y2 P Q o1 o2 :
  encodes (Z.abs x1) (Z.abs y1) P -> encodes (Z.abs x2) (Z.abs y2) Q ->
  add_hint_run [x1; y1; x2; y2] [o1; o2] =
  Done (None, [Some (fst (printed (padd P Q))); Some (snd (printed (padd P Q)))]).
Proof.
  intros H1 H2. unfold add_hint_run. rewrite (unmarshal_pair_encodes _ _ _ H1). cbn [obind].
  rewrite (unmarshal_pair_encodes _ _ _ H2). cbn [obind].
  apply store_point_ok. apply padd_valid; eapply encodes_valid; eassumption.
Qed.

Lemma c12_bad x1 y1 x2 y2 o :
  Z.abs x1 < 2 ^ 256 -> Z.abs y1 < 2 ^ 256 -> Z.abs x2 < 2 ^ 256 -> Z.abs y2 < 2 ^ 256 ->
  ~ ((exists P, encodes (Z.abs x1) (Z.abs y1) P) /\ (exists Q, encodes (Z.abs x2) (Z.abs y2) Q)) ->
  exists e, add_hint_run [x1; y1; x2; y2] o = Done (Some e, o).
Proof.
  intros A1 A2 A3 A4 N. unfold add_hint_run. rewrite unmarshal_pair_ok by assumption. cbn [obind].
  destruct (bn256_unmarshal (Z.abs x1) (Z.abs y1)) as [P|e] eqn:E; [|eauto].
  apply unmarshal_encodes in E; auto using Z.abs_nonneg.
  rewrite unmarshal_pair_ok by assumption. cbn [obind].
  destruct (unmarshal_not (Z.abs x2) (Z.abs y2)) as [e ->]; auto using Z.abs_nonneg; [|eauto].
  intros H. apply N. split; [exists P; exact E | exact H].
Qed.

(** a coordinate of more than 32 bytes in the first point panics; in the second point it panics
    when the first point is valid *)
Lemma c12_panic x1 y1 x2 y2 o :
  (2 ^ 256 <= Z.abs x1 \/ 2 ^ 256 <= Z.abs y1) \/
  ((exists P, encodes (Z.abs x1) (Z.abs y1) P) /\ (2 ^ 256 <= Z.abs x2 \/ 2 ^ 256 <= Z.abs y2)) ->
  exists w, add_hint_run [x1; y1; x2; y2] o = Panicked w.
Proof.
  intros [H|[[P HP] H]]; unfold add_hint_run.
  - destruct (unmarshal_pair_bad _ _ H) as [w ->]. cbn [obind]. eauto.
  - rewrite (unmarshal_pair_encodes _ _ _ HP). cbn [obind].
    destruct (unmarshal_pair_bad _ _ H) as [w ->]. cbn [obind]. eauto.
Qed.

Lemma c12_arity ins o : length ins <> 4%nat -> exists w, add_hint_run ins o = Panicked w.
Proof.
  intros H. destruct ins as [|a [|b [|c [|d [|e t]]]]]; cbn in *; try lia; unfold add_hint_run; eauto.
Qed.

(** ** The multiplication gadget *)
Lemma new_hint_test2 h ins vs X Y s :
  mapM (fun v => lift (to_big v)) vs s = Done (ins, s) ->
  hf_run h ins [Some 0; Some 0] = Done (None, [Some X; Some Y]) ->
  new_hint Test h 2 vs s = Done (([VBig (X mod r_mod); VBig (Y mod r_mod)], None), s).
Proof.
  intros H1 H2. unfold new_hint, bind at 1. rewrite H1. unfold bind at 1. cbn [repeat]. rewrite H2.
  cbn [lift]. reflexivity.
Qed.

Definition pr (P : pt) : Z * Z := (fst (printed P) mod r_mod, snd (printed P) mod r_mod).

Lemma msm_hint_test x y k P s : encodes (Z.abs x) (Z.abs y) P ->
  new_hint Test MsmHint 2 [VBig x; VBig y; VBig k] s =
  Done (([VBig (fst (pr (pmul k P))); VBig (snd (pr (pmul k P)))], None), s).
Proof.
  intros H. apply new_hint_test2 with (ins := [x; y; k]); [reflexivity|]. apply c11_ok. exact H.
Qed.

Lemma add_hint_test x1 y1 x2 y2 P Q s :
  encodes (Z.abs x1) (Z.abs y1) P -> encodes (Z.abs x2) (Z.abs y2) Q ->
  new_hint Test AddHint 2 [VBig x1; VBig y1; VBig x2; VBig y2] s =
  Done (([VBig (fst (pr (padd P Q))); VBig (snd (pr (padd P Q)))], None), s).
Proof.
  intros H1 H2. apply new_hint_test2 with (ins := [x1; y1; x2; y2]); [reflexivity|].
  apply c12_ok; assumption.
Qed.

Lemma new_hint_test_fail h n ins vs s :
  mapM (fun v => lift (to_big v)) vs s = Done (ins, s) ->
  ((exists w, hf_run h ins (repeat (Some 0) (S n)) = Panicked w) \/
   (exists e o, hf_run h ins (repeat (Some 0) (S n)) = Done (Some e, o))) ->
  exists w, new_hint Test h (S n) vs s = Panicked w.
Proof.
  intros H1 H2. unfold new_hint, bind at 1. rewrite H1. unfold bind at 1.
  destruct H2 as [[w ->]|(e & o & ->)]; cbn [lift]; [eauto|]. unfold panic. eauto.
Qed.

Lemma encodes_dec a b : 0 <= a -> 0 <= b -> (exists P, encodes a b P) \/ ~ (exists P, encodes a b P).
Proof.
  intros Ha Hb. destruct (bn256_unmarshal a b) as [P|e] eqn:E.
  - left. exists P. apply unmarshal_encodes; assumption.
  - right. intros [P HP]. apply unmarshal_encodes in HP; try assumption. congruence.
Qed.

Lemma msm_hint_test_fail x y k s : ~ (exists P, encodes (Z.abs x) (Z.abs y) P) ->
  exists w, new_hint Test MsmHint 2 [VBig x; VBig y; VBig k] s = Panicked w.
Proof.
  intros N. apply new_hint_test_fail with (ins := [x; y; k]); [reflexivity|]. cbn [hf_run MsmHint].
  destruct (Z.lt_ge_cases (Z.abs x) (2 ^ 256)) as [Lx|Lx]; [|left; apply c11_panic; lia].
  destruct (Z.lt_ge_cases (Z.abs y) (2 ^ 256)) as [Ly|Ly]; [|left; apply c11_panic; lia].
  right. destruct (c11_bad x y k (repeat (Some 0) 2) Lx Ly N) as [e ->]. eauto.
Qed.

Lemma add_hint_test_fail x1 y1 x2 y2 s :
  ~ ((exists P, encodes (Z.abs x1) (Z.abs y1) P) /\ (exists Q, encodes (Z.abs x2) (Z.abs y2) Q)) ->
  exists w, new_hint Test AddHint 2 [VBig x1; VBig y1; VBig x2; VBig y2] s = Panicked w.
Proof.
  intros N. apply new_hint_test_fail with (ins := [x1; y1; x2; y2]); [reflexivity|]. cbn [hf_run AddHint].
  unfold add_hint_run.
  destruct (unmarshal_pair x1 y1) as [[P|e]|w] eqn:E; cbn [obind]; [| right; eauto | left; eauto].
  destruct (unmarshal_pair x2 y2) as [[Q|e]|w] eqn:E2; cbn [obind]; [| right; eauto | left; eauto].
  exfalso. apply N. split; eexists; eapply unmarshal_pair_inl; eassumption.
Qed.

Lemma pr_range P : 0 <= fst (pr P) < r_mod /\ 0 <= snd (pr P) < r_mod.
Proof. split; apply modr_range. Qed.

Lemma smod_p a : 0 <= a < r_mod -> a mod p_mod = a.
Proof. intros H. apply modp_small. pose proof r_lt_p. lia. Qed.

Lemma pair_eqb_eq a b : pair_eqb a b = true <-> a = b.
Proof.
  destruct a as [a1 a2], b as [b1 b2]. unfold pair_eqb. cbn [fst snd].
  rewrite andb_true_iff, !Z.eqb_eq. split; [intros [-> ->]; reflexivity | intros H; injection H; auto].
Qed.

(** the run of the multiplication gadget on integers, all cases *)
Lemma msm_run O x y k P s : encodes (Z.abs x) (Z.abs y) P ->
  CalcVerifyBN256Msm O Test (VBig x) (VBig y) (VBig k) s =
  match emul_scalar_mul O (x mod p_mod) (y mod p_mod) ((k mod p_mod) mod r_mod) with
  | Some res =>
      if pair_eqb res (pr (pmul k P))
      then Done (((VBig (fst (pr (pmul k P))), VBig (snd (pr (pmul k P)))), None), s)
      else Panicked "emulated assertion failed"
  | None => Panicked "emulated assertion failed"
  end.
Proof.
  intros H. unfold CalcVerifyBN256Msm, bind at 1. rewrite (msm_hint_test x y k P s H).
  destruct (pr_range (pmul k P)) as [R1 R2]. set (a := fst (pr (pmul k P))) in *. set (b := snd (pr (pmul k P))) in *.
  unfold bind at 1. cbn [get nth_error lift]. unfold bind at 1. rewrite mod_test_ok by assumption.
  unfold bind at 1. cbn [get nth_error lift]. unfold bind at 1. rewrite mod_test_ok by assumption.
  unfold VerifyBN254ScalarMul, with_fp. cbn [fst snd fp_set_interface].
  unfold emul_smul. unfold bind at 1 2.
  destruct (emul_scalar_mul O (x mod p_mod) (y mod p_mod) ((k mod p_mod) mod r_mod)) as [res|]; [|reflexivity].
  unfold ret at 1. rewrite !smod_p by assumption. change (a, b) with (pr (pmul k P)).
  replace (pr (pmul k P)) with (a, b) by (unfold a, b; destruct (pr (pmul k P)); reflexivity).
  unfold emul_assert, bind. destruct (pair_eqb res (a, b)); reflexivity.
Qed.

Lemma msm_run_fail O x y k s : ~ (exists P, encodes (Z.abs x) (Z.abs y) P) ->
  exists w, CalcVerifyBN256Msm O Test (VBig x) (VBig y) (VBig k) s = Panicked w.
Proof.
  intros N. destruct (msm_hint_test_fail x y k s N) as [w E]. exists w.
  unfold CalcVerifyBN256Msm, bind at 1. rewrite E. reflexivity.
Qed.

(** when the reduced coordinates agree with the true ones *)
Lemma pr_eq_coords R : valid_pt R = true ->
  coords0 R = pr R <-> exists X Y, R = Aff X Y /\ 0 <= X < r_mod /\ 0 <= Y < r_mod.
Proof.
  intros V. unfold pr. destruct R as [|X Y]; cbn [coords0 printed fst snd].
  - split; [|intros (X & Y & H & _); discriminate]. intros H. exfalso.
    assert (H2 : 0 = 1 mod r_mod) by congruence. vm_compute in H2. discriminate.
  - apply valid_aff in V. split.
    + intros H. exists X, Y. split; [reflexivity|].
      assert (X = X mod r_mod) by congruence. assert (Y = Y mod r_mod) by congruence.
      pose proof (modr_range X). pose proof (modr_range Y). lia.
    + intros (X' & Y' & E & RX & RY). injection E as -> ->. rewrite !modr_small by assumption. reflexivity.
Qed.

Lemma emul_scalar_mul_good O x y s : encodes x y (Aff x y) -> s <> 0 ->
  emul_scalar_mul O x y s = Some (coords0 (pmul s (Aff x y))).
Proof.
  intros H Hs. unfold emul_scalar_mul. destruct H as [(_ & _ & H)|(Rx & Ry & E & _)]; [discriminate|].
  assert (C : on_curve x y = true) by (apply Z.eqb_eq; exact E). rewrite C.
  replace (s =? 0) with false by (symmetry; apply Z.eqb_neq; exact Hs).
  destruct ((x =? 0) && (y =? 0)) eqn:E0; [|reflexivity].
  apply andb_true_iff in E0. rewrite !Z.eqb_eq in E0. destruct E0 as [-> ->].
  rewrite not_on_curve_00 in C. discriminate.
Qed.

Section Mul.
  Variable O : oracles.
  Variables (x y k : Z) (s : cs).
  Hypothesis HP : encodes x y (Aff x y).
  Hypothesis Hk : 0 <= k < p_mod.
  Hypothesis Hk0 : k mod r_mod <> 0.

  Lemma mul_run : CalcVerifyBN256Msm O Test (VBig x) (VBig y) (VBig k) s =
    if pair_eqb (coords0 (pmul k (Aff x y))) (pr (pmul k (Aff x y)))
    then Done (((VBig (fst (coords0 (pmul k (Aff x y)))), VBig (snd (coords0 (pmul k (Aff x y))))), None), s)
    else Panicked "emulated assertion failed".
  Proof.
    pose proof (encodes_range _ _ _ HP) as [Rx Ry].
    rewrite (msm_run O x y k (Aff x y)) by (rewrite !Z.abs_eq by lia; exact HP).
    rewrite !modp_small by assumption.
    rewrite emul_scalar_mul_good by assumption. rewrite pmul_mod.
    destruct (pair_eqb (coords0 (pmul k (Aff x y))) (pr (pmul k (Aff x y)))) eqn:E; [|reflexivity].
    apply pair_eqb_eq in E. rewrite <- E. reflexivity.
  Qed.

  Lemma c13 vx vy e s' : CalcVerifyBN256Msm O Test (VBig x) (VBig y) (VBig k) s = Done (((vx, vy), e), s') ->
    e = None /\ s' = s /\ exists X Y, pmul k (Aff x y) = Aff X Y /\ vx = VBig X /\ vy = VBig Y /\
      encodes X Y (Aff X Y) /\ X < r_mod /\ Y < r_mod.
  Proof.
    rewrite mul_run. destruct (pair_eqb (coords0 (pmul k (Aff x y))) (pr (pmul k (Aff x y)))) eqn:E; [|discriminate].
    intros H. injection H as <- <- <- <-. split; [reflexivity|]. split; [reflexivity|].
    apply pair_eqb_eq in E.
    pose proof (pmul_valid k (Aff x y) (encodes_valid _ _ _ HP)) as V.
    apply pr_eq_coords in E; [|exact V]. destruct E as (X & Y & E & RX & RY). rewrite E in *.
    exists X, Y. apply valid_aff in V. repeat split; try lia. right.
    destruct V as (V1 & V2 & V3). apply Z.eqb_eq in V3. auto.
  Qed.

  Lemma c14 X Y : pmul k (Aff x y) = Aff X Y ->
    (X < r_mod /\ Y < r_mod ->
       CalcVerifyBN256Msm O Test (VBig x) (VBig y) (VBig k) s = Done (((VBig X, VBig Y), None), s)) /\
    (r_mod <= X \/ r_mod <= Y ->
       exists w, CalcVerifyBN256Msm O Test (VBig x) (VBig y) (VBig k) s = Panicked w).
  Proof.
    intros E. pose proof (pmul_valid k (Aff x y) (encodes_valid _ _ _ HP)) as V. rewrite E in V.
    split.
    - intros [RX RY]. rewrite mul_run, E.
      assert (H : coords0 (Aff X Y) = pr (Aff X Y)).
      { apply pr_eq_coords; [exact V|]. apply valid_aff in V. exists X, Y. repeat split; lia. }
      replace (pair_eqb _ _) with true by (symmetry; apply pair_eqb_eq; exact H). reflexivity.
    - intros Hr. rewrite mul_run, E. exists "emulated assertion failed"%string.
      destruct (pair_eqb _ _) eqn:Ep; [|reflexivity]. apply pair_eqb_eq in Ep.
      apply pr_eq_coords in Ep; [|exact V]. destruct Ep as (X' & Y' & E' & R1 & R2). injection E' as -> ->. lia.
  Qed.
End Mul.

(** the point (1, p-2) = -G with k = 1 *)
Lemma neg_gen_encodes : encodes 1 (p_mod - 2) (Aff 1 (p_mod - 2)).
Proof. right. split; [split; [discriminate | reflexivity]|]. split; [split; [discriminate | reflexivity]|]. split; [vm_compute; reflexivity | reflexivity]. Qed.

Lemma pmul_1 P : pmul 1 P = P.
Proof. unfold pmul. rewrite (Z.mod_small 1) by (split; [discriminate | reflexivity]). reflexivity. Qed.

Lemma c14_refuted : ~ (forall O x y k s, encodes x y (Aff x y) -> 0 <= k < p_mod -> k mod r_mod <> 0 ->
  exists r, CalcVerifyBN256Msm O Test (VBig x) (VBig y) (VBig k) s = Done r).
Proof.
  intros H.
  set (O := {| o_keccak := fun _ => 0; o_sha256 := fun _ => 0; o_smul_degen := fun _ _ _ => None;
               o_pairing := fun _ => true; o_ecdsa := fun _ _ _ _ _ => true |}).
  assert (K1 : 0 <= 1 < p_mod) by (split; [discriminate | reflexivity]).
  assert (K2 : 1 mod r_mod <> 0) by (vm_compute; discriminate).
  destruct (H O 1 (p_mod - 2) 1 (mk_cs 0 [] []) neg_gen_encodes K1 K2) as [r E].
  destruct (c14 O 1 (p_mod - 2) 1 (mk_cs 0 [] []) neg_gen_encodes K1 K2 1 (p_mod - 2) (pmul_1 _)) as [_ B].
  destruct B as [w B]; [right; vm_compute; discriminate|]. congruence.
Qed.

(** ** The addition gadget *)
Lemma add_run x1 y1 x2 y2 P Q s :
  encodes x1 y1 P -> encodes x2 y2 Q ->
  CalcVerifyBN256Add Test (VBig x1) (VBig y1) (VBig x2) (VBig y2) s =
  if pair_eqb (add_unified (x1, y1) (x2, y2)) (pr (padd P Q))
  then Done (((VBig (fst (pr (padd P Q))), VBig (snd (pr (padd P Q)))), None), s)
  else Panicked "emulated assertion failed".
Proof.
  intros HP HQ. pose proof (encodes_range _ _ _ HP) as [R1 R2]. pose proof (encodes_range _ _ _ HQ) as [R3 R4].
  unfold CalcVerifyBN256Add, bind at 1.
  rewrite (add_hint_test x1 y1 x2 y2 P Q s) by (rewrite !Z.abs_eq by lia; assumption).
  destruct (pr_range (padd P Q)) as [B1 B2]. set (a := fst (pr (padd P Q))) in *. set (b := snd (pr (padd P Q))) in *.
  unfold bind at 1. cbn [get nth_error lift]. unfold bind at 1. rewrite mod_test_ok by assumption.
  unfold bind at 1. cbn [get nth_error lift]. unfold bind at 1. rewrite mod_test_ok by assumption.
  unfold VerifyBN254Add, with_fp. cbn [fst snd fp_set_interface]. cbv zeta.
  rewrite !(modp_small x1), !(modp_small y1), !(modp_small x2), !(modp_small y2) by assumption.
  rewrite !smod_p by assumption.
  replace (pr (padd P Q)) with (a, b) by (unfold a, b; destruct (pr (padd P Q)); reflexivity).
  unfold emul_assert, bind. destruct (pair_eqb (add_unified (x1, y1) (x2, y2)) (a, b)); reflexivity.
Qed.

Lemma add_run_fail x1 y1 x2 y2 s :
  ~ ((exists P, encodes (Z.abs x1) (Z.abs y1) P) /\ (exists Q, encodes (Z.abs x2) (Z.abs y2) Q)) ->
  exists w, CalcVerifyBN256Add Test (VBig x1) (VBig y1) (VBig x2) (VBig y2) s = Panicked w.
Proof.
  intros N. destruct (add_hint_test_fail x1 y1 x2 y2 s N) as [w E]. exists w.
  unfold CalcVerifyBN256Add, bind at 1. rewrite E. reflexivity.
Qed.

Lemma add_accept x1 y1 x2 y2 P Q : encodes x1 y1 P -> encodes x2 y2 Q ->
  (add_unified (x1, y1) (x2, y2) = pr (padd P Q) <->
   ~ add_degenerate P Q /\ exists X Y, padd P Q = Aff X Y /\ 0 <= X < r_mod /\ 0 <= Y < r_mod).
Proof.
  intros HP HQ. pose proof (encodes_valid _ _ _ HP) as VP. pose proof (encodes_valid _ _ _ HQ) as VQ.
  pose proof (padd_valid _ _ VP VQ) as VS.
  pose proof (add_unified_spec P Q VP VQ) as S.
  rewrite (encodes_coords _ _ _ HP), (encodes_coords _ _ _ HQ) in S.
  assert (Z00 : pr (padd P Q) <> (0, 0)).
  { unfold pr. destruct (padd P Q) as [|X Y]; cbn [printed fst snd].
    - intros H. assert (1 mod r_mod = 0) by congruence. vm_compute in H0. discriminate.
    - intros H. apply (valid_not_00 X Y VS); congruence. }
  split.
  - intros E. split.
    + intros (a1 & b1 & a2 & b2 & -> & -> & N & H0).
      assert (E2 : add_unified (a1, b1) (a2, b2) = (0, 0)) by (apply add_unified_opp; exact H0).
      destruct HP as [(_ & _ & HP)|(_ & _ & _ & HP)]; [discriminate|]. injection HP as -> ->.
      destruct HQ as [(_ & _ & HQ)|(_ & _ & _ & HQ)]; [discriminate|]. injection HQ as -> ->. congruence.
    + destruct S as [S|(a1 & b1 & a2 & b2 & _ & _ & _ & _ & S)]; [|congruence].
      apply pr_eq_coords; [exact VS|]. congruence.
  - intros [Nd R]. destruct S as [S|(a1 & b1 & a2 & b2 & E1 & E2 & N & H0 & _)].
    + rewrite S. apply pr_eq_coords; assumption.
    + exfalso. apply Nd. exists a1, b1, a2, b2. auto.
Qed.

Lemma c15 x1 y1 x2 y2 vx vy e s s' : 0 <= x1 -> 0 <= y1 -> 0 <= x2 -> 0 <= y2 ->
  CalcVerifyBN256Add Test (VBig x1) (VBig y1) (VBig x2) (VBig y2) s = Done (((vx, vy), e), s') ->
  e = None /\ s' = s /\ exists P Q X Y, encodes x1 y1 P /\ encodes x2 y2 Q /\ padd P Q = Aff X Y /\
    vx = VBig X /\ vy = VBig Y /\ encodes X Y (Aff X Y) /\ X < r_mod /\ Y < r_mod.
Proof.
  intros A1 A2 A3 A4 H.
  destruct (encodes_dec x1 y1 A1 A2) as [[P HP]|N1].
  2:{ destruct (add_run_fail x1 y1 x2 y2 s) as [w E]; [rewrite !Z.abs_eq by lia; tauto | congruence]. }
  destruct (encodes_dec x2 y2 A3 A4) as [[Q HQ]|N2].
  2:{ destruct (add_run_fail x1 y1 x2 y2 s) as [w E]; [rewrite !Z.abs_eq by lia; tauto | congruence]. }
  rewrite (add_run x1 y1 x2 y2 P Q) in H by assumption.
  destruct (pair_eqb _ _) eqn:E; [|discriminate]. injection H as <- <- <- <-.
  split; [reflexivity|]. split; [reflexivity|]. apply pair_eqb_eq in E.
  apply (add_accept x1 y1 x2 y2 P Q HP HQ) in E. destruct E as (_ & X & Y & E & RX & RY).
  exists P, Q, X, Y. pose proof (padd_valid P Q (encodes_valid _ _ _ HP) (encodes_valid _ _ _ HQ)) as V.
  rewrite E in *. unfold pr. cbn [printed fst snd]. rewrite !modr_small by assumption.
  apply valid_aff in V. destruct V as (V1 & V2 & V3). apply Z.eqb_eq in V3.
  repeat split; try assumption; try lia. right. auto.
Qed.

Lemma c16 x1 y1 x2 y2 P Q s : encodes x1 y1 P -> encodes x2 y2 Q ->
  ((exists r, CalcVerifyBN256Add Test (VBig x1) (VBig y1) (VBig x2) (VBig y2) s = Done r) <->
   (~ add_degenerate P Q /\ exists X Y, padd P Q = Aff X Y /\ 0 <= X < r_mod /\ 0 <= Y < r_mod)).
Proof.
  intros HP HQ. rewrite (add_run x1 y1 x2 y2 P Q) by assumption.
  rewrite <- (add_accept x1 y1 x2 y2 P Q HP HQ), <- pair_eqb_eq.
  destruct (pair_eqb _ _); split; try eauto; try discriminate. intros [r H]. discriminate.
Qed.

Lemma c16_opposite x y s : encodes x y (Aff x y) ->
  exists w, CalcVerifyBN256Add Test (VBig x) (VBig y) (VBig x) (VBig (p_mod - y)) s = Panicked w.
Proof.
  intros H. pose proof (encodes_valid _ _ _ H) as V. apply valid_aff in V. destruct V as (Rx & Ry & C).
  assert (Ny : y <> 0) by (intros ->; rewrite on_curve_y0 in C; discriminate).
  assert (E2 : encodes x (p_mod - y) (Aff x (p_mod - y))).
  { right. repeat split; try lia. apply Z.eqb_eq in C. unfold on_curve in C. rewrite <- C.
    replace ((p_mod - y) * (p_mod - y)) with (y * y + (p_mod - 2 * y) * p_mod) by ring. apply Z.mod_add. auto. }
  rewrite (add_run x y x (p_mod - y) _ _ s H E2).
  destruct (pair_eqb _ _) eqn:E; [|eauto]. apply pair_eqb_eq in E.
  apply (add_accept x y x (p_mod - y) _ _ H E2) in E. destruct E as (_ & X & Y & E & _).
  rewrite padd_opp in E; [discriminate | eapply encodes_valid; exact H | | lia].
  replace (y + (p_mod - y)) with p_mod by ring. apply Z.mod_same. auto.
Qed.

Lemma c16_refuted : ~ (forall x1 y1 x2 y2 P Q s, encodes x1 y1 P -> encodes x2 y2 Q ->
  exists r, CalcVerifyBN256Add Test (VBig x1) (VBig y1) (VBig x2) (VBig y2) s = Done r).
Proof.
  intros H.
  assert (G : encodes 1 2 (Aff 1 2)).
  { right. split; [split; [discriminate | reflexivity]|]. split; [split; [discriminate | reflexivity]|].
    split; [vm_compute; reflexivity | reflexivity]. }
  destruct (H 1 2 1 (p_mod - 2) _ _ (mk_cs 0 [] []) G neg_gen_encodes) as [r E].
  destruct (c16_opposite 1 2 (mk_cs 0 [] []) G) as [w E2]. congruence.
Qed.

(** ** Legacy circuits *)
Lemma legacy_assert a b c d (X : (Z * Z) * option goerr) s :
  (api_assert_eq Test (VFp a) (VFp b) ;;; api_assert_eq Test (VFp c) (VFp d) ;;; ret X) s =
  if (a mod r_mod =? b mod r_mod) && (c mod r_mod =? d mod r_mod) then Done (X, s)
  else Panicked "[assertIsEqual]".
Proof.
  unfold bind, api_assert_eq, bind. cbn [to_big lift].
  destruct (a mod r_mod =? b mod r_mod); [|reflexivity]. cbn [andb ret].
  destruct (c mod r_mod =? d mod r_mod); reflexivity.
Qed.

Lemma legacy_iff a b c d (X : (Z * Z) * option goerr) s :
  ((exists r, (api_assert_eq Test (VFp a) (VFp b) ;;; api_assert_eq Test (VFp c) (VFp d) ;;; ret X) s = Done r) <->
   a mod r_mod = b mod r_mod /\ c mod r_mod = d mod r_mod) /\
  (forall r, (api_assert_eq Test (VFp a) (VFp b) ;;; api_assert_eq Test (VFp c) (VFp d) ;;; ret X) s = Done r ->
     r = (X, s)).
Proof.
  rewrite legacy_assert.
  destruct (a mod r_mod =? b mod r_mod) eqn:E1; destruct (c mod r_mod =? d mod r_mod) eqn:E2; cbn [andb];
    rewrite ?Z.eqb_eq, ?Z.eqb_neq in *; (split; [split; [intros [r H]; try discriminate; auto | intros [? ?]; try contradiction; eauto] | intros r H; congruence]).
Qed.

Lemma c17_msm g k res s :
  (exists r, VerifyBN256Msm Test g k res s = Done r) <->
  (fst (coords0 (pmul k (of_coords0 g))) mod r_mod = fst res mod r_mod /\
   snd (coords0 (pmul k (of_coords0 g))) mod r_mod = snd res mod r_mod).
Proof. apply legacy_iff. Qed.

Lemma c17_add g h res s :
  (exists r, VerifyBN256Add Test g h res s = Done r) <->
  (fst (coords0 (padd (of_coords0 g) (of_coords0 h))) mod r_mod = fst res mod r_mod /\
   snd (coords0 (padd (of_coords0 g) (of_coords0 h))) mod r_mod = snd res mod r_mod).
Proof. apply legacy_iff. Qed.

Lemma c17_refuted : ~ (forall g k res s r,
  0 <= fst res < p_mod -> 0 <= snd res < p_mod -> valid_pt (of_coords0 g) = true ->
  VerifyBN256Msm Test g k res s = Done r -> res = coords0 (pmul k (of_coords0 g))).
Proof.
  intros H. specialize (H (1, 2) 1 (1 + r_mod, 2) (mk_cs 0 [] []) ((1, 2), None, mk_cs 0 [] [])).
  rewrite pmul_1 in H. cbn [of_coords0 fst snd Z.eqb andb coords0] in H.
  assert (E : (1 + r_mod, 2) = (1, 2)).
  { apply H; [split; [discriminate | reflexivity] | split; [discriminate | reflexivity] | vm_compute; reflexivity | vm_compute; reflexivity]. }
  vm_compute in E. discriminate.
Qed.

Lemma c17_add_refuted : ~ (forall g h res s r,
  0 <= fst res < p_mod -> 0 <= snd res < p_mod ->
  valid_pt (of_coords0 g) = true -> valid_pt (of_coords0 h) = true ->
  VerifyBN256Add Test g h res s = Done r -> res = coords0 (padd (of_coords0 g) (of_coords0 h))).
Proof.
  intros H. specialize (H (1, 2) (0, 0) (1 + r_mod, 2) (mk_cs 0 [] []) ((1, 2), None, mk_cs 0 [] [])).
  cbn [of_coords0 fst snd Z.eqb andb coords0 padd] in H.
  assert (E : (1 + r_mod, 2) = (1, 2)).
  { apply H; [split; [discriminate | reflexivity] | split; [discriminate | reflexivity] | vm_compute; reflexivity | reflexivity | vm_compute; reflexivity]. }
  vm_compute in E. discriminate.
Qed.

(** ** Repeated runs *)
Lemma of_coords0_coords0 P : valid_pt P = true -> of_coords0 (coords0 P) = P.
Proof.
  intros V. destruct P as [|x y]; [reflexivity|]. unfold of_coords0. cbn [coords0 fst snd].
  destruct ((x =? 0) && (y =? 0)) eqn:E; [|reflexivity]. apply andb_true_iff in E. rewrite !Z.eqb_eq in E.
  destruct E as [-> ->]. apply valid_aff in V. destruct V as (_ & _ & V). rewrite not_on_curve_00 in V. discriminate.
Qed.

Lemma iter_comm {A} (f : A -> A) n a : Nat.iter n f (f a) = f (Nat.iter n f a).
Proof.
  induction n as [|n IH]; [reflexivity|]. change (f (Nat.iter n f (f a)) = f (f (Nat.iter n f a))).
  rewrite IH. reflexivity.
Qed.
Lemma iter_S {A} (f : A -> A) n a : Nat.iter (S n) f a = f (Nat.iter n f a). Proof. reflexivity. Qed.

Lemma c18_msm n : forall g k res s, valid_pt (of_coords0 g) = true ->
  (forall g' s', runs_msm n g k res s = Done (g', s') ->
     s' = s /\ of_coords0 g' = Nat.iter n (pmul k) (of_coords0 g)) /\
  ((exists r, runs_msm n g k res s = Done r) <->
   forall i, (1 <= i <= n)%nat ->
     fst (coords0 (Nat.iter i (pmul k) (of_coords0 g))) mod r_mod = fst res mod r_mod /\
     snd (coords0 (Nat.iter i (pmul k) (of_coords0 g))) mod r_mod = snd res mod r_mod).
Proof.
  induction n as [|n IH]; intros g k res s V.
  - split; [intros g' s' H; injection H as <- <-; auto|].
    split; [intros _ i Hi; lia | intros _; cbn; unfold ret; eauto].
  - cbn [runs_msm]. unfold bind, VerifyBN256Msm. cbv zeta. set (h := coords0 (pmul k (of_coords0 g))).
    pose proof (legacy_assert (fst h) (fst res) (snd h) (snd res) (h, None) s) as L. rewrite L. clear L.
    assert (Eh : of_coords0 h = pmul k (of_coords0 g)) by (apply of_coords0_coords0, pmul_valid, V).
    assert (Vh : valid_pt (of_coords0 h) = true) by (rewrite Eh; apply pmul_valid, V).
    destruct (IH h k res s Vh) as [A B]. rewrite Eh in A, B.
    destruct ((fst h mod r_mod =? fst res mod r_mod) && (snd h mod r_mod =? snd res mod r_mod)) eqn:E.
    + split.
      * intros g' s' H. destruct (A g' s' H) as [-> E2]. split; [reflexivity|].
        rewrite E2, iter_comm. reflexivity.
      * rewrite B. split.
        -- intros H i Hi. destruct i as [|i]; [lia|]. rewrite iter_S, <- iter_comm.
           destruct i as [|i]; [|apply H; lia].
           apply andb_true_iff in E. rewrite !Z.eqb_eq in E. exact E.
        -- intros H i Hi. rewrite iter_comm. apply (H (S i)). lia.
    + split; [discriminate|]. split; [intros [r H]; discriminate|]. intros H. exfalso.
      destruct (H 1%nat ltac:(lia)) as [H1 H2]. change (Nat.iter 1 ?f ?a) with (f a) in H1, H2. fold h in H1, H2.
      rewrite H1, H2, !Z.eqb_refl in E. discriminate.
Qed.

Lemma c18_add n : forall g q res s, valid_pt (of_coords0 g) = true -> valid_pt (of_coords0 q) = true ->
  (forall g' s', runs_add n g q res s = Done (g', s') ->
     s' = s /\ of_coords0 g' = Nat.iter n (fun P => padd P (of_coords0 q)) (of_coords0 g)) /\
  ((exists r, runs_add n g q res s = Done r) <->
   forall i, (1 <= i <= n)%nat ->
     fst (coords0 (Nat.iter i (fun P => padd P (of_coords0 q)) (of_coords0 g))) mod r_mod = fst res mod r_mod /\
     snd (coords0 (Nat.iter i (fun P => padd P (of_coords0 q)) (of_coords0 g))) mod r_mod = snd res mod r_mod).
Proof.
  induction n as [|n IH]; intros g q res s V Vq.
  - split; [intros g' s' H; injection H as <- <-; auto|].
    split; [intros _ i Hi; lia | intros _; cbn; unfold ret; eauto].
  - cbn [runs_add]. unfold bind, VerifyBN256Add. cbv zeta. set (h := coords0 (padd (of_coords0 g) (of_coords0 q))).
    pose proof (legacy_assert (fst h) (fst res) (snd h) (snd res) (h, None) s) as L. rewrite L. clear L.
    assert (Eh : of_coords0 h = padd (of_coords0 g) (of_coords0 q)) by (apply of_coords0_coords0, padd_valid; assumption).
    assert (Vh : valid_pt (of_coords0 h) = true) by (rewrite Eh; apply padd_valid; assumption).
    destruct (IH h q res s Vh Vq) as [A B]. rewrite Eh in A, B.
    set (f := fun P => padd P (of_coords0 q)) in *.
    change (padd (of_coords0 g) (of_coords0 q)) with (f (of_coords0 g)) in *.
    destruct ((fst h mod r_mod =? fst res mod r_mod) && (snd h mod r_mod =? snd res mod r_mod)) eqn:E.
    + split.
      * intros g' s' H. destruct (A g' s' H) as [-> E2]. split; [reflexivity|].
        rewrite E2, iter_comm. reflexivity.
      * rewrite B. split.
        -- intros H i Hi. destruct i as [|i]; [lia|]. rewrite iter_S, <- iter_comm.
           destruct i as [|i]; [|apply H; lia].
           apply andb_true_iff in E. rewrite !Z.eqb_eq in E. exact E.
        -- intros H i Hi. rewrite iter_comm. apply (H (S i)). lia.
    + split; [discriminate|]. split; [intros [r H]; discriminate|]. intros H. exfalso.
      destruct (H 1%nat ltac:(lia)) as [H1 H2]. change (Nat.iter 1 ?f ?a) with (f a) in H1, H2. fold h in H1, H2.
      rewrite H1, H2, !Z.eqb_refl in E. discriminate.
Qed.

(** 2G with its affine coordinates *)
Definition G2x : pt := pmul 2 (Aff 1 2).
Lemma c18_unstable : exists g k res s, valid_pt (of_coords0 g) = true /\
  (exists r, runs_msm 1 g k res s = Done r) /\ ~ (exists r, runs_msm 2 g k res s = Done r).
Proof.
  exists (1, 2), 2, (coords0 (pmul 2 (Aff 1 2))), (mk_cs 0 [] []).
  assert (V : valid_pt (of_coords0 (1, 2)) = true) by (vm_compute; reflexivity).
  split; [exact V|]. split.
  - apply (c18_msm 1 (1, 2) 2 _ _ V). intros i Hi. replace i with 1%nat by lia. split; reflexivity.
  - intros H. destruct (c18_msm 2 (1, 2) 2 (coords0 (pmul 2 (Aff 1 2))) (mk_cs 0 [] []) V) as [_ I].
    destruct I as [I _]. destruct (I H 2%nat ltac:(lia)) as [H1 _].
    vm_compute in H1. discriminate.
Qed.

(** ** Calc...1 *)
Lemma c19_msm x y k P X Y s : encodes x y P -> pmul k P = Aff X Y ->
  CalcVerifyBN256Msm1 Test (VBig x) (VBig y) (VBig k) s =
  Done (((VBig (X mod r_mod), VBig (Y mod r_mod)), None), s).
Proof.
  intros HP HR. pose proof (encodes_range _ _ _ HP) as [Rx Ry].
  unfold CalcVerifyBN256Msm1, bind at 1.
  rewrite (msm_hint_test x y k P s) by (rewrite !Z.abs_eq by lia; exact HP).
  rewrite HR. unfold pr. cbn [printed fst snd].
  unfold set_or_panic at 1, bind at 1. cbn [fp_set_interface ret].
  unfold set_or_panic at 1, bind at 1. cbn [fp_set_interface ret].
  rewrite !modp_small by assumption.
  assert (C : g1_is_on_curve x y = true).
  { unfold g1_is_on_curve. destruct HP as [(-> & -> & _)|(_ & _ & E & _)]; [reflexivity|].
    assert (on_curve x y = true) by (apply Z.eqb_eq; exact E). rewrite H. apply orb_true_r. }
  rewrite C. cbn [negb].
  unfold bind at 1. cbn [get nth_error lift]. unfold set_or_panic at 1, bind at 1. cbn [fp_set_interface ret].
  unfold bind at 1. cbn [get nth_error lift]. unfold set_or_panic at 1, bind at 1. cbn [fp_set_interface ret].
  unfold bind at 1. cbn [as_big lift]. rewrite !smod_p by apply modr_range.
  assert (E : of_coords0 (x, y) = P).
  { rewrite <- (encodes_coords _ _ _ HP). apply of_coords0_coords0. eapply encodes_valid; exact HP. }
  unfold bind at 1, VerifyBN256Msm. rewrite E, HR. cbv zeta. cbn [coords0 fst snd].
  rewrite legacy_assert. rewrite !modr_idem, !Z.eqb_refl. reflexivity.
Qed.

Lemma c19_add x1 y1 x2 y2 P Q X Y s : encodes x1 y1 P -> encodes x2 y2 Q -> padd P Q = Aff X Y ->
  CalcVerifyBN256Add1 Test (VBig x1) (VBig y1) (VBig x2) (VBig y2) s =
  Done (((VBig (X mod r_mod), VBig (Y mod r_mod)), None), s).
Proof.
  intros HP HQ HR. pose proof (encodes_range _ _ _ HP) as [R1 R2]. pose proof (encodes_range _ _ _ HQ) as [R3 R4].
  unfold CalcVerifyBN256Add1, bind at 1.
  rewrite (add_hint_test x1 y1 x2 y2 P Q s) by (rewrite !Z.abs_eq by lia; assumption).
  rewrite HR. unfold pr. cbn [printed fst snd].
  assert (C : forall x y R, encodes x y R -> g1_is_on_curve x y = true).
  { intros x y R H. unfold g1_is_on_curve. destruct H as [(-> & -> & _)|(_ & _ & E & _)]; [reflexivity|].
    assert (on_curve x y = true) by (apply Z.eqb_eq; exact E). rewrite H. apply orb_true_r. }
  unfold set_or_panic at 1, bind at 1. cbn [fp_set_interface ret].
  unfold set_or_panic at 1, bind at 1. cbn [fp_set_interface ret].
  rewrite (modp_small x1), (modp_small y1) by assumption. rewrite (C _ _ _ HP). cbn [negb].
  unfold set_or_panic at 1, bind at 1. cbn [fp_set_interface ret].
  unfold set_or_panic at 1, bind at 1. cbn [fp_set_interface ret].
  rewrite (modp_small x2), (modp_small y2) by assumption. rewrite (C _ _ _ HQ). cbn [negb].
  unfold bind at 1. cbn [get nth_error lift]. unfold set_or_panic at 1, bind at 1. cbn [fp_set_interface ret].
  unfold bind at 1. cbn [get nth_error lift]. unfold set_or_panic at 1, bind at 1. cbn [fp_set_interface ret].
  rewrite !smod_p by apply modr_range.
  assert (E1 : of_coords0 (x1, y1) = P).
  { rewrite <- (encodes_coords _ _ _ HP). apply of_coords0_coords0. eapply encodes_valid; exact HP. }
  assert (E2 : of_coords0 (x2, y2) = Q).
  { rewrite <- (encodes_coords _ _ _ HQ). apply of_coords0_coords0. eapply encodes_valid; exact HQ. }
  unfold bind at 1, VerifyBN256Add. rewrite E1, E2, HR. cbv zeta. cbn [coords0 fst snd].
  rewrite legacy_assert. rewrite !modr_idem, !Z.eqb_refl. reflexivity.
Qed.

Lemma c19_refuted : ~ (forall x y k vx vy s s', encodes x y (Aff x y) ->
  CalcVerifyBN256Msm1 Test (VBig x) (VBig y) (VBig k) s = Done (((vx, vy), None), s') ->
  exists X Y, vx = VBig X /\ vy = VBig Y /\ curve_or_zero X Y).
Proof.
  intros H.
  destruct (H 1 (p_mod - 2) 1 _ _ (mk_cs 0 [] []) _ neg_gen_encodes (c19_msm _ _ _ _ _ _ _ neg_gen_encodes (pmul_1 _)))
    as (X & Y & E1 & E2 & C).
  injection E1 as <-. injection E2 as <-. unfold curve_or_zero in C. vm_compute in C.
  destruct C as [[C _]|C]; discriminate.
Qed.

Lemma c19_add_refuted : ~ (forall x1 y1 x2 y2 vx vy s s', encodes x1 y1 (Aff x1 y1) ->
  (exists Q, encodes x2 y2 Q) ->
  CalcVerifyBN256Add1 Test (VBig x1) (VBig y1) (VBig x2) (VBig y2) s = Done (((vx, vy), None), s') ->
  exists X Y, vx = VBig X /\ vy = VBig Y /\ curve_or_zero X Y).
Proof.
  intros H.
  assert (H0 : encodes 0 0 Inf) by (left; auto).
  destruct (H 1 (p_mod - 2) 0 0 _ _ (mk_cs 0 [] []) _ neg_gen_encodes (ex_intro _ Inf H0)
    (c19_add _ _ _ _ _ _ _ _ _ neg_gen_encodes H0 eq_refl))
    as (X & Y & E1 & E2 & C).
  injection E1 as <-. injection E2 as <-. unfold curve_or_zero in C. vm_compute in C.
  destruct C as [[C _]|C]; discriminate.
Qed.

(** ** On-curve checks *)
Lemma on_curve_mod x y : on_curve (x mod p_mod) (y mod p_mod) = on_curve x y.
Proof.
  unfold on_curve. rewrite <- Z.mul_mod by auto.
  replace ((x mod p_mod * (x mod p_mod) * (x mod p_mod) + 3) mod p_mod) with ((x * x * x + 3) mod p_mod); [reflexivity|].
  rewrite <- (Zplus_mod_idemp_l (x * x * x)), <- (Zplus_mod_idemp_l (x mod p_mod * _ * _)). f_equal. f_equal.
  rewrite (Z.mul_mod (x * x)) by auto. rewrite (Z.mul_mod (x mod p_mod * (x mod p_mod))) by auto.
  rewrite <- (Z.mul_mod x x) by auto. rewrite Z.mod_mod by auto. reflexivity.
Qed.

Lemma g1_is_on_curve_iff x y : g1_is_on_curve (x mod p_mod) (y mod p_mod) = true <-> curve_or_zero x y.
Proof.
  unfold g1_is_on_curve, curve_or_zero. rewrite on_curve_mod. rewrite orb_true_iff, andb_true_iff, !Z.eqb_eq.
  unfold on_curve. rewrite Z.eqb_eq. tauto.
Qed.

Lemma c20_test en x y s :
  (curve_or_zero x y -> VerifyCheckOnCurve en (VBig x) (VBig y) s = Done (None, s)) /\
  (~ curve_or_zero x y -> exists e, VerifyCheckOnCurve en (VBig x) (VBig y) s = Done (Some e, s)).
Proof.
  unfold VerifyCheckOnCurve. cbn [fp_set_interface].
  destruct (g1_is_on_curve (x mod p_mod) (y mod p_mod)) eqn:E; cbn [negb].
  - apply g1_is_on_curve_iff in E. split; [reflexivity | tauto].
  - split; [|eexists; reflexivity]. intros H. apply g1_is_on_curve_iff in H. congruence.
Qed.

Lemma c20_var_int en x y s :
  (curve_or_zero x y -> VerifyCheckOnCurveVar en (VBig x) (VBig y) s = Done (None, s)) /\
  (~ curve_or_zero x y -> exists e, VerifyCheckOnCurveVar en (VBig x) (VBig y) s = Done (Some e, s)).
Proof.
  unfold VerifyCheckOnCurveVar. cbn [fp_set_interface]. cbv zeta.
  destruct (g1_is_on_curve (x mod p_mod) (y mod p_mod)) eqn:E; cbn [negb].
  - apply g1_is_on_curve_iff in E. split; [reflexivity | tauto].
  - split; [|eexists; reflexivity]. intros H. apply g1_is_on_curve_iff in H. congruence.
Qed.

Lemma c20_var_accepts_all vx vy e1 e2 en s :
  fp_set_interface vx = inr e1 -> fp_set_interface vy = inr e2 ->
  VerifyCheckOnCurveVar en vx vy s = Done (None, s).
Proof. intros H1 H2. unfold VerifyCheckOnCurveVar. rewrite H1, H2. reflexivity. Qed.

Lemma c20_var_compiled a b s : VerifyCheckOnCurveVar Build (VExpr a) (VExpr b) s = Done (None, s).
Proof. reflexivity. Qed.
Lemma c20_var_fr en a b s : VerifyCheckOnCurveVar en (VFr a) (VFr b) s = Done (None, s).
Proof. reflexivity. Qed.
Lemma c20_compiled_panics a b s : exists w, VerifyCheckOnCurve Build (VExpr a) (VExpr b) s = Panicked w.
Proof. eexists. reflexivity. Qed.

Lemma c20_var_refuted : ~ (forall O a b s s' w, VerifyCheckOnCurveVar Build (VExpr a) (VExpr b) s = Done (None, s') ->
  sat O w s' -> curve_or_zero (eval w a) (eval w b)).
Proof.
  intros H.
  set (O := {| o_keccak := fun _ => 0; o_sha256 := fun _ => 0; o_smul_degen := fun _ _ _ => None;
               o_pairing := fun _ => true; o_ecdsa := fun _ _ _ _ _ => true |}).
  specialize (H O (EConst 1) (EConst 1) (mk_cs 0 [] []) _ {| aw := fun _ => 0; ae := fun _ => 0 |} eq_refl (Forall_nil _)).
  unfold curve_or_zero in H. vm_compute in H. destruct H as [[H _]|H]; discriminate.
Qed.
