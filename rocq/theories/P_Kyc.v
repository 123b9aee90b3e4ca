(** KYC circuit (C41, C42) and multi-scalar multiplication (C44). *)
From Coq Require Import ZArith String Bool List Lia.
From Verif Require Import Params Go Curve Api FrOps Lib Steps Agg NumThy FField FpField SpecCurve SpecMisc
  P_Fr P_Curve P_Msm P_Hash.
Import ListNotations.
Open Scope Z_scope.

(** ** C44 *)
Lemma c44_lengths O en p0 ps ss e s : length (p0 :: ps) <> length ss ->
  exists err, VerifyMultiScalarMul O en (p0 :: ps) ss e s = Done (Some err, s).
Proof.
  intros H. unfold VerifyMultiScalarMul. destruct ss as [|s0 ss]; [eexists; reflexivity|].
  destruct (Nat.eqb_spec (length ps) (length ss)); [cbn in H; lia|]. eexists. reflexivity.
Qed.

Lemma c44_no_error O en ps ss e s err s' : ps = [] \/ length ps = length ss ->
  VerifyMultiScalarMul O en ps ss e s <> Done (Some err, s').
Proof.
  intros H. unfold VerifyMultiScalarMul. destruct ps as [|p0 ps].
  - unfold bind, ret. destruct (emul_assert en _ s) as [[? ?]|]; [|discriminate].
    intros C. apply (f_equal (fun o => match o with Done (Some _, _) => true | _ => false end)) in C. discriminate C.
  - destruct H as [H|H]; [discriminate|]. destruct ss as [|s0 ss]; [discriminate|]. cbn [length] in H.
    injection H as H. rewrite H, Nat.eqb_refl. cbn [negb]. unfold bind, ret.
    destruct (emul_smul _ _ _ _ _ _) as [[? ?]|]; [|discriminate].
    destruct (emul_msm_fold _ _ _ _ _) as [[? ?]|]; [|discriminate].
    destruct (emul_assert _ _ _) as [[? ?]|]; [|discriminate].
    intros C. apply (f_equal (fun o => match o with Done (Some _, _) => true | _ => false end)) in C. discriminate C.
Qed.

Lemma valid_of_coords0 x y : valid_pt (Aff x y) = true -> of_coords0 (x, y) = Aff x y.
Proof.
  intros V. unfold of_coords0. cbn [fst snd]. destruct (Z.eqb_spec x 0); [|reflexivity].
  destruct (Z.eqb_spec y 0); [|reflexivity]. subst. apply valid_aff in V. destruct V as [_ [_ V]].
  rewrite (on_curve_y0 0) in V. discriminate V.
Qed.

Lemma valid_encodes x y : valid_pt (Aff x y) = true -> encodes x y (Aff x y).
Proof.
  intros V. right. apply valid_aff in V. destruct V as (A & B & C). unfold on_curve in C. apply Z.eqb_eq in C. auto.
Qed.

Lemma smul_good O P k s : good_term (P, k) ->
  emul_smul O Test (fst P) (snd P) k s = Done (coords0 (pmul k (of_coords0 P)), s).
Proof.
  destruct P as [x y]. intros [V K]. cbn [fst snd] in *. unfold emul_smul.
  rewrite emul_scalar_mul_good by (auto using valid_encodes; lia). rewrite (valid_of_coords0 _ _ V). reflexivity.
Qed.

Lemma msm_fold_general O l : forall acc s, valid_pt acc = true -> Forall good_term l -> general acc l ->
  emul_msm_fold O Test (coords0 acc) l s = Done (coords0 (msm_from acc l), s).
Proof.
  induction l as [|[P k] l IH]; intros acc s V G H; [reflexivity|].
  apply Forall_cons_iff in G. destruct G as [G1 G]. cbn [general] in H.
  destruct H as [(x & y & x' & y' & -> & E & N) H].
  cbn [emul_msm_fold msm_from]. unfold bind at 1. rewrite (smul_good O P k s G1). rewrite E in *.
  unfold bind. unfold emul_add_incomplete. cbn [coords0 fst snd].
  destruct (Z.eqb_spec x x'); [contradiction|]. unfold ret at 1. apply IH; auto.
  apply padd_valid; [exact V|]. rewrite <- E. apply pmul_valid. destruct P as [a b]. destruct G1 as [G1 _].
  cbn [fst snd] in G1. rewrite (valid_of_coords0 _ _ G1). exact G1.
Qed.

Lemma c44_main O p0 k0 l e s : good_term (p0, k0) -> Forall good_term l -> general (pmul k0 (of_coords0 p0)) l ->
  let R := msm_from (pmul k0 (of_coords0 p0)) l in
  (e = coords0 R -> VerifyMultiScalarMul O Test (p0 :: map fst l) (k0 :: map snd l) e s = Done (None, s)) /\
  (e <> coords0 R -> exists w, VerifyMultiScalarMul O Test (p0 :: map fst l) (k0 :: map snd l) e s = Panicked w).
Proof.
  intros G0 G H R.
  assert (E : VerifyMultiScalarMul O Test (p0 :: map fst l) (k0 :: map snd l) e s =
    (emul_assert Test (pair_eqb (coords0 R) e) ;;; ret None) s).
  { unfold VerifyMultiScalarMul. rewrite !map_length, Nat.eqb_refl. cbn [negb].
    unfold bind at 1. rewrite (smul_good O p0 k0 s G0). unfold bind at 1.
    replace (combine (map fst l) (map snd l)) with l.
    - rewrite msm_fold_general; auto. apply pmul_valid. destruct p0 as [a b]. destruct G0 as [G0 _].
      cbn [fst snd] in G0. rewrite (valid_of_coords0 _ _ G0). exact G0.
    - clear. induction l as [|[a b] l IH]; cbn; [reflexivity|]. rewrite <- IH. reflexivity. }
  rewrite E. unfold bind, emul_assert. split; intros Q.
  - subst e. rewrite (proj2 (pair_eqb_eq _ _) eq_refl). reflexivity.
  - destruct (pair_eqb (coords0 R) e) eqn:Eq; [|eexists; reflexivity].
    apply pair_eqb_eq in Eq. congruence.
Qed.

Lemma c44_empty O ss e s :
  (e = (0, 0) -> VerifyMultiScalarMul O Test [] ss e s = Done (None, s)) /\
  (e <> (0, 0) -> exists w, VerifyMultiScalarMul O Test [] ss e s = Panicked w).
Proof.
  unfold VerifyMultiScalarMul, bind, emul_assert. split; intros Q.
  - subst e. reflexivity.
  - destruct (pair_eqb (0, 0) e) eqn:Eq; [|eexists; reflexivity]. apply pair_eqb_eq in Eq. congruence.
Qed.

(** an addition met with equal abscissas is rejected, whatever the expected point *)
Lemma c44_equal_abscissas O P Q k k' e s : good_term (P, k) -> good_term (Q, k') ->
  (exists x y y', pmul k (of_coords0 P) = Aff x y /\ pmul k' (of_coords0 Q) = Aff x y') ->
  exists w, VerifyMultiScalarMul O Test [P; Q] [k; k'] e s = Panicked w.
Proof.
  intros G1 G2 (x & y & y' & E1 & E2). unfold VerifyMultiScalarMul. cbn [length Nat.eqb negb combine].
  unfold bind at 1. rewrite (smul_good O P k s G1). cbn [emul_msm_fold]. unfold bind. rewrite (smul_good O Q k' s G2).
  rewrite E1, E2. unfold emul_add_incomplete. cbn [coords0 fst snd]. rewrite Z.eqb_refl. eexists. reflexivity.
Qed.

(** ** C41, test engine *)
Lemma r_gt_1 : 1 < r_mod. Proof. reflexivity. Qed.

Lemma modr_sub_0 a b : (a - b) mod r_mod = 0 <-> a mod r_mod = b mod r_mod.
Proof.
  split; intros H.
  - apply Z.mod_divide in H; [|apply r_nz]. destruct H as [k H]. replace a with (b + k * r_mod) by lia.
    rewrite Z.mod_add by apply r_nz. reflexivity.
  - rewrite Zminus_mod, H, Z.sub_diag. reflexivity.
Qed.

Lemma country_test vc c : forall vs cs b vb s, to_big vc = Done c -> Forall2 (fun v z => to_big v = Done z) vs cs ->
  to_big vb = Done (if b : bool then 1 else 0) ->
  exists vb', country_loop Test vc vs vb s = Done (vb', s) /\
    to_big vb' = Done (if b || existsb (fun x => c mod r_mod =? x mod r_mod) cs then 1 else 0).
Proof.
  induction vs as [|v vs IH]; intros cs b vb s Hc F Hb; inversion F; subst.
  - exists vb. split; [reflexivity|]. cbn. rewrite orb_false_r. exact Hb.
  - rename l' into cs', y into z. cbn [country_loop]. unfold api_sub.
    unfold bind at 1. rewrite (api_bin_test Z.sub ESub vc v c z s Hc H1). unfold bind at 1.
    unfold api_is_zero, bind at 1, lift. cbn [to_big]. unfold ret at 1.
    set (m := if ((c - z) mod r_mod =? 0) then 1 else 0).
    assert (Em : m = if c mod r_mod =? z mod r_mod then 1 else 0).
    { unfold m. destruct (Z.eqb_spec ((c - z) mod r_mod) 0) as [E|E]; destruct (Z.eqb_spec (c mod r_mod) (z mod r_mod)) as [E'|E'];
        try reflexivity; [apply modr_sub_0 in E | apply modr_sub_0 in E']; congruence. }
    clearbody m. unfold bind at 1. unfold api_or at 1. unfold bind, lift. rewrite Hb. cbn [to_big].
    assert (B : ((if b then 1 else 0) =? 0) || ((if b then 1 else 0) =? 1) = true) by (destruct b; reflexivity).
    assert (B' : (m =? 0) || (m =? 1) = true) by (rewrite Em; destruct (c mod r_mod =? z mod r_mod); reflexivity).
    rewrite B, B'. cbn [andb]. unfold ret at 1.
    destruct (IH cs' (b || (c mod r_mod =? z mod r_mod)) (VBig (Z.lor (if b then 1 else 0) m)) s Hc H3) as [vb' [E E']].
    + cbn [to_big]. rewrite Em. destruct b, (c mod r_mod =? z mod r_mod); reflexivity.
    + exists vb'. split; [exact E|]. rewrite E'. cbn [existsb]. rewrite orb_assoc. reflexivity.
Qed.

Lemma listed_existsb c l : existsb (fun x => c mod r_mod =? x mod r_mod) l = true <-> listed c l.
Proof.
  rewrite existsb_exists. unfold listed. split; intros [x [H E]]; exists x; split; auto; apply Z.eqb_eq; auto.
Qed.

Lemma c41_test O c h r' s' age mn mx country cs s :
  kyc_hash c = EmConst h -> kyc_sig c = (EmConst r', EmConst s') ->
  to_big (k_age (kyc c)) = Done age -> to_big (fst (c_age (kyc_cond c))) = Done mn ->
  to_big (snd (c_age (kyc_cond c))) = Done mx -> to_big (k_country (kyc c)) = Done country ->
  Forall2 (fun v z => to_big v = Done z) (c_country (kyc_cond c)) cs ->
  (kyc_ok O kyc_pub_x kyc_pub_y h r' s' age mn mx country cs -> KycDefine O Test c s = Done (None, s)) /\
  (~ kyc_ok O kyc_pub_x kyc_pub_y h r' s' age mn mx country cs -> exists w, KycDefine O Test c s = Panicked w).
Proof.
  intros Hh Hs Ha Hmn Hmx Hc HF.
  destruct (c35_range_test _ _ _ _ _ _ s Ha Hmn Hmx) as [R1 R2].
  destruct (country_test _ _ _ _ false (VInt 0) s Hc HF ltac:(cbn [to_big]; rewrite Z.mod_0_l by apply r_nz; reflexivity))
    as [vb [E1 E2]]. cbn [orb] in E2.
  unfold KycDefine, kyc_ok, ecdsa_verify, try_, bind. rewrite Hh, Hs. cbn [fst snd].
  destruct (o_ecdsa O kyc_pub_x kyc_pub_y h r' s'); cbv beta iota delta [ret panic].
  2:{ split; [intros [C _]; discriminate C | intros _; eexists; reflexivity]. }
  assert (D : (0 <= age /\ mn <= age <= mx) \/ ~ (0 <= age /\ mn <= age <= mx)) by lia.
  destruct D as [D|D].
  2:{ destruct (R2 D) as [w E]. rewrite E. split; [intros (_ & A & B & _); exfalso; apply D; lia |].
      intros _. eexists; reflexivity. }
  rewrite (R1 D), E1. unfold api_assert_eq, bind, lift. rewrite E2. cbn [to_big].
  rewrite (modr_small 1) by (pose proof r_gt_1; lia).
  pose proof (listed_existsb country cs) as L. destruct (existsb _ cs).
  - split; [reflexivity|]. intros N. exfalso. apply N. repeat split; try lia. apply L. reflexivity.
  - split; [|intros _; eexists; reflexivity]. intros (_ & _ & _ & A). apply L in A. discriminate A.
Qed.

(** ** C41, compiled circuit *)
Definition iszero_val (z : Z) : Z := if z =? 0 then 1 else 0.

Lemma iszero_sound a i : 0 <= a < r_mod ->
  (a * ((1 mod r_mod - (a * i) mod r_mod) mod r_mod)) mod r_mod = 0 mod r_mod ->
  (1 mod r_mod - (a * i) mod r_mod) mod r_mod = iszero_val a.
Proof.
  intros Ra H. unfold iszero_val. destruct (Z.eqb_spec a 0) as [->|N].
  - rewrite Z.mul_0_l, Z.mod_0_l by apply r_nz. rewrite Z.sub_0_r, modr_idem. apply modr_small.
    pose proof r_gt_1; lia.
  - rewrite (modr_small 0) in H by (pose proof r_pos; lia).
    set (m := (1 mod r_mod - (a * i) mod r_mod) mod r_mod) in *.
    assert (E : (a * m) mod r_mod = (a * 0) mod r_mod) by (rewrite H, Z.mul_0_r, Z.mod_0_l by apply r_nz; reflexivity).
    apply prime_cancel in E; [|rewrite modr_small by lia; exact N].
    rewrite (Z.mod_0_l _ r_nz) in E. rewrite <- E. unfold m. symmetry. apply modr_idem.
Qed.

Lemma iszero_complete a : 0 <= a < r_mod -> exists i, 
  (a * ((1 mod r_mod - (a * (i mod r_mod)) mod r_mod) mod r_mod)) mod r_mod = 0 mod r_mod.
Proof.
  intros Ra. exists (inv_mod r_mod a). rewrite (modr_small (inv_mod _ _)) by (apply inv_mod_range; apply r_pos).
  destruct (Z.eqb_spec a 0) as [->|N]; [rewrite !Z.mul_0_l; reflexivity|].
  rewrite (Z.mul_comm a (inv_mod r_mod a)), inv_mod_correct.
  - rewrite (modr_small 1) by (pose proof r_gt_1; lia). rewrite Z.sub_diag, Z.mod_0_l, Z.mul_0_r by apply r_nz. reflexivity.
  - reflexivity.
  - apply prime_gcd_1; [apply prime_r | rewrite modr_small by lia; exact N].
Qed.

Lemma wires_lt_mono n m e : (n <= m)%nat -> wires_lt n e -> wires_lt m e.
Proof. intros L. induction e; cbn [wires_lt]; intuition lia. Qed.

Lemma or_val (b m : bool) :
  ((((if b then 1 else 0) + (if m then 1 else 0)) mod r_mod - ((if b then 1 else 0) * (if m then 1 else 0)) mod r_mod) mod r_mod)
  = if b || m then 1 else 0.
Proof. destruct b, m; vm_compute; reflexivity. Qed.

Lemma bool_val z : z = 0 \/ z = 1 -> z = if z =? 1 then 1 else 0.
Proof. intros [->| ->]; reflexivity. Qed.

Lemma eval_mem w c l : existsb (fun x => eval w c =? x) (map (eval w) l) =
  existsb (fun x => eval w c mod r_mod =? x mod r_mod) (map (eval w) l).
Proof.
  induction l as [|e l IH]; [reflexivity|]. cbn [map existsb]. rewrite IH, !eval_mod. reflexivity.
Qed.

Lemma country_build vc c : to_expr vc = Done c -> forall vs es vb b s,
  Forall2 (fun v e => to_expr v = Done e) vs es -> to_expr vb = Done b ->
  exists vb' b' s' new, country_loop Build vc vs vb s = Done (vb', s') /\ to_expr vb' = Done b' /\
    cs_cons s' = new ++ cs_cons s /\ (cs_next s <= cs_next s')%nat /\
    (forall O w (t : bool), eval w b = (if t then 1 else 0) -> Forall (sat1 O w) new ->
       eval w b' = if t || existsb (fun x => eval w c =? x) (map (eval w) es) then 1 else 0) /\
    (wires_lt (cs_next s) b -> wires_lt (cs_next s) c -> Forall (wires_lt (cs_next s)) es ->
      wires_lt (cs_next s') b' /\
      forall O w, eval w b = 0 \/ eval w b = 1 -> exists w', agree_below (cs_next s) w w' /\ Forall (sat1 O w') new).
Proof.
  intros Hc. induction vs as [|v vs IH]; intros es vb b s F Hb; inversion F; subst.
  - exists vb, b, s, []. split; [reflexivity|]. split; [exact Hb|]. split; [reflexivity|]. split; [lia|]. split.
    + intros O w t Et _. cbn. rewrite orb_false_r. exact Et.
    + intros L _ _. split; [exact L|]. intros O w _. exists w. split; [split; reflexivity | constructor].
  - rename l' into es', y into e.
    pose (n := cs_next s). pose (d := ESub c e).
    pose (m := ESub (EConst 1) (EMul d (EWire n))).
    pose (b1 := ESub (EAdd b m) (EMul b m)).
    pose (s1 := mk_cs (n + 1) (CBool m :: CBool b :: CEq (EMul d m) (EConst 0) :: cs_cons s) (cs_hints s)).
    assert (E1 : country_loop Build vc (v :: vs) vb s = country_loop Build vc vs (VExpr b1) s1).
    { cbn [country_loop]. unfold api_sub. unfold bind at 1. rewrite (api_bin_build Z.sub ESub vc v c e s Hc H1).
      unfold api_is_zero, api_or, bind, lift, alloc, emit. cbn [to_expr]. rewrite Hb. reflexivity. }
    destruct (IH es' (VExpr b1) b1 s1 H3 eq_refl) as (vb' & b' & s' & new & R1 & R2 & R3 & R4 & R5 & R6).
    exists vb', b', s', (new ++ [CBool m; CBool b; CEq (EMul d m) (EConst 0)]).
    split; [rewrite E1; exact R1|]. split; [exact R2|]. split; [rewrite R3; cbn [cs_cons s1]; rewrite <- app_assoc; reflexivity|].
    split; [cbn [cs_next s1] in R4; unfold n in R4; lia|].
    assert (Dz : forall w, eval w d = 0 <-> eval w c = eval w e).
    { intros w. unfold d. cbn [eval]. rewrite modr_sub_0, !eval_mod. tauto. }
    assert (B1 : forall w (t : bool), eval w b = (if t then 1 else 0) ->
      eval w m = iszero_val (eval w d) -> eval w b1 = if t || (eval w c =? eval w e) then 1 else 0).
    { intros w t Et Em. unfold b1. cbn [eval]. rewrite Et, Em.
      assert (Ei : iszero_val (eval w d) = if eval w c =? eval w e then 1 else 0).
      { unfold iszero_val. pose proof (Dz w). destruct (Z.eqb_spec (eval w d) 0), (Z.eqb_spec (eval w c) (eval w e)); tauto. }
      rewrite Ei. apply or_val. }
    split.
    + intros O w t Et Hs. apply Forall_app in Hs. destruct Hs as [Hs1 Hs2].
      rewrite !Forall_cons_iff in Hs2. destruct Hs2 as (_ & _ & S3 & _). cbn [sat1] in S3.
      cbn [map existsb]. rewrite orb_assoc.
      assert (Em : eval w m = iszero_val (eval w d)).
      { unfold m in *. cbn [eval] in S3 |- *. apply iszero_sound; [apply eval_range | exact S3]. }
      apply (R5 O w (t || (eval w c =? eval w e))); [|exact Hs1]. apply B1; auto.
    + intros Lb Lc Le. apply Forall_cons_iff in Le. destruct Le as [Le Les]. fold n in Lb, Lc, Le, Les.
      assert (Lm : wires_lt (n + 1) m).
      { cbn [m d wires_lt]. repeat split; auto; try (eapply wires_lt_mono; [|eassumption]; lia). lia. }
      assert (Lb1 : wires_lt (n + 1) b) by (eapply wires_lt_mono; [|exact Lb]; lia).
      assert (Lc1 : wires_lt (n + 1) c) by (eapply wires_lt_mono; [|exact Lc]; lia).
      assert (Le1 : wires_lt (n + 1) e) by (eapply wires_lt_mono; [|exact Le]; lia).
      destruct R6 as [L' K].
      { cbn [cs_next s1]. unfold b1. cbn [wires_lt]. auto. }
      { exact Lc1. }
      { cbn [cs_next s1]. eapply Forall_impl; [|exact Les]. intros a La. eapply wires_lt_mono; [|exact La]. lia. }
      split; [exact L'|]. intros O w Bb.
      destruct (iszero_complete (eval w d) (eval_range w d)) as [i Hi].
      pose (w1 := upd w n i).
      assert (Ev : forall x, wires_lt n x -> eval w1 x = eval w x) by (intros x Lx; apply eval_upd_lt with (n := n); auto).
      assert (Ed : eval w1 d = eval w d) by (apply Ev; cbn; auto).
      assert (Ew : eval w1 (EWire n) = i mod r_mod) by (cbn [eval w1 upd aw]; rewrite Nat.eqb_refl; reflexivity).
      assert (S3 : eval w1 (EMul d m) = eval w1 (EConst 0)).
      { unfold m. cbn [eval]. change (aw w1 n mod r_mod) with (eval w1 (EWire n)). rewrite Ew.
        fold d. change ((eval w1 c - eval w1 e) mod r_mod) with (eval w1 d). rewrite Ed. exact Hi. }
      assert (Em : eval w1 m = iszero_val (eval w1 d)).
      { unfold m in *. cbn [eval] in S3 |- *. apply iszero_sound; [apply eval_range | exact S3]. }
      assert (Bm : eval w1 m = 0 \/ eval w1 m = 1) by (rewrite Em; unfold iszero_val; destruct (Z.eqb _ _); auto).
      assert (Bb1 : eval w1 b = 0 \/ eval w1 b = 1) by (rewrite (Ev b Lb); exact Bb).
      destruct (K O w1) as [w' [A S']].
      { rewrite (B1 w1 (eval w1 b =? 1) (bool_val _ Bb1) Em). destruct (_ || _); auto. }
      exists w'. cbn [cs_next s1] in A.
      split.
      * destruct A as [A1 A2]. split; [|rewrite A2; reflexivity]. intros j Hj. rewrite A1 by (unfold n; lia).
        unfold w1, upd. cbn [aw]. destruct (Nat.eqb_spec j n); [unfold n in *; lia | reflexivity].
      * apply Forall_app. split; [exact S'|]. constructor; [|constructor; [|constructor; [|constructor]]]; cbn [sat1].
        -- rewrite (eval_agree _ _ _ m A Lm). exact Bm.
        -- rewrite (eval_agree _ _ _ b A Lb1). exact Bb1.
        -- rewrite (eval_agree _ _ _ (EMul d m) A), (eval_agree _ _ _ (EConst 0) A); [exact S3 | exact I|].
           cbn [wires_lt]. split; [cbn [d wires_lt]; auto | exact Lm].
Qed.

Lemma c41_build O c age mn mx country cs s :
  to_expr (k_age (kyc c)) = Done age -> to_expr (fst (c_age (kyc_cond c))) = Done mn ->
  to_expr (snd (c_age (kyc_cond c))) = Done mx -> to_expr (k_country (kyc c)) = Done country ->
  Forall2 (fun v e => to_expr v = Done e) (c_country (kyc_cond c)) cs ->
  exists s' new, KycDefine O Build c s = Done (None, s') /\ cs_cons s' = new ++ cs_cons s /\
    let ok w := kyc_ok O kyc_pub_x kyc_pub_y (evem w (kyc_hash c)) (evem w (fst (kyc_sig c))) (evem w (snd (kyc_sig c)))
                  (eval w age) (eval w mn) (eval w mx) (eval w country) (map (eval w) cs) in
    (forall w, Forall (sat1 O w) new -> ok w) /\
    (Forall (wires_lt (cs_next s)) (age :: mn :: mx :: country :: cs) ->
     forall w, ok w -> exists w', agree_below (cs_next s) w w' /\ Forall (sat1 O w') new).
Proof.
  intros Ha Hmn Hmx Hc HF. cbv zeta.
  pose (s1 := mk_cs (cs_next s) (CLe age mx :: CLe mn age ::
    CEcdsa kyc_pub_x kyc_pub_y (kyc_hash c) (fst (kyc_sig c)) (snd (kyc_sig c)) :: cs_cons s) (cs_hints s)).
  destruct (country_build _ _ Hc _ _ (VInt 0) (EConst 0) s1 HF eq_refl) as (vb & b & s2 & new & R1 & R2 & R3 & R4 & R5 & R6).
  assert (E : KycDefine O Build c s = Done (None, mk_cs (cs_next s2) (CEq b (EConst 1) :: cs_cons s2) (cs_hints s2))).
  { unfold KycDefine, ecdsa_verify, try_, bind, emit, VerifyRangeCheck, api_assert_le, lift, bind, emit.
    rewrite Hmn, Ha, Hmx. unfold ret. cbn [cs_next cs_cons cs_hints]. fold s1. rewrite R1.
    unfold api_assert_eq, bind, lift, emit. rewrite R2. reflexivity. }
  eexists. exists (CEq b (EConst 1) :: new ++ [CLe age mx; CLe mn age;
    CEcdsa kyc_pub_x kyc_pub_y (kyc_hash c) (fst (kyc_sig c)) (snd (kyc_sig c))]).
  split; [exact E|]. split; [|split].
  - cbn [cs_cons]. rewrite R3. cbn [s1 cs_cons app]. rewrite <- app_assoc. reflexivity.
  - intros w Hs. apply Forall_cons_iff in Hs. destruct Hs as [S0 Hs]. apply Forall_app in Hs. destruct Hs as [Hn Hs].
    rewrite !Forall_cons_iff in Hs. destruct Hs as (S1 & S2 & S3 & _). cbn [sat1] in *.
    assert (Eb := R5 O w false). cbn [orb] in Eb. specialize (Eb ltac:(cbn [eval]; apply Z.mod_0_l, r_nz) Hn).
    rewrite S0 in Eb. cbn [eval] in Eb. rewrite (modr_small 1) in Eb by (pose proof r_gt_1; lia).
    rewrite eval_mem in Eb.
    split; [exact S3|]. pose proof (eval_range w age). split; [lia|]. split; [lia|].
    apply listed_existsb. destruct (existsb _ _); [reflexivity | discriminate Eb].
  - intros L w (K1 & K2 & K3 & K4). rewrite !Forall_cons_iff in L. destruct L as (La & Lmn & Lmx & Lc & Lcs).
    destruct R6 as [L' K]; auto. { exact I. }
    destruct (K O w) as [w' [A S']]. { left. cbn [eval]. apply Z.mod_0_l, r_nz. }
    cbn [s1 cs_next] in A. exists w'. split; [exact A|].
    assert (Em : map (eval w') cs = map (eval w) cs).
    { apply map_ext_in. intros x Hx. apply (eval_agree _ _ _ _ A). rewrite Forall_forall in Lcs. apply Lcs. exact Hx. }
    constructor.
    + cbn [sat1]. assert (Eb := R5 O w' false ltac:(cbn [eval]; apply Z.mod_0_l, r_nz) S'). cbn [orb] in Eb.
      rewrite eval_mem, Em, (eval_agree _ _ _ _ A Lc) in Eb. apply listed_existsb in K4. rewrite K4 in Eb.
      rewrite Eb. cbn [eval]. rewrite modr_small by (pose proof r_gt_1; lia). reflexivity.
    + apply Forall_app. split; [exact S'|].
      constructor; [|constructor; [|constructor; [|constructor]]]; cbn [sat1]; rewrite ?(eval_agree _ _ _ _ A La), ?(eval_agree _ _ _ _ A Lmn), ?(eval_agree _ _ _ _ A Lmx); try lia.
      destruct A as [_ A]. assert (Ee : forall x, evem w' x = evem w x) by (intros [|]; cbn; rewrite ?A; reflexivity).
      rewrite !Ee. exact K1.
Qed.

(** ** C42 *)
Lemma c42_ignored O en c l t ls ts s : KycDefine O en (with_level_time c l t ls ts) s = KycDefine O en c s.
Proof. reflexivity. Qed.

Lemma ecdsa_accepts O c h r' s' s s1 : kyc_hash c = EmConst h -> kyc_sig c = (EmConst r', EmConst s') ->
  KycDefine O Test c s = Done (None, s1) -> o_ecdsa O kyc_pub_x kyc_pub_y h r' s' = true.
Proof.
  intros Hh Hs E. unfold KycDefine, bind at 1, ecdsa_verify in E. rewrite Hh, Hs in E. cbn [fst snd] in E.
  destruct (o_ecdsa O kyc_pub_x kyc_pub_y h r' s'); [reflexivity | discriminate E].
Qed.

Lemma kyc_accept_sig O c s s1 : KycDefine O Test c s = Done (None, s1) ->
  exists h r' s', kyc_hash c = EmConst h /\ kyc_sig c = (EmConst r', EmConst s').
Proof.
  intros E. unfold KycDefine, bind at 1, ecdsa_verify in E. destruct (kyc_sig c) as [a b]. cbn [fst snd] in E.
  destruct (kyc_hash c); [|discriminate E]. destruct a; [|discriminate E]. destruct b; [|discriminate E]. eauto.
Qed.

Lemma c42_replace O c k age mn mx country cs s s1 :
  KycDefine O Test c s = Done (None, s1) ->
  to_big (k_age k) = Done age -> to_big (fst (c_age (kyc_cond c))) = Done mn ->
  to_big (snd (c_age (kyc_cond c))) = Done mx -> to_big (k_country k) = Done country ->
  Forall2 (fun v z => to_big v = Done z) (c_country (kyc_cond c)) cs ->
  0 <= age -> mn <= age <= mx -> listed country cs ->
  KycDefine O Test (with_attrs c k) s = Done (None, s).
Proof.
  intros E Ha Hmn Hmx Hc HF A B L. destruct (kyc_accept_sig O c s s1 E) as (h & r' & s' & Hh & Hs).
  eapply (c41_test O (with_attrs c k)); try eassumption. repeat split; try lia; try assumption.
  eapply ecdsa_accepts; eassumption.
Qed.

Lemma c42_refuted : ~ (forall O c k s, KycDefine O Test c s = Done (None, s) ->
  KycDefine O Test (with_attrs c k) s = Done (None, s) ->
  to_big (k_age k) = to_big (k_age (kyc c)) /\ to_big (k_country k) = to_big (k_country (kyc c))).
Proof.
  intros H.
  pose (O := {| o_keccak := fun _ => 0; o_sha256 := fun _ => 0; o_smul_degen := fun _ _ _ => None;
                o_pairing := fun _ => true; o_ecdsa := fun _ _ _ _ _ => true |}).
  pose (c := {| kyc_sig := (EmConst 1, EmConst 2); kyc_hash := EmConst 3;
     kyc := {| k_age := VInt 20; k_country := VInt 100; k_level := VInt 1; k_time := VInt 1 |};
     kyc_cond := {| c_age := (VInt 18, VInt 50); c_country := [VInt 100; VInt 200]; c_level := []; c_time := [] |} |}).
  pose (k := {| k_age := VInt 40; k_country := VInt 200; k_level := VInt 1; k_time := VInt 1 |}).
  destruct (H O c k (mk_cs 0 [] []) ltac:(vm_compute; reflexivity) ltac:(vm_compute; reflexivity)) as [_ E].
  vm_compute in E. discriminate E.
Qed.

(** the compiled circuit: the same signature with other attributes *)
Lemma wires_exprs start n : Forall2 (fun v e => to_expr v = Done e) (wires_from start n) (map EWire (seq start n)).
Proof.
  unfold wires_from. generalize (seq start n). intros l. induction l; cbn; constructor; auto.
Qed.

Lemma kyc_shape_build O n m l : exists S, compile_kyc O n m l = inl S /\
  let N := (2 + n + m + l)%nat in
  let ok w := kyc_ok O kyc_pub_x kyc_pub_y (ae w 2%nat) (ae w 0%nat) (ae w 1%nat)
    (aw w N mod r_mod) (aw w 0%nat mod r_mod) (aw w 1%nat mod r_mod) (aw w (N + 1)%nat mod r_mod)
    (map (fun i => aw w i mod r_mod) (seq 2 n)) in
  (forall w, sat O w S -> ok w) /\
  (forall w, ok w -> exists w', (forall i, (i < N + 4)%nat -> aw w' i = aw w i) /\ ae w' = ae w /\ sat O w' S).
Proof.
  destruct (c41_build O (kyc_shape n m l) (EWire (2 + n + m + l)) (EWire 0) (EWire 1) (EWire (3 + n + m + l))
     (map EWire (seq 2 n)) (mk_cs (6 + n + m + l) [] [])) as (s' & new & E & C & H1 & H2); try reflexivity.
  { apply wires_exprs. }
  cbn [cs_cons] in C. rewrite app_nil_r in C. exists s'. split; [unfold compile_kyc, compile; rewrite E; reflexivity|].
  cbv zeta in *. cbn [kyc_hash kyc_sig kyc_shape fst snd evem eval cs_next] in H1, H2.
  assert (EM : forall w, map (eval w) (map EWire (seq 2 n)) = map (fun i => aw w i mod r_mod) (seq 2 n)).
  { intros w. rewrite map_map. reflexivity. }
  replace (2 + n + m + l + 1)%nat with (3 + n + m + l)%nat by lia. split.
  - intros w Hs. unfold sat in Hs. rewrite C in Hs. specialize (H1 w Hs). rewrite EM in H1. exact H1.
  - intros w Hok. destruct (H2) with (w := w) as (w' & [A1 A2] & S').
    + do 4 (apply Forall_cons; [cbn [wires_lt]; lia|]). apply Forall_forall. intros e He. apply in_map_iff in He.
      destruct He as (i & <- & Hi). apply in_seq in Hi. cbn [wires_lt]. lia.
    + rewrite EM. exact Hok.
    + exists w'. split; [intros i Hi; apply A1; lia|]. split; [exact A2|]. unfold sat. rewrite C. exact S'.
Qed.

Lemma c42_compiled O n m l S w age country level time : compile_kyc O n m l = inl S -> sat O w S ->
  let N := (2 + n + m + l)%nat in
  aw w 0%nat mod r_mod <= age mod r_mod <= aw w 1%nat mod r_mod ->
  listed country (map (fun i => aw w i mod r_mod) (seq 2 n)) ->
  exists w', sat O w' S /\ ae w' = ae w /\ (forall i, (i < N)%nat -> aw w' i = aw w i) /\
    aw w' N = age /\ aw w' (N + 1)%nat = country /\ aw w' (N + 2)%nat = level /\ aw w' (N + 3)%nat = time.
Proof.
  intros E Hs N Hage Hc. destruct (kyc_shape_build O n m l) as (S' & E' & H1 & H2). rewrite E in E'. injection E' as <-.
  specialize (H1 w Hs). cbv zeta in H1, H2. destruct H1 as (K1 & _).
  pose (w1 := upd (upd (upd (upd w N age) (N + 1) country) (N + 2) level) (N + 3) time).
  assert (A : forall i, (i < N)%nat -> aw w1 i = aw w i).
  { intros i Hi. cbn [w1 upd aw]. repeat match goal with |- context [Nat.eqb ?a ?b] => destruct (Nat.eqb_spec a b); [lia|] end. reflexivity. }
  assert (V0 : aw w1 N = age /\ aw w1 (N + 1)%nat = country /\ aw w1 (N + 2)%nat = level /\ aw w1 (N + 3)%nat = time).
  { cbn [w1 upd aw]. repeat match goal with |- context [Nat.eqb ?a ?b] => destruct (Nat.eqb_spec a b); try lia end; auto. }
  destruct V0 as (V1 & V2 & V3 & V4).
  destruct (H2 w1) as (w' & B1 & B2 & B3).
  - fold N. rewrite V1, V2, !A by (unfold N; lia). split; [exact K1|]. split; [apply modr_range|]. split; [exact Hage|].
    replace (map (fun i => aw w1 i mod r_mod) (seq 2 n)) with (map (fun i => aw w i mod r_mod) (seq 2 n)).
    + destruct Hc as (x & I & Ex). exists x. split; [exact I|]. rewrite modr_idem. exact Ex.
    + apply map_ext_in. intros i Hi. apply in_seq in Hi. rewrite A by (unfold N; lia). reflexivity.
  - exists w'. fold N in B1. split; [exact B3|]. split; [exact B2|].
    split; [intros i Hi; rewrite B1, A by lia; reflexivity|].
    rewrite !B1 by lia. auto.
Qed.

Lemma c41_empty O c s s1 : c_country (kyc_cond c) = [] -> KycDefine O Test c s <> Done (None, s1).
Proof.
  intros E. unfold KycDefine, try_. rewrite E. cbn [country_loop].
  unfold bind at 1. destruct (ecdsa_verify _ _ _ _ _ _ _ s) as [[? s2]|]; [|discriminate].
  unfold bind at 1. destruct (VerifyRangeCheck _ _ _ _ s2) as [[[e|] s3]|]; [discriminate | | discriminate].
  vm_compute. discriminate.
Qed.
