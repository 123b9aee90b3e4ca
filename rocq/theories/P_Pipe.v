(** The whole aggregation run against the specification: C36. *)
From Coq Require Import ZArith String Bool List Lia Arith Permutation.
From Verif Require Import Params Go Curve Api FrOps Lib Steps Agg NumThy FField FpField SpecCurve SpecHash SpecMisc
  SpecVerify P_Fr P_Curve P_Msm P_Hash P_Trans P_Flow P_Misc P_Step P_Exec P_VSpec P_Acc P_Honest.
Import ListNotations.
Open Scope Z_scope.

Local Opaque phi fmul fadd fsub fopp fdiv finv rot fzpow fexp omega delta pmul padd r_mod p_mod.

Lemma bind_inv {X Y} (m : M X) (f : X -> M Y) s r s' : bind m f s = Done (r, s') ->
  exists x s1, m s = Done (x, s1) /\ f x s1 = Done (r, s').
Proof. unfold bind. destruct (m s) as [[x s1]|]; [|discriminate]. intros H. eauto. Qed.
Lemma lift_inv {X} (o : outcome X) s x s' : lift o s = Done (x, s') -> o = Done x /\ s' = s.
Proof.
  unfold lift. destruct o; [|discriminate]. intros H. apply done_inj in H. apply pair_equal_spec in H.
  destruct H as [-> ->]. auto.
Qed.
Lemma ret_some_none {X} (e : X) (s s' : cs) : ret (Some e) s = Done (None, s') -> False.
Proof. unfold ret. intros H. apply done_inj in H. apply pair_equal_spec in H. destruct H; discriminate. Qed.
Lemma try_inv (m : M (option goerr)) (K : M (option goerr)) s s' : try_ m Some K s = Done (None, s') ->
  exists s1, m s = Done (None, s1) /\ K s1 = Done (None, s').
Proof.
  unfold try_. intros H. apply bind_inv in H. destruct H as ([e|] & s1 & H1 & H2); [|eauto].
  exfalso. eapply ret_some_none; exact H2.
Qed.

Lemma notzero_inv z s s' : VerifyNotZero Test (VBig z) s = Done (None, s') -> s' = s /\ 1 <= z.
Proof.
  intros H. destruct (c35_notzero_test (VBig z) z s eq_refl) as [A B].
  destruct (Z_le_gt_dec 1 z) as [L|L].
  - rewrite (A L) in H. apply done_inj in H. apply pair_equal_spec in H. destruct H as [_ <-]. auto.
  - destruct (B ltac:(lia)) as [w E]. congruence.
Qed.

Lemma fill_inv x1 y1 x2 y2 s g s' : FillVerifyCircuitsG1 (VBig x1) (VBig y1) (VBig x2) (VBig y2) s = Done (g, s') ->
  s' = s /\ g = [(x1 mod p_mod, y1 mod p_mod); (x2 mod p_mod, y2 mod p_mod)] /\
  curve_or_zero (x1 mod p_mod) (y1 mod p_mod) /\ curve_or_zero (x2 mod p_mod) (y2 mod p_mod).
Proof.
  intros H. unfold FillVerifyCircuitsG1 in H. cbn [fp_set_interface] in H.
  destruct (g1_is_on_curve (x1 mod p_mod) (y1 mod p_mod)) eqn:E1; cbn [negb] in H; [|discriminate].
  destruct (g1_is_on_curve (x2 mod p_mod) (y2 mod p_mod)) eqn:E2; cbn [negb] in H; [|discriminate].
  apply done_inj in H. apply pair_equal_spec in H. destruct H as [<- <-].
  split; [reflexivity|]. split; [reflexivity|]. split; apply g1_iff; auto; apply modp_range.
Qed.

Lemma pair2_inv O P1 P2 (Q1 Q2 : g2) s s' : VerifyBN256Pairing O Test [P1; P2] [Q1; Q2] s = Done (None, s') ->
  s' = s /\ o_pairing O [(of_coords0 P1, Q1); (of_coords0 P2, Q2)] = true.
Proof.
  unfold VerifyBN256Pairing. cbn [length Nat.eqb orb negb map combine].
  destruct (o_pairing O _); unfold bind; cbn; [|discriminate]. intros H.
  apply done_inj in H. apply pair_equal_spec in H. destruct H as [_ <-]. auto.
Qed.

Lemma lagrange_inv O buf k s b e s' : degen_sane O -> nth_error buf 2 = Some (VBig k) -> 0 <= k < r_mod ->
  CalcVerifyCircuitLagrange O Test buf s = Done ((b, e), s') ->
  e = None /\ s' = s /\ exists X Y, pmul k (Aff lagrange_x lagrange_y) = Aff X Y /\ curve_or_zero X Y /\
    b = VBig X :: VBig Y :: skipn 2 buf.
Proof.
  intros Hd Hk R H. pose proof r_lt_p.
  assert (K0 : k <> 0).
  { intros ->. unfold CalcVerifyCircuitLagrange, bind in H.
    destruct buf as [|b0 [|b1 [|b2 t]]]; try discriminate Hk.
    cbn [nth_error] in Hk. injection Hk as ->. cbn [get nth_error lift] in H.
    destruct (CalcVerifyBN256Msm O Test (VBig lagrange_x) (VBig lagrange_y) (VBig 0) s) as [[[[rx ry] e0] s1]|] eqn:E; [|discriminate].
    apply msm_inv in E. destruct E as (_ & _ & Rr & _ & _ & P & HP & HR & HE).
    unfold emul_scalar_mul in HE.
    replace ((0 mod p_mod) mod r_mod) with 0 in HE by (rewrite (Z.mod_0_l p_mod), (Z.mod_0_l r_mod); [reflexivity | pose proof r_pos; lia | pose proof p_pos; lia]).
    rewrite (proj2 (Z.eqb_eq 0 0) eq_refl), !andb_false_r in HE. cbn [negb] in HE.
    rewrite ?andb_false_r in HE. apply (Hd _ _ _ (eq_trans HE (f_equal Some (eq_trans HR (eq_refl : pr (pmul 0 P) = (0, 1)))))). }
  destruct (c46_value O buf k s b e s' Hk ltac:(lia) ltac:(rewrite Z.mod_small; lia) H) as (-> & -> & X & Y & P & B0 & B1 & EN).
  split; [reflexivity|]. split; [reflexivity|]. exists X, Y. split; [exact P|].
  destruct (c46_frame O Test buf s b None s H) as [LB SB]. split.
  - destruct EN as [(-> & -> & _)|(_ & _ & V & _)]; [left; rewrite Z.mod_0_l by (pose proof p_pos; lia); auto | right; exact V].
  - destruct b as [|v0 [|v1 t]]; try discriminate B1. cbn [nth_error skipn] in *. congruence.
Qed.

Lemma skipn_map_VBig n (l : list Z) : skipn n (map VBig l) = map VBig (skipn n l).
Proof. apply skipn_map. Qed.

Lemma of_coords0_ne x y : x <> 0 -> of_coords0 (x, y) = Aff x y.
Proof. intros H. unfold of_coords0. cbn [fst snd]. destruct (Z.eqb_spec x 0); [contradiction | reflexivity]. Qed.

Lemma get_at {X} (l : list X) i v a s s' : lift (get l i) s = Done (v, s') -> nth_error l i = Some a -> v = a /\ s' = s.
Proof.
  intros H E. apply lift_inv in H. destruct H as [H ->]. split; [|reflexivity].
  unfold get in H. rewrite E in H. apply done_inj in H. symmetry. exact H.
Qed.

Lemma put2_big (Z0 : list Z) k s b s' : lift (put (map VBig Z0) 2 (VBig k)) s = Done (b, s') ->
  s' = s /\ exists Z1, b = map VBig Z1 /\ length Z1 = length Z0 /\ nth_error b 2 = Some (VBig k).
Proof.
  intros H. apply lift_inv in H. destruct H as [H ->]. split; [reflexivity|].
  destruct Z0 as [|z0 [|z1 [|z2 t]]]; try discriminate H.
  cbn in H. apply done_inj in H. subst b. exists (z0 :: z1 :: k :: t). auto.
Qed.

Lemma c36 O c zs T A s s' :
  TargetInst c ++ VerifyInst c = map VBig zs -> Proof_ c = map VBig T -> Aux c = map VBig A -> (104 <= length T)%nat ->
  degen_sane O -> Define O Test c s = Done (None, s') ->
  s' = s /\ (length zs <= 43)%nat /\ coms_on_curve T /\
  exists ix iy,
    pmul ((o_keccak O (encoding (map (fun z => z mod p_mod) zs)) mod 2 ^ 256) mod r_mod) (Aff lagrange_x lagrange_y) = Aff ix iy /\
    let d := transcript_values O ix iy T in
    let ch i := fc (nth i d 0) in
    let th := ch 0%nat in let be := ch 1%nat in let ga := ch 2%nat in let y := ch 3%nat in
    let x := ch 4%nat in let yy := ch 5%nat in let v := ch 6%nat in let u := ch 7%nat in
    let h := fc (nth 16 A 0) in
    length d = 8%nat /\ x <> 0%fr /\ u <> rot x (-1) /\ u <> rot x 2 /\
    (fexp x dom_n <> 1%fr ->
      h = quotient (word T) th be ga x y /\
      forall i, (i < 21)%nat -> nth i A 0 = val (nth i (helpers x u (quotient (word T) th be ga x y)) 0%fr)) /\
    exists terms X Y,
      Permutation terms (final_terms T (ix, iy) h x yy v u) /\
      msm_from (pmul (val (opening yy v x u (queries T (ix, iy) h x))) (Aff 1 (p_mod - 2)))
        (map (fun t => (fst t, val (snd t))) terms) = Aff X Y /\
      fst (W' T) <> 0 /\ snd (W' T) <> 0 /\ X <> 0 /\ Y <> 0 /\
      o_pairing O [(Aff (fst (W' T)) (snd (W' T)), g20_const); (Aff X Y, g21_const)] = true.
Proof.
  intros EZ ET EA LT Hd H.
  assert (LZ : (length zs <= 43)%nat).
  { destruct (Nat.le_gt_cases (length zs) 43) as [G|G]; [exact G|]. exfalso.
    destruct (c40_too_many O Test c s) as [w E]; [|congruence].
    rewrite <- app_length, EZ, map_length. exact G. }
  rewrite (define_test O c zs s EZ LZ) in H.
  set (k := (o_keccak O (encoding (map (fun z => z mod p_mod) zs)) mod 2 ^ 256) mod r_mod) in *.
  assert (Hk : 0 <= k < r_mod) by (apply modr_range).
  clearbody k.
  replace (map VBig zs ++ repeat (VBig 0) (43 - length zs)) with (map VBig (zs ++ repeat 0 (43 - length zs))) in H.
  2:{ rewrite map_app. f_equal. generalize (43 - length zs)%nat. induction n; cbn; congruence. }
  set (Z0 := zs ++ repeat 0 (43 - length zs)) in *.
  assert (L0 : length Z0 = 43%nat) by (unfold Z0; rewrite app_length, repeat_length; lia). clearbody Z0.
  unfold tail_of in H. rewrite ET, EA in H.
  apply bind_inv in H. destruct H as (hm & t0 & E & H). rewrite (mod_test_ok k s Hk) in E.
  apply done_inj in E. apply pair_equal_spec in E. destruct E as [<- <-].
  apply bind_inv in H. destruct H as (bf & t1 & E & H).
  apply put2_big in E. destruct E as (-> & Z1 & -> & L1 & N2). rewrite L0 in L1.
  apply bind_inv in H. destruct H as ([b e] & t2 & E & H).
  destruct (lagrange_inv O _ k s b e t2 Hd N2 Hk E) as (-> & -> & ix & iy & HI & CI & ->). clear E N2.
  apply bind_inv in H. destruct H as ([b e] & t2 & E & H). destruct e as [e|]; [exfalso; eapply ret_some_none; exact H|].
  rewrite skipn_map_VBig in E. change (VBig ix :: VBig iy :: map VBig (skipn 2 Z1)) with (map VBig (ix :: iy :: skipn 2 Z1)) in E.
  assert (LB : length (map VBig (ix :: iy :: skipn 2 Z1)) = 43%nat) by (rewrite map_length; cbn [length]; rewrite skipn_length; lia).
  destruct (c26 O Test (map VBig (ix :: iy :: skipn 2 Z1)) ix iy T s t2 b eq_refl eq_refl ltac:(lia) LT E) as [Eb Ld].
  destruct (proj2 (proj2 (challenges_spec O Test (map VBig (ix :: iy :: skipn 2 Z1)) ix iy T s eq_refl eq_refl ltac:(lia) LT)) b t2 E) as (PO & S1 & S2 & S3).
  assert (ST : t2 = s).
  { destruct (proj1 (challenges_spec O Test (map VBig (ix :: iy :: skipn 2 Z1)) ix iy T s eq_refl eq_refl ltac:(lia) LT) PO S1 S2 S3) as (s2 & Es & E').
    rewrite E' in E. apply done_inj in E. apply pair_equal_spec in E. destruct E as [_ <-]. auto. }
  subst t2. clear E.
  set (d := transcript_values O ix iy T) in *.
  set (B := ix :: iy :: map (fun z => z mod r_mod) d ++ skipn 8 (skipn 2 Z1)).
  assert (EB : b = map VBig B).
  { rewrite Eb. unfold B.
    change (skipn 10 (map VBig (ix :: iy :: skipn 2 Z1))) with (skipn 8 (map VBig (skipn 2 Z1))).
    change (firstn 2 (map VBig (ix :: iy :: skipn 2 Z1))) with [VBig ix; VBig iy].
    rewrite skipn_map_VBig. cbn [map app]. rewrite map_app, map_map. reflexivity. }
  clear Eb. subst b.
  assert (LBB : length B = 43%nat).
  { unfold B. cbn [length]. rewrite app_length, map_length, !skipn_length, Ld, L1. reflexivity. }
  assert (NB : forall j, (j < 8)%nat -> nth (2 + j) B 0 = nth j d 0 mod r_mod).
  { intros j Hj. unfold B. cbn [Nat.add nth]. rewrite app_nth1 by (rewrite map_length; lia).
    rewrite (nth_indep _ 0 (0 mod r_mod)) by (rewrite map_length; lia).
    apply (map_nth (fun z => z mod r_mod)). }
  assert (CB : forall j, (2 <= j < 10)%nat -> 0 <= nth j B 0 < r_mod).
  { intros j Hj. replace j with (2 + (j - 2))%nat by lia. rewrite NB by lia. apply modr_range. }
  assert (RB : forall j, (j < 8)%nat -> regs B (2 + j) = fc (nth j d 0)).
  { intros j Hj. unfold regs. rewrite NB by lia. apply phi_mod. }
  assert (HT : coms_on_curve T).
  { intros i Hi. apply (PO (2 * i)%nat). unfold point_slots, commitments in *.
    apply in_app_iff in Hi. apply in_app_iff. destruct Hi as [Hi|Hi].
    - left. apply (in_map (fun i => (2 * i)%nat)). exact Hi.
    - right. destruct Hi as [<-|[<-|[]]]; cbn; auto. }
  clear PO S1 S2 S3.
  apply bind_inv in H. destruct H as ([b1 e] & s1 & H1 & H). destruct e as [e|]; [exfalso; eapply ret_some_none; exact H|].
  apply bind_inv in H. destruct H as ([b2 e] & s2 & H2 & H). destruct e as [e|]; [exfalso; eapply ret_some_none; exact H|].
  apply bind_inv in H. destruct H as ([b3 e] & s3 & H3 & H). destruct e as [e|]; [exfalso; eapply ret_some_none; exact H|].
  assert (C0 : nth 0 B 0 = ix) by reflexivity. assert (C1 : nth 1 B 0 = iy) by reflexivity.
  assert (HB : curve_or_zero (nth 0 B 0) (nth 1 B 0)) by (rewrite C0, C1; exact CI).
  pose proof (c31_gen O T A B s s1 s2 s3 b1 b2 b3 LBB CB H1 H2 H3 Hd HT HB) as Q. cbv zeta in Q.
  rewrite C0, C1 in Q.
  pose proof (fun i => c33_gen O T A B s s1 s2 b1 b2 LBB CB H1 H2 i) as QA.
  pose proof (honest_nec T A (regs B) (acc_oks O T A B s s1 s2 b1 b2 LBB CB H1 H2)) as QN. cbv zeta in QN.
  pose proof (RB 0%nat ltac:(lia)) as R0. pose proof (RB 1%nat ltac:(lia)) as R1. pose proof (RB 2%nat ltac:(lia)) as R2.
  pose proof (RB 3%nat ltac:(lia)) as R3. pose proof (RB 4%nat ltac:(lia)) as R4. pose proof (RB 5%nat ltac:(lia)) as R5.
  pose proof (RB 6%nat ltac:(lia)) as R6. pose proof (RB 7%nat ltac:(lia)) as R7. cbn [Nat.add] in R0, R1, R2, R3, R4, R5, R6, R7.
  rewrite R4, R5, R6, R7 in Q. rewrite R0, R1, R2, R3, R4, R7 in QA. rewrite R4, R7 in QN. destruct QN as (QN0 & QN1 & QN2).
  clear R0 R1 R2 R3 R4 R5 R6 R7 RB NB CB HB H1 H2 H3.
  assert (IR : (ix mod p_mod, iy mod p_mod) = (ix, iy)).
  { assert (V : valid_pt (Aff ix iy) = true).
    { rewrite <- HI. apply pmul_valid. vm_compute. reflexivity. }
    apply valid_aff in V. destruct V as (V1 & V2 & _). rewrite !Z.mod_small by assumption. reflexivity. }
  rewrite IR in Q.
  destruct Q as (-> & L3 & N10 & N11 & terms & X & Y & TP & EM & EX & N12 & N13).
  apply bind_inv in H. destruct H as (v10 & s4 & G & H). destruct (get_at _ _ _ _ _ _ G N10) as [-> ->]. clear G.
  apply try_inv in H. destruct H as (s4 & G & H). apply notzero_inv in G. destruct G as [-> G10].
  apply bind_inv in H. destruct H as (v11 & s4 & G & H). destruct (get_at _ _ _ _ _ _ G N11) as [-> ->]. clear G.
  apply try_inv in H. destruct H as (s4 & G & H). apply notzero_inv in G. destruct G as [-> G11].
  apply bind_inv in H. destruct H as (v12 & s4 & G & H). destruct (get_at _ _ _ _ _ _ G N12) as [-> ->]. clear G.
  apply try_inv in H. destruct H as (s4 & G & H). apply notzero_inv in G. destruct G as [-> G12].
  apply bind_inv in H. destruct H as (v13 & s4 & G & H). destruct (get_at _ _ _ _ _ _ G N13) as [-> ->]. clear G.
  apply try_inv in H. destruct H as (s4 & G & H). apply notzero_inv in G. destruct G as [-> G13].
  apply bind_inv in H. destruct H as (g1s & s4 & G & H). apply fill_inv in G. destruct G as (-> & -> & CW & CA).
  apply bind_inv in H. destruct H as (g2s & s4 & G & H).
  assert (E2 : FillVerifyCircuitsG2 s = Done ([g20_const; g21_const], s)).
  { unfold FillVerifyCircuitsG2, bind, lift.
    assert (E2 : GetVerifyCircuitsG2Jac = Done (g20_const, g21_const)) by (vm_compute; reflexivity).
    rewrite E2. reflexivity. }
  rewrite E2 in G. apply done_inj in G. apply pair_equal_spec in G. destruct G as [<- <-].
  apply pair2_inv in H. destruct H as [-> HP].
  split; [reflexivity|]. split; [exact LZ|]. split; [exact HT|]. exists ix, iy. split; [exact HI|]. cbv zeta.
  split; [exact Ld|]. split; [exact QN0|]. split; [exact QN1|]. split; [exact QN2|]. split.
  - intros Hx. split; [|intros i Hi; exact (QA i Hx Hi)].
    pose proof (QA 16%nat Hx ltac:(lia)) as Q16. cbn [helpers map app nth] in Q16. rewrite Q16. apply phi_val.
  - exists terms, X, Y. split; [exact TP|]. split; [exact EM|].
    split; [lia|]. split; [lia|]. split; [lia|]. split; [lia|].
    destruct EX as [(-> & _)|(EX & EY & _)]; [lia|].
    rewrite (Z.mod_small X), (Z.mod_small Y) in HP by assumption.
    assert (WR : 0 <= fst (W' T) < p_mod /\ 0 <= snd (W' T) < p_mod) by (split; apply modp_range).
    rewrite (Z.mod_small (fst (W' T))), (Z.mod_small (snd (W' T))) in HP by apply WR.
    rewrite !of_coords0_ne in HP by lia. exact HP.
Qed.
