(** Completeness of the whole aggregation circuit: C48. *)
From Coq Require Import ZArith String Bool List Lia Arith Permutation.
From Verif Require Import Params Go Curve Api FrOps Lib Steps Agg NumThy FField FpField SpecCurve SpecHash SpecMisc
  SpecVerify P_Fr P_Curve P_Msm P_Hash P_Trans P_Flow P_Misc P_Kyc P_Step P_Exec P_Verify P_VSpec P_Acc P_Pipe P_Honest P_Complete.
Import ListNotations.
Open Scope Z_scope.

Local Opaque phi fmul fadd fsub fopp fdiv finv rot fzpow fexp omega delta pmul padd r_mod p_mod.

Lemma bind_done {X Y} (m : M X) (f : X -> M Y) s x s' : m s = Done (x, s') -> bind m f s = f x s'.
Proof. unfold bind. intros ->. reflexivity. Qed.
Lemma lift_done {X} (o : outcome X) x s : o = Done x -> lift o s = Done (x, s).
Proof. unfold lift. intros ->. reflexivity. Qed.
Lemma try_done (m : M (option goerr)) (K : M (option goerr)) s s' : m s = Done (None, s') -> try_ m Some K s = K s'.
Proof. intros H. unfold try_. rewrite (bind_done _ _ _ _ _ H). reflexivity. Qed.
Lemma valid_curve x y : valid_pt (Aff x y) = true -> curve_or_zero x y.
Proof. intros V. apply (encodes_on_c _ _ _ (valid_encodes _ _ V)). Qed.

Lemma in_50 : In 50%nat commitments. Proof. cbn. tauto. Qed.
Lemma in_51 : In 51%nat commitments. Proof. cbn. tauto. Qed.

(** the run comes down to the pairing check, given that the divisions of the verification statements hold *)
Lemma c48_oks O c zs T A s ix iy X Y :
  TargetInst c ++ VerifyInst c = map VBig zs -> Proof_ c = map VBig T -> Aux c = map VBig A ->
  (length zs <= 43)%nat -> (104 <= length T)%nat -> (21 <= length A)%nat ->
  degen_sane O -> coms_valid T -> Forall SpecHash.small (firstn 102 T) ->
  pmul ((o_keccak O (encoding (map (fun z => z mod p_mod) zs)) mod 2 ^ 256) mod r_mod) (Aff lagrange_x lagrange_y) = Aff ix iy ->
  ix < r_mod -> iy < r_mod ->
  let d := transcript_values O ix iy T in
  let ch i := fc (nth i d 0) in
  let th := ch 0%nat in let be := ch 1%nat in let ga := ch 2%nat in let y := ch 3%nat in
  let x := ch 4%nat in let yy := ch 5%nat in let v := ch 6%nat in let u := ch 7%nat in
  let h := fc (nth 16 A 0) in
  let acc := pmul (val (opening yy v x u (queries T (ix, iy) h x))) (Aff 1 (p_mod - 2)) in
  let terms := ordered_terms (final_terms T (ix, iy) h x yy v u) in
  (forall g, g 2%nat = th -> g 3%nat = be -> g 4%nat = ga -> g 5%nat = y -> g 6%nat = x -> g 9%nat = u -> oks T A scalar_part g) ->
  fits (Aff (nth 102 T 0) (nth 103 T 0)) -> fits acc -> sums_fit acc terms ->
  msm_from acc terms = Aff X Y -> nth 102 T 0 <> 0 -> nth 103 T 0 <> 0 -> X <> 0 -> Y <> 0 ->
  Define O Test c s =
    (emul_assert Test (o_pairing O [(Aff (nth 102 T 0) (nth 103 T 0), g20_const); (Aff X Y, g21_const)]) ;;; ret None) s.
Proof.
  intros EZ ET EA LZ LT LA Hd VT SM HI RIx RIy d ch th be ga y x yy v u h acc terms HH FW FE FS HM W0 W1 X0 Y0.
  rewrite (define_test O c zs s EZ LZ).
  set (k := (o_keccak O (encoding (map (fun z => z mod p_mod) zs)) mod 2 ^ 256) mod r_mod) in *.
  assert (Hk : 0 <= k < r_mod) by (apply modr_range). clearbody k.
  assert (VI : valid_pt (Aff ix iy) = true) by (rewrite <- HI; apply pmul_valid; vm_compute; reflexivity).
  assert (Nk : k mod r_mod <> 0).
  { rewrite Z.mod_small by exact Hk. intros ->. vm_compute in HI. discriminate. }
  pose proof (proj1 (valid_aff _ _) VI) as (RI1 & RI2 & _). pose proof r_lt_p as RP.
  replace (map VBig zs ++ repeat (VBig 0) (43 - length zs)) with (map VBig (zs ++ repeat 0 (43 - length zs))).
  2:{ rewrite map_app. f_equal. generalize (43 - length zs)%nat. induction n; cbn; congruence. }
  set (Z0 := zs ++ repeat 0 (43 - length zs)) in *.
  assert (L0 : length Z0 = 43%nat) by (unfold Z0; rewrite app_length, repeat_length; lia). clearbody Z0.
  unfold tail_of. rewrite ET, EA.
  rewrite (bind_done _ _ _ _ _ (mod_test_ok k s Hk)).
  destruct Z0 as [|z0 [|z1 [|z2 Z1]]]; try discriminate L0. cbn [length] in L0.
  assert (P2 : put (map VBig (z0 :: z1 :: z2 :: Z1)) 2 (VBig k) = Done (map VBig (z0 :: z1 :: k :: Z1))) by reflexivity.
  rewrite (bind_done _ _ _ _ _ (lift_done _ _ s P2)). clear P2.
  assert (LG := c46_accepts O (map VBig (z0 :: z1 :: k :: Z1)) k s ix iy ltac:(cbn; lia) eq_refl ltac:(lia) Nk HI RIx RIy).
  refine (eq_trans (bind_done _ _ _ _ _ LG) _). clear LG. cbv beta iota.
  change (VBig ix :: VBig iy :: skipn 2 (map VBig (z0 :: z1 :: k :: Z1))) with (map VBig (ix :: iy :: k :: Z1)).
  set (B0 := ix :: iy :: k :: Z1).
  assert (LB0 : length (map VBig B0) = 43%nat) by (rewrite map_length; exact L0).
  assert (PO : all_points_ok T).
  { intros i Hi. unfold point_slots in Hi. apply in_app_iff in Hi.
    destruct Hi as [Hi|Hi].
    - apply in_map_iff in Hi. destruct Hi as (j & <- & Hj). apply valid_curve, VT. unfold commitments. apply in_app_iff. left. exact Hj.
    - destruct Hi as [<-|[<-|[]]]; [exact (valid_curve _ _ (VT 50%nat in_50)) | exact (valid_curve _ _ (VT 51%nat in_51))]. }
  assert (P256 : p_mod < 2 ^ 256) by (vm_compute; reflexivity).
  assert (S1 : SpecHash.small ix) by (unfold SpecHash.small; rewrite Z.abs_eq by lia; lia).
  assert (S2 : SpecHash.small iy) by (unfold SpecHash.small; rewrite Z.abs_eq by lia; lia).
  destruct (proj1 (challenges_spec O Test (map VBig B0) ix iy T s eq_refl eq_refl ltac:(lia) LT) PO S1 S2 SM) as (s' & Es & E).
  specialize (Es eq_refl). subst s'.
  destruct (c26 O Test (map VBig B0) ix iy T s s _ eq_refl eq_refl ltac:(lia) LT E) as [_ Ld].
  rewrite (bind_done _ _ _ _ _ E). clear E PO S1 S2 SM. cbn [fst snd].
  fold d. fold d in Ld.
  set (B := ix :: iy :: map (fun z => z mod r_mod) d ++ skipn 8 (k :: Z1)).
  assert (EB : firstn 2 (map VBig B0) ++ map chal d ++ skipn 10 (map VBig B0) = map VBig B).
  { unfold B, B0.
    change (skipn 10 (map VBig (ix :: iy :: k :: Z1))) with (skipn 8 (map VBig (k :: Z1))).
    rewrite skipn_map_VBig. change (firstn 2 (map VBig (ix :: iy :: k :: Z1))) with [VBig ix; VBig iy].
    cbn [map app]. rewrite map_app, map_map. reflexivity. }
  rewrite EB. clear EB.
  assert (LBB : length B = 43%nat).
  { unfold B. cbn [length]. rewrite app_length, map_length, !skipn_length, Ld. cbn [length]. lia. }
  assert (NB : forall j, (j < 8)%nat -> nth (2 + j) B 0 = nth j d 0 mod r_mod).
  { intros j Hj. unfold B. cbn [Nat.add nth]. rewrite app_nth1 by (rewrite map_length; lia).
    rewrite (nth_indep _ 0 (0 mod r_mod)) by (rewrite map_length; lia).
    apply (map_nth (fun z => z mod r_mod)). }
  assert (CB : forall j, (2 <= j < 10)%nat -> 0 <= nth j B 0 < r_mod).
  { intros j Hj. replace j with (2 + (j - 2))%nat by lia. rewrite NB by lia. apply modr_range. }
  assert (RB : forall j, (j < 8)%nat -> regs B (2 + j) = fc (nth j d 0)).
  { intros j Hj. unfold regs. rewrite NB by lia. apply phi_mod. }
  assert (C0 : nth 0 B 0 = ix) by reflexivity. assert (C1 : nth 1 B 0 = iy) by reflexivity.
  clearbody B.
  assert (VB : valid_pt (Aff (nth 0 B 0) (nth 1 B 0)) = true) by (rewrite C0, C1; exact VI).
  pose proof (RB 0%nat ltac:(lia)) as R0. pose proof (RB 1%nat ltac:(lia)) as R1. pose proof (RB 2%nat ltac:(lia)) as R2.
  pose proof (RB 3%nat ltac:(lia)) as R3. pose proof (RB 4%nat ltac:(lia)) as R4. pose proof (RB 5%nat ltac:(lia)) as R5.
  pose proof (RB 6%nat ltac:(lia)) as R6. pose proof (RB 7%nat ltac:(lia)) as R7. cbn [Nat.add] in R0, R1, R2, R3, R4, R5, R6, R7.
  fold (ch 0%nat) in R0. fold (ch 1%nat) in R1. fold (ch 2%nat) in R2. fold (ch 3%nat) in R3.
  fold (ch 4%nat) in R4. fold (ch 5%nat) in R5. fold (ch 6%nat) in R6. fold (ch 7%nat) in R7.
  fold th in R0. fold be in R1. fold ga in R2. fold y in R3. fold x in R4. fold yy in R5. fold v in R6. fold u in R7.
  assert (Ok : oks T A scalar_part (regs B)) by (apply HH; assumption).
  assert (PF : points_fit T A B).
  { unfold points_fit. rewrite R4, R5, R6, R7, C0, C1. exact (conj FW (conj FE FS)). }
  destruct (fit_runs O T A B s LBB CB LT LA Hd VT VB Ok PF) as (b1 & b2 & B3 & H1 & H2 & H3 & L3 & Q10 & Q12).
  rewrite (bind_done _ _ _ _ _ H1), (bind_done _ _ _ _ _ H2), (bind_done _ _ _ _ _ H3). clear H1 H2 H3.
  rewrite R4, R5, R6, R7, C0, C1 in Q12. fold h in Q12. fold acc terms in Q12. rewrite HM in Q12.
  destruct (q_of_nth B3 10) as [N10 N11]; [lia|]. destruct (q_of_nth B3 12) as [N12 N13]; [lia|].
  rewrite Q10 in N10, N11. cbn [fst snd] in N10, N11.
  assert (QX : q_of 12 B3 = (X, Y)).
  { apply encodes_coords in Q12. cbn [coords0] in Q12. rewrite (surjective_pairing (q_of 12 B3)), <- Q12. reflexivity. }
  rewrite QX in N12, N13, Q12. cbn [fst snd] in N12, N13, Q12.
  pose proof (encodes_range _ _ _ Q12) as [RX RY]. pose proof (encodes_on_c _ _ _ Q12) as CX.
  pose proof (VT 51%nat in_51) as VW. cbn [Nat.mul Nat.add] in VW.
  pose proof (proj1 (valid_aff _ _) VW) as (RW1 & RW2 & _). pose proof (valid_curve _ _ VW) as CW.
  set (w0 := nth 102 T 0) in *. set (w1 := nth 103 T 0) in *.
  assert (G : forall i z, nth_error (map VBig B3) i = Some (VBig z) -> lift (get (map VBig B3) i) s = Done (VBig z, s)).
  { intros i z Hn. apply lift_done. unfold get. rewrite Hn. reflexivity. }
  assert (NZ : forall z, 0 <= z -> z <> 0 -> VerifyNotZero Test (VBig z) s = Done (None, s)).
  { intros z Hz Hn. apply (proj1 (c35_notzero_test (VBig z) z s eq_refl)). lia. }
  cbn iota.
  rewrite (bind_done _ _ _ _ _ (G _ _ N10)), (try_done _ _ _ _ (NZ w0 (proj1 RW1) W0)).
  rewrite (bind_done _ _ _ _ _ (G _ _ N11)), (try_done _ _ _ _ (NZ w1 (proj1 RW2) W1)).
  rewrite (bind_done _ _ _ _ _ (G _ _ N12)), (try_done _ _ _ _ (NZ X (proj1 RX) X0)).
  rewrite (bind_done _ _ _ _ _ (G _ _ N13)), (try_done _ _ _ _ (NZ Y (proj1 RY) Y0)).
  assert (F1 : FillVerifyCircuitsG1 (VBig w0) (VBig w1) (VBig X) (VBig Y) s = Done ([(w0, w1); (X, Y)], s)).
  { unfold FillVerifyCircuitsG1. cbn [fp_set_interface]. rewrite !Z.mod_small by assumption.
    rewrite (proj2 (g1_iff w0 w1 RW1 RW2) CW), (proj2 (g1_iff X Y RX RY) CX). reflexivity. }
  rewrite (bind_done _ _ _ _ _ F1).
  assert (E2 : FillVerifyCircuitsG2 s = Done ([g20_const; g21_const], s)).
  { unfold FillVerifyCircuitsG2, bind, lift.
    assert (E2 : GetVerifyCircuitsG2Jac = Done (g20_const, g21_const)) by (vm_compute; reflexivity).
    rewrite E2. reflexivity. }
  refine (eq_trans (bind_done _ _ _ _ _ E2) _). cbv beta. unfold VerifyBN256Pairing. cbn [length Nat.eqb orb negb map combine].
  rewrite !of_coords0_ne by assumption. reflexivity.
Qed.

Lemma c48_gen O c zs T A s ix iy X Y :
  TargetInst c ++ VerifyInst c = map VBig zs -> Proof_ c = map VBig T -> Aux c = map VBig A ->
  (length zs <= 43)%nat -> (104 <= length T)%nat -> (21 <= length A)%nat ->
  degen_sane O -> coms_valid T -> Forall SpecHash.small (firstn 102 T) ->
  pmul ((o_keccak O (encoding (map (fun z => z mod p_mod) zs)) mod 2 ^ 256) mod r_mod) (Aff lagrange_x lagrange_y) = Aff ix iy ->
  ix < r_mod -> iy < r_mod ->
  let d := transcript_values O ix iy T in
  let ch i := fc (nth i d 0) in
  let th := ch 0%nat in let be := ch 1%nat in let ga := ch 2%nat in let y := ch 3%nat in
  let x := ch 4%nat in let yy := ch 5%nat in let v := ch 6%nat in let u := ch 7%nat in
  let h := quotient (word T) th be ga x y in
  let acc := pmul (val (opening yy v x u (queries T (ix, iy) h x))) (Aff 1 (p_mod - 2)) in
  let terms := ordered_terms (final_terms T (ix, iy) h x yy v u) in
  x <> 0%fr -> fexp x dom_n <> 1%fr -> u <> rot x (-1) -> u <> rot x 2 ->
  (forall i, (i < 21)%nat -> nth i A 0 = val (nth i (helpers x u h) 0%fr)) ->
  fits (Aff (nth 102 T 0) (nth 103 T 0)) -> fits acc -> sums_fit acc terms ->
  msm_from acc terms = Aff X Y -> nth 102 T 0 <> 0 -> nth 103 T 0 <> 0 -> X <> 0 -> Y <> 0 ->
  Define O Test c s =
    (emul_assert Test (o_pairing O [(Aff (nth 102 T 0) (nth 103 T 0), g20_const); (Aff X Y, g21_const)]) ;;; ret None) s.
Proof.
  cbv beta zeta. intros EZ ET EA LZ LT LA Hd VT SM HI RIx RIy Hx0 Hx Hu1 Hu2 HH FW FE FS HM W0 W1 X0 Y0.
  pose proof (c48_oks O c zs T A s ix iy X Y EZ ET EA LZ LT LA Hd VT SM HI RIx RIy) as G. cbv beta zeta in G.
  assert (EH : fc (nth 16 A 0) = quotient (word T) (fc (nth 0 (transcript_values O ix iy T) 0)) (fc (nth 1 (transcript_values O ix iy T) 0))
    (fc (nth 2 (transcript_values O ix iy T) 0)) (fc (nth 4 (transcript_values O ix iy T) 0)) (fc (nth 3 (transcript_values O ix iy T) 0))).
  { rewrite (HH 16%nat ltac:(lia)). cbn [helpers map app nth]. apply phi_val. }
  rewrite EH in G. clear EH.
  refine (G _ FW FE FS HM W0 W1 X0 Y0). clear - Hx0 Hx Hu1 Hu2 HH.
  intros g E2 E3 E4 E5 E6 E9. rewrite <- E2, <- E3, <- E4, <- E5, <- E6, <- E9 in HH. rewrite <- E6 in Hx0, Hx, Hu1, Hu2. rewrite <- E9 in Hu1, Hu2.
  exact (honest_ok T A g Hx0 Hx Hu1 Hu2 HH).
Qed.

Lemma c48 O c zs T A s ix iy X Y :
  TargetInst c ++ VerifyInst c = map VBig zs -> Proof_ c = map VBig T -> Aux c = map VBig A ->
  (length zs <= 43)%nat -> (104 <= length T)%nat -> (21 <= length A)%nat ->
  degen_sane O -> coms_valid T -> Forall SpecHash.small (firstn 102 T) ->
  pmul ((o_keccak O (encoding (map (fun z => z mod p_mod) zs)) mod 2 ^ 256) mod r_mod) (Aff lagrange_x lagrange_y) = Aff ix iy ->
  ix < r_mod -> iy < r_mod ->
  let d := transcript_values O ix iy T in
  let ch i := fc (nth i d 0) in
  let th := ch 0%nat in let be := ch 1%nat in let ga := ch 2%nat in let y := ch 3%nat in
  let x := ch 4%nat in let yy := ch 5%nat in let v := ch 6%nat in let u := ch 7%nat in
  let h := quotient (word T) th be ga x y in
  let acc := pmul (val (opening yy v x u (queries T (ix, iy) h x))) (Aff 1 (p_mod - 2)) in
  let terms := ordered_terms (final_terms T (ix, iy) h x yy v u) in
  x <> 0%fr -> fexp x dom_n <> 1%fr -> u <> rot x (-1) -> u <> rot x 2 ->
  (forall i, (i < 21)%nat -> nth i A 0 = val (nth i (helpers x u h) 0%fr)) ->
  fits (Aff (nth 102 T 0) (nth 103 T 0)) -> fits acc -> sums_fit acc terms ->
  msm_from acc terms = Aff X Y -> nth 102 T 0 <> 0 -> nth 103 T 0 <> 0 -> X <> 0 -> Y <> 0 ->
  o_pairing O [(Aff (nth 102 T 0) (nth 103 T 0), g20_const); (Aff X Y, g21_const)] = true ->
  Define O Test c s = Done (None, s).
Proof.
  intros EZ ET EA LZ LT LA Hd VT SM HI RIx RIy d ch th be ga y x yy v u h acc terms Hx0 Hx Hu1 Hu2 HH FW FE FS HM W0 W1 X0 Y0 HP.
  refine (eq_trans (c48_gen O c zs T A s ix iy X Y EZ ET EA LZ LT LA Hd VT SM HI RIx RIy Hx0 Hx Hu1 Hu2 HH FW FE FS HM W0 W1 X0 Y0) _).
  rewrite HP. reflexivity.
Qed.
