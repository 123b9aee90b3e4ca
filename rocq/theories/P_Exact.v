(** Exactly which inputs the aggregation circuit accepts: C70. *)
From Coq Require Import ZArith Znumtheory String Bool List Lia Arith Permutation.
From Verif Require Import Params Go Curve Api FrOps Lib Steps Agg NumThy FField FpField SpecCurve SpecHash SpecMisc
  SpecVerify P_Fr P_Curve P_Group P_Mid P_Msm P_Hash P_Trans P_Flow P_Misc P_Kyc P_Step P_Exec P_Verify P_VSpec P_Acc P_Pipe P_Honest P_Complete
  P_Final P_GroupSpec P_LinComb P_Dom P_Restate SpecExact.
Import ListNotations.
Open Scope Z_scope.
Local Opaque phi fmul fadd fsub fopp fdiv finv rot fzpow fexp omega delta.

(** ** An accepted multiplication has a canonical finite operand *)
Lemma p_odd : p_mod = 2 * (p_mod / 2) + 1. Proof. vm_compute. reflexivity. Qed.
Lemma mid_2 : 2 * mid = p_mod + r_mod. Proof. vm_compute. reflexivity. Qed.
Lemma cube_neg x : 0 < x < p_mod -> (- x * - x * - x + 3) mod p_mod = (x * x * x + 3) mod p_mod -> False.
Proof.
  intros Hx E. pose proof p_pos. pose proof p_odd as PO.
  assert (D : (p_mod | 2 * (x * (x * x)))).
  { apply Z.mod_divide; [lia|]. replace (2 * (x * (x * x))) with ((x * x * x + 3) - (- x * - x * - x + 3)) by ring.
    rewrite Zminus_mod, E, Z.sub_diag. apply Z.mod_0_l. lia. }
  assert (S : forall a, 0 < a < p_mod -> (p_mod | a) -> False).
  { intros a Ha Da. apply Z.divide_pos_le in Da; lia. }
  assert (P1 : 1 < p_mod) by (vm_compute; reflexivity).
  apply (prime_mult _ prime_fp) in D. destruct D as [D|D].
  { apply (S 2); [split; [lia | vm_compute; reflexivity] | exact D]. }
  apply (prime_mult _ prime_fp) in D. destruct D as [D|D]; [exact (S x Hx D)|].
  apply (prime_mult _ prime_fp) in D. destruct D as [D|D]; exact (S x Hx D).
Qed.
Lemma opp_canon W : valid_pt W = true -> encodes (fst (pr W)) (snd (pr W)) (pneg W) -> False.
Proof.
  intros V H. pose proof r_lt_p. pose proof r_pos. pose proof p_pos. pose proof p_lt_2r. pose proof p_odd. pose proof mid_2.
  destruct W as [|X Y].
  { destruct H as [(_ & H & _)|(_ & _ & _ & H)]; [|discriminate H]. vm_compute in H. discriminate H. }
  destruct H as [(_ & _ & H)|(_ & _ & _ & H)]; [discriminate H|].
  unfold pneg, pr, printed in H. cbn [fst snd] in H.
  assert (EY : (- Y) mod p_mod = Y mod r_mod) by (revert H; generalize ((- Y) mod p_mod), (Y mod r_mod); intros a b H; congruence).
  clear H. pose proof (proj1 (valid_aff X Y) V) as (RX & RY & C).
  assert (Y <> 0).
  { intros ->. assert (F : Aff X 0 = Inf) by (apply pneg_fix; [exact V | unfold pneg; rewrite Z.mod_0_l by lia; reflexivity]). discriminate F. }
  rewrite <- (Z.mod_unique (- Y) p_mod (- 1) (p_mod - Y)) in EY by lia.
  destruct (Z.ltb_spec Y r_mod).
  - rewrite Z.mod_small in EY by lia. lia.
  - rewrite <- (Z.mod_unique Y r_mod 1 (Y - r_mod)) in EY by lia.
    assert (Y = mid) by lia. subst Y. unfold on_curve in C. apply Z.eqb_eq in C. exact (mid_none X C).
Qed.

Lemma smul_canon O x y k R : degen_sane O -> 0 <= k < r_mod -> curve_or_zero x y -> smul O x y k R ->
  valid_pt (Aff x y) = true.
Proof.
  intros Hd Hk Hc HS. pose proof (smul_pt O (x, y) k R Hd Hk Hc HS) as HP.
  pose proof r_lt_p. pose proof r_pos. pose proof p_pos as PP. pose proof p_lt_2r.
  destruct HS as (Q & HQ & HR & HE). unfold mp in HP. cbn [fst snd] in HP.
  rewrite (Z.mod_small k p_mod), (Z.mod_small k r_mod) in HE by lia.
  assert (N : (x mod p_mod =? 0) && (y mod p_mod =? 0) = false).
  { destruct ((x mod p_mod =? 0) && (y mod p_mod =? 0)) eqn:E; [exfalso|reflexivity].
    apply andb_true_iff in E. destruct E as [Ex Ey]. apply Z.eqb_eq in Ex, Ey.
    pose proof (encodes_range _ _ _ HQ) as [Rx Ry].
    apply abs_mod0 in Ex; [|lia]. apply abs_mod0 in Ey; [|lia]. subst x y.
    unfold emul_scalar_mul in HE. rewrite !Z.mod_0_l, Z.eqb_refl in HE by lia. cbn [negb andb] in HE.
    apply (Hd 0 0 k). rewrite HE, HR. f_equal.
    destruct HQ as [(_ & _ & ->)|(_ & _ & E' & _)]; [|exfalso; cbn in E'; vm_compute in E'; discriminate].
    replace (pmul k Inf) with Inf; [exact pr_inf|]. unfold pmul. destruct (k mod r_mod) as [|q|q]; try reflexivity.
    clear. induction q as [q IH|q IH|]; cbn [pmul_pos]; try rewrite <- IH; reflexivity. }
  destruct HQ as [(Ax & Ay & _)|(Rx & Ry & EQ & EQ')].
  { exfalso. assert (x = 0) by lia. assert (y = 0) by lia. subst x y. rewrite !Z.mod_0_l, Z.eqb_refl in N by lia. discriminate N. }
  subst Q.
  assert (VQ : valid_pt (Aff (Z.abs x) (Z.abs y)) = true).
  { apply valid_aff. repeat split; try lia. unfold on_curve. apply Z.eqb_eq. exact EQ. }
  assert (Cxy : (y * y) mod p_mod = (x * x * x + 3) mod p_mod).
  { destruct Hc as [[Zx Zy]|Hc]; [|exact Hc]. rewrite Zx, Zy, Z.eqb_refl in N. discriminate N. }
  destruct (Z.leb_spec 0 x) as [Px|Nx].
  2:{ exfalso. replace (Z.abs x) with (- x) in EQ by lia.
      replace (Z.abs y * Z.abs y) with (y * y) in EQ by (rewrite <- Z.abs_mul; symmetry; apply Z.abs_eq, Z.square_nonneg).
      rewrite Cxy in EQ. apply eq_sym in EQ. apply (cube_neg (- x)); [lia|]. rewrite Z.opp_involutive. symmetry. exact EQ. }
  destruct (Z.leb_spec 0 y) as [Py|Ny].
  { rewrite !Z.abs_eq in VQ by assumption. exact VQ. }
  exfalso. apply (opp_canon (pmul k (Aff (Z.abs x) (Z.abs y)))); [apply pmul_valid, VQ|].
  rewrite <- pmul_neg by exact VQ. rewrite <- HR.
  replace (pneg (Aff (Z.abs x) (Z.abs y))) with (of_coords0 (x mod p_mod, y mod p_mod)); [exact HP|].
  unfold of_coords0. cbn [fst snd]. rewrite N. unfold pneg. f_equal; [|f_equal; lia].
  rewrite Z.mod_small by lia. lia.
Qed.

(** ** The accumulation reads every commitment *)
Lemma chain_canon O l : degen_sane O -> forall q10 q12 K,
  (forall P k R, In P (map fst l) -> smul O (fst P) (snd P) k R -> on_c P) ->
  chain O (padd_ops l) q10 q12 K -> forall t, In t l -> canon_pt (fst t).
Proof.
  intros Hd. induction l as [|[P k] l IH]; intros q10 q12 K Hc; cbn [padd_ops map chain]; [intros _ t []|].
  intros (R & Q & Hm & Ha & H) t [<-|Ht].
  - cbn [fst]. apply (smul_canon O _ _ _ _ Hd (val_range k) (Hc P _ _ (or_introl eq_refl) Hm) Hm).
  - exact (IH q10 Q K (fun P' k' R' HIn => Hc P' k' R' (or_intror HIn)) H t Ht).
Qed.

Definition reads_com (i : nat) : bool := existsb (fun q => match q with
  | (FTr a, FTr b) => Nat.eqb a (2 * i) && Nat.eqb b (2 * i + 1) | _ => false end) (term_points sM).
Lemma reads_all : forallb reads_com commitments = true. Proof. vm_compute. reflexivity. Qed.
Lemma canon_coms T A ic G : (forall t, In t (code_terms T A ic G) -> canon_pt (fst t)) -> coms_valid T.
Proof.
  intros H i Hi. pose proof reads_all as R. rewrite forallb_forall in R. specialize (R i Hi). unfold reads_com in R.
  apply existsb_exists in R. destruct R as ((a & b) & Hin & R).
  assert (I : In (raw T ic a, raw T ic b) (map fst (code_terms T A ic G))).
  { unfold code_terms. rewrite points_adds. apply in_map_iff. exists (a, b). split; [reflexivity|exact Hin]. }
  destruct a; try discriminate R. destruct b; try discriminate R.
  apply andb_true_iff in R. rewrite !Nat.eqb_eq in R. destruct R as [-> ->].
  apply in_map_iff in I. destruct I as (t & E & It). specialize (H t It). rewrite E in H. exact H.
Qed.

Lemma runs_canon O T A B s s1 s2 s3 b1 b2 b3 :
  length B = 43%nat -> (forall j, (2 <= j < 10)%nat -> 0 <= nth j B 0 < r_mod) -> degen_sane O -> coms_on_curve T ->
  curve_or_zero (nth 0 B 0) (nth 1 B 0) ->
  VerifyProof1 O Test (map VBig T) (map VBig A) (map VBig B) s = Done ((b1, None), s1) ->
  VerifyProof2 O Test (map VBig T) (map VBig A) b1 s1 = Done ((b2, None), s2) ->
  VerifyProof3 O Test (map VBig T) (map VBig A) b2 s2 = Done ((b3, None), s3) ->
  coms_valid T.
Proof.
  intros L C Hd HT HB H1 H2 H3. destruct (exec123 O T A B s b1 s1 b2 s2 b3 s3 L C H1 H2 H3) as (Es & Ok & B3 & E3 & L3 & Ch).
  cbv zeta in Ok, Ch. rewrite segments_all in Ch. clear Ok.
  rewrite ops_app, ops_scalar, ops_L in Ch. change (b01_of B) with (nth 0 B 0, nth 1 B 0) in Ch.
  set (ic := (nth 0 B 0, nth 1 B 0)) in *.
  apply chain_head in Ch. destruct Ch as (R & R' & HW & HE & Ch).
  apply (canon_coms T A ic (exec T A scalar_part (regs B))).
  exact (chain_canon O _ Hd _ _ _ (terms_on_c O T A ic _ HT HB) Ch).
Qed.

(** ** The transcript reads 104 words of the proof *)
Lemma points_tpos en tr n : forall st s st' s', absorb_points en tr n st s = Done ((st', None), s') ->
  snd st' = (snd st + 2 * n)%nat.
Proof.
  induction n as [|n IH]; intros [[ab pos] tpos] s st' s'; cbn [absorb_points].
  - intros H. unfold ret in H. apply done_inj in H. apply pair_equal_spec in H. destruct H as [H _].
    apply pair_equal_spec in H. destruct H as [<- _]. cbn [snd]. lia.
  - intros H. apply bind_inv in H. destruct H as (x & s1 & _ & H). apply bind_inv in H. destruct H as (y & s2 & _ & H).
    unfold try_ in H. apply bind_inv in H. destruct H as ([e|] & s3 & _ & H).
    { unfold ret in H. apply done_inj in H. apply pair_equal_spec in H. destruct H as [H _]. apply pair_equal_spec in H.
      destruct H as [_ H]. discriminate H. }
    apply bind_inv in H. destruct H as (a1 & s4 & _ & H). apply bind_inv in H. destruct H as (a2 & s5 & _ & H).
    apply IH in H. rewrite H. cbn [snd]. lia.
Qed.
Lemma scalars_tpos tr n : forall st st', absorb_scalars tr n st = Done st' -> snd st' = (snd st + n)%nat.
Proof.
  induction n as [|n IH]; intros [[ab pos] tpos] st'; cbn [absorb_scalars].
  - intros H. apply done_inj in H. subst st'. cbn [snd]. lia.
  - destruct (get tr tpos); cbn [obind]; [|discriminate]. destruct (put ab pos _); cbn [obind]; [|discriminate].
    intros H. apply IH in H. rewrite H. cbn [snd]. lia.
Qed.
Lemma any_tpos en tr pts n st s st' s' : absorb_any en tr pts n st s = Done ((st', None), s') ->
  snd st' = (snd st + (if pts then 2 * n else n))%nat.
Proof.
  destruct pts; [apply points_tpos|]. cbn [absorb_any]. intros H. apply bind_inv in H. destruct H as (st1 & s1 & H & H').
  apply lift_inv in H. destruct H as [H _]. apply scalars_tpos in H.
  unfold ret in H'. apply done_inj in H'. apply pair_equal_spec in H'. destruct H' as [H' _].
  apply pair_equal_spec in H'. destruct H' as [<- _]. exact H.
Qed.
Lemma stages_tpos O en tr K l : forall buf ab pos tpos s b s',
  run_stages O en tr l buf ab pos tpos K s = Done ((b, None), s') ->
  exists buf' s1, K buf' (tpos + list_sum (map size l))%nat s1 = Done ((b, None), s').
Proof.
  induction l as [|[[pts n] i] l IH]; intros buf ab pos tpos s b s'; cbn [run_stages].
  - intros H. exists buf, s. cbn. rewrite Nat.add_0_r. exact H.
  - intros H. apply bind_inv in H. destruct H as ([[[a1 p1] t1] [e|]] & s1 & H1 & H).
    { unfold ret in H. apply done_inj in H. apply pair_equal_spec in H. destruct H as [H _]. apply pair_equal_spec in H.
      destruct H as [_ H]. discriminate H. }
    apply any_tpos in H1. cbn [snd] in H1.
    unfold squeeze_into in H. apply bind_inv in H. destruct H as ([[c a2] e2] & s2 & _ & H).
    apply bind_inv in H. destruct H as (b2 & s3 & _ & H). destruct e2 as [e2|].
    { unfold ret, onerr in H. apply done_inj in H. apply pair_equal_spec in H. destruct H as [H _]. apply pair_equal_spec in H.
      destruct H as [_ H]. discriminate H. }
    apply IH in H. destruct H as (b' & s4 & H). exists b', s4. cbn [map size]. cbn [list_sum fold_right].
    change (fold_right Init.Nat.add 0%nat (map size l)) with (list_sum (map size l)).
    rewrite Nat.add_assoc, <- H1. exact H.
Qed.
Lemma challenges_length O en buf b0 b1 T s b s' : nth_error buf 0 = Some b0 -> nth_error buf 1 = Some b1 ->
  GetChallengesShPlonkCircuit O en buf (map VBig T) s = Done ((b, None), s') -> (104 <= length T)%nat.
Proof.
  intros N0 N1 H. rewrite (challenges_stages O en buf b0 b1 _ s N0 N1) in H. apply stages_tpos in H.
  destruct H as (b' & s1 & H). change (0 + list_sum (map size stages))%nat with 102%nat in H.
  unfold last_check in H. apply bind_inv in H. destruct H as (x & s2 & _ & H). apply bind_inv in H. destruct H as (y & s3 & G & _).
  apply lift_inv in G. destruct G as [G _]. change (102 + 1)%nat with 103%nat in G. unfold get in G.
  destruct (nth_error (map VBig T) 103) as [v|] eqn:E; [|discriminate G].
  assert (nth_error (map VBig T) 103 <> None) by congruence. apply nth_error_Some in H. rewrite map_length in H. lia.
Qed.

(** ** The Lagrange commitment fits *)
Lemma lagrange_fits O buf k s b e s' : degen_sane O -> nth_error buf 2 = Some (VBig k) -> 0 <= k < r_mod ->
  CalcVerifyCircuitLagrange O Test buf s = Done ((b, e), s') -> fits (pmul k (Aff lagrange_x lagrange_y)).
Proof.
  intros Hd Hk R H. unfold CalcVerifyCircuitLagrange in H. apply bind_inv in H. destruct H as (k' & s1 & G & H).
  destruct (get_at _ _ _ _ _ _ G Hk) as [-> ->]. apply bind_inv in H. destruct H as ([[rx ry] e0] & s2 & E & _).
  apply msm_inv in E. destruct E as (_ & _ & Q & _ & _ & E).
  apply (smul_iff O lagrange_x lagrange_y k Q Hd) in E; [apply E | apply (enc_valid _ _ _ lagrange_encodes) | exact R].
Qed.

(** ** The stages of an accepted run *)
Lemma define_inv O c zs T A s s' :
  TargetInst c ++ VerifyInst c = map VBig zs -> Proof_ c = map VBig T -> Aux c = map VBig A ->
  degen_sane O -> Define O Test c s = Done (None, s') ->
  (104 <= length T)%nat /\ coms_valid T /\ Forall SpecHash.small (firstn 102 T) /\
  exists ix iy B,
    pmul ((o_keccak O (encoding (map (fun z => z mod p_mod) zs)) mod 2 ^ 256) mod r_mod) (Aff lagrange_x lagrange_y) = Aff ix iy /\
    ix < r_mod /\ iy < r_mod /\
    length B = 43%nat /\ (forall j, (2 <= j < 10)%nat -> 0 <= nth j B 0 < r_mod) /\
    nth 0 B 0 = ix /\ nth 1 B 0 = iy /\ valid_pt (Aff ix iy) = true /\
    (forall j, (j < 8)%nat -> fc (nth (2 + j) B 0) = fc (nth j (transcript_values O ix iy T) 0)) /\
    exists s1 s2 s3 b1 b2 b3,
      VerifyProof1 O Test (map VBig T) (map VBig A) (map VBig B) s = Done ((b1, None), s1) /\
      VerifyProof2 O Test (map VBig T) (map VBig A) b1 s1 = Done ((b2, None), s2) /\
      VerifyProof3 O Test (map VBig T) (map VBig A) b2 s2 = Done ((b3, None), s3).
Proof.
  intros EZ ET EA Hd H.
  assert (LZ : (length zs <= 43)%nat).
  { destruct (Nat.le_gt_cases (length zs) 43) as [G|G]; [exact G|]. exfalso.
    destruct (c40_too_many O Test c s) as [w E]; [|congruence].
    rewrite <- app_length, EZ, map_length. exact G. }
  rewrite (define_test O c zs s EZ LZ) in H.
  set (k := (o_keccak O (encoding (map (fun z => z mod p_mod) zs)) mod 2 ^ 256) mod r_mod) in *.
  assert (Hk : 0 <= k < r_mod) by (apply modr_range).
  clearbody k.
  replace (map VBig zs ++ repeat (VBig 0) (43 - length zs)) with (map VBig (zs ++ repeat 0 (43 - length zs))) in H.
  2:{ rewrite map_app. f_equal. generalize (43 - length zs)%nat. induction n; cbn; congruence. }
  set (Z0 := zs ++ repeat 0 (43 - length zs)) in *.
  assert (L0 : length Z0 = 43%nat) by (unfold Z0; rewrite app_length, repeat_length; lia). clearbody Z0.
  unfold tail_of in H. rewrite ET, EA in H.
  apply bind_inv in H. destruct H as (hm & t0 & E & H). rewrite (mod_test_ok k s Hk) in E.
  apply done_inj in E. apply pair_equal_spec in E. destruct E as [<- <-].
  apply bind_inv in H. destruct H as (bf & t1 & E & H).
  apply put2_big in E. destruct E as (-> & Z1 & -> & L1 & N2). rewrite L0 in L1.
  apply bind_inv in H. destruct H as ([b e] & t2 & E & H).
  pose proof (lagrange_fits O _ k s b e t2 Hd N2 Hk E) as FI.
  destruct (lagrange_inv O _ k s b e t2 Hd N2 Hk E) as (-> & -> & ix & iy & HI & CI & ->). clear E N2.
  rewrite HI in FI.
  assert (RI : ix < r_mod /\ iy < r_mod).
  { destruct FI as (a & a' & E & R1 & R2). revert E R1 R2. clear. intros E. assert (ix = a /\ iy = a') as [-> ->] by (split; congruence). lia. }
  apply bind_inv in H. destruct H as ([b e] & t2 & E & H). destruct e as [e|]; [exfalso; eapply ret_some_none; exact H|].
  rewrite skipn_map_VBig in E. change (VBig ix :: VBig iy :: map VBig (skipn 2 Z1)) with (map VBig (ix :: iy :: skipn 2 Z1)) in E.
  assert (LB : length (map VBig (ix :: iy :: skipn 2 Z1)) = 43%nat) by (rewrite map_length; cbn [length]; rewrite skipn_length; lia).
  assert (LT : (104 <= length T)%nat) by exact (challenges_length O Test (map VBig (ix :: iy :: skipn 2 Z1)) (VBig ix) (VBig iy) T s b t2 eq_refl eq_refl E).
  destruct (c26 O Test (map VBig (ix :: iy :: skipn 2 Z1)) ix iy T s t2 b eq_refl eq_refl ltac:(lia) LT E) as [Eb Ld].
  destruct (proj2 (proj2 (challenges_spec O Test (map VBig (ix :: iy :: skipn 2 Z1)) ix iy T s eq_refl eq_refl ltac:(lia) LT)) b t2 E) as (PO & S1 & S2 & S3).
  assert (ST : t2 = s).
  { destruct (proj1 (challenges_spec O Test (map VBig (ix :: iy :: skipn 2 Z1)) ix iy T s eq_refl eq_refl ltac:(lia) LT) PO S1 S2 S3) as (s2 & Es & E').
    rewrite E' in E. apply done_inj in E. apply pair_equal_spec in E. destruct E as [_ <-]. auto. }
  subst t2. clear E.
  set (d := transcript_values O ix iy T) in *.
  set (B := ix :: iy :: map (fun z => z mod r_mod) d ++ skipn 8 (skipn 2 Z1)).
  assert (EB : b = map VBig B).
  { rewrite Eb. unfold B.
    change (skipn 10 (map VBig (ix :: iy :: skipn 2 Z1))) with (skipn 8 (map VBig (skipn 2 Z1))).
    change (firstn 2 (map VBig (ix :: iy :: skipn 2 Z1))) with [VBig ix; VBig iy].
    rewrite skipn_map_VBig. cbn [map app]. rewrite map_app, map_map. reflexivity. }
  clear Eb. subst b.
  assert (LBB : length B = 43%nat).
  { unfold B. cbn [length]. rewrite app_length, map_length, !skipn_length, Ld, L1. reflexivity. }
  assert (NB : forall j, (j < 8)%nat -> nth (2 + j) B 0 = nth j d 0 mod r_mod).
  { intros j Hj. unfold B. cbn [Nat.add nth]. rewrite app_nth1 by (rewrite map_length; lia).
    rewrite (nth_indep _ 0 (0 mod r_mod)) by (rewrite map_length; lia).
    apply (map_nth (fun z => z mod r_mod)). }
  assert (CB : forall j, (2 <= j < 10)%nat -> 0 <= nth j B 0 < r_mod).
  { intros j Hj. replace j with (2 + (j - 2))%nat by lia. rewrite NB by lia. apply modr_range. }
  assert (RB : forall j, (j < 8)%nat -> fc (nth (2 + j) B 0) = fc (nth j d 0)).
  { intros j Hj. rewrite NB by lia. apply phi_mod. }
  assert (HT : coms_on_curve T).
  { intros i Hi. apply (PO (2 * i)%nat). unfold point_slots, commitments in *.
    apply in_app_iff in Hi. apply in_app_iff. destruct Hi as [Hi|Hi].
    - left. apply (in_map (fun i => (2 * i)%nat)). exact Hi.
    - right. destruct Hi as [<-|[<-|[]]]; cbn; auto. }
  apply bind_inv in H. destruct H as ([b1 e] & s1 & H1 & H). destruct e as [e|]; [exfalso; eapply ret_some_none; exact H|].
  apply bind_inv in H. destruct H as ([b2 e] & s2 & H2 & H). destruct e as [e|]; [exfalso; eapply ret_some_none; exact H|].
  apply bind_inv in H. destruct H as ([b3 e] & s3 & H3 & H). destruct e as [e|]; [exfalso; eapply ret_some_none; exact H|].
  assert (C0 : nth 0 B 0 = ix) by reflexivity. assert (C1 : nth 1 B 0 = iy) by reflexivity.
  assert (HB : curve_or_zero (nth 0 B 0) (nth 1 B 0)) by (rewrite C0, C1; exact CI).
  split; [exact LT|]. split; [exact (runs_canon O T A B s s1 s2 s3 b1 b2 b3 LBB CB Hd HT HB H1 H2 H3)|]. split; [exact S3|].
  exists ix, iy, B. split; [exact HI|]. split; [apply RI|]. split; [apply RI|]. split; [exact LBB|]. split; [exact CB|].
  split; [exact C0|]. split; [exact C1|].
  split; [rewrite <- HI; apply pmul_valid, (enc_valid _ _ _ lagrange_encodes)|].
  split; [exact RB|]. exists s1, s2, s3, b1, b2, b3. exact (conj H1 (conj H2 H3)).
Qed.

Lemma c70_points O c zs T A s s' :
  TargetInst c ++ VerifyInst c = map VBig zs -> Proof_ c = map VBig T -> Aux c = map VBig A ->
  degen_sane O -> Define O Test c s = Done (None, s') -> (104 <= length T)%nat /\ coms_valid T.
Proof.
  intros EZ ET EA Hd H. destruct (define_inv O c zs T A s s' EZ ET EA Hd H) as (LT & VT & _). exact (conj LT VT).
Qed.

Lemma finv_ne (a : Fr) : a <> 0%fr -> frinv a <> 0%fr.
Proof.
  intros N E. apply fr_1_0. transitivity (frinv a * a)%fr; [symmetry; exact (finv_l r_mod r_gt1 prime_r a N)|]. rewrite E. ring.
Qed.

Lemma W_canon T : coms_valid T -> W' T = (nth 102 T 0, nth 103 T 0).
Proof. intros VT. exact (mp_canon (nth 102 T 0, nth 103 T 0) (VT 51%nat ltac:(cbn; tauto))). Qed.
Lemma last_helper x : x <> 0%fr -> val (frinv (rot x 2 - rot x 1)%fr) <> 0.
Proof.
  intros N E. apply (finv_ne (rot x 2 - rot x 1)%fr).
  - apply rot_ne; [exact N|]. vm_compute. discriminate.
  - rewrite <- (phi_val r_mod r_gt1 (frinv _)), E. reflexivity.
Qed.

Lemma c70_fwd O c zs T A s s' :
  TargetInst c ++ VerifyInst c = map VBig zs -> Proof_ c = map VBig T -> Aux c = map VBig A ->
  degen_sane O -> outside_domain O zs T -> Define O Test c s = Done (None, s') -> acceptable O zs T A.
Proof.
  intros EZ ET EA Hd OD H.
  destruct (define_inv O c zs T A s s' EZ ET EA Hd H) as (LT & VT & SM & ix & iy & B & HI & RX & RY & LB & CB & B0 & B1 & VI & RB & RUN).
  destruct (c36_spec O c zs T A s s' EZ ET EA LT Hd H) as (_ & LZ & _ & jx & jy & HJ & R).
  assert (EJ : jx = ix /\ jy = iy).
  { apply (multiple_pmul _ _ _ _ _ lagrange_encodes) in HJ. rewrite HI in HJ. clear - HJ. split; congruence. }
  destruct EJ as [-> ->]. specialize (OD ix iy HJ). cbv zeta in R.
  destruct R as (_ & N0 & N1 & N2 & Q & X & Y & LC & W0 & W1 & X0 & Y0 & HP).
  destruct (Q OD) as [Qh QA]. clear Q. rewrite Qh in LC.
  assert (LA : (21 <= length A)%nat).
  { destruct (Nat.le_gt_cases 21 (length A)) as [G|G]; [exact G|]. exfalso.
    pose proof (QA 20%nat ltac:(lia)) as E. rewrite nth_overflow in E by lia.
    cbn [helpers map app nth] in E.
    revert E. generalize dependent (fc (nth 4 (transcript_values O ix iy T) 0)). intros x. intros.
    eapply last_helper; [eassumption|]. symmetry. eassumption. }
  destruct RUN as (s1 & s2 & s3 & b1 & b2 & b3 & RUN).
  pose proof (c47_spec O T A B s LB CB LT LA Hd VT ltac:(rewrite B0, B1; exact VI)) as E47. cbv zeta in E47.
  rewrite B0, B1 in E47.
  pose proof (RB 0%nat ltac:(lia)) as R0. pose proof (RB 1%nat ltac:(lia)) as R1. pose proof (RB 2%nat ltac:(lia)) as R2.
  pose proof (RB 3%nat ltac:(lia)) as R3. pose proof (RB 4%nat ltac:(lia)) as R4. pose proof (RB 5%nat ltac:(lia)) as R5.
  pose proof (RB 6%nat ltac:(lia)) as R6. pose proof (RB 7%nat ltac:(lia)) as R7. cbn [Nat.add] in R0, R1, R2, R3, R4, R5, R6, R7.
  rewrite R0, R1, R2, R3, R4, R5, R6, R7 in E47.
  apply (proj1 (E47 OD)) in RUN || (pose proof (proj1 (E47 OD) (ex_intro _ s1 (ex_intro _ s2 (ex_intro _ s3 (ex_intro _ b1 (ex_intro _ b2 (ex_intro _ b3 RUN))))))) as RUN'; clear RUN; rename RUN' into RUN).
  destruct RUN as (_ & _ & _ & _ & FW & CM). rewrite Qh in CM.
  assert (EW : W' T = (nth 102 T 0, nth 103 T 0)).
  { exact (W_canon T VT). }
  rewrite EW in W0, W1, HP. cbn [fst snd] in W0, W1, HP.
  split; [exact LZ|]. split; [exact LT|]. split; [exact LA|]. split; [exact VT|]. split; [exact SM|].
  exists ix, iy, X, Y. split; [exact HJ|]. split; [exact RX|]. split; [exact RY|]. cbv zeta.
  split; [exact N0|]. split; [exact N1|]. split; [exact N2|]. split; [exact QA|]. split; [exact FW|]. split; [exact CM|].
  split; [exact LC|]. split; [exact W0|]. split; [exact W1|]. split; [exact X0|]. split; [exact Y0|]. exact HP.
Qed.

Lemma c70_exact O c zs T A s :
  TargetInst c ++ VerifyInst c = map VBig zs -> Proof_ c = map VBig T -> Aux c = map VBig A ->
  degen_sane O -> outside_domain O zs T ->
  ((exists s', Define O Test c s = Done (None, s')) <-> acceptable O zs T A).
Proof.
  intros EZ ET EA Hd OD. split.
  - intros [s' H]. exact (c70_fwd O c zs T A s s' EZ ET EA Hd OD H).
  - intros (LZ & LT & LA & VT & SM & ix & iy & X & Y & HI & RX & RY & R). cbv zeta in R.
    destruct R as (N0 & N1 & N2 & QA & FW & CM & LC & W0 & W1 & X0 & Y0 & HP). exists s.
    exact (c48_spec O c zs T A s ix iy X Y EZ ET EA LZ LT LA Hd VT SM HI RX RY N0 (OD ix iy HI) N1 N2 QA FW CM LC W0 W1 X0 Y0 HP).
Qed.
