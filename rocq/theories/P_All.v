(** The exact set of accepted inputs for every evaluation point: C72. *)
From Coq Require Import ZArith String Bool List Lia Arith Ring Field Permutation.
From Verif Require Import Params Go Curve Api FrOps Lib Steps Agg NumThy FField FpField SpecCurve SpecHash SpecMisc
  SpecVerify SpecExact SpecAll P_Fr P_Str P_Curve P_Msm P_LinComb P_Hash P_Trans P_Flow P_Misc P_Kyc P_Step P_Exec P_Dom P_Eval P_Verify
  P_Group P_Order P_GroupSpec P_VSpec P_Acc P_Comp P_Accept P_Pipe P_Honest P_Complete P_PipeOk P_Restate P_Final P_Exact.
Import ListNotations.
Open Scope Z_scope.

Local Opaque phi fmul fadd fsub fopp fdiv finv rot fzpow fexp omega delta pmul padd r_mod p_mod.

Lemma expressions_at_spec t th be ga x : expressions_at t th be ga x (l_0 x) (l_last x) (l_active x) = expressions t th be ga x.
Proof. reflexivity. Qed.
Lemma expressions_at_exprs T th be ga x L0 LL L : expressions_at (fw T) th be ga x L0 LL L = exprs T th be ga x L0 LL L.
Proof. reflexivity. Qed.

Fixpoint allp {X} (P : X -> Prop) (l : list X) : Prop := match l with [] => True | x :: t => P x /\ allp P t end.
Lemma allp_iff {X} (P : X -> Prop) l : allp P l <-> (forall x, In x l -> P x).
Proof.
  induction l as [|x l IH]; cbn [allp In]; [tauto|]. rewrite IH. split.
  - intros [H H'] y [<-|Hy]; auto.
  - intros H. split; intros; apply H; auto.
Qed.
Lemma forall_triples (P : nat -> Fr -> Fr -> Prop) l :
  (forall i d n, In (i, d, n) l -> P i d n) <-> allp (fun q => P (fst (fst q)) (snd (fst q)) (snd q)) l.
Proof.
  rewrite allp_iff. split.
  - intros H [[i d] n] Hi. exact (H i d n Hi).
  - intros H i d n Hi. exact (H (i, d, n) Hi).
Qed.
Lemma forall_below (P : nat -> Prop) n : (forall i, (i < n)%nat -> P i) <-> allp P (seq 0 n).
Proof.
  rewrite allp_iff. split.
  - intros H i Hi. apply in_seq in Hi. apply H. lia.
  - intros H i Hi. apply H, in_seq. lia.
Qed.

(** the divisions of the verification statements hold exactly for the helper words *)
Lemma helper_words_oks T A g th be ga y x u :
  g 2%nat = th -> g 3%nat = be -> g 4%nat = ga -> g 5%nat = y -> g 6%nat = x -> g 9%nat = u ->
  (helper_words T A th be ga y x u <-> oks T A scalar_part g).
Proof.
  intros <- <- <- <- <- <-. rewrite (proj1 (whole_iff T A g)). unfold helper_words. cbv zeta.
  change (word T) with (fw T). rewrite expressions_at_exprs.
  change (fun i => fc (nth i A 0)) with (fw A).
  assert (EA : (1 - sum (map (fw A) [10; 11; 12; 13; 14; 15]%nat) =
    act (fw A 10) (fw A 11) (fw A 12) (fw A 13) (fw A 14) (fw A 15))%fr).
  { cbv [sum map fold_right act]. ring. }
  rewrite EA. clear EA. unfold inv_ok, lag_ok, quot_ok, isinv, islag, rng. cbv zeta.
  change (fc (nth 16 A 0)) with (fw A 16). change (fc (nth 9 A 0)) with (fw A 9). change (fc (nth 10 A 0)) with (fw A 10).
  generalize (horner (g 5%nat) (exprs T (g 2%nat) (g 3%nat) (g 4%nat) (g 6%nat) (fw A 9) (fw A 10)
    (act (fw A 10) (fw A 11) (fw A 12) (fw A 13) (fw A 14) (fw A 15)))). intros num.
  generalize (g 6%nat) (g 9%nat). intros x u.
  assert (V8 : vanish x u [-1; 2]%Z = ((u - rot x (-1)) * (u - rot x 2))%fr).
  { cbv [vanish prod map fold_right]. ring. }
  rewrite (forall_triples (fun i d n => d * fc (nth i A 0%Z) = n)%fr), (forall_below (fun i => 0 <= nth i A 0 < r_mod)).
  unfold divisions. cbv zeta. rewrite !rot_0, V8. clear V8. cbn [seq].
  cbn [allp fst snd].
  repeat match goal with |- context [fc (nth ?i A 0)] => change (fc (nth i A 0)) with (fw A i) end.
  split.
  - intros ((R0 & R1 & R2 & R3 & R4 & R5 & R6 & R7 & R8 & R9 & R10 & R11 & R12 & R13 & R14 & R15 & R16 & R17 & R18 & R19 & R20 & _) & (D0 & D1 & D2 & D3 & D4 & D5 & D6 & D7 & D8 & D9 & D10 & D11 & D12 & D13 & D14 & D15 & D17 & D18 & D19 & D20 & _) & Q).
    exact (conj (conj (conj D0 R0) (conj (conj D1 R1) (conj (conj D2 R2) (conj (conj D3 R3) (conj (conj D4 R4) (conj (conj D5 R5) (conj (conj D6 R6) (conj (conj D7 R7) (conj (conj D8 R8) (conj (conj D17 R17) (conj (conj D18 R18) (conj (conj D19 R19) (conj D20 R20))))))))))))) (conj (conj (conj D9 R9) (conj (conj D10 R10) (conj (conj D11 R11) (conj (conj D12 R12) (conj (conj D13 R13) (conj (conj D14 R14) (conj D15 R15))))))) (conj Q R16))).
  - intros (((D0 & R0) & (D1 & R1) & (D2 & R2) & (D3 & R3) & (D4 & R4) & (D5 & R5) & (D6 & R6) & (D7 & R7) & (D8 & R8) & (D17 & R17) & (D18 & R18) & (D19 & R19) & (D20 & R20)) & ((D9 & R9) & (D10 & R10) & (D11 & R11) & (D12 & R12) & (D13 & R13) & (D14 & R14) & (D15 & R15)) & (Q & R16)).
    exact (conj (conj R0 (conj R1 (conj R2 (conj R3 (conj R4 (conj R5 (conj R6 (conj R7 (conj R8 (conj R9 (conj R10 (conj R11 (conj R12 (conj R13 (conj R14 (conj R15 (conj R16 (conj R17 (conj R18 (conj R19 (conj R20 Logic.I))))))))))))))))))))) (conj (conj D0 (conj D1 (conj D2 (conj D3 (conj D4 (conj D5 (conj D6 (conj D7 (conj D8 (conj D9 (conj D10 (conj D11 (conj D12 (conj D13 (conj D14 (conj D15 (conj D17 (conj D18 (conj D19 (conj D20 Logic.I)))))))))))))))))))) Q)).
Qed.

(** the domain conditions follow *)
Lemma helper_words_nec T A th be ga y x u : helper_words T A th be ga y x u ->
  x <> 0%fr /\ u <> rot x (-1) /\ u <> rot x 2 /\ (21 <= length A)%nat.
Proof.
  set (g := fun i : nat => match i with 2 => th | 3 => be | 4 => ga | 5 => y | 6 => x | 9 => u | _ => 0%fr end%nat).
  intros H. pose proof (proj1 (helper_words_oks T A g th be ga y x u eq_refl eq_refl eq_refl eq_refl eq_refl eq_refl) H) as Ok.
  destruct (honest_nec T A g Ok) as (N0 & N1 & N2). split; [exact N0|]. split; [exact N1|]. split; [exact N2|].
  destruct (Nat.le_gt_cases 21 (length A)) as [G|G]; [exact G|]. exfalso.
  destruct H as (_ & D & _). specialize (D 20%nat (rot x 2 - rot x 1)%fr 1%fr).
  rewrite nth_overflow in D by lia. apply fr_1_0. rewrite <- D.
  - change (fc 0) with 0%fr. ring.
  - unfold divisions. cbv zeta. cbn [In]. do 19 right. left. reflexivity.
Qed.

(** outside the domain the helper words are the specified values *)
Lemma helper_words_outside T A th be ga y x u : fexp x dom_n <> 1%fr ->
  (helper_words T A th be ga y x u <->
   x <> 0%fr /\ u <> rot x (-1) /\ u <> rot x 2 /\
   forall i, (i < 21)%nat -> nth i A 0 = val (nth i (helpers x u (quotient (word T) th be ga x y)) 0%fr)).
Proof.
  intros Hx. set (g := fun i : nat => match i with 2 => th | 3 => be | 4 => ga | 5 => y | 6 => x | 9 => u | _ => 0%fr end%nat).
  rewrite (helper_words_oks T A g th be ga y x u eq_refl eq_refl eq_refl eq_refl eq_refl eq_refl). split.
  - intros Ok. destruct (honest_nec T A g Ok) as (N0 & N1 & N2). split; [exact N0|]. split; [exact N1|]. split; [exact N2|].
    intros i Hi. exact (sp_helpers T A g (whole T A g Ok) i Hx Hi).
  - intros (N0 & N1 & N2 & H). exact (honest_ok T A g N0 Hx N1 N2 H).
Qed.

(** inside the domain the quotient word is free *)
Definition set16 (A : list Z) (z : Z) : list Z := firstn 16 A ++ z :: skipn 17 A.
Lemma nth_set16 A z i : (21 <= length A)%nat -> nth i (set16 A z) 0 = if Nat.eqb i 16 then z else nth i A 0.
Proof.
  intros L. unfold set16. destruct (Nat.eqb_spec i 16) as [->|N].
  - rewrite app_nth2 by (rewrite firstn_length; lia). rewrite firstn_length, Nat.min_l by lia. reflexivity.
  - destruct (Nat.lt_ge_cases i 16) as [H|H].
    + rewrite app_nth1 by (rewrite firstn_length; lia). rewrite <- (firstn_skipn 16 A) at 2.
      rewrite app_nth1 by (rewrite firstn_length; lia). reflexivity.
    + rewrite app_nth2 by (rewrite firstn_length; lia). rewrite firstn_length, Nat.min_l by lia.
      replace (i - 16)%nat with (S (i - 17)) by lia. cbn [nth]. rewrite <- (firstn_skipn 17 A) at 2.
      rewrite app_nth2 by (rewrite firstn_length; lia). rewrite firstn_length, Nat.min_l by lia. reflexivity.
Qed.
Lemma helper_words_inside T A th be ga y x u z : fexp x dom_n = 1%fr -> helper_words T A th be ga y x u -> 0 <= z < r_mod ->
  helper_words T (set16 A z) th be ga y x u.
Proof.
  intros Hx H Hz. destruct (helper_words_nec _ _ _ _ _ _ _ _ H) as (_ & _ & _ & L).
  destruct H as (R & D & Q). cbv zeta in *. split; [|split].
  - intros i Hi. rewrite nth_set16 by exact L. destruct (Nat.eqb i 16); [exact Hz|exact (R i Hi)].
  - intros i d n Hi. rewrite nth_set16 by exact L. destruct (Nat.eqb_spec i 16) as [->|N]; [|exact (D i d n Hi)].
    exfalso. unfold divisions in Hi. cbv zeta in Hi. cbn [In] in Hi.
    repeat (destruct Hi as [Hi|Hi]; [apply (f_equal (fun q => fst (fst q))) in Hi; cbn [fst] in Hi; discriminate Hi|]). exact Hi.
  - cbn [map]. cbn [map] in Q. rewrite !nth_set16 by exact L. cbn [Nat.eqb]. rewrite <- Q, Hx. ring.
Qed.

(** ** The circuit *)
Lemma c72_fwd O c zs T A s s' :
  TargetInst c ++ VerifyInst c = map VBig zs -> Proof_ c = map VBig T -> Aux c = map VBig A ->
  degen_sane O -> Define O Test c s = Done (None, s') -> acceptable_all O zs T A.
Proof.
  intros EZ ET EA Hd H.
  destruct (define_inv O c zs T A s s' EZ ET EA Hd H) as (LT & VT & SM & ix & iy & B & HI & RX & RY & LB & CB & B0 & B1 & VI & RB & RUN).
  destruct (c36_spec O c zs T A s s' EZ ET EA LT Hd H) as (_ & LZ & _ & jx & jy & HJ & R).
  assert (EJ : jx = ix /\ jy = iy).
  { apply (multiple_pmul _ _ _ _ _ lagrange_encodes) in HJ. rewrite HI in HJ. clear - HJ. split; congruence. }
  destruct EJ as [-> ->]. cbv zeta in R.
  destruct R as (_ & _ & _ & _ & _ & X & Y & LC & W0 & W1 & X0 & Y0 & HP).
  destruct RUN as (s1 & s2 & s3 & b1 & b2 & b3 & H1 & H2 & H3).
  destruct (runs_fit O T A B s LB CB Hd VT ltac:(rewrite B0, B1; exact VI) s1 s2 s3 b1 b2 b3 H1 H2 H3) as [Ok (FW & FE & FS)].
  clear H1 H2 H3.
  pose proof (RB 0%nat ltac:(lia)) as R0. pose proof (RB 1%nat ltac:(lia)) as R1. pose proof (RB 2%nat ltac:(lia)) as R2.
  pose proof (RB 3%nat ltac:(lia)) as R3. pose proof (RB 4%nat ltac:(lia)) as R4. pose proof (RB 5%nat ltac:(lia)) as R5.
  pose proof (RB 6%nat ltac:(lia)) as R6. pose proof (RB 7%nat ltac:(lia)) as R7. cbn [Nat.add] in R0, R1, R2, R3, R4, R5, R6, R7.
  pose proof (proj2 (helper_words_oks T A (regs B) _ _ _ _ _ _ R0 R1 R2 R3 R4 R7) Ok) as HW. clear Ok.
  destruct (helper_words_nec _ _ _ _ _ _ _ _ HW) as (_ & _ & _ & LA).
  unfold regs in FE, FS. rewrite R4, R5, R6, R7, B0, B1 in FE, FS.
  assert (CM := proj2 (claim_computable T (ix, iy) _ _ _ _ _ _ (coms_valid_on _ VT) (valid_enc _ _ VI)) (conj FE FS)). clear FE FS.
  assert (EW : W' T = (nth 102 T 0, nth 103 T 0)) by exact (W_canon T VT).
  rewrite EW in W0, W1, HP. cbn [fst snd] in W0, W1, HP.
  split; [exact LZ|]. split; [exact LT|]. split; [exact LA|]. split; [exact VT|]. split; [exact SM|].
  exists ix, iy, X, Y. split; [exact HJ|]. split; [exact RX|]. split; [exact RY|]. cbv zeta.
  split; [exact HW|]. split; [exact FW|]. split; [exact CM|].
  split; [exact LC|]. split; [exact W0|]. split; [exact W1|]. split; [exact X0|]. split; [exact Y0|]. exact HP.
Qed.

Lemma c72_bwd O c zs T A s :
  TargetInst c ++ VerifyInst c = map VBig zs -> Proof_ c = map VBig T -> Aux c = map VBig A ->
  degen_sane O -> acceptable_all O zs T A -> Define O Test c s = Done (None, s).
Proof.
  intros EZ ET EA Hd (LZ & LT & LA & VT & SM & ix & iy & X & Y & HI & RX & RY & R). cbv zeta in R.
  destruct R as (HW & FW & CM & LC & W0 & W1 & X0 & Y0 & HP).
  assert (VI : valid_pt (Aff ix iy) = true).
  { rewrite <- (multiple_pmul _ _ _ _ _ lagrange_encodes HI). apply pmul_valid, (enc_valid _ _ _ lagrange_encodes). }
  pose proof (coms_valid_on _ VT) as HT. pose proof (valid_enc _ _ VI) as HE.
  apply claim_computable in CM; [|exact HT|exact HE]. destruct CM as [FE FS].
  refine (eq_trans (c48_oks O c zs T A s ix iy X Y EZ ET EA LZ LT LA Hd VT SM (multiple_pmul _ _ _ _ _ lagrange_encodes HI) RX RY
    _ FW FE FS _ W0 W1 X0 Y0) _).
  - intros g E2 E3 E4 E5 E6 E9. exact (proj1 (helper_words_oks T A g _ _ _ _ _ _ E2 E3 E4 E5 E6 E9) HW).
  - rewrite <- head_of. apply lin_comb_msm. eapply lin_comb_perm; [|exact LC].
    unfold claim. constructor. symmetry. apply ordered_perm, final_length.
  - rewrite HP. reflexivity.
Qed.

Lemma c72_exact O c zs T A s :
  TargetInst c ++ VerifyInst c = map VBig zs -> Proof_ c = map VBig T -> Aux c = map VBig A -> degen_sane O ->
  ((exists s', Define O Test c s = Done (None, s')) <-> acceptable_all O zs T A).
Proof.
  intros EZ ET EA Hd. split.
  - intros [s' H]. exact (c72_fwd O c zs T A s s' EZ ET EA Hd H).
  - intros H. exists s. exact (c72_bwd O c zs T A s EZ ET EA Hd H).
Qed.

(** ** A case inside the domain: all evaluations zero *)
Lemma fc_val_nth l i : (i < length l)%nat -> fc (nth i (map val l) 0) = nth i l 0%fr.
Proof.
  intros H. rewrite (nth_indep _ 0 (val 0%fr)) by (rewrite map_length; exact H). rewrite (map_nth val). apply phi_val.
Qed.
Lemma sub_eq x : (x - x = 0)%fr. Proof. ring. Qed.
Lemma word_zero i : word (repeat 0 104) i = 0%fr.
Proof. unfold word. rewrite nth_repeat. reflexivity. Qed.
Lemma zero_expressions t th be ga x y LA : (forall i, t i = 0%fr) -> horner y (expressions_at t th be ga x 0%fr 0%fr LA) = 0%fr.
Proof.
  intros H.
  assert (G : Forall (fun e => e = 0%fr) (expressions_at t th be ga x 0%fr 0%fr LA)).
  { assert (L : forall l, limbs t l = 0%fr).
    { intros l. unfold limbs. generalize (combine (seq 0 (length l)) l). intros q. induction q as [|[j i] q IH]; [reflexivity|].
      cbn [map]. unfold sum in *. cbn [fold_right]. rewrite IH, H. ring. }
    unfold expressions_at, gates, gate_main, permutation_at, chunk_at, lookup_at.
    repeat (apply Forall_app; split); repeat (apply Forall_cons; [repeat rewrite L; repeat rewrite H; ring|]); apply Forall_nil. }
  unfold horner. revert G. generalize (expressions_at t th be ga x 0%fr 0%fr LA). intros l G.
  assert (W : forall l a, a = 0%fr -> Forall (fun e => e = 0%fr) l -> fold_left (fun h e => (h * y + e)%fr) l a = 0%fr).
  { clear. induction l as [|e l IH]; intros a Ha G; [exact Ha|]. cbn [fold_left]. inversion G; subst. apply IH; [ring|assumption]. }
  exact (W l 0%fr eq_refl G).
Qed.

Lemma inside_words th be ga y x u h : fexp x dom_n = 1%fr -> u <> rot x (-1) -> u <> rot x 2 ->
  helper_words (repeat 0 104) (map val (helpers x u h)) th be ga y x u.
Proof.
  intros Hx Hu1 Hu2.
  assert (N0 : x <> 0%fr).
  { intros ->. apply fr_1_0. rewrite <- Hx. replace dom_n with (1 + (dom_n - 1)) by lia.
    rewrite fexp_add, fexp_1 by (discriminate || lia). ring. }
  assert (ZL : forall k, lagrange x k = 0%fr).
  { intros k. unfold lagrange. rewrite Hx, sub_eq, !fdiv_inv. ring. }
  unfold helper_words. cbv zeta. split; [|split].
  - intros i Hi. rewrite (nth_indep _ 0 (val 0%fr)) by (rewrite map_length; exact Hi). rewrite (map_nth val). apply val_range.
  - rewrite (forall_triples (fun i d n => d * fc (nth i (map val (helpers x u h)) 0%Z) = n)%fr).
    unfold divisions. cbv zeta. cbn [allp fst snd].
    assert (D : forall j k, j mod dom_n <> k mod dom_n -> ((rot x j - rot x k) * frinv (rot x j - rot x k) = 1)%fr).
    { intros j k Hn. apply inv_r, rot_ne; assumption. }
    assert (V : (vanish x u [-1; 2]%Z * frinv (vanish x u [-1; 2]%Z) = 1)%fr).
    { apply inv_r. cbv [vanish prod map fold_right].
      repeat apply fmul_nz; [apply sub_nz, Hu1 | apply sub_nz, Hu2 | exact fr_1_0]. }
    assert (G : forall k, ((x - fzpow omega k) * 0 = fzpow omega k / fc dom_n * (fexp x dom_n - 1))%fr).
    { intros k. rewrite Hx, sub_eq, fdiv_inv. ring. }
    rewrite !fc_val_nth by (cbn; lia). cbn [helpers map app nth]. rewrite !ZL.
    repeat (split; [first [exact V | apply G | apply D; discriminate]|]). exact Logic.I.
  - rewrite Hx, sub_eq. cbn [map]. rewrite !fc_val_nth by (cbn; lia). cbn [helpers map app nth]. rewrite !ZL.
    rewrite zero_expressions by exact word_zero. ring.
Qed.
Lemma fzpow_nz k : fzpow omega k <> 0%fr.
Proof. rewrite fzpow_mod. apply omega_nz, Z.mod_pos_bound. reflexivity. Qed.
Lemma rot_one_nz k : 0%fr <> rot 1%fr k.
Proof. intros E. apply (fzpow_nz k). rewrite rot_def in E. transitivity (fzpow omega k * 1)%fr; [ring|symmetry; exact E]. Qed.
(** evaluation point 1, opening challenge 0 *)
Lemma inside_case th be ga y z : 0 <= z < r_mod ->
  fexp 1%fr dom_n = 1%fr /\ helper_words (repeat 0 104) (map val (helpers 1%fr 0%fr (fc z))) th be ga y 1%fr 0%fr.
Proof.
  intros Hz. assert (H : fexp 1%fr dom_n = 1%fr) by (apply fexp_one; discriminate).
  split; [exact H|]. exact (inside_words th be ga y 1%fr 0%fr (fc z) H (rot_one_nz (-1)) (rot_one_nz 2)).
Qed.
