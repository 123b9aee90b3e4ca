(** The recorded accumulators (SpecRecord.v). *)
From Coq Require Import ZArith String Bool List Lia Arith Uint63.
From Verif Require Import Params Go Curve Api FrOps Lib Steps Agg NumThy FField FpField P_Fr SpecCurve SpecHash SpecMisc SpecVerify SpecSha
  SpecSample SpecRecord P_Curve P_Misc P_Msm P_Hash P_Trans P_Dom P_Step P_Exec P_Eval P_Verify P_VSpec P_Acc P_Comp P_Accept P_Honest P_Complete P_PipeOk P_Limb
  P_RunEx P_Mont P_Jac P_Refl P_SampleEx P_RecordEx P_Record2Ex.
Import ListNotations.
Open Scope Z_scope.
Local Opaque pmul pmul_pos padd.

Lemma run_app O T A p q : forall b b1 s s1, run_prog O Test T A b p s = Done ((b1, None), s1) ->
  run_prog O Test T A b (p ++ q) s = run_prog O Test T A b1 q s1.
Proof.
  induction p as [|st t IH]; intros b b1 s s1 H; cbn [app run_prog] in *.
  - injection H as <- <-. reflexivity.
  - unfold bind in *. destruct (run_stmt O Test T A b st s) as [[[b' [e|]] s']|w]; try discriminate H. exact (IH _ _ _ _ H).
Qed.
Definition is_set2 (st : stmt) : bool := match st with SSet2 _ _ _ _ => true | _ => false end.
Fixpoint upto (p : list stmt) : nat := match p with [] => 0%nat | st :: t => if is_set2 st then 0%nat else S (upto t) end.
Definition n2 : nat := Eval vm_compute in upto prog2.
Definition pre2 : list stmt := Eval cbv [firstn n2 prog2] in firstn n2 prog2.
Definition post2 : list stmt := Eval cbv [skipn n2 prog2 Nat.add] in skipn (n2 + 3) prog2.
Definition neg_y : Z := Eval vm_compute in p_mod - 2.
Lemma prog2_split : prog2 = pre2 ++ SSet2 12 13 (FStr 1) (FStr neg_y) :: SSet 14 (FBuf 18) :: SEccMul 12 :: post2.
Proof. reflexivity. Qed.
Definition l2_pre : list (list int) := Eval vm_compute in match frun sam_TL sam_AL pre2 rec_out with Some L => L | None => [] end.
Lemma l2_pre_ok : frun sam_TL sam_AL pre2 rec_out = Some l2_pre. Proof. vm_compute. reflexivity. Qed.
Lemma l2_18 : rec_same (nth 18 l2_pre zero_r) 21147276235438245106538451154094232271190030085887596632745409482267565260819 = true.
Proof. vm_compute. reflexivity. Qed.
Definition l2_post : list (list int) := Eval vm_compute in match prun post2 l2_pre sam_ord with Some (L, _) => L | None => [] end.
Definition t2_post : list ((Z * Z) * Z) := Eval vm_compute in match prun post2 l2_pre sam_ord with Some (_, t) => t | None => [] end.
Lemma l2_post_ok : prun post2 l2_pre sam_ord = Some (l2_post, t2_post). Proof. vm_compute. reflexivity. Qed.
Definition l3_post : list (list int) := Eval vm_compute in match prun prog3 l2_post t2_post with Some (L, _) => L | None => [] end.
Lemma l3_post_ok : prun prog3 l2_post t2_post = Some (l3_post, []). Proof. vm_compute. reflexivity. Qed.
(** the accumulator after the second step *)
Definition n_mid : nat := Eval vm_compute in (length sam_ord - length t2_post)%nat.
Definition sam_mid : lpt := Eval vm_compute in match schk sam_acc (firstn n_mid sam_sum) with Some P => P | None => sam_acc end.
Lemma sam_mid_ok : schk sam_acc (firstn n_mid sam_sum) = Some sam_mid. Proof. vm_compute. reflexivity. Qed.
Lemma sam_mid_val : topt sam_mid = Aff (nth 2 recorded_step2 0) (nth 3 recorded_step2 0). Proof. vm_compute. reflexivity. Qed.
Lemma t2_split : sam_ord = firstn n_mid sam_ord ++ t2_post. Proof. vm_compute. reflexivity. Qed.
Lemma Forall2_firstn {X Y} (R : X -> Y -> Prop) n : forall l k, Forall2 R l k -> Forall2 R (firstn n l) (firstn n k).
Proof. induction n as [|n IH]; intros l k H; [constructor|]. destruct H; cbn [firstn]; constructor; [assumption | apply IH; assumption]. Qed.
Lemma mid_sum : msm_from (pmul 21147276235438245106538451154094232271190030085887596632745409482267565260819 (Aff 1 (p_mod - 2))) (firstn n_mid sam_ord) =
  Aff (nth 2 recorded_step2 0) (nth 3 recorded_step2 0).
Proof.
  pose proof (nth_error_In _ _ sam_head) as Hi.
  destruct (jprods_ok _ sam_mul_ok _ _ _ Hi) as [_ E]. rewrite sam_neg in E.
  change 21147276235438245106538451154094232271190030085887596632745409482267565260819 with (Zpos (Z.to_pos 21147276235438245106538451154094232271190030085887596632745409482267565260819)). rewrite E.
  destruct (fitb_ok _ sam_acc_fit) as (G & _ & _).
  assert (P : jprods (tl sam_mul) = true).
  { pose proof sam_mul_ok as P. revert P. generalize sam_mul. intros [|m l] P; [exact P|].
    unfold jprods in P. cbn [forallb] in P. apply andb_true_iff in P. exact (proj2 P). }
  pose proof (jsame_ok _ P _ sam_same) as Q. rewrite sam_term in Q.
  destruct (schk_ok _ _ (Forall2_firstn _ n_mid _ _ Q) _ _ G sam_mid_ok) as [_ S2]. rewrite sam_mid_val in S2. exact S2.
Qed.
Lemma msm_app a : forall acc b, msm_from acc (a ++ b) = msm_from (msm_from acc a) b.
Proof. induction a as [|[P k] a IH]; intros acc b; cbn [app msm_from]; [reflexivity | apply IH]. Qed.

Lemma rel_step1 : rel recorded_step1 rec_out.
Proof.
  destruct (frun_ok sam_TL sam_AL sam_O rec_tail empty_cs rec_B3 rec_L rec_out rec_rel rec_run) as (B' & _ & (L1 & L2 & R) & FR).
  assert (E : B' = recorded_step1); [|rewrite <- E; exact (conj L1 (conj L2 R))].
  apply (nth_ext _ _ 0 0); [rewrite L1; reflexivity|]. intros i Hi. rewrite L1 in Hi.
  pose proof rec_all_ok as Q. unfold rec_all in Q. rewrite forallb_forall in Q. specialize (Q i ltac:(apply in_seq; lia)). cbv beta in Q.
  pose proof rec_frame as F. rewrite forallb_forall in F. specialize (F i ltac:(apply in_seq; lia)). cbv beta in F.
  destruct (hidden i) eqn:Hd; cbn [orb negb] in Q, F.
  - rewrite (FR i Hd). apply Z.eqb_eq, F.
  - destruct (R i Hd) as [Rg V]. exact (rec_same_ok _ _ _ Q Rg V).
Qed.
Lemma four (B : list Z) a b c d : length B = 43%nat -> nth 10 B 0 = a -> nth 11 B 0 = b -> nth 12 B 0 = c -> nth 13 B 0 = d ->
  firstn 4 (skipn 10 B) = [a; b; c; d].
Proof.
  intros L <- <- <- <-. do 14 (destruct B as [|? B]; [discriminate L|]). reflexivity.
Qed.
Lemma enc_aff a b X Y : encodes a b (Aff X Y) -> a = X /\ b = Y.
Proof. intros [(_ & _ & E)|(_ & _ & _ & E)]; [discriminate E|]. injection E as <- <-. split; reflexivity. Qed.

Lemma c67 O s : degen_sane O -> exists b2 b3,
  VerifyProof2 O Test (map VBig sample_proof) (map VBig sample_aux) (map VBig recorded_step1) s = Done ((map VBig b2, None), s) /\
  firstn 4 (skipn 10 b2) = recorded_step2 /\
  VerifyProof3 O Test (map VBig sample_proof) (map VBig sample_aux) (map VBig b2) s = Done ((map VBig b3, None), s) /\
  firstn 4 (skipn 10 b3) = recorded_step3.
Proof.
  intros HD. destruct sam_sums as (S1 & S2 & S3). cbv zeta in *.
  destruct (frun_ok sam_TL sam_AL O pre2 s _ _ _ rel_step1 l2_pre_ok) as (B1 & RUN1 & R1 & FR1). rewrite sam_TL_ok, sam_AL_ok in RUN1.
  pose proof R1 as (L1 & L1' & R1').
  destruct (R1' 18%nat eq_refl) as [Rg V]. pose proof (rec_same_ok _ _ _ l2_18 Rg V) as E18.
  assert (VN : valid_pt (Aff 1 neg_y) = true) by (vm_compute; reflexivity).
  change (p_mod - 2) with neg_y in *. 
  set (k := 21147276235438245106538451154094232271190030085887596632745409482267565260819) in *.
  set (acc := pmul k (Aff 1 neg_y)) in *.
  remember (lset (lset B1 12 1) 13 neg_y) as Ba eqn:EBa. remember (lset Ba 14 k) as Bb eqn:EBb.
  remember (lset (lset Bb 12 (fst (coords0 acc))) 13 (snd (coords0 acc))) as Bc eqn:EBc.
  assert (La : length Ba = 43%nat) by (rewrite EBa, !lset_length; exact L1).
  assert (Na : forall j, nth j Ba 0 = if Nat.eqb j 13 then neg_y else if Nat.eqb j 12 then 1 else nth j B1 0).
  { intros j. rewrite EBa,  lset_nth by (rewrite lset_length; lia). rewrite lset_nth by lia. reflexivity. }
  assert (Lb : length Bb = 43%nat) by (rewrite EBb, lset_length; exact La).
  assert (Nb : forall j, nth j Bb 0 = if Nat.eqb j 14 then k else nth j Ba 0) by (intros j; rewrite EBb; apply lset_nth; lia).
  assert (Lc : length Bc = 43%nat) by (rewrite EBc, !lset_length; exact Lb).
  assert (Nc : forall j, nth j Bc 0 = if Nat.eqb j 13 then snd (coords0 acc) else if Nat.eqb j 12 then fst (coords0 acc) else nth j Bb 0).
  { intros j. rewrite EBc,  lset_nth by (rewrite lset_length; lia). rewrite lset_nth by lia. reflexivity. }
  assert (Rc : rel Bc l2_pre).
  { split; [exact Lc|]. split; [exact L1'|]. intros j Hj. rewrite Nc, Nb, Na.
    repeat match goal with |- context [Nat.eqb j ?n] => destruct (Nat.eqb_spec j n) as [->|]; [discriminate Hj|] end. apply R1', Hj. }
  assert (EC : encodes (nth 12 Bc 0) (nth 13 Bc 0) acc).
  { rewrite (Nc 12%nat), (Nc 13%nat). cbn [Nat.eqb]. apply fits_enc; [apply pmul_valid; exact VN | exact S1]. }
  assert (K1 : forall i, hid4 i = true -> nth i Bc 0 = nth i recorded_step1 0).
  { intros j Hj. rewrite Nc, Nb, Na. unfold hid4 in Hj. rewrite !orb_true_iff, !Nat.eqb_eq in Hj.
    destruct Hj as [[[->| ->]| ->]| ->]; cbn [Nat.eqb]; apply FR1; reflexivity. }
  destruct (prun_ok O s HD post2 Bc l2_pre sam_ord l2_post t2_post acc l2_post_ok Rc (K1 0%nat eq_refl) (K1 1%nat eq_refl) EC S2)
    as (B2 & us & U & RUN2 & R2 & F2 & E2 & S2').
  assert (EU : us = firstn n_mid sam_ord).
  { apply (app_inv_tail t2_post). rewrite <- U. exact t2_split. }
  destruct (prun_ok O s HD prog3 B2 l2_post t2_post l3_post [] (msm_from acc us) l3_post_ok R2) as (B3 & vs & V' & RUN3 & R3 & F3 & E3 & _).
  { rewrite (F2 0%nat eq_refl). exact (K1 0%nat eq_refl). }
  { rewrite (F2 1%nat eq_refl). exact (K1 1%nat eq_refl). }
  { exact E2. }
  { exact S2'. }
  rewrite app_nil_r in V'. subst vs. rewrite <- msm_app, <- U, S3 in E3.
  pose proof mid_sum as M. fold k in M. change (p_mod - 2) with neg_y in M. fold acc in M. rewrite <- EU in M. rewrite M in E2.
  apply enc_aff in E2. apply enc_aff in E3. destruct E2 as [E2a E2b], E3 as [E3a E3b].
  exists B2, B3. split; [|split; [|split]].
  - unfold VerifyProof2. rewrite prog2_split. refine (eq_trans (run_app O _ _ pre2 _ _ _ _ _ RUN1) _).
    pose proof (set2_run O sample_proof sample_aux 12 13 (FStr 1) (FStr neg_y) B1 s eq_refl eq_refl eq_refl eq_refl eq_refl eq_refl Logic.I Logic.I
      ltac:(lia) ltac:(lia)) as T1. cbn [ze] in T1. rewrite <- EBa in T1.
    refine (eq_trans (prog_run O sample_proof sample_aux _ _ _ s _ T1) _).
    pose proof (set_run O sample_proof sample_aux 14 (FBuf 18) Ba s eq_refl eq_refl ltac:(rewrite La; reflexivity) Logic.I ltac:(lia)) as T2.
    assert (ZE : ze sample_proof sample_aux Ba (FBuf 18) = k) by (change (nth 18 Ba 0 = k); rewrite Na; exact E18).
    rewrite ZE in T2. rewrite <- EBb in T2. refine (eq_trans (prog_run O sample_proof sample_aux _ _ _ s _ T2) _).
    assert (SM : smul O (nth 12 Bb 0) (nth (12 + 1) Bb 0) (nth (12 + 2) Bb 0) (coords0 acc)).
    { rewrite !Nb, !Na. cbn [Nat.eqb Nat.add]. apply (smul_iff O _ _ k _ HD VN); [split; [discriminate | reflexivity]|]. exact (conj S1 eq_refl). }
    pose proof (P_Comp.mul_run O 12 Bb s _ ltac:(lia) SM) as T3.
    change (12 + 1)%nat with 13%nat in T3. rewrite <- EBc in T3.
    refine (eq_trans (prog_run O sample_proof sample_aux (SEccMul 12) _ _ s _ T3) _). exact RUN2.
  - apply four; [exact (proj1 R2) | | | exact E2a | exact E2b].
    + rewrite (F2 10%nat eq_refl), (K1 10%nat eq_refl). reflexivity.
    + rewrite (F2 11%nat eq_refl), (K1 11%nat eq_refl). reflexivity.
  - exact RUN3.
  - apply four; [exact (proj1 R3) | | | exact E3a | exact E3b].
    + rewrite (F3 10%nat eq_refl), (F2 10%nat eq_refl), (K1 10%nat eq_refl). reflexivity.
    + rewrite (F3 11%nat eq_refl), (F2 11%nat eq_refl), (K1 11%nat eq_refl). reflexivity.
Qed.
