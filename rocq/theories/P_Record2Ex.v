(** The second and third step of the verifier on the sample proof. *)
From Coq Require Import ZArith String Bool List Lia Arith Uint63.
From Verif Require Import Params Go Curve Api FrOps Lib Steps Agg NumThy FField FpField P_Fr SpecCurve SpecHash SpecMisc SpecVerify SpecSha
  SpecSample SpecRecord P_Curve P_Misc P_Msm P_Hash P_Trans P_Dom P_Step P_Exec P_Eval P_Verify P_VSpec P_Acc P_Comp P_Accept P_Honest P_Complete P_PipeOk P_Limb
  P_RunEx P_Mont P_Jac P_Refl P_SampleEx P_RecordEx.
Import ListNotations.
Open Scope Z_scope.
Local Opaque pmul pmul_pos padd.

(** ** Programs with point operations: the terms of the sum are consumed one by one *)
Definition point_chk (e1 e2 : fexpr) (P : Z * Z) : bool :=
  match e1, e2 with
  | FTr i, FTr j => Nat.eqb j (2 * (i / 2) + 1) && Nat.eqb i (2 * (i / 2)) && existsb (Nat.eqb (i / 2)) commitments &&
      (j <? length sample_proof)%nat && (nth i sample_proof 0 =? fst P) && (nth j sample_proof 0 =? snd P)
  | FStr z, FStr w => (z =? fst P) && (w =? snd P) && valid_pt (Aff z w)
  | FBuf 0, FBuf 1 => (sam_ix =? fst P) && (sam_iy =? snd P)
  | _, _ => false
  end.
Fixpoint prun (p : list stmt) (L : list (list int)) (ts : list ((Z * Z) * Z)) : option (list (list int) * list ((Z * Z) * Z)) :=
  match p with
  | [] => Some (L, ts)
  | SSet i e :: t =>
      if wf e && not_int e && inb sample_proof sample_aux 43 e && negb (hidden i) && (i <? 43)%nat then
        match fev sam_TL sam_AL L e with Some l => prun t (lset L i l) ts | None => None end
      else None
  | SSet2 14 15 e1 e2 :: SSet 16 e :: SEccMulAdd 12 :: t =>
      match ts with
      | (P, k) :: ts' =>
          if wf e && not_int e && inb sample_proof sample_aux 43 e && point_chk e1 e2 P then
            match fev sam_TL sam_AL L e with Some l => if rec_same l k then prun t L ts' else None | None => None end
          else None
      | [] => None
      end
  | _ => None
  end.

Lemma sam_ic_valid : valid_pt (Aff sam_ix sam_iy) = true.
Proof. vm_compute. reflexivity. Qed.
Lemma point_chk_ok B e1 e2 P : point_chk e1 e2 P = true -> length B = 43%nat -> nth 0 B 0 = sam_ix -> nth 1 B 0 = sam_iy ->
  canon_pt P /\ ze sample_proof sample_aux B e1 = fst P /\ ze sample_proof sample_aux B e2 = snd P /\
  wf e1 = true /\ wf e2 = true /\ not_int e1 = true /\ not_int e2 = true /\ inb sample_proof sample_aux (length B) e1 = true /\
  inb sample_proof sample_aux (length B) e2 = true /\ zok sample_proof sample_aux B e1 /\ zok sample_proof sample_aux B e2.
Proof.
  intros H LB I0 I1. unfold canon_pt.
  destruct e1 as [[|i]|i|i|z|z|a1 a2|a1 a2|a1|a1 a2 a3|a1 a2], e2 as [[|[|j]]|j|j|w|w|c1 c2|c1 c2|c1|c1 c2 c3|c1 c2]; try discriminate H; cbn [point_chk] in H.
  - apply andb_true_iff in H. rewrite !Z.eqb_eq in H. destruct H as [<- <-]. split; [exact sam_ic_valid|].
    split; [exact I0|]. split; [exact I1|]. rewrite LB. repeat split.
  - rewrite !andb_true_iff in H. destruct H as (((((H1 & H2) & H3) & H4) & H5) & H6). apply Z.eqb_eq in H5, H6.
    apply Nat.eqb_eq in H1, H2. apply Nat.ltb_lt in H4.
    split.
    + rewrite <- H5, <- H6. apply existsb_exists in H3. destruct H3 as (c & Hc & E). apply Nat.eqb_eq in E.
      pose proof (sam_valid c Hc) as V. rewrite <- E, <- H1, <- H2 in V. exact V.
    + cbn [ze wf not_int inb zok]. unfold zn. assert (i < length sample_proof)%nat by lia.
      rewrite (proj2 (Nat.ltb_lt _ _) H), (proj2 (Nat.ltb_lt _ _) H4). auto 12.
  - rewrite !andb_true_iff, !Z.eqb_eq in H. destruct H as ((<- & <-) & V). split; [exact V|]. cbn. auto 12.
Qed.

Definition hid4 (i : nat) : bool := Nat.eqb i 0 || Nat.eqb i 1 || Nat.eqb i 10 || Nat.eqb i 11.
Lemma prun_ok O s : degen_sane O -> forall p B L ts L' ts' acc, prun p L ts = Some (L', ts') -> rel B L -> nth 0 B 0 = sam_ix -> nth 1 B 0 = sam_iy ->
  encodes (nth 12 B 0) (nth 13 B 0) acc -> sums_fit acc ts ->
  exists B' us, ts = us ++ ts' /\
    run_prog O Test (map VBig sample_proof) (map VBig sample_aux) (map VBig B) p s = Done ((map VBig B', None), s) /\ rel B' L' /\
    (forall i, hid4 i = true -> nth i B' 0 = nth i B 0) /\
    encodes (nth 12 B' 0) (nth 13 B' 0) (msm_from acc us) /\ sums_fit (msm_from acc us) ts'.
Proof.
  intros HD p. remember (length p) as n eqn:En. assert (Hn : (length p <= n)%nat) by lia. clear En. revert p Hn.
  induction n as [|n IH]; intros p Hn B L ts L' ts' acc H R I0 I1 HA HS.
  - destruct p; [|cbn [length] in Hn; lia]. cbn [prun] in H. injection H as <- <-. exists B, []. split; [reflexivity|]. split; [reflexivity|]. split; [exact R|]. split; [reflexivity|]. split; assumption.
  - destruct p as [|st t].
    + cbn [prun] in H. injection H as <- <-. exists B, []. split; [reflexivity|]. split; [reflexivity|]. split; [exact R|]. split; [reflexivity|]. split; assumption.
    + cbn [length] in Hn. destruct st as [i e|i j e1 e2|i|i].
      * cbn [prun] in H.
        destruct (wf e && not_int e && inb sample_proof sample_aux 43 e && negb (hidden i) && (i <? 43)%nat) eqn:C; [|discriminate].
        rewrite !andb_true_iff in C. destruct C as ((((W & N) & I) & Hi) & Li). apply negb_true_iff in Hi. apply Nat.ltb_lt in Li.
        destruct (fev sam_TL sam_AL L e) as [l|] eqn:E; [|discriminate].
        destruct (fev_ok sam_TL sam_AL e B L l R W E) as (Ok & Rg & V). rewrite sam_TL_ok, sam_AL_ok in Ok, Rg, V.
        destruct R as (L1 & L2 & R).
        assert (R' : rel (lset B i (ze sample_proof sample_aux B e)) (lset L i l)).
        { split; [rewrite lset_length; exact L1|]. split; [rewrite lset_length; exact L2|]. intros j Hj.
          rewrite !lset_nth by lia. destruct (Nat.eqb_spec j i); [split; assumption | apply R, Hj]. }
        assert (KEEP : forall j, hidden j = true -> nth j (lset B i (ze sample_proof sample_aux B e)) 0 = nth j B 0).
        { intros j Hj. rewrite lset_nth by lia. destruct (Nat.eqb_spec j i) as [->|]; [congruence | reflexivity]. }
        destruct (IH t ltac:(lia) _ _ _ _ _ acc H R') as (B' & us & E1 & RUN & R'' & FR & HE & HF).
        -- rewrite KEEP by reflexivity. exact I0.
        -- rewrite KEEP by reflexivity. exact I1.
        -- rewrite !KEEP by reflexivity. exact HA.
        -- exact HS.
        -- exists B', us. split; [exact E1|]. split.
           { rewrite (prog_run O sample_proof sample_aux _ t _ s _ (set_run O sample_proof sample_aux i e B s W N ltac:(rewrite L1; exact I) Ok ltac:(lia))). exact RUN. }
           split; [exact R''|]. split; [|split; assumption]. intros j Hj. rewrite FR by exact Hj. apply KEEP.
           unfold hid4 in Hj. rewrite !orb_true_iff, !Nat.eqb_eq in Hj. destruct Hj as [[[->| ->]| ->]| ->]; reflexivity.
      * cbn [prun] in H.
        do 14 (destruct i as [|i]; [discriminate H|]). destruct i as [|i]; [|discriminate H].
        do 15 (destruct j as [|j]; [discriminate H|]). destruct j as [|j]; [|discriminate H].
        destruct t as [|[i e| | |] t]; try discriminate H.
        do 16 (destruct i as [|i]; [discriminate H|]). destruct i as [|i]; [|discriminate H].
        destruct t as [|[| |i|i] t]; try discriminate H.
        do 12 (destruct i as [|i]; [discriminate H|]). destruct i as [|i]; [|discriminate H].
        destruct ts as [|[P k] ts0]; [discriminate H|].
        destruct (wf e && not_int e && inb sample_proof sample_aux 43 e && point_chk e1 e2 P) eqn:C; [|discriminate].
        rewrite !andb_true_iff in C. destruct C as (((W & N) & I) & PC).
        destruct (fev sam_TL sam_AL L e) as [l|] eqn:E; [|discriminate]. destruct (rec_same l k) eqn:SM; [|discriminate].
        pose proof (proj1 R) as L1.
        destruct (point_chk_ok B e1 e2 P PC L1 I0 I1) as (CP & Z1 & Z2 & W1 & W2 & N1 & N2 & B1 & B2 & K1 & K2).
        set (Ba := lset (lset B 14 (fst P)) 15 (snd P)).
        assert (La : length Ba = 43%nat) by (unfold Ba; rewrite !lset_length; exact L1).
        assert (Na : forall j, nth j Ba 0 = if Nat.eqb j 15 then snd P else if Nat.eqb j 14 then fst P else nth j B 0).
        { intros j. unfold Ba. rewrite lset_nth by (rewrite lset_length; lia). rewrite lset_nth by lia. reflexivity. }
        assert (Ra : rel Ba L).
        { destruct R as (_ & L2 & R). split; [exact La|]. split; [exact L2|]. intros j Hj. rewrite Na.
          destruct (Nat.eqb_spec j 15) as [->|]; [discriminate Hj|]. destruct (Nat.eqb_spec j 14) as [->|]; [discriminate Hj|]. apply R, Hj. }
        destruct (fev_ok sam_TL sam_AL e Ba L l Ra W E) as (Ok & Rg & V). rewrite sam_TL_ok, sam_AL_ok in Ok, Rg, V.
        pose proof (rec_same_ok _ _ _ SM Rg V) as Ek.
        cbn [sums_fit fst snd] in HS. cbv zeta in HS. destruct HS as (F1 & ND & F2 & HS).
        pose proof (of_canon P CP) as OC. rewrite mp_canon in OC by exact CP. rewrite OC in F1, ND, F2, HS.
        pose proof (encodes_valid _ _ _ HA) as VA.
        pose proof (fits_enc _ (pmul_valid k _ CP) F1) as EM.
        set (Q := pmul k (Aff (fst P) (snd P))) in *.
        set (Bb := lset Ba 16 k).
        assert (Lb : length Bb = 43%nat) by (unfold Bb; rewrite lset_length; exact La).
        assert (Nb : forall j, nth j Bb 0 = if Nat.eqb j 16 then k else nth j Ba 0) by (intros j; unfold Bb; apply lset_nth; lia).
        assert (SM1 : smul O (nth (12 + 2) Bb 0) (nth (12 + 3) Bb 0) (nth (12 + 4) Bb 0) (coords0 Q)).
        { rewrite !Nb, !Na. cbn [Nat.eqb Nat.add]. apply (smul_iff O _ _ k _ HD CP); [rewrite <- Ek; exact Rg|]. exact (conj F1 eq_refl). }
        assert (SA1 : sadd (nth 12 Bb 0, nth (12 + 1) Bb 0) (coords0 Q) (coords0 (padd acc Q))).
        { rewrite !Nb, !Na. cbn [Nat.eqb Nat.add]. apply (sadd_iff _ _ _ acc Q); [exact HA | exact EM|]. auto. }
        set (Bc := lset (lset (lset (lset Bb 14 (fst (coords0 Q))) 15 (snd (coords0 Q))) 12 (fst (coords0 (padd acc Q)))) 13 (snd (coords0 (padd acc Q)))).
        assert (Nc : forall j, nth j Bc 0 = if Nat.eqb j 13 then snd (coords0 (padd acc Q)) else if Nat.eqb j 12 then fst (coords0 (padd acc Q)) else
          if Nat.eqb j 15 then snd (coords0 Q) else if Nat.eqb j 14 then fst (coords0 Q) else nth j Bb 0).
        { intros j. unfold Bc. rewrite lset_nth by (rewrite !lset_length; lia). rewrite lset_nth by (rewrite !lset_length; lia).
          rewrite lset_nth by (rewrite !lset_length; lia). rewrite lset_nth by lia. reflexivity. }
        assert (Lc : length Bc = 43%nat) by (unfold Bc; rewrite !lset_length; exact Lb).
        assert (Rc : rel Bc L).
        { destruct R as (_ & L2 & R). split; [exact Lc|]. split; [exact L2|]. intros j Hj. rewrite Nc, Nb, Na.
          repeat match goal with |- context [Nat.eqb j ?n] => destruct (Nat.eqb_spec j n) as [->|]; [discriminate Hj|] end. apply R, Hj. }
        destruct (IH t ltac:(cbn [length] in Hn; lia) Bc _ _ _ _ (padd acc Q) H Rc) as (B' & us & E1 & RUN & R'' & FR & HE & HF).
        -- rewrite Nc, Nb, Na. exact I0.
        -- rewrite Nc, Nb, Na. exact I1.
        -- rewrite !Nc. cbn [Nat.eqb]. apply fits_enc; [|exact F2]. apply padd_valid; [exact VA | apply pmul_valid, CP].
        -- exact HS.
        -- exists B', ((P, k) :: us). split; [cbn [app]; rewrite E1; reflexivity|]. split.
           { pose proof (set2_run O sample_proof sample_aux 14 15 e1 e2 B s W1 N1 W2 N2 B1 B2 K1 K2 ltac:(lia) ltac:(lia)) as S1.
             rewrite Z1, Z2 in S1. rewrite (prog_run O sample_proof sample_aux _ _ _ s _ S1). fold Ba.
             pose proof (set_run O sample_proof sample_aux 16 e Ba s W N ltac:(rewrite La; exact I) Ok ltac:(lia)) as S2.
             rewrite Ek in S2. fold Bb in S2. rewrite (prog_run O sample_proof sample_aux _ _ _ s _ S2).
             pose proof (mul_add_run O 12 Bb s _ _ ltac:(lia) SM1 SA1) as S3.
             rewrite (prog_run O sample_proof sample_aux (SEccMulAdd 12) _ _ s _ S3). exact RUN. }
           split; [exact R''|]. split.
           { intros j Hj. rewrite FR by exact Hj. rewrite Nc, Nb, Na.
             unfold hid4 in Hj. rewrite !orb_true_iff, !Nat.eqb_eq in Hj. destruct Hj as [[[->| ->]| ->]| ->]; reflexivity. }
           assert (EM2 : msm_from acc ((P, k) :: us) = msm_from (padd acc Q) us).
           { cbn [msm_from]. rewrite OC. reflexivity. }
           rewrite EM2. split; assumption.
      * discriminate H.
      * discriminate H.
Qed.
