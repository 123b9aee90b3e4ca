(** The first step of the verifier on the sample proof, on machine integers. *)
From Coq Require Import ZArith String Bool List Lia Arith Ring Field Uint63.
From Verif Require Import Params Go Curve Api FrOps Lib Steps Agg NumThy FField FpField P_Fr SpecCurve SpecHash SpecMisc SpecVerify SpecSha
  SpecSample SpecRecord P_Curve P_Misc P_Msm P_Hash P_Trans P_Dom P_Step P_Exec P_Eval P_Verify P_VSpec P_Acc P_Comp P_Accept P_Honest P_Complete P_PipeOk P_Limb
  P_RunEx P_Mont P_Jac P_Refl P_SampleEx.
Import ListNotations.
Open Scope Z_scope.

(** ** Evaluation of straight-line programs on Montgomery residues *)
Definition rcon (l : list int) : option (list int) := if elemb l && ltr l then Some (mr l r2r) else None.
Lemma rcon_ok l l' : rcon l = Some l' -> 0 <= lval l < r_mod /\ rr 2 l' (fc (lval l)).
Proof.
  unfold rcon. destruct (elemb l && ltr l) eqn:C; [|discriminate]. intros H. apply andb_true_iff in C. destruct C as [C1 C2].
  pose proof (ev_ok (EC l) l') as K. cbn [ev den] in K. rewrite C1, C2 in K. split; [|exact (K H)].
  apply elemb_ok in C1. split; [apply lval_nonneg | exact (ltr_ok l C1 C2)].
Qed.
Fixpoint mpow (l : list int) (k : positive) : list int :=
  match k with
  | xH => l
  | xO k' => let y := mpow l k' in mr y y
  | xI k' => let y := mpow l k' in mr (mr y y) l
  end.
Lemma mr2 a b x y : rr 2 a x -> rr 2 b y -> rr 2 (mr a b) (x * y)%fr.
Proof. intros A B. exact (mr_ok 2 2 a b x y A B ltac:(lia) ltac:(lia) ltac:(lia)). Qed.
Lemma fc_mul a b : fc (a * b) = (fc a * fc b)%fr. Proof. apply phi_mul. Qed.
Lemma mpow_ok l z k : rr 2 l (fc z) -> rr 2 (mpow l k) (fc (z ^ Zpos k)).
Proof.
  intros H. induction k as [k IH|k IH|]; cbn [mpow].
  - assert (E : z ^ Zpos k~1 = z ^ Zpos k * z ^ Zpos k * z).
    { rewrite Pos2Z.inj_xI. rewrite Z.pow_add_r, Z.pow_1_r by lia. rewrite (Z.mul_comm 2), Z.pow_mul_r by lia. ring. }
    rewrite E, !fc_mul. apply mr2; [apply mr2; exact IH | exact H].
  - assert (E : z ^ Zpos k~0 = z ^ Zpos k * z ^ Zpos k).
    { rewrite Pos2Z.inj_xO, (Z.mul_comm 2), Z.pow_mul_r by lia. ring. }
    rewrite E, fc_mul. apply mr2; exact IH.
  - rewrite Z.pow_1_r. exact H.
Qed.

Section Run.
  Variables TL AL : list (list int).
  Notation T := (map lval TL).
  Notation A := (map lval AL).
  Definition hidden (i : nat) : bool := scratch i || (i <? 2)%nat.
  Definition rel (B : list Z) (L : list (list int)) : Prop := length B = 43%nat /\ length L = 43%nat /\
    forall i, hidden i = false -> 0 <= nth i B 0 < r_mod /\ rr 2 (nth i L zero_r) (fc (nth i B 0)).

  Fixpoint fev (L : list (list int)) (e : fexpr) : option (list int) :=
    match e with
    | FBuf i => if hidden i then None else if (i <? 43)%nat then Some (nth i L zero_r) else None
    | FTr i => match nth_error TL i with Some l => rcon l | None => None end
    | FAux i => match nth_error AL i with Some l => rcon l | None => None end
    | FStr z => let l := limbs 9 z in if lval l =? z then rcon l else None
    | FInt z => let l := limbs 9 z in if lval l =? z then rcon l else None
    | FMul a b => match fev L a, fev L b with Some x, Some y => Some (mr x y) | _, _ => None end
    | FAdd a b => match fev L a, fev L b with Some x, Some y => Some (mr (lad x y) one_r) | _, _ => None end
    | FNeg a => match fev L a with Some x => Some (mr (lsu kr2 zero_r x) one_r) | None => None end
    | FDiv a b c => match fev L a, fev L b, fev L c with
        Some x, Some y, Some z => if eqmod rl (mr y z) x then Some z else None | _, _, _ => None end
    | FPow a k => match fev L a, k with Some x, FStr (Zpos n) => Some (mpow x n) | _, _ => None end
    end.
  Lemma at_ok Q i l l' : nth_error Q i = Some l -> rcon l = Some l' ->
    0 <= zn (map lval Q) i < r_mod /\ rr 2 l' (fc (zn (map lval Q) i)).
  Proof.
    intros N R. unfold zn. assert (E : nth i (map lval Q) 0 = lval l).
    { apply nth_error_nth. rewrite nth_error_map, N. reflexivity. }
    rewrite E. exact (rcon_ok l l' R).
  Qed.
  Lemma fc_mod a : fc (a mod r_mod) = fc a. Proof. apply phi_mod. Qed.
  Lemma rng a : 0 <= a mod r_mod < r_mod. Proof. apply Z.mod_pos_bound. reflexivity. Qed.
  Lemma fev_ok e : forall B L l, rel B L -> wf e = true -> fev L e = Some l ->
    zok T A B e /\ 0 <= ze T A B e < r_mod /\ rr 2 l (fc (ze T A B e)).
  Proof.
    induction e as [i|i|i|z|z|a IHa b IHb|a IHa b IHb|a IHa|a IHa b IHb c IHc|a IHa k IHk]; intros B L l (L1 & L2 & R) W; cbn [fev wf zok ze] in *.
    - destruct (hidden i) eqn:Hi; [discriminate|]. destruct (i <? 43)%nat; [|discriminate]. intros H. injection H as <-. split; [exact Logic.I|]. apply R, Hi.
    - destruct (nth_error TL i) as [x|] eqn:N; [|discriminate]. intros H. split; [exact Logic.I|]. exact (at_ok TL i x l N H).
    - destruct (nth_error AL i) as [x|] eqn:N; [|discriminate]. intros H. split; [exact Logic.I|]. exact (at_ok AL i x l N H).
    - destruct (lval (limbs 9 z) =? z) eqn:E; [|discriminate]. apply Z.eqb_eq in E. intros H. apply rcon_ok in H. rewrite E in H. split; [exact Logic.I | exact H].
    - destruct (lval (limbs 9 z) =? z) eqn:E; [|discriminate]. apply Z.eqb_eq in E. intros H. apply rcon_ok in H. rewrite E in H. split; [exact Logic.I|].
      split; [apply rng|]. rewrite fc_mod. exact (proj2 H).
    - apply andb_true_iff in W. destruct W as [Wa Wb].
      destruct (fev L a) as [x|] eqn:Ea; [|discriminate]. destruct (fev L b) as [y|] eqn:Eb; [|discriminate]. intros H. injection H as <-.
      destruct (IHa B L x (conj L1 (conj L2 R)) Wa Ea) as (Oa & Ra & Va). destruct (IHb B L y (conj L1 (conj L2 R)) Wb Eb) as (Ob & Rb & Vb).
      split; [auto|]. split; [apply rng|]. rewrite fc_mod, fc_mul. apply mr2; assumption.
    - apply andb_true_iff in W. destruct W as [Wa Wb].
      destruct (fev L a) as [x|] eqn:Ea; [|discriminate]. destruct (fev L b) as [y|] eqn:Eb; [|discriminate]. intros H. injection H as <-.
      destruct (IHa B L x (conj L1 (conj L2 R)) Wa Ea) as (Oa & Ra & Va). destruct (IHb B L y (conj L1 (conj L2 R)) Wb Eb) as (Ob & Rb & Vb).
      split; [auto|]. split; [apply rng|]. rewrite fc_mod. rewrite phi_add.
      apply (red_ok 4); [|lia]. exact (lad_ok r_mod r_gt1 prime_r r_small x y 2 2 _ _ Va Vb ltac:(lia)).
    - destruct (fev L a) as [x|] eqn:Ea; [|discriminate]. intros H. injection H as <-.
      destruct (IHa B L x (conj L1 (conj L2 R)) W Ea) as (Oa & Ra & Va).
      split; [auto|]. split; [apply rng|]. rewrite fc_mod. replace (- ze T A B a) with (0 - ze T A B a) by ring. rewrite phi_sub.
      apply (red_ok 5); [|lia].
      exact (lsu_ok r_mod r_gt1 prime_r ri_ r_small kr2 zero_r x 2 2 _ _ zero_r_ok Va kr2_ok ltac:(lia)).
    - apply andb_true_iff in W. destruct W as [W Wc]. apply andb_true_iff in W. destruct W as [Wa Wb].
      destruct (fev L a) as [x|] eqn:Ea; [|discriminate]. destruct (fev L b) as [y|] eqn:Eb; [|discriminate]. destruct (fev L c) as [z|] eqn:Ec; [|discriminate].
      destruct (eqmod rl (mr y z) x) eqn:EQ; [|discriminate]. intros H. injection H as <-.
      destruct (IHa B L x (conj L1 (conj L2 R)) Wa Ea) as (Oa & Ra & Va). destruct (IHb B L y (conj L1 (conj L2 R)) Wb Eb) as (Ob & Rb & Vb).
      destruct (IHc B L z (conj L1 (conj L2 R)) Wc Ec) as (Oc & Rc & Vc).
      pose proof (eqmod_ok r_mod r_gt1 prime_r rl rl_elem rl_val Rr_n0 2 2 _ _ _ _ (mr2 _ _ _ _ Vb Vc) Va EQ) as E.
      rewrite <- fc_mul in E. apply phi_eq_iff in E. rewrite (Z.mod_small (ze T A B a)) in E by exact Ra. auto 10.
    - apply andb_true_iff in W. destruct W as [Wa Wk]. destruct (fev L a) as [x|] eqn:Ea; [|discriminate].
      destruct k as [| | |[|n|]| | | | | |]; try discriminate. intros H. injection H as <-.
      destruct (IHa B L x (conj L1 (conj L2 R)) Wa Ea) as (Oa & Ra & Va). cbn [zok ze].
      split; [auto|]. split; [apply rng|]. rewrite fc_mod. apply mpow_ok, Va.
  Qed.

  Fixpoint frun (p : list stmt) (L : list (list int)) : option (list (list int)) :=
    match p with
    | [] => Some L
    | SSet i e :: t =>
        if wf e && not_int e && inb T A 43 e && negb (hidden i) && (i <? 43)%nat then
          match fev L e with Some l => frun t (lset L i l) | None => None end
        else None
    | _ => None
    end.
  Lemma frun_ok O p s : forall B L L', rel B L -> frun p L = Some L' ->
    exists B', run_prog O Test (map VBig T) (map VBig A) (map VBig B) p s = Done ((map VBig B', None), s) /\ rel B' L' /\
      forall i, hidden i = true -> nth i B' 0 = nth i B 0.
  Proof.
    induction p as [|[i e| | |] t IH]; intros B L L' R H; cbn [frun] in H; try discriminate.
    - injection H as <-. exists B. split; [reflexivity|]. split; [exact R | reflexivity].
    - destruct (wf e && not_int e && inb T A 43 e && negb (hidden i) && (i <? 43)%nat) eqn:C; [|discriminate].
      rewrite !andb_true_iff in C. destruct C as ((((W & N) & I) & Hi) & Li). apply negb_true_iff in Hi. apply Nat.ltb_lt in Li.
      destruct (fev L e) as [l|] eqn:E; [|discriminate]. destruct (fev_ok e B L l R W E) as (Ok & Rg & V).
      destruct R as (L1 & L2 & R). 
      assert (R' : rel (lset B i (ze T A B e)) (lset L i l)).
      { split; [rewrite lset_length; exact L1|]. split; [rewrite lset_length; exact L2|]. intros j Hj.
        rewrite !lset_nth by lia. destruct (Nat.eqb_spec j i); [split; assumption | apply R, Hj]. }
      destruct (IH _ _ _ R' H) as (B' & RUN & R'' & FR). exists B'. split.
      + rewrite (prog_run O T A _ t _ s _ (set_run O T A i e B s W N ltac:(rewrite L1; exact I) Ok ltac:(lia))). exact RUN.
      + split; [exact R''|]. intros j Hj. rewrite (FR j Hj), lset_nth by lia. destruct (Nat.eqb_spec j i) as [->|]; [congruence | reflexivity].
  Qed.
End Run.

Definition sam_TL : list (list int) := Eval vm_compute in map (limbs 9) sample_proof.
Definition sam_AL : list (list int) := Eval vm_compute in map (limbs 9) sample_aux.
Lemma sam_TL_ok : map lval sam_TL = sample_proof. Proof. vm_compute. reflexivity. Qed.
Lemma sam_AL_ok : map lval sam_AL = sample_aux. Proof. vm_compute. reflexivity. Qed.
(** the registers when the first step starts, and after its first three statements *)
Definition rec_L : list (list int) := Eval vm_compute in
  map (fun z => mr (limbs 9 z) r2r) recorded_start ++ repeat zero_r 33.
Definition rec_tail : list stmt := Eval cbv [skipn prog1] in skipn 3 prog1.
Definition rec_out : list (list int) := Eval vm_compute in
  match frun sam_TL sam_AL rec_tail rec_L with Some L => L | None => [] end.
Lemma rec_run : frun sam_TL sam_AL rec_tail rec_L = Some rec_out. Proof. vm_compute. reflexivity. Qed.
(** the results are the recorded values *)
Definition rec_same (l : list int) (z : Z) : bool :=
  let k := limbs 9 z in (lval k =? z) && match rcon k with Some k' => eqmod rl l k' | None => false end.
Lemma rec_same_ok l z w : rec_same l z = true -> 0 <= w < r_mod -> rr 2 l (fc w) -> w = z.
Proof.
  unfold rec_same. cbv zeta. rewrite andb_true_iff, Z.eqb_eq. intros [E H] Hw V. destruct (rcon (limbs 9 z)) as [k|] eqn:K; [|discriminate].
  apply rcon_ok in K. rewrite E in K. destruct K as [Hz K].
  pose proof (eqmod_ok r_mod r_gt1 prime_r rl rl_elem rl_val Rr_n0 2 2 _ _ _ _ V K H) as F.
  apply phi_eq_iff in F. rewrite !Z.mod_small in F by assumption. exact F.
Qed.
Definition rec_all : bool := forallb (fun i => hidden i || rec_same (nth i rec_out zero_r) (nth i recorded_step1 0)) (seq 0 43).
Lemma rec_all_ok : rec_all = true. Proof. vm_compute. reflexivity. Qed.

(** ** The first step *)
Local Opaque pmul pmul_pos.
Definition rec_B0 : list Z := recorded_start ++ repeat 0 33.
Definition rec_B1 : list Z := Eval vm_compute in lset (lset rec_B0 10 (nth 102 sample_proof 0)) 11 (nth 103 sample_proof 0).
Definition rec_B2 : list Z := Eval vm_compute in lset rec_B1 12 1.
Definition rec_B3 : list Z := Eval vm_compute in
  lset (lset rec_B2 10 (nth 102 sample_proof 0)) 11 (nth 103 sample_proof 0).
Lemma rec_rel : rel rec_B3 rec_L.
Proof.
  split; [reflexivity|]. split; [reflexivity|]. intros i Hi.
  assert (K : forallb (fun i => hidden i || ((0 <=? nth i rec_B3 0) && (nth i rec_B3 0 <? r_mod) &&
                        rec_same (nth i rec_L zero_r) (nth i rec_B3 0))) (seq 0 43) = true) by (vm_compute; reflexivity).
  assert (V : forallb (fun i => hidden i || let l := limbs 9 (nth i rec_B3 0) in (lval l =? nth i rec_B3 0) &&
      match rcon l with Some k => forallb (fun p => Uint63.eqb (fst p) (snd p)) (combine k (nth i rec_L zero_r)) && Nat.eqb (length k) (length (nth i rec_L zero_r)) | None => false end) (seq 0 43) = true) by (vm_compute; reflexivity).
  destruct (Nat.lt_ge_cases i 43) as [Li|Li].
  - rewrite forallb_forall in K, V. specialize (K i ltac:(apply in_seq; lia)). specialize (V i ltac:(apply in_seq; lia)). cbv beta in K, V. rewrite Hi in K, V.
    cbn [orb] in K, V. cbv zeta in V. rewrite !andb_true_iff in K. destruct K as [[K1 K2] _].
    split; [split; [apply Z.leb_le | apply Z.ltb_lt]; assumption|].
    apply andb_true_iff in V. destruct V as [V1 V2]. apply Z.eqb_eq in V1.
    destruct (rcon (limbs 9 (nth i rec_B3 0))) as [k|] eqn:R; [|discriminate]. apply rcon_ok in R. rewrite V1 in R.
    apply andb_true_iff in V2. destruct V2 as [V2 V3]. apply Nat.eqb_eq in V3.
    assert (E : k = nth i rec_L zero_r).
    { clear - V2 V3. revert V2 V3. generalize (nth i rec_L zero_r). induction k as [|a t IH]; intros [|b u] F L; try discriminate; [reflexivity|].
      cbn [combine forallb fst snd] in F. apply andb_true_iff in F. destruct F as [F1 F2]. apply Uint63.eqb_correct in F1. rewrite F1. f_equal. apply IH; [exact F2 | injection L; auto]. }
    rewrite <- E. exact (proj2 R).
  - rewrite !nth_overflow by (cbn; lia). split; [split; [discriminate | reflexivity]|]. exact zero_r_ok.
Qed.
Lemma rec_point : valid_pt (Aff (nth 102 sample_proof 0) (nth 103 sample_proof 0)) = true. Proof. vm_compute. reflexivity. Qed.
Lemma rec_smul O : degen_sane O -> smul O (nth 10 rec_B2 0) (nth 11 rec_B2 0) (nth 12 rec_B2 0) (nth 102 sample_proof 0, nth 103 sample_proof 0).
Proof.
  intros HD. assert (E : (nth 10 rec_B2 0, nth 11 rec_B2 0, nth 12 rec_B2 0) = (nth 102 sample_proof 0, nth 103 sample_proof 0, 1)) by reflexivity.
  apply pair_equal_spec in E. destruct E as [E E3]. apply pair_equal_spec in E. destruct E as [E1 E2]. rewrite E1, E2, E3.
  apply (smul_iff O _ _ 1 _ HD rec_point); [split; [discriminate | reflexivity]|].
  pose proof (pmul_one (Aff (nth 102 sample_proof 0) (nth 103 sample_proof 0))) as P. rewrite val_one in P. rewrite P.
  split; [|reflexivity]. eexists. eexists. split; [reflexivity|]. split; split; discriminate || reflexivity.
Qed.
Lemma rec_frame : forallb (fun i => negb (hidden i) || (nth i rec_B3 0 =? nth i recorded_step1 0)) (seq 0 43) = true.
Proof. vm_compute. reflexivity. Qed.
Lemma c63_step1 O s : degen_sane O ->
  VerifyProof1 O Test (map VBig sample_proof) (map VBig sample_aux) (map VBig (recorded_start ++ repeat 0 33)) s =
  Done ((map VBig recorded_step1, None), s).
Proof.
  intros HD. unfold VerifyProof1. change prog1 with (SSet2 10 11 (FTr 102) (FTr 103) :: SSet 12 (FStr 1) :: SEccMul 10 :: rec_tail).
  fold rec_B0.
  pose proof (set2_run O sample_proof sample_aux 10 11 (FTr 102) (FTr 103) rec_B0 s eq_refl eq_refl eq_refl eq_refl eq_refl eq_refl Logic.I Logic.I
    ltac:(cbn; lia) ltac:(cbn; lia)) as E1.
  rewrite (prog_run O sample_proof sample_aux _ _ _ s _ E1). clear E1.
  change (lset (lset rec_B0 10 (ze sample_proof sample_aux rec_B0 (FTr 102))) 11 (ze sample_proof sample_aux rec_B0 (FTr 103))) with rec_B1.
  pose proof (set_run O sample_proof sample_aux 12 (FStr 1) rec_B1 s eq_refl eq_refl eq_refl Logic.I ltac:(cbn; lia)) as E2.
  rewrite (prog_run O sample_proof sample_aux _ _ _ s _ E2). clear E2.
  change (lset rec_B1 12 (ze sample_proof sample_aux rec_B1 (FStr 1))) with rec_B2.
  pose proof (P_Comp.mul_run O 10 rec_B2 s _ ltac:(cbn; lia) (rec_smul O HD)) as E3.
  rewrite (prog_run O sample_proof sample_aux (SEccMul 10) _ _ s _ E3). clear E3.
  change (lset (lset rec_B2 10 (fst (nth 102 sample_proof 0, nth 103 sample_proof 0))) (10 + 1) (snd (nth 102 sample_proof 0, nth 103 sample_proof 0))) with rec_B3.
  destruct (frun_ok sam_TL sam_AL O rec_tail s rec_B3 rec_L rec_out rec_rel rec_run) as (B' & RUN & (L1 & L2 & R) & FR).
  rewrite sam_TL_ok, sam_AL_ok in RUN. rewrite RUN.
  assert (E : B' = recorded_step1); [|rewrite E; reflexivity].
  apply (nth_ext _ _ 0 0); [rewrite L1; reflexivity|]. intros i Hi. rewrite L1 in Hi.
  pose proof rec_all_ok as Q. unfold rec_all in Q. rewrite forallb_forall in Q. specialize (Q i ltac:(apply in_seq; lia)). cbv beta in Q.
  pose proof rec_frame as F. rewrite forallb_forall in F. specialize (F i ltac:(apply in_seq; lia)). cbv beta in F.
  destruct (hidden i) eqn:Hd; cbn [orb negb] in Q, F.
  - rewrite (FR i Hd). apply Z.eqb_eq, F.
  - destruct (R i Hd) as [Rg V]. exact (rec_same_ok _ _ _ Q Rg V).
Qed.

(** ** Instance commitment and challenges *)
Lemma c63_challenges O rest s : real_hashes O -> (8 <= length rest)%nat ->
  GetChallengesShPlonkCircuit O Test (map VBig (firstn 2 recorded_start ++ rest)) (map VBig sample_proof) s =
  Done ((map VBig (recorded_start ++ skipn 8 rest), None), s).
Proof.
  intros [HS HK] L. change (firstn 2 recorded_start) with [sam_ix; sam_iy].
  destruct (challenges_spec O Test (map VBig ([sam_ix; sam_iy] ++ rest)) sam_ix sam_iy sample_proof s) as [K _].
  - reflexivity.
  - reflexivity.
  - rewrite map_length, app_length. cbn [length]. lia.
  - vm_compute. lia.
  - destruct K as (s' & E & K).
    + intros i Hi. unfold point_slots in Hi. apply in_app_iff in Hi. destruct Hi as [Hi|Hi].
      * apply in_map_iff in Hi. destruct Hi as (j & <- & Hj). apply valid_curve, sam_valid. unfold commitments. apply in_app_iff. left. exact Hj.
      * destruct Hi as [<-|[<-|[]]]; [exact (valid_curve _ _ (sam_valid 50%nat in_50)) | exact (valid_curve _ _ (sam_valid 51%nat in_51))].
    + reflexivity.
    + reflexivity.
    + exact sam_small.
    + rewrite (E eq_refl) in K. refine (eq_trans K _).
      rewrite (tv_ext O sam_O sam_ix sam_iy sample_proof HS), sam_transcript.
      change (firstn 2 (map VBig ([sam_ix; sam_iy] ++ rest))) with (map VBig [sam_ix; sam_iy]).
      change (skipn 10 (map VBig ([sam_ix; sam_iy] ++ rest))) with (skipn 8 (map VBig rest)).
      rewrite skipn_map. change (map chal sam_dig) with (map VBig (skipn 2 recorded_start)).
      rewrite app_assoc, <- !map_app. reflexivity.
Qed.

Lemma c63_instance O b0 b1 rest s : real_hashes O ->
  exists k, VerifyInstanceHash O Test (map VBig (sample_target ++ [sample_verify])) s = Done ((VBig k, None), s) /\
    CalcVerifyCircuitLagrange O Test (b0 :: b1 :: VBig k :: rest) s =
    Done ((map VBig (firstn 2 recorded_start) ++ VBig k :: rest, None), s).
Proof.
  intros [HS HK]. exists sam_kd. split.
  - change (sample_target ++ [sample_verify]) with sam_zs. rewrite (c22 O (map VBig sam_zs) sam_zs s).
    + rewrite HK, sam_keccak. reflexivity.
    + unfold bigs, sam_zs. repeat constructor.
  - refine (eq_trans (c46_accepts O (b0 :: b1 :: VBig sam_kd :: rest) sam_kd s sam_ix sam_iy _ eq_refl _ _ sam_ic eq_refl eq_refl) eq_refl).
    + cbn [length]. lia.
    + split; [discriminate | reflexivity].
    + discriminate.
Qed.
