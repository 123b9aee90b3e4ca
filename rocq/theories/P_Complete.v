(** Which runs of the three verification steps are accepted: C47. *)
From Coq Require Import ZArith String Bool List Lia Arith Permutation.
From Verif Require Import Params Go Curve Api FrOps Lib Steps NumThy FField FpField P_Fr P_Str P_Curve SpecCurve SpecMisc
  SpecVerify P_Msm P_Flow P_Misc P_Kyc P_Step P_Exec P_Dom P_Eval P_Verify P_VSpec P_Acc P_Comp P_Accept P_Honest.
Import ListNotations.
Open Scope Z_scope.

Local Opaque phi fmul fadd fsub fopp fdiv finv rot fzpow fexp omega delta.

(** ** One operation *)
Lemma fits_pr P : fits P -> pr P = coords0 P.
Proof. intros (X & Y & -> & RX & RY). unfold pr. cbn [printed fst snd coords0]. rewrite !Z.mod_small by assumption. reflexivity. Qed.
Lemma fits_enc P : valid_pt P = true -> fits P -> encodes (fst (coords0 P)) (snd (coords0 P)) P.
Proof. intros V (X & Y & -> & _ & _). apply valid_encodes, V. Qed.

Lemma smul_iff O x y k R : degen_sane O -> valid_pt (Aff x y) = true -> 0 <= k < r_mod ->
  (smul O x y k R <-> fits (pmul k (Aff x y)) /\ R = coords0 (pmul k (Aff x y))).
Proof.
  intros Hd V Hk. pose proof r_lt_p. pose proof r_pos. pose proof p_pos.
  pose proof (valid_encodes x y V) as HP. pose proof (encodes_range _ _ _ HP) as [Rx Ry].
  assert (OC : on_curve x y = true) by (apply valid_aff in V; tauto).
  assert (NZ : (x =? 0) && (y =? 0) = false).
  { destruct (Z.eqb_spec x 0) as [->|]; [|reflexivity]. destruct (Z.eqb_spec y 0) as [->|]; [|reflexivity].
    rewrite not_on_curve_00 in OC. discriminate. }
  unfold smul. rewrite !(Z.mod_small x), !(Z.mod_small y), (Z.mod_small k p_mod), (Z.mod_small k r_mod) by lia.
  rewrite !Z.abs_eq by lia. unfold emul_scalar_mul. rewrite NZ, OC. cbn [negb andb].
  split.
  - intros (Q & HQ & HR & HE).
    assert (EQ : Q = Aff x y) by (apply unmarshal_encodes in HP; try lia; apply unmarshal_encodes in HQ; try lia; congruence).
    subst Q. destruct (Z.eqb_spec k 0) as [->|Nk]; cbn [negb] in HE.
    + exfalso. apply (Hd x y 0). rewrite HE, HR, <- pr_inf. unfold pmul. rewrite Z.mod_0_l by lia. reflexivity.
    + injection HE as HE. split; [|congruence]. pose proof (pmul_valid k _ V) as VM.
      destruct (pmul k (Aff x y)) as [|X Y].
      * exfalso. rewrite pr_inf in HR. rewrite HR in HE. discriminate HE.
      * exists X, Y. split; [reflexivity|]. cbn [coords0] in HE. rewrite <- HE in HR. unfold pr in HR. cbn [printed fst snd] in HR.
        apply pair_equal_spec in HR. destruct HR as [-> ->]. split; apply Z.mod_pos_bound; lia.
  - intros [F ->]. exists (Aff x y). split; [exact HP|]. split; [symmetry; apply fits_pr, F|].
    destruct (Z.eqb_spec k 0) as [->|Nk]; cbn [negb]; [|reflexivity]. exfalso. destruct F as (X & Y & E & _).
    unfold pmul in E. rewrite Z.mod_0_l in E by lia. discriminate.
Qed.

Lemma sadd_iff a b R P Q : encodes (fst a) (snd a) P -> encodes (fst b) (snd b) Q ->
  (sadd a b R <-> ~ add_degenerate P Q /\ fits (padd P Q) /\ R = coords0 (padd P Q)).
Proof.
  intros HP HQ. destruct a as [ax ay], b as [bx bY]. cbn [fst snd] in *.
  pose proof (encodes_range _ _ _ HP) as [R1 R2]. pose proof (encodes_range _ _ _ HQ) as [R3 R4].
  unfold sadd. cbn [fst snd]. rewrite !Z.abs_eq, !Z.mod_small by lia. split.
  - intros (P' & Q' & HP' & HQ' & HR & HE).
    assert (EP : P' = P) by (apply unmarshal_encodes in HP; try lia; apply unmarshal_encodes in HP'; try lia; congruence).
    assert (EQ : Q' = Q) by (apply unmarshal_encodes in HQ; try lia; apply unmarshal_encodes in HQ'; try lia; congruence).
    subst P' Q'. rewrite HR in HE. apply (add_accept _ _ _ _ _ _ HP HQ) in HE. destruct HE as [N F].
    split; [exact N|]. split; [exact F|]. rewrite HR. apply fits_pr. exact F.
  - intros (N & F & ->). exists P, Q. split; [exact HP|]. split; [exact HQ|].
    rewrite (fits_pr _ F). split; [reflexivity|]. rewrite <- (fits_pr _ F). apply (add_accept _ _ _ _ _ _ HP HQ). exact (conj N F).
Qed.

(** ** The accumulation *)
Definition canon_pt (P : Z * Z) : Prop := valid_pt (Aff (fst P) (snd P)) = true.
Lemma mp_canon P : canon_pt P -> mp P = P.
Proof.
  intros V. apply valid_aff in V. destruct P as [x y]. unfold mp. cbn [fst snd] in *. rewrite !Z.mod_small by tauto. reflexivity.
Qed.
Lemma of_canon P : canon_pt P -> of_coords0 (mp P) = Aff (fst P) (snd P).
Proof. intros V. rewrite mp_canon by exact V. destruct P as [x y]. apply valid_of_coords0, V. Qed.

Lemma chain_fits O l : degen_sane O -> forall q10 q12 K acc, (forall t, In t l -> canon_pt (fst t)) ->
  encodes (fst q12) (snd q12) acc -> chain O (padd_ops l) q10 q12 K -> sums_fit acc (plain l).
Proof.
  intros Hd. induction l as [|[P k] l IH]; intros q10 q12 K acc Hc HA; cbn [padd_ops map chain plain sums_fit]; [exact (fun _ => Logic.I)|].
  intros (R & Q & Hm & Ha & H). cbn [fst snd] in *.
  pose proof (Hc _ (or_introl eq_refl)) as CP. cbn [fst] in CP. cbv zeta. rewrite (of_canon P CP).
  apply (proj1 (smul_iff O (fst P) (snd P) (val k) R Hd CP (val_range k))) in Hm. destruct Hm as [F ->].
  pose proof (fits_enc _ (pmul_valid (val k) _ CP) F) as EM.
  apply (proj1 (sadd_iff q12 _ Q acc _ HA EM)) in Ha. destruct Ha as (N & F' & ->).
  split; [exact F|]. split; [exact N|]. split; [exact F'|].
  refine (IH q10 _ K _ (fun t Ht => Hc t (or_intror Ht)) _ H).
  apply fits_enc; [apply padd_valid; [apply (encodes_valid _ _ _ HA) | apply pmul_valid, CP] | exact F'].
Qed.

Lemma fits_chain O l : degen_sane O -> forall q10 q12 (K : Z * Z -> Z * Z -> Prop) acc, (forall t, In t l -> canon_pt (fst t)) ->
  encodes (fst q12) (snd q12) acc -> sums_fit acc (plain l) ->
  (forall q, encodes (fst q) (snd q) (msm_from acc (plain l)) -> K q10 q) -> chain_ok O (padd_ops l) q10 q12 K.
Proof.
  intros Hd. induction l as [|[P k] l IH]; intros q10 q12 K acc Hc HA; cbn [padd_ops map chain_ok plain sums_fit msm_from].
  - intros _ HK. exact (HK _ HA).
  - cbn [fst snd]. cbv zeta. intros (F & N & F' & H) HK.
    pose proof (Hc _ (or_introl eq_refl)) as CP. cbn [fst] in CP. rewrite (of_canon P CP) in *.
    pose proof (fits_enc _ (pmul_valid (val k) _ CP) F) as EM.
    exists (coords0 (pmul (val k) (Aff (fst P) (snd P)))), (coords0 (padd acc (pmul (val k) (Aff (fst P) (snd P))))).
    split; [apply (smul_iff O (fst P) (snd P) (val k) _ Hd CP (val_range k)); exact (conj F eq_refl)|].
    split; [apply (sadd_iff q12 _ _ acc _ HA EM); exact (conj N (conj F' eq_refl))|].
    refine (IH q10 _ K _ (fun t Ht => Hc t (or_intror Ht)) _ H HK).
    apply fits_enc; [apply padd_valid; [apply (encodes_valid _ _ _ HA) | apply pmul_valid, CP] | exact F'].
Qed.

(** ** The points of the terms are canonical *)
Definition literal_ok (q : fexpr * fexpr) : bool :=
  match q with
  | (FStr z, FStr w) => valid_pt (Aff z w)
  | _ => true
  end.
Lemma literals_M : forallb literal_ok (term_points sM) = true.
Proof. vm_compute. reflexivity. Qed.
Lemma terms_canon' T A ic ms G : forallb point_ok (term_points ms) = true -> forallb literal_ok (term_points ms) = true ->
  coms_valid T -> canon_pt ic -> forall t, In t (adds (ops T A ic ms G)) -> canon_pt (fst t).
Proof.
  intros Ok Ol HT Hic t HIn. apply (in_map fst) in HIn. rewrite points_adds in HIn. apply in_map_iff in HIn.
  destruct HIn as ((a & b) & <- & HIn). rewrite forallb_forall in Ok, Ol.
  specialize (Ok _ HIn). specialize (Ol _ HIn). clear HIn. unfold point_ok in Ok. unfold literal_ok in Ol. unfold canon_pt. cbn [fst snd].
  destruct a as [[|i]|i|i|z|z|a1 a2|a1 a2|a1|a1 a2 a3|a1 a2], b as [[|[|j]]|j|j|w|w|c1 c2|c1 c2|c1|c1 c2 c3|c1 c2]; try discriminate Ok.
  - exact Hic.
  - apply existsb_exists in Ok. destruct Ok as (n & Hn & E). apply andb_true_iff in E. rewrite !Nat.eqb_eq in E.
    destruct E as [-> ->]. exact (HT n Hn).
  - exact Ol.
Qed.
Lemma terms_canon T A ic G : coms_valid T -> canon_pt ic -> forall t, In t (code_terms T A ic G) -> canon_pt (fst t).
Proof. exact (terms_canon' T A ic sM G points_ok_M literals_M). Qed.

Lemma neg_gen_valid : valid_pt (Aff 1 (p_mod - 2)) = true. Proof. vm_compute. reflexivity. Qed.
Lemma pmul_one P : pmul (val 1%fr) P = P. Proof. rewrite val_one. apply pmul_1'. Qed.

Section Runs.
  Variables (O : oracles) (T A B : list Z) (s : cs).
  Hypothesis L : length B = 43%nat.
  Hypothesis C : forall j, (2 <= j < 10)%nat -> 0 <= nth j B 0 < r_mod.
  Hypothesis HT : (104 <= length T)%nat.
  Hypothesis HA : (21 <= length A)%nat.
  Hypothesis Hd : degen_sane O.
  Hypothesis VT : coms_valid T.
  Hypothesis VB : valid_pt (Aff (nth 0 B 0) (nth 1 B 0)) = true.

  Notation g := (regs B).
  Notation ic := (nth 0 B 0, nth 1 B 0).
  Notation h := (fc (nth 16 A 0)).
  Notation x := (g 6%nat).
  Notation u := (g 9%nat).
  Notation E := (opening (g 7%nat) (g 8%nat) x u (queries T ic h x)).
  Notation acc0 := (pmul (val E) (Aff 1 (p_mod - 2))).
  Notation terms := (ordered_terms (final_terms T ic h x (g 7%nat) (g 8%nat) u)).

  Definition points_fit : Prop :=
    fits (Aff (nth 102 T 0) (nth 103 T 0)) /\ fits acc0 /\ sums_fit acc0 terms.

  Lemma ic_mp : mp ic = ic. Proof. apply mp_canon. exact VB. Qed.
  Lemma W'_valid : valid_pt (Aff (nth 102 T 0) (nth 103 T 0)) = true. Proof. exact (VT 51%nat ltac:(cbn; tauto)). Qed.

  Lemma runs_fit s1 s2 s3 b1 b2 b3 :
    VerifyProof1 O Test (map VBig T) (map VBig A) (map VBig B) s = Done ((b1, None), s1) ->
    VerifyProof2 O Test (map VBig T) (map VBig A) b1 s1 = Done ((b2, None), s2) ->
    VerifyProof3 O Test (map VBig T) (map VBig A) b2 s2 = Done ((b3, None), s3) ->
    oks T A scalar_part g /\ points_fit.
  Proof.
    intros H1 H2 H3. destruct (exec123 O T A B s b1 s1 b2 s2 b3 s3 L C H1 H2 H3) as (Es & Ok & B3 & E3 & L3 & Ch).
    cbv zeta in Ok, Ch. rewrite segments_all in Ok, Ch. rewrite oks_app in Ok. destruct Ok as [Ok _].
    pose proof (whole T A g Ok) as F. split; [exact Ok|].
    rewrite ops_app, ops_scalar, ops_L in Ch. change (b01_of B) with ic in Ch.
    apply chain_head in Ch. destruct Ch as (R & R' & HW & HE & Ch). cbn [fst snd] in HW, HE.
    apply (proj1 (smul_iff O _ _ _ R Hd W'_valid (val_range _))) in HW. destruct HW as [FW _]. rewrite pmul_one in FW.
    apply (proj1 (smul_iff O _ _ _ R' Hd neg_gen_valid (val_range _))) in HE. destruct HE as [FE ->].
    pose proof (fits_enc _ (pmul_valid _ _ neg_gen_valid) FE) as EE.
    pose proof (chain_fits O _ Hd _ _ _ _ (terms_canon T A ic _ VT VB) EE Ch) as S.
    rewrite (terms_plain T A g ic h F), ic_mp in S.
    rewrite <- (sp_opening T A g F ic _ eq_refl) in FE, S. exact (conj FW (conj FE S)).
  Qed.

  Lemma fit_runs : oks T A scalar_part g -> points_fit -> exists b1 b2 B3,
    VerifyProof1 O Test (map VBig T) (map VBig A) (map VBig B) s = Done ((b1, None), s) /\
    VerifyProof2 O Test (map VBig T) (map VBig A) b1 s = Done ((b2, None), s) /\
    VerifyProof3 O Test (map VBig T) (map VBig A) b2 s = Done ((map VBig B3, None), s) /\
    length B3 = 43%nat /\ q_of 10 B3 = (nth 102 T 0, nth 103 T 0) /\
    encodes (fst (q_of 12 B3)) (snd (q_of 12 B3)) (msm_from acc0 terms).
  Proof.
    intros Ok (FW & FE & S). pose proof (whole T A g Ok) as F.
    apply (accept123 O T A B s L C HT (fun a b => a = (nth 102 T 0, nth 103 T 0) /\ encodes (fst b) (snd b) (msm_from acc0 terms))
      HA (honest_all T A g Ok)).
    rewrite segments_all, ops_app, ops_scalar, ops_L. change (b01_of B) with ic.
    assert (EO : E = exec T A scalar_part g 18%nat) by exact (sp_opening T A g F ic _ eq_refl).
    rewrite EO in FE, S |- *. clear EO.
    assert (S' : sums_fit (pmul (val (exec T A scalar_part g 18%nat)) (Aff 1 (p_mod - 2))) (plain (code_terms T A ic (exec T A scalar_part g)))).
    { rewrite (terms_plain T A g ic h F), ic_mp. exact S. }
    assert (EP : terms = plain (code_terms T A ic (exec T A scalar_part g))).
    { rewrite (terms_plain T A g ic h F), ic_mp. reflexivity. }
    rewrite EP. clear EP S.
    pose proof (terms_canon T A ic (exec T A scalar_part g) VT VB) as TC.
    generalize dependent (code_terms T A ic (exec T A scalar_part g)). generalize dependent (exec T A scalar_part g 18%nat).
    intros e FE l S' TC. cbn [app chain_ok fst snd Nat.eqb].
    exists (nth 102 T 0, nth 103 T 0). split.
    { apply (smul_iff O _ _ _ _ Hd W'_valid (val_range _)). rewrite pmul_one. exact (conj FW eq_refl). }
    intros q. exists (coords0 (pmul (val e) (Aff 1 (p_mod - 2)))). split.
    { apply (smul_iff O _ _ _ _ Hd neg_gen_valid (val_range _)). exact (conj FE eq_refl). }
    intros q'. apply (fits_chain O l Hd _ _ _ _ TC (fits_enc _ (pmul_valid _ _ neg_gen_valid) FE) S').
    intros q0 Hq. exact (conj eq_refl Hq).
  Qed.

  Lemma c47 : fexp x dom_n <> 1%fr ->
    ((exists s1 s2 s3 b1 b2 b3,
      VerifyProof1 O Test (map VBig T) (map VBig A) (map VBig B) s = Done ((b1, None), s1) /\
      VerifyProof2 O Test (map VBig T) (map VBig A) b1 s1 = Done ((b2, None), s2) /\
      VerifyProof3 O Test (map VBig T) (map VBig A) b2 s2 = Done ((b3, None), s3)) <->
     x <> 0%fr /\ u <> rot x (-1) /\ u <> rot x 2 /\
     (forall i, (i < 21)%nat -> nth i A 0 = val (nth i (helpers x u
        (quotient (word T) (g 2%nat) (g 3%nat) (g 4%nat) x (g 5%nat))) 0%fr)) /\
     points_fit).
  Proof.
    intros Hx. split.
    - intros (s1 & s2 & s3 & b1 & b2 & b3 & H1 & H2 & H3). destruct (runs_fit s1 s2 s3 b1 b2 b3 H1 H2 H3) as [Ok PF].
      destruct (honest_nec T A g Ok) as (N1 & N2 & N3). split; [exact N1|]. split; [exact N2|]. split; [exact N3|].
      split; [|exact PF]. intros i Hi. exact (sp_helpers T A g (whole T A g Ok) i Hx Hi).
    - intros (N1 & N2 & N3 & H & PF).
      destruct (fit_runs (honest_ok T A g N1 Hx N2 N3 H) PF) as (b1 & b2 & B3 & R1 & R2 & R3 & _).
      exists s, s, s, b1, b2, (map VBig B3). exact (conj R1 (conj R2 R3)).
  Qed.
End Runs.
