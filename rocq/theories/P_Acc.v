(** Accepted verifier steps against the specification: opening value, quotient, helpers and the
    commitment accumulator. *)
From Coq Require Import ZArith Zpow_facts String Bool List Lia Arith Ring Field Permutation.
From Verif Require Import Params Go Curve Api FrOps Lib Steps NumThy FField FpField P_Fr P_Str P_Curve SpecCurve SpecMisc
  SpecVerify P_Msm P_Flow P_Misc P_Kyc P_Step P_Exec P_Dom P_Eval P_Verify P_VSpec.
Import ListNotations.
Open Scope Z_scope.

Local Opaque phi fmul fadd fsub fopp fdiv finv rot fzpow fexp omega delta.

Definition sL2 : list mop := Eval vm_compute in firstn 42 sL.
Lemma segments12 : group prog1 ++ group prog2 = scalar_part ++ sL2.
Proof. vm_compute. reflexivity. Qed.
Lemma segments_all : group prog1 ++ group prog2 ++ group prog3 = scalar_part ++ sL.
Proof. vm_compute. reflexivity. Qed.

Section Accepted.
  Variables (O : oracles) (T A B : list Z) (s s1 s2 : cs) (b1 b2 : list var).
  Hypothesis L : length B = 43%nat.
  Hypothesis C : forall j, (2 <= j < 10)%nat -> 0 <= nth j B 0 < r_mod.
  Hypothesis H1 : VerifyProof1 O Test (map VBig T) (map VBig A) (map VBig B) s = Done ((b1, None), s1).
  Hypothesis H2 : VerifyProof2 O Test (map VBig T) (map VBig A) b1 s1 = Done ((b2, None), s2).
  Notation g := (regs B).

  Lemma acc_oks : oks T A scalar_part g.
  Proof.
    destruct (exec12 O T A B s b1 s1 b2 s2 L C H1 H2) as (K1 & K2 & _).
    pose proof (proj2 (oks_app T A (group prog1) (group prog2) g) (conj K1 K2)) as K.
    rewrite segments12, oks_app in K. exact (proj1 K).
  Qed.
  Lemma acc_facts : facts T A g. Proof. apply whole, acc_oks. Qed.
  Lemma acc_18 : nth_error b2 18 = Some (VBig (val (exec T A scalar_part g 18%nat))).
  Proof.
    destruct (exec12 O T A B s b1 s1 b2 s2 L C H1 H2) as (_ & _ & E). rewrite E.
    rewrite <- exec_app, segments12, exec_app, exec_frame by reflexivity. reflexivity.
  Qed.

  Lemma c30_gen : fexp (g 6%nat) dom_n <> 1%fr ->
    nth 16 A 0 = val (quotient (word T) (g 2%nat) (g 3%nat) (g 4%nat) (g 6%nat) (g 5%nat)).
  Proof. intros Hx. exact (sp_helpers T A g acc_facts 16%nat Hx ltac:(lia)). Qed.
  Lemma c33_gen i : fexp (g 6%nat) dom_n <> 1%fr -> (i < 21)%nat ->
    nth i A 0 = val (nth i (helpers (g 6%nat) (g 9%nat)
      (quotient (word T) (g 2%nat) (g 3%nat) (g 4%nat) (g 6%nat) (g 5%nat))) 0%fr).
  Proof. intros Hx Hi. exact (sp_helpers T A g acc_facts i Hx Hi). Qed.
  Lemma c29_gen ic : nth_error b2 18 =
    Some (VBig (val (opening (g 7%nat) (g 8%nat) (g 6%nat) (g 9%nat) (queries T ic (fc (nth 16 A 0)) (g 6%nat))))).
  Proof. rewrite acc_18, <- (sp_opening T A g acc_facts ic _ eq_refl). reflexivity. Qed.
End Accepted.

(** ** The accumulator *)
Definition mp (P : Z * Z) : Z * Z := (fst P mod p_mod, snd P mod p_mod).
Definition on_c (P : Z * Z) : Prop := curve_or_zero (fst P) (snd P).

Lemma encodes_coords0 S : valid_pt S = true -> encodes (fst (coords0 S)) (snd (coords0 S)) S.
Proof.
  destruct S as [|X Y]; intros V; [left; auto|]. apply valid_encodes, V.
Qed.
Lemma encodes_on_c x y P : encodes x y P -> curve_or_zero x y.
Proof. intros [(-> & -> & _)|(_ & _ & E & _)]; [left; auto | right; exact E]. Qed.

Lemma smul_nonneg O x y k R : 0 <= x -> 0 <= y -> smul O x y k R -> curve_or_zero x y.
Proof. intros Hx Hy (P & E & _). rewrite !Z.abs_eq in E by assumption. apply (encodes_on_c _ _ _ E). Qed.

Lemma pr_inf : pr Inf = (0, 1). Proof. vm_compute. reflexivity. Qed.

Lemma abs_mod0 x : Z.abs x < p_mod -> x mod p_mod = 0 -> x = 0.
Proof.
  intros H E. pose proof p_pos. apply Z.mod_divide in E; [|lia]. destruct E as [c ->].
  rewrite Z.abs_mul, (Z.abs_eq p_mod) in H by lia. assert (Z.abs c = 0) by (pose proof (Z.abs_nonneg c); nia). lia.
Qed.

Lemma smul_pt O P (k : Z) R : degen_sane O -> 0 <= k < r_mod -> on_c P -> smul O (fst P) (snd P) k R ->
  encodes (fst R) (snd R) (pmul k (of_coords0 (mp P))).
Proof.
  intros Hd Hk Hc (Q & HQ & HR & HE). destruct P as [x y]. unfold on_c, mp in *. cbn [fst snd] in *.
  pose proof r_lt_p. pose proof r_pos. pose proof p_pos.
  rewrite (Z.mod_small k p_mod), (Z.mod_small k r_mod) in HE by lia.
  unfold emul_scalar_mul in HE.
  destruct (negb _ && _ && _) eqn:E.
  - apply andb_true_iff in E. destruct E as [E _]. apply andb_true_iff in E. destruct E as [E0 E1].
    assert (V : valid_pt (Aff (x mod p_mod) (y mod p_mod)) = true).
    { apply valid_aff. repeat split; try apply Z.mod_pos_bound; try lia. exact E1. }
    rewrite (valid_of_coords0 _ _ V). injection HE as <-.
    apply encodes_coords0, pmul_valid, V.
  - exfalso. apply (Hd (x mod p_mod) (y mod p_mod) k). rewrite HE, HR. f_equal.
    assert (I : pmul k Q = Inf).
    { destruct (Z.eqb_spec k 0) as [->|Nk].
      - unfold pmul. rewrite Z.mod_0_l by lia. reflexivity.
      - assert (Z0 : x mod p_mod = 0 /\ y mod p_mod = 0).
        { destruct Hc as [Hc|Hc]; [exact Hc|]. exfalso.
          assert (C : on_curve (x mod p_mod) (y mod p_mod) = true).
          { unfold on_curve. apply Z.eqb_eq.
            rewrite <- Z.mul_mod by lia. rewrite Hc.
            rewrite Z.add_mod, (Z.mul_mod (x * x)), (Z.mul_mod x x) by lia.
            rewrite (Z.add_mod (x mod p_mod * (x mod p_mod) * (x mod p_mod))), (Z.mul_mod (x mod p_mod * (x mod p_mod))) by lia.
            rewrite !Z.mod_mod by lia. reflexivity. }
          rewrite C in E. replace (negb false) with true in E by reflexivity.
          destruct (Z.eqb_spec (x mod p_mod) 0) as [Ex|Ex], (Z.eqb_spec (y mod p_mod) 0) as [Ey|Ey]; cbn in E; try discriminate.
          rewrite Ex, Ey, not_on_curve_00 in C. discriminate. }
        destruct Z0 as [Zx Zy]. pose proof (encodes_range _ _ _ HQ) as [Rx Ry].
        apply abs_mod0 in Zx; [|lia]. apply abs_mod0 in Zy; [|lia]. subst. destruct HQ as [(_ & _ & ->)|(_ & _ & E' & _)].
        + unfold pmul. destruct (k mod r_mod) as [|q|q]; try reflexivity.
          clear. induction q as [q IH|q IH|]; cbn [pmul_pos]; try rewrite IH; reflexivity.
        + exfalso. cbn in E'. vm_compute in E'. discriminate. }
    rewrite I. apply pr_inf.
Qed.

Lemma sadd_pt a b R P Q : encodes (fst a) (snd a) P -> encodes (fst b) (snd b) Q -> sadd a b R ->
  encodes (fst R) (snd R) (padd P Q) /\ padd P Q <> Inf.
Proof.
  intros HP HQ (P' & Q' & HP' & HQ' & HR & HE). destruct a as [ax ay], b as [bx bY]. cbn [fst snd] in *.
  pose proof (encodes_range _ _ _ HP) as [R1 R2]. pose proof (encodes_range _ _ _ HQ) as [R3 R4].
  rewrite !Z.abs_eq in HP', HQ' by lia.
  assert (EP : P' = P). { pose proof (encodes_coords _ _ _ HP) as A1. pose proof (encodes_coords _ _ _ HP') as A2.
    apply unmarshal_encodes in HP; try lia. apply unmarshal_encodes in HP'; try lia. congruence. }
  assert (EQ : Q' = Q). { apply unmarshal_encodes in HQ; try lia. apply unmarshal_encodes in HQ'; try lia. congruence. }
  subst P' Q'. rewrite !Z.mod_small in HE by lia. rewrite HR in HE.
  apply (add_accept _ _ _ _ _ _ HP HQ) in HE. destruct HE as (_ & X & Y & E & RX & RY).
  pose proof (padd_valid P Q (encodes_valid _ _ _ HP) (encodes_valid _ _ _ HQ)) as V.
  rewrite HR, E in *. split; [|discriminate]. unfold pr. cbn [printed fst snd]. rewrite !Z.mod_small by lia.
  apply valid_encodes, V.
Qed.

Definition padd_ops (l : list ((Z * Z) * Fr)) : list pop := map (fun t => PAdd (fst t) (snd t)) l.
Definition plain (l : list ((Z * Z) * Fr)) : list ((Z * Z) * Z) := map (fun t => (mp (fst t), val (snd t))) l.

Lemma chain_msm O l : degen_sane O -> forall q10 q12 K acc,
  (forall P k R, In P (map fst l) -> smul O (fst P) (snd P) k R -> on_c P) ->
  encodes (fst q12) (snd q12) acc -> chain O (padd_ops l) q10 q12 K ->
  exists Q, encodes (fst Q) (snd Q) (msm_from acc (plain l)) /\ (l <> [] -> msm_from acc (plain l) <> Inf) /\ K q10 Q.
Proof.
  intros Hd. induction l as [|[P k] l IH]; intros q10 q12 K acc Hc HA; cbn [padd_ops map chain plain msm_from].
  - intros H. exists q12. tauto.
  - intros (R & Q & Hm & Ha & H). cbn [fst snd] in *.
    assert (Ec : on_c P) by (apply (Hc P (val k) R); [left; reflexivity | exact Hm]).
    pose proof (smul_pt O P (val k) R Hd (val_range k) Ec Hm) as HR.
    destruct (sadd_pt _ _ _ _ _ HA HR Ha) as [HS NI].
    destruct (IH q10 Q K _ (fun P' k' R' HIn => Hc P' k' R' (or_intror HIn)) HS H) as (Q' & E1 & E2 & E3).
    exists Q'. split; [exact E1|]. split; [|exact E3]. intros _. destruct l as [|t l]; [exact NI | apply E2; discriminate].
Qed.

(** the terms added, in the order of the code *)
Definition adds (l : list pop) : list ((Z * Z) * Fr) :=
  flat_map (fun o => match o with PAdd P k => [(P, k)] | _ => [] end) l.
Definition sM : list mop := Eval vm_compute in tl sL.
Definition code_terms T A ic G : list ((Z * Z) * Fr) := adds (ops T A ic sM G).
Definition no_mul (ms : list mop) : bool := forallb (fun m => match m with MMul _ _ _ _ => false | _ => true end) ms.
Lemma ops_adds T A ic ms : no_mul ms = true -> forall G, ops T A ic ms G = padd_ops (adds (ops T A ic ms G)).
Proof.
  induction ms as [|[i e|i x y e|x y e] t IH]; cbn; intros H G; try discriminate; [reflexivity | apply IH, H|].
  f_equal. apply IH, H.
Qed.
Lemma sL_sM : sL = MMul 12 (FStr 1) (FStr (p_mod - 2)) (FBuf 18) :: sM.
Proof. vm_compute. reflexivity. Qed.
Lemma ops_cons T A ic i a b e t G :
  ops T A ic (MMul i a b e :: t) G = PMul i (raw T ic a, raw T ic b) (ef T A G e) :: ops T A ic t G.
Proof. reflexivity. Qed.
Lemma no_mul_M : no_mul sM = true. Proof. vm_compute. reflexivity. Qed.
Lemma ops_L T A ic G : ops T A ic sL G = PMul 12 (1, p_mod - 2) (G 18%nat) :: padd_ops (code_terms T A ic G).
Proof.
  rewrite sL_sM, ops_cons. unfold code_terms. generalize (ops_adds T A ic sM no_mul_M G). generalize (ops T A ic sM G).
  intros l E. rewrite <- E. reflexivity.
Qed.
(** multiplications by constants *)
Fixpoint consts (ms : list mop) : option (list (nat * fexpr * fexpr * Z)) :=
  match ms with
  | [] => Some []
  | MSet _ _ :: t => consts t
  | MMul i a b (FStr z) :: t => option_map (cons (i, a, b, z)) (consts t)
  | _ => None
  end.
Lemma ops_consts T A ic ms : forall l, consts ms = Some l -> forall G,
  ops T A ic ms G = map (fun '(i, a, b, z) => PMul i (raw T ic a, raw T ic b) (fc z)) l.
Proof.
  induction ms as [|[i e|i x y e|x y e] t IH]; cbn; intros l H G; [injection H as <-; reflexivity | apply IH, H | | discriminate].
  destruct e; try discriminate. destruct (consts t) as [l'|]; [|discriminate]. injection H as <-. cbn. f_equal. apply IH. reflexivity.
Qed.
Lemma consts_scalar : consts scalar_part = Some [(10%nat, FTr 102, FTr 103, 1)].
Proof. vm_compute. reflexivity. Qed.
Lemma ops_scalar T A ic G : ops T A ic scalar_part G = [PMul 10 (nth 102 T 0, nth 103 T 0) 1%fr].
Proof. rewrite (ops_consts T A ic _ _ consts_scalar). reflexivity. Qed.


(** *** The terms are those of the specification *)
Fixpoint npow (c : Fr) (n : nat) : Fr := match n with 0%nat => 1%fr | Datatypes.S m => (c * npow c m)%fr end.
Lemma powers_npow c m : powers c m = map (npow c) (rev (seq 0 m)).
Proof.
  unfold powers. apply map_ext. intros i. induction i as [|i IH]; [apply fexp_0|].
  rewrite Nat2Z.inj_succ, <- Z.add_1_l, fexp_add, fexp_1 by lia. cbn [npow]. rewrite IH. reflexivity.
Qed.

Lemma com_terms5 yy v x u sets R0 p0 R1 p1 R2 p2 R3 p3 R4 p4 :
  sets = [(R0, p0); (R1, p1); (R2, p2); (R3, p3); (R4, p4)] ->
  let st c f ps := scale c (scale f (flat_map (fun '(c, p) => scale c (p_com p)) (combine (map (npow yy) (rev (seq 0 (length ps)))) ps))) in
  com_terms yy v x u sets =
    st (npow v 4) (factor x u sets R0) p0 ++ st (npow v 3) (factor x u sets R1) p1 ++
    st (npow v 2) (factor x u sets R2) p2 ++ st (npow v 1) (factor x u sets R3) p3 ++ st (npow v 0) (factor x u sets R4) p4.
Proof.
  intros E. unfold com_terms. rewrite E at 1 2. rewrite powers_npow. unfold set_terms. cbn [length seq rev app map combine flat_map].
  rewrite !powers_npow, app_nil_r. reflexivity.
Qed.

Fixpoint elt {X} (l : list X) (i : nat) (d : X) : X :=
  match l, i with [], _ => d | a :: _, 0%nat => a | _ :: t, Datatypes.S j => elt t j d end.
Lemma elt_nth {X} (l : list X) d : forall i, elt l i d = nth i l d.
Proof. induction l as [|a t IH]; intros [|i]; cbn; auto. Qed.
Lemma perm_idx {X} n (l : list X) d idx : length l = n -> length idx = n ->
  forallb (fun i => existsb (Nat.eqb i) idx) (seq 0 n) = true -> Permutation (map (fun i => elt l i d) idx) l.
Proof.
  rewrite (map_ext _ _ (elt_nth l d)).
  intros <- HL H.
  assert (P : Permutation (seq 0 (length l)) idx).
  { apply NoDup_Permutation_bis; [apply seq_NoDup | rewrite seq_length; lia |].
    intros i Hi. rewrite forallb_forall in H. specialize (H i Hi). apply existsb_exists in H. destruct H as (j & Hj & E).
    apply Nat.eqb_eq in E. subst. exact Hj. }
  apply Permutation_sym in P. apply (Permutation_map (fun i => nth i l d)) in P. rewrite P.
  clear. replace (map (fun i => nth i l d) (seq 0 (length l))) with l; [reflexivity|].
  apply nth_ext with (d := d) (d' := d); [rewrite map_length, seq_length; reflexivity|].
  intros n Hn. rewrite (nth_indep (map _ _) d (nth 0 l d)) by (rewrite map_length, seq_length; exact Hn).
  change (nth 0 l d) with ((fun i => nth i l d) 0%nat). rewrite map_nth, seq_nth by exact Hn. reflexivity.
Qed.

Notation code_order := add_order.
Definition md (t : (Z * Z) * Fr) : (Z * Z) * Fr := (mp (fst t), snd t).
Lemma cons_eq {X Y} (P P' : X) (k k' : Y) l l' : P = P' -> k = k' -> l = l' -> (P, k) :: l = (P', k') :: l'.
Proof. intros -> -> ->. reflexivity. Qed.
Lemma ic_pair (ic : Z * Z) : mp ic = mp (fst ic, snd ic). Proof. reflexivity. Qed.

Section Terms.
  Variables (T A : list Z) (g : nat -> Fr) (b01 : Z * Z) (h : Fr).
  Hypothesis F : facts T A g.
  Notation x := (g 6%nat).
  Notation u := (g 9%nat).
  Notation yy := (g 7%nat).
  Notation v := (g 8%nat).
  Notation G := (exec T A scalar_part g).

  Lemma terms_exact : map md (code_terms T A b01 G) =
    map (fun i => elt (final_terms T (mp b01) h x yy v u) i ((0, 0), 0%fr)) code_order.
  Proof.
    destruct (sp_factors T A g F (mp b01) h) as (E0 & E1 & E2 & E3 & E4).
    pose proof (f_regs T A g F) as R. cbv zeta in R. destruct R as (R6 & R7 & R8 & R9 & R17 & R22 & R35 & R28 & R33 & R25 & R20).
    unfold final_terms.
    assert (V : vanish x u (first_rots (queries T (mp b01) h x)) = ((u - rot x (-6)) * (u - x) * (u - rot x 1))%fr).
    { cbv [first_rots queries vanish map prod fold_right]. rewrite rot_0. ring. }
    rewrite V. clear V.
    erewrite com_terms5 by (unfold queries; reflexivity). cbv zeta. rewrite E0, E1, E2, E3, E4. clear E0 E1 E2 E3 E4.
    cbv [code_terms ops sM adds flat_map app ef upd Nat.eqb raw]. rewrite R6, R7, R8, R9, R17, R20, R22, R25, R28, R33, R35.
    clear R6 R7 R8 R9 R17 R20 R22 R25 R28 R33 R35 F.
    cbv [W W' com vk_fixed vk_sigma flat_map seq rev app map combine scale fst snd length p_com single h_poly Nat.mul Nat.add npow md].
    generalize (rot x (-6)) (rot x (-1)) (rot x 1) (rot x 2) (fexp x dom_n) (fw A 8). intros w6 wm w1 w2 xn a8.
    generalize x u yy v. intros X U Y V0.
    cbv [map add_order elt].
    repeat (apply cons_eq; [first [reflexivity | vm_compute; reflexivity] | ring |]). reflexivity.
  Qed.
  Lemma final_length : length (final_terms T (mp b01) h x yy v u) = 45%nat.
  Proof.
    unfold final_terms. erewrite com_terms5 by (unfold queries; reflexivity). cbv zeta. unfold scale.
    rewrite !app_length, !map_length. reflexivity.
  Qed.
  Lemma terms_perm : Permutation (map md (code_terms T A b01 G)) (final_terms T (mp b01) h x yy v u).
  Proof.
    rewrite terms_exact. apply (perm_idx 45); [apply final_length | reflexivity | vm_compute; reflexivity].
  Qed.
  Lemma terms_plain : plain (code_terms T A b01 G) = ordered_terms (final_terms T (mp b01) h x yy v u).
  Proof.
    assert (P : forall l, plain l = map (fun t => (fst t, val (snd t))) (map md l)) by (intros l; unfold plain; rewrite map_map; reflexivity).
    rewrite P, terms_exact. unfold ordered_terms. rewrite map_map. apply map_ext. intros i. cbv zeta. rewrite elt_nth. reflexivity.
  Qed.
End Terms.

(** *** The points of the terms *)
Definition term_points (ms : list mop) : list (fexpr * fexpr) :=
  flat_map (fun m => match m with MAdd a b _ => [(a, b)] | _ => [] end) ms.
Lemma points_adds T A ic ms : forall G, map fst (adds (ops T A ic ms G)) =
  map (fun '(a, b) => (raw T ic a, raw T ic b)) (term_points ms).
Proof.
  induction ms as [|[i e|i x y e|x y e] t IH]; intros G; cbn; [reflexivity | apply IH | apply IH |].
  f_equal. apply IH.
Qed.
Definition point_ok (q : fexpr * fexpr) : bool :=
  match q with
  | (FTr i, FTr j) => existsb (fun k => Nat.eqb i (2 * k) && Nat.eqb j (2 * k + 1)) commitments
  | (FStr z, FStr w) => (0 <=? z) && (0 <=? w)
  | (FBuf 0, FBuf 1) => true
  | _ => false
  end.
Lemma points_ok_M : forallb point_ok (term_points sM) = true.
Proof. vm_compute. reflexivity. Qed.

Lemma terms_on_c' O T A ic ms G : forallb point_ok (term_points ms) = true -> coms_on_curve T -> on_c ic ->
  forall P k R, In P (map fst (adds (ops T A ic ms G))) -> smul O (fst P) (snd P) k R -> on_c P.
Proof.
  intros Ok HT Hic P k R HIn Hm. rewrite points_adds in HIn. apply in_map_iff in HIn.
  destruct HIn as ((a & b) & <- & HIn). rewrite forallb_forall in Ok.
  specialize (Ok _ HIn). clear HIn. unfold point_ok in Ok. cbn [fst snd] in Hm. unfold on_c. cbn [fst snd].
  destruct a as [[|i]|i|i|z|z|a1 a2|a1 a2|a1|a1 a2 a3|a1 a2], b as [[|[|j]]|j|j|w|w|c1 c2|c1 c2|c1|c1 c2 c3|c1 c2]; try discriminate Ok.
  - exact Hic.
  - apply existsb_exists in Ok. destruct Ok as (n & Hn & E). apply andb_true_iff in E. rewrite !Nat.eqb_eq in E.
    destruct E as [-> ->]. exact (HT n Hn).
  - apply andb_true_iff in Ok. rewrite !Z.leb_le in Ok. destruct Ok as [Oz Ow]. exact (smul_nonneg O _ _ _ _ Oz Ow Hm).
Qed.

Lemma terms_on_c O T A ic G : coms_on_curve T -> on_c ic ->
  forall P k R, In P (map fst (code_terms T A ic G)) -> smul O (fst P) (snd P) k R -> on_c P.
Proof. exact (terms_on_c' O T A ic sM G points_ok_M). Qed.

Lemma plain_md l : plain l = map (fun t => (fst t, val (snd t))) (map md l).
Proof. unfold plain. rewrite map_map. reflexivity. Qed.

Lemma pmul_1' P : pmul 1 P = P.
Proof. unfold pmul. rewrite Z.mod_1_l by apply r_gt1. reflexivity. Qed.

Lemma neg_gen_on_c : on_c (1, p_mod - 2).
Proof. right. cbn [fst snd]. vm_compute. reflexivity. Qed.

Lemma adds_length T A ic ms G : length (adds (ops T A ic ms G)) = length (term_points ms).
Proof. rewrite <- (map_length fst), points_adds, map_length. reflexivity. Qed.
Lemma points_M : length (term_points sM) = 45%nat. Proof. vm_compute. reflexivity. Qed.
Lemma code_terms_ne T A ic G : code_terms T A ic G <> [].
Proof.
  intros E. assert (X : length (code_terms T A ic G) = 45%nat).
  { unfold code_terms. rewrite adds_length. exact points_M. }
  rewrite E in X. discriminate X.
Qed.

Lemma q_of_nth B i : (S i < length B)%nat -> 
  nth_error (map VBig B) i = Some (VBig (fst (q_of i B))) /\ nth_error (map VBig B) (S i) = Some (VBig (snd (q_of i B))).
Proof.
  intros H. unfold q_of. rewrite !nth_error_map, (nth_error_nth' B 0), (nth_error_nth' B 0 (n := S i)) by lia.
  cbn [fst snd option_map]. rewrite ?Nat.add_1_r. auto.
Qed.

Lemma val_one : val 1%fr = 1. Proof. change (val (fc 1) = 1). rewrite val_phi. apply Z.mod_1_l, r_gt1. Qed.
Lemma coords0_of c : coords0 (of_coords0 c) = c.
Proof.
  destruct c as [a b]. unfold of_coords0. cbn [fst snd]. destruct (Z.eqb_spec a 0), (Z.eqb_spec b 0); subst; reflexivity.
Qed.

Lemma neg_gen_pt : of_coords0 (mp (1, p_mod - 2)) = Aff 1 (p_mod - 2). Proof. vm_compute. reflexivity. Qed.
Lemma chain_head O P10 k10 P12 k12 l q10 q12 K :
  chain O ([PMul 10 P10 k10] ++ PMul 12 P12 k12 :: padd_ops l) q10 q12 K ->
  exists R R', smul O (fst P10) (snd P10) (val k10) R /\ smul O (fst P12) (snd P12) (val k12) R' /\ chain O (padd_ops l) R R' K.
Proof. intros (q & R & H1 & q' & R' & H2 & H3). exists R, R'. exact (conj H1 (conj H2 H3)). Qed.

Section Accumulator.
  Variables (O : oracles) (T A B : list Z) (s s1 s2 s3 : cs) (b1 b2 b3 : list var).
  Hypothesis L : length B = 43%nat.
  Hypothesis C : forall j, (2 <= j < 10)%nat -> 0 <= nth j B 0 < r_mod.
  Hypothesis H1 : VerifyProof1 O Test (map VBig T) (map VBig A) (map VBig B) s = Done ((b1, None), s1).
  Hypothesis H2 : VerifyProof2 O Test (map VBig T) (map VBig A) b1 s1 = Done ((b2, None), s2).
  Hypothesis H3 : VerifyProof3 O Test (map VBig T) (map VBig A) b2 s2 = Done ((b3, None), s3).
  Hypothesis Hd : degen_sane O.
  Hypothesis HT : coms_on_curve T.
  Hypothesis HB : curve_or_zero (nth 0 B 0) (nth 1 B 0).
  Notation g := (regs B).

  Lemma c31_gen : let ic := (nth 0 B 0 mod p_mod, nth 1 B 0 mod p_mod) in
    let h := fc (nth 16 A 0) in
    let E := opening (g 7%nat) (g 8%nat) (g 6%nat) (g 9%nat) (queries T ic h (g 6%nat)) in
    s3 = s /\ length b3 = 43%nat /\
    nth_error b3 10 = Some (VBig (fst (W' T))) /\ nth_error b3 11 = Some (VBig (snd (W' T))) /\
    exists terms X Y, Permutation terms (final_terms T ic h (g 6%nat) (g 7%nat) (g 8%nat) (g 9%nat)) /\
      msm_from (pmul (val E) (Aff 1 (p_mod - 2))) (map (fun t => (fst t, val (snd t))) terms) = Aff X Y /\
      encodes X Y (Aff X Y) /\ nth_error b3 12 = Some (VBig X) /\ nth_error b3 13 = Some (VBig Y).
  Proof.
    cbv zeta. destruct (exec123 O T A B s b1 s1 b2 s2 b3 s3 L C H1 H2 H3) as (Es & Ok & B3 & E3 & L3 & Ch).
    cbv zeta in Ok, Ch. rewrite segments_all in Ok, Ch. rewrite oks_app in Ok. destruct Ok as [Ok _].
    pose proof (whole T A g Ok) as F. subst b3.
    split; [exact Es|]. split; [rewrite map_length; exact L3|].
    rewrite ops_app, ops_scalar, ops_L in Ch. change (b01_of B) with (nth 0 B 0, nth 1 B 0) in Ch.
    set (ic := (nth 0 B 0, nth 1 B 0)) in *.
    apply chain_head in Ch. destruct Ch as (R & R' & HW & HE & Ch).
    pose proof (smul_pt O (nth 102 T 0, nth 103 T 0) _ R Hd (val_range _) (HT 51%nat ltac:(cbn; tauto)) HW) as PW.
    pose proof (smul_pt O (1, p_mod - 2) _ R' Hd (val_range _) neg_gen_on_c HE) as PE.
    destruct (chain_msm O _ Hd _ _ _ _ (terms_on_c O T A ic _ HT HB) PE Ch) as (Q & EQ & NI & HQ10 & HQ12).
    destruct (q_of_nth B3 10) as [N10 N11]; [lia|]. destruct (q_of_nth B3 12) as [N12 N13]; [lia|].
    rewrite <- HQ10 in N10, N11. rewrite <- HQ12 in N12, N13.
    assert (EW : R = W' T).
    { rewrite val_one, pmul_1' in PW. apply encodes_coords in PW. rewrite coords0_of in PW.
      rewrite <- (surjective_pairing R) in PW. symmetry. exact PW. }
    rewrite EW in N10, N11. split; [exact N10|]. split; [exact N11|].
    pose proof (terms_perm T A g ic (fc (nth 16 A 0)) F) as TP.
    rewrite <- (sp_opening T A g F (mp ic) _ eq_refl) in EQ, NI.
    specialize (NI (code_terms_ne T A ic _)). rewrite plain_md in EQ, NI.
    exists (map md (code_terms T A ic (exec T A scalar_part g))).
    rewrite neg_gen_pt in EQ, NI.
    destruct EQ as [(_ & _ & EQ)|(EX & EY & EC & EQ)]; [contradiction|].
    exists (fst Q), (snd Q). split; [exact TP|]. split; [exact EQ|].
    split; [right; exact (conj EX (conj EY (conj EC eq_refl)))|]. split; [exact N12 | exact N13].
  Qed.
End Accumulator.
