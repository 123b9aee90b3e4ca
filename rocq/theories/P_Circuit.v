(** The aggregation circuit and the polynomials behind its proof: acceptance and the opening identity, soundness and
    completeness with respect to the rows of the columns. *)
From Coq Require Import ZArith Lia Bool List Permutation Ring Field.
From Verif Require Import Params Go Curve Api FrOps Lib Steps Agg NumThy FField FpField SpecCurve SpecHash SpecMisc SpecVerify SpecPoly SpecRows
  P_Fr P_Curve P_Msm P_Group P_Order P_GroupSpec P_Misc P_Kyc P_LinComb P_Restate P_Dom P_VSpec P_Honest P_Final P_Shplonk P_Poly P_Open P_Rows P_Snark.
Import ListNotations.
Open Scope Z_scope.

Local Opaque p_mod r_mod.
Local Opaque phi fmul fadd fsub fopp fdiv finv.
Local Opaque rot fzpow fexp omega delta dom_n.

Lemma tot_committed tau p f : terms_ok (p_com p) -> total (plain_terms (p_com p)) = ge (peval f tau) -> committed tau p f.
Proof.
  intros O E. exists (total (plain_terms (p_com p))). split; [apply total_lin_comb, O|]. rewrite E. apply zmul_multiple, gen_valid.
Qed.
Lemma committed_single tau T P es f : commits tau f P -> committed tau (single T P es) f.
Proof.
  intros H. destruct (commits_tot tau f P 1%fr H) as [O E]. apply tot_committed; [exact O|]. refine (eq_trans E _). f_equal. ring.
Qed.
Lemma committed_pieces tau T h x h0 h1 h2 : quotient_commitments tau h0 h1 h2 T -> committed tau (h_poly T h x) (pieces x h0 h1 h2).
Proof.
  intros (H0 & H1 & H2). destruct (commits_tot tau h0 _ 1%fr H0) as [O0 E0]. destruct (commits_tot tau h1 _ (fexp x dom_n) H1) as [O1 E1].
  destruct (commits_tot tau h2 _ (fexp x dom_n * fexp x dom_n)%fr H2) as [O2 E2].
  assert (O12 : terms_ok ([(com T 20, fexp x dom_n)] ++ [(com T 21, (fexp x dom_n * fexp x dom_n)%fr)])) by (apply terms_ok_app; split; assumption).
  apply tot_committed; cbn [h_poly p_com].
  - apply (terms_ok_app [_]). split; [exact O0|exact O12].
  - refine (eq_trans (tot_app [(com T 19, 1%fr)] ([(com T 20, fexp x dom_n)] ++ [(com T 21, (fexp x dom_n * fexp x dom_n)%fr)]) O0 O12) _).
    rewrite (tot_app _ _ O1 O2), E0, E1, E2, pieces_eval, <- !ge_add. f_equal. ring.
Qed.

Lemma Forall2_In (P : list Z -> poly * pol -> Prop) (os : list oset) :
  Forall (fun o => Forall (fun pf => P (fst o) pf) (snd o)) os -> forall R l p f, In (R, l) os -> In (p, f) l -> P R (p, f).
Proof.
  intros H R l p f Ho Hp. rewrite Forall_forall in H. pose proof (H (R, l) Ho) as G. cbn [fst snd] in G. rewrite Forall_forall in G. exact (G _ Hp).
Qed.

Section Cols.
  Variables (inst : pol) (adv fixd sigm : nat -> pol).
  Notation fs hx := (set_polys inst adv fixd sigm hx).

  Lemma sets_attach T ic h x hx : sets (attach (queries T ic h x) (fs hx)) = queries T ic h x.
  Proof. reflexivity. Qed.

  Lemma attach_committed tau T ic h x h0 h1 h2 : column_commitments tau inst adv fixd sigm T ic -> quotient_commitments tau h0 h1 h2 T ->
    forall R l p f, In (R, l) (attach (queries T ic h x) (fs (pieces x h0 h1 h2))) -> In (p, f) l -> committed tau p f.
  Proof.
    intros (HI & HA & HF & HS) HQ. pose proof (committed_pieces tau T h x h0 h1 h2 HQ) as HH.
    apply (Forall2_In (fun _ pf => committed tau (fst pf) (snd pf))).
    unfold queries, set_polys, vk_fixed, vk_sigma. cbn [attach combine map app seq].
    repeat (apply Forall_cons; [cbn [snd]; repeat (apply Forall_cons; [cbn [fst snd];
      lazymatch goal with
      | |- committed _ _ (adv ?k) => exact (committed_single _ _ _ _ _ (HA k ltac:(lia)))
      | |- committed _ _ (fixd ?k) => exact (committed_single _ _ _ _ _ (HF k ltac:(lia)))
      | |- committed _ _ (sigm ?k) => exact (committed_single _ _ _ _ _ (HS k ltac:(lia)))
      | |- committed _ (h_poly _ _ _) _ => exact HH
      | |- _ => exact (committed_single _ _ _ _ _ HI)
      end|]); apply Forall_nil|]). apply Forall_nil.
  Qed.

  (** ** acceptance and the opening identity *)
  Lemma com_valid T i : In i commitments -> coms_on_curve T -> fst (com T i) <> 0 -> valid (Aff (fst (com T i)) (snd (com T i))).
  Proof.
    intros Hi H N. specialize (H i Hi). unfold com in *. cbn [fst snd] in *. apply valid_aff. pose proof p_pos as Pp.
    split; [apply Z.mod_pos_bound, Pp|]. split; [apply Z.mod_pos_bound, Pp|]. unfold on_curve. apply Z.eqb_eq.
    destruct H as [[H _]|H]; [contradiction|]. set (a := nth (2 * i) T 0) in *. set (b := nth (2 * i + 1) T 0) in *.
    rewrite <- Z.mul_mod, H by lia. rewrite <- (Z.add_mod_idemp_l (a mod p_mod * _ * _)) by lia. rewrite <- (Z.add_mod_idemp_l (a * a * a)) by lia. do 2 f_equal.
    rewrite (Z.mul_mod (a * a)), (Z.mul_mod a a) by lia. rewrite (Z.mul_mod (a mod p_mod * (a mod p_mod)) (a mod p_mod)) by lia.
    rewrite Z.mod_mod by lia. reflexivity.
  Qed.

  Lemma accepts_opens O c zs T A s s' tau ix iy h0 h1 h2 w w' :
    TargetInst c ++ VerifyInst c = map VBig zs -> Proof_ c = map VBig T -> Aux c = map VBig A -> (104 <= length T)%nat ->
    degen_sane O -> kzg_pairing O g20_const g21_const tau ->
    multiple (Aff lagrange_x lagrange_y) ((o_keccak O (encoding (map (fun z => z mod p_mod) zs)) mod 2 ^ 256) mod r_mod) (Aff ix iy) ->
    column_commitments tau inst adv fixd sigm T (ix, iy) -> quotient_commitments tau h0 h1 h2 T -> opening_commitments tau w w' T ->
    let d := transcript_values O ix iy T in
    let ch i := fc (nth i d 0) in
    let th := ch 0%nat in let be := ch 1%nat in let ga := ch 2%nat in let y := ch 3%nat in
    let x := ch 4%nat in let yy := ch 5%nat in let v := ch 6%nat in let u := ch 7%nat in
    fexp x dom_n <> 1%fr ->
    Define O Test c s = Done (None, s') ->
    x <> 0%fr /\ u <> rot x (-1) /\ u <> rot x 2 /\
    opens_at yy v x u (attach (queries T (ix, iy) (quotient (word T) th be ga x y) x) (fs (pieces x h0 h1 h2))) w w' tau.
  Proof.
    intros EZ ET EA LT Hd HK HI HC HQ [HW HW'] d ch th be ga y x yy v u Hx H.
    destruct (c36_spec O c zs T A s s' EZ ET EA LT Hd H) as (_ & _ & HT & ix' & iy' & HI' & R). cbv zeta in R.
    assert (EI : Aff ix' iy' = Aff ix iy).
    { rewrite <- (multiple_pmul _ _ _ _ _ lagrange_encodes HI), <- (multiple_pmul _ _ _ _ _ lagrange_encodes HI'). reflexivity. }
    injection EI as -> ->. fold d in R. change (fun i => fc (nth i d 0)) with ch in R.
    destruct R as (_ & N0 & N1 & N2 & Q & X & Y & L & W0 & W1 & X0 & Y0 & P).
    fold (ch 0%nat) (ch 1%nat) (ch 2%nat) (ch 3%nat) (ch 4%nat) (ch 5%nat) (ch 6%nat) (ch 7%nat) in N0, N1, N2, Q, L.
    fold th be ga y x yy v u in N0, N1, N2, Q, L. destruct (Q Hx) as [Eh _]. rewrite Eh in L. clear Q.
    split; [exact N0|]. split; [exact N1|]. split; [exact N2|].
    assert (VW : valid (Aff (fst (W' T)) (snd (W' T)))) by (apply com_valid; [apply in_app_iff; right; right; left; reflexivity|exact HT|exact W0]).
    assert (VR : valid (Aff X Y)) by (apply lin_comb_total in L; destruct L as [F ->]; apply total_valid, F).
    apply (HK _ _ _ _ VW VR) in P.
    refine (proj1 (acc_identity tau yy v x u (attach (queries T (ix, iy) (quotient (word T) th be ga x y) x) (fs (pieces x h0 h1 h2)))
      (W T) (W' T) w w' (Aff X Y) (Aff (fst (W' T)) (snd (W' T))) _ HW HW' (valid_encodes _ _ VW) _) P).
    - exact (attach_committed tau T (ix, iy) _ x h0 h1 h2 HC HQ).
    - exact L.
  Qed.

  Lemma opens_accepts O c zs T A s tau ix iy X Y h0 h1 h2 w w' :
    TargetInst c ++ VerifyInst c = map VBig zs -> Proof_ c = map VBig T -> Aux c = map VBig A ->
    (length zs <= 43)%nat -> (104 <= length T)%nat -> (21 <= length A)%nat ->
    degen_sane O -> kzg_pairing O g20_const g21_const tau -> coms_valid T -> Forall small (firstn 102 T) ->
    multiple (Aff lagrange_x lagrange_y) ((o_keccak O (encoding (map (fun z => z mod p_mod) zs)) mod 2 ^ 256) mod r_mod) (Aff ix iy) ->
    ix < r_mod -> iy < r_mod ->
    column_commitments tau inst adv fixd sigm T (ix, iy) -> quotient_commitments tau h0 h1 h2 T -> opening_commitments tau w w' T ->
    let d := transcript_values O ix iy T in
    let ch i := fc (nth i d 0) in
    let th := ch 0%nat in let be := ch 1%nat in let ga := ch 2%nat in let y := ch 3%nat in
    let x := ch 4%nat in let yy := ch 5%nat in let v := ch 6%nat in let u := ch 7%nat in
    let h := quotient (word T) th be ga x y in
    let E := opening yy v x u (queries T (ix, iy) h x) in
    let terms := final_terms T (ix, iy) h x yy v u in
    x <> 0%fr -> fexp x dom_n <> 1%fr -> u <> rot x (-1) -> u <> rot x 2 ->
    (forall i, (i < 21)%nat -> nth i A 0 = val (nth i (helpers x u h) 0%fr)) ->
    fits (Aff (nth 102 T 0) (nth 103 T 0)) -> computable (claim E (ordered_terms terms)) ->
    lin_comb (claim E (plain_terms terms)) (Aff X Y) -> nth 102 T 0 <> 0 -> nth 103 T 0 <> 0 -> X <> 0 -> Y <> 0 ->
    opens_at yy v x u (attach (queries T (ix, iy) h x) (fs (pieces x h0 h1 h2))) w w' tau ->
    Define O Test c s = Done (None, s).
  Proof.
    intros EZ ET EA LZ LT LA Hd HK VT SM HI RIx RIy HC HQ [HW HW'] d ch th be ga y x yy v u h E terms Hx0 Hx Hu1 Hu2 HH FW FS HM W0 W1 X0 Y0 HO.
    apply (c48_spec O c zs T A s ix iy X Y EZ ET EA LZ LT LA Hd VT SM HI RIx RIy Hx0 Hx Hu1 Hu2 HH FW FS HM W0 W1 X0 Y0).
    assert (VW : valid (Aff (nth 102 T 0) (nth 103 T 0))) by (apply (VT 51%nat); apply in_app_iff; right; right; left; reflexivity).
    assert (VR : valid (Aff X Y)) by (apply lin_comb_total in HM; destruct HM as [F ->]; apply total_valid, F).
    apply (HK _ _ _ _ VW VR).
    assert (EW : W' T = (nth 102 T 0, nth 103 T 0)).
    { unfold W', com. pose proof VW as V. apply valid_aff in V. destruct V as (V1 & V2 & _).
      f_equal; apply Z.mod_small; assumption. }
    refine (proj2 (acc_identity tau yy v x u (attach (queries T (ix, iy) h x) (fs (pieces x h0 h1 h2)))
      (W T) (W' T) w w' (Aff X Y) (Aff (nth 102 T 0) (nth 103 T 0)) _ HW HW' _ _) HO).
    - exact (attach_committed tau T (ix, iy) _ x h0 h1 h2 HC HQ).
    - rewrite EW. exact (valid_encodes _ _ VW).
    - exact HM.
  Qed.

  (** ** soundness *)
  Lemma attach_shape T ic h x hx N : (7 <= N)%nat -> (length inst <= N)%nat -> (forall i, (length (adv i) <= N)%nat) ->
    (forall i, (length (fixd i) <= N)%nat) -> (forall i, (length (sigm i) <= N)%nat) -> (length hx <= N)%nat ->
    let os := attach (queries T ic h x) (fs hx) in
    (forall R l, In (R, l) os -> rots_ok R /\ (length R <= N)%nat /\ (length l <= 30)%nat) /\
    (forall R l p f, In (R, l) os -> In (p, f) l -> (length f <= N)%nat /\ length (p_evals p) = length R).
  Proof.
    intros HN LI LA LF LS LH os. split.
    - intros R l Ho.
      assert (C : In (R, length l) (map (fun o : oset => (fst o, length (snd o))) os)) by (apply (in_map (fun o : oset => (fst o, length (snd o)))) in Ho; exact Ho).
      change (map (fun o : oset => (fst o, length (snd o))) os) with [([-6; 0; 1], 3%nat); ([0; -1], 2%nat); ([0], 30%nat); ([0; 1], 4%nat); ([0; 1; 2], 2%nat)] in C.
      unfold rots_ok. cbn [In] in C. repeat destruct C as [C|C]; try contradiction; injection C as <- <-;
        (split; [split; [discriminate|split; [repeat constructor; cbn; intuition discriminate|intros k Hk; cbn in Hk |- *; intuition subst; auto 10]]|cbn [length]; lia]).
    - apply (Forall2_In (fun R pf => (length (snd pf) <= N)%nat /\ length (p_evals (fst pf)) = length R)). unfold os.
      unfold queries, set_polys, vk_fixed, vk_sigma. cbn [attach combine map app seq].
      repeat (apply Forall_cons; [cbn [fst snd]; repeat (apply Forall_cons; [cbn [fst snd]; split; [auto|reflexivity]|]); apply Forall_nil|]). apply Forall_nil.
  Qed.
  Lemma pieces_length x h0 h1 h2 N : (length h0 <= N)%nat -> (length h1 <= N)%nat -> (length h2 <= N)%nat -> (length (pieces x h0 h1 h2) <= N)%nat.
  Proof. intros H0 H1 H2. unfold pieces. rewrite !plus_length. unfold pscal. rewrite !map_length. lia. Qed.
  Lemma quotient_ext t t' th be ga x y : (forall i, (44 <= i < 100)%nat -> t i = t' i) -> quotient t th be ga x y = quotient t' th be ga x y.
  Proof. intros H. unfold quotient. rewrite (expressions_ext t t' th be ga x H). reflexivity. Qed.
  Lemma dn_7 : (7 <= dn)%nat. Proof. pose proof dom_6 as H. rewrite <- dn_n in H. lia. Qed.

  Lemma vanish_first T ic h x0 x u hx : u <> rot x (-1) -> u <> rot x 2 ->
    vanish x u (without all_rots (first_rots (sets (attach (queries T ic h x0) (fs hx))))) <> 0%fr.
  Proof.
    intros H1 H2. change (without all_rots (first_rots (sets (attach (queries T ic h x0) (fs hx))))) with [-1; 2].
    unfold vanish. apply prod_nz. intros a Ha. cbn [map In] in Ha. destruct Ha as [<-|[<-|[]]]; apply sub_nz; assumption.
  Qed.

  Lemma circuit_sound (th be ga : Fr) N j : 0 <= j < dom_n -> ~ row_ok inst adv fixd sigm th be ga j ->
    (Z.to_nat dom_n <= N)%nat -> (length inst <= N)%nat -> (forall i, (length (adv i) <= N)%nat) ->
    (forall i, (length (fixd i) <= N)%nat) -> (forall i, (length (sigm i) <= N)%nat) ->
    exists Ys, (length Ys < 23)%nat /\ forall y, ~ In y Ys ->
    forall h0 h1 h2, (length h0 <= N)%nat -> (length h1 <= N)%nat -> (length h2 <= N)%nat ->
    exists Xs, (length Xs < 4 * N)%nat /\ forall x, ~ In x Xs -> fexp x dom_n <> 1%fr ->
    forall es : nat -> Fr,
    exists YYs, (length YYs < 30)%nat /\ forall yy, ~ In yy YYs ->
    exists Vs, (length Vs < 5)%nat /\ forall v, ~ In v Vs ->
    forall w, (length w <= N)%nat ->
    exists Us, (length Us <= N + 4)%nat /\ forall u, ~ In u Us ->
    forall w', (length w' <= N)%nat ->
    exists Ts, (length Ts <= N)%nat /\ forall tau, ~ In tau Ts ->
    forall O c zs T A s s' ix iy,
      TargetInst c ++ VerifyInst c = map VBig zs -> Proof_ c = map VBig T -> Aux c = map VBig A -> (104 <= length T)%nat ->
      degen_sane O -> kzg_pairing O g20_const g21_const tau ->
      multiple (Aff lagrange_x lagrange_y) ((o_keccak O (encoding (map (fun z => z mod p_mod) zs)) mod 2 ^ 256) mod r_mod) (Aff ix iy) ->
      column_commitments tau inst adv fixd sigm T (ix, iy) -> quotient_commitments tau h0 h1 h2 T -> opening_commitments tau w w' T ->
      map fc (transcript_values O ix iy T) = [th; be; ga; y; x; yy; v; u] ->
      (forall i, (44 <= i < 100)%nat -> word T i = es i) ->
      Define O Test c s <> Done (None, s').
  Proof.
    intros Hj NR LN LI LA LF LS. rewrite dom_nat in LN. pose proof dn_7 as D7. destruct N as [|D]; [lia|].
    destruct (rows_bad inst adv fixd sigm th be ga D LI LA LF LS LN j Hj NR) as [Ys [LY HY]].
    exists Ys. split; [exact LY|]. intros y Hy h0 h1 h2 L0 L1 L2. destruct (HY y Hy h0 h1 h2 L0 L1 L2) as [Xs [LX HX]].
    exists Xs. split; [exact LX|]. intros x Hx Hn es. specialize (HX x Hx Hn).
    set (hx := pieces x h0 h1 h2) in *. assert (LH : (length hx <= S D)%nat) by (apply pieces_length; assumption).
    set (hq := quotient es th be ga x y).
    set (Td := map (fun i => val (es i)) (seq 0 100)).
    set (os := attach (queries Td (0, 0) hq 0%fr) (fs hx)).
    destruct (attach_shape Td (0, 0) hq 0%fr hx (S D) ltac:(lia) LI LA LF LS LH) as [SH1 SH2]. cbv zeta in SH1, SH2. fold os in SH1, SH2.
    assert (EX : forall T ic, (forall i, (44 <= i < 100)%nat -> word T i = es i) ->
      map strip (attach (queries T ic hq x) (fs hx)) = map strip os).
    { intros T ic HE. unfold os. apply queries_ext. intros i Hi. rewrite (HE i Hi). symmetry. apply (word_dummy es i Hi). }
    destruct (fr_dec x 0%fr) as [X0|X0].
    { (* rejected for x = 0 *)
      exists []. split; [cbn; lia|]. intros yy _. exists []. split; [cbn; lia|]. intros v _ w _. exists []. split; [cbn; lia|]. intros u _ w' _.
      exists []. split; [cbn; lia|]. intros tau _ O c zs T A s s' ix iy EZ ET EA LT Hd HK HI HC HQ HO ED HE H.
      pose proof (accepts_opens O c zs T A s s' tau ix iy h0 h1 h2 w w' EZ ET EA LT Hd HK HI HC HQ HO) as G. cbv beta zeta in G.
      assert (EC : forall i, fc (nth i (transcript_values O ix iy T) 0) = nth i [th; be; ga; y; x; yy; v; u] (fc 0)) by (intros i; rewrite <- ED; symmetry; apply (map_nth (fun z => fc z))).
      rewrite (EC 4%nat) in G. cbn [nth] in G. destruct (G Hn H) as [G0 _]. contradiction. }
    assert (WR : exists R l p f, In (R, l) os /\ In (p, f) l /\ ~ evaluates x R p f).
    { destruct (all_dec x os) as [W|F]; [exact W|exfalso].
      assert (F' : Forall (fun o : oset => Forall (fun pf => evaluates x (fst o) (fst pf) (snd pf)) (snd o)) (attach (queries Td (0, 0) hq x) (fs hx))).
      { clear - F EX. unfold os in *. revert F. 
        assert (E : map strip (attach (queries Td (0, 0) hq x) (fs hx)) = map strip (attach (queries Td (0, 0) hq 0%fr) (fs hx))) by (apply queries_ext; reflexivity).
        revert E. generalize (attach (queries Td (0, 0) hq 0%fr) (fs hx)) (attach (queries Td (0, 0) hq x) (fs hx)). clear.
        intros l. induction l as [|o l IH]; intros [|o' l'] E F; try discriminate; [constructor|]. cbn [map] in E.
        pose proof (f_equal (fun l => hd (strip o) l) E) as E1. pose proof (f_equal (@tl _) E) as E2. cbn [hd tl] in E1, E2.
        constructor; [|apply IH; [exact E2|exact (Forall_inv_tail F)]]. apply Forall_inv in F.
        destruct o as [R m], o' as [R' m']. unfold strip in E1. cbn [fst snd] in *. apply pair_equal_spec in E1. destruct E1 as [-> E1].
        clear - E1 F. revert m' E1. induction F as [|[p f] m H F IH]; intros [|[p' f'] m'] E; try discriminate; constructor.
        - cbn [map fst snd] in E. pose proof (f_equal (fun l => hd ([], []) l) E) as E'. cbn [hd] in E'. apply pair_equal_spec in E'. destruct E' as [Ep ->].
          unfold evaluates in *. cbn [fst snd] in *. rewrite Ep. exact H.
        - apply IH. exact (f_equal (@tl _) E). }
      apply evals_right in F'. destruct F' as [FE Fh]. apply HX. fold hx. rewrite <- Fh. unfold hq. apply quotient_ext. intros i Hi.
      rewrite <- (FE i Hi). symmetry. apply (word_dummy es i Hi). }
    destruct (soundness x os (S D) 30 X0 SH1 SH2 ltac:(lia) WR) as [YYs [LYY HYY]].
    exists YYs. split; [exact LYY|]. intros yy Hyy. destruct (HYY yy Hyy) as [Vs [LV HV]]. exists Vs. split; [exact LV|]. intros v Hv w Lw.
    destruct (HV v Hv w Lw) as [Us [LU HU]]. exists Us. split; [exact LU|]. intros u Hu w' Lw'.
    destruct (fr_dec (vanish x u (without all_rots (first_rots (sets os)))) 0%fr) as [V0|V0].
    { exists []. split; [cbn; lia|]. intros tau _ O c zs T A s s' ix iy EZ ET EA LT Hd HK HI HC HQ HO ED HE H.
      pose proof (accepts_opens O c zs T A s s' tau ix iy h0 h1 h2 w w' EZ ET EA LT Hd HK HI HC HQ HO) as G. cbv beta zeta in G.
      assert (EC : forall i, fc (nth i (transcript_values O ix iy T) 0) = nth i [th; be; ga; y; x; yy; v; u] (fc 0)) by (intros i; rewrite <- ED; symmetry; apply (map_nth (fun z => fc z))).
      rewrite (EC 4%nat), (EC 7%nat) in G. cbn [nth] in G. destruct (G Hn H) as (_ & G1 & G2 & _).
      exact (vanish_first Td (0, 0) hq 0%fr x u hx G1 G2 V0). }
    destruct (HU u Hu V0 w' Lw') as [Ts [LT HT]]. exists Ts. split; [exact LT|].
    intros tau Htau O c zs T A s s' ix iy EZ ET EA LTT Hd HK HI HC HQ HO ED HE H.
    pose proof (accepts_opens O c zs T A s s' tau ix iy h0 h1 h2 w w' EZ ET EA LTT Hd HK HI HC HQ HO) as G. cbv beta zeta in G.
    assert (EC : forall i, fc (nth i (transcript_values O ix iy T) 0) = nth i [th; be; ga; y; x; yy; v; u] (fc 0)) by (intros i; rewrite <- ED; symmetry; apply (map_nth (fun z => fc z))).
    rewrite !EC in G. cbn [nth] in G. destruct (G Hn H) as (_ & _ & _ & G3).
    rewrite (quotient_ext (word T) es th be ga x y HE) in G3. fold hq hx in G3.
    apply (HT tau Htau). specialize (EX T (ix, iy) HE). clearbody os. clear - EX G3. revert EX G3. generalize (attach (queries T (ix, iy) hq x) (fs hx)).
    intros os' EX G3. exact (proj1 (opens_strip _ _ _ _ _ _ _ _ _ EX) G3).
  Qed.

  (** ** completeness *)
  Lemma circuit_complete (th be ga : Fr) : let N := Z.to_nat dom_n in
    (length inst <= N)%nat -> (forall i, (length (adv i) <= N)%nat) ->
    (forall i, (length (fixd i) <= N)%nat) -> (forall i, (length (sigm i) <= N)%nat) ->
    (forall j, 0 <= j < dom_n -> row_ok inst adv fixd sigm th be ga j) ->
    forall y, exists h0 h1 h2, (length h0 <= N)%nat /\ (length h1 <= N)%nat /\ (length h2 <= N)%nat /\
    forall x yy v, x <> 0%fr -> fexp x dom_n <> 1%fr -> exists w, (length w <= N)%nat /\
    forall u, u <> rot x (-1) -> u <> rot x 2 -> exists w', (length w' <= N)%nat /\
    forall tau O c zs T A s ix iy X Y,
      TargetInst c ++ VerifyInst c = map VBig zs -> Proof_ c = map VBig T -> Aux c = map VBig A ->
      (length zs <= 43)%nat -> (104 <= length T)%nat -> (21 <= length A)%nat ->
      degen_sane O -> kzg_pairing O g20_const g21_const tau -> coms_valid T -> Forall small (firstn 102 T) ->
      multiple (Aff lagrange_x lagrange_y) ((o_keccak O (encoding (map (fun z => z mod p_mod) zs)) mod 2 ^ 256) mod r_mod) (Aff ix iy) ->
      ix < r_mod -> iy < r_mod ->
      column_commitments tau inst adv fixd sigm T (ix, iy) -> quotient_commitments tau h0 h1 h2 T -> opening_commitments tau w w' T ->
      map fc (transcript_values O ix iy T) = [th; be; ga; y; x; yy; v; u] ->
      (forall i, (44 <= i < 100)%nat -> word T i = cell inst adv fixd sigm x i) ->
      let h := quotient (word T) th be ga x y in
      let E := opening yy v x u (queries T (ix, iy) h x) in
      let terms := final_terms T (ix, iy) h x yy v u in
      (forall i, (i < 21)%nat -> nth i A 0 = val (nth i (helpers x u h) 0%fr)) ->
      fits (Aff (nth 102 T 0) (nth 103 T 0)) -> computable (claim E (ordered_terms terms)) ->
      lin_comb (claim E (plain_terms terms)) (Aff X Y) -> nth 102 T 0 <> 0 -> nth 103 T 0 <> 0 -> X <> 0 -> Y <> 0 ->
      Define O Test c s = Done (None, s).
  Proof.
    cbv zeta. rewrite dom_nat. intros LI LA LF LS HR y. pose proof dn_7 as D7.
    assert (ED : exists D, S D = dn) by (exists (pred dn); lia). destruct ED as [D ED].
    pose proof (rows_good inst adv fixd sigm th be ga D) as G. rewrite ED in G.
    destruct (G LI LA LF LS (le_n _) eq_refl HR y) as (h0 & h1 & h2 & L0 & L1 & L2 & HQ). clear G.
    exists h0, h1, h2. split; [exact L0|]. split; [exact L1|]. split; [exact L2|]. intros x yy v X0 Hn.
    set (hx := pieces x h0 h1 h2) in *. assert (LH : (length hx <= dn)%nat) by (apply pieces_length; assumption).
    set (es := cell inst adv fixd sigm x). set (hq := quotient es th be ga x y). set (Td := map (fun i => val (es i)) (seq 0 100)).
    set (os := attach (queries Td (0, 0) hq x) (fs hx)).
    destruct (attach_shape Td (0, 0) hq x hx dn D7 LI LA LF LS LH) as [SH1 SH2]. cbv zeta in SH1, SH2. fold os in SH1, SH2.
    assert (EV : Forall (fun o : oset => Forall (fun pf => evaluates x (fst o) (fst pf) (snd pf)) (snd o)) os).
    { apply evals_right'; [intros i Hi; apply (word_dummy es i Hi)|]. symmetry. apply HQ, Hn. }
    destruct (honest_opening x X0 yy v os dn) as (w & Lw & _ & HU).
    - intros R l Ho. destruct (SH1 R l Ho) as (? & ? & _). auto.
    - intros R l p f Ho Hp. exact (proj1 (SH2 R l p f Ho Hp)).
    - lia.
    - exact (Forall2_In (fun R pf => evaluates x R (fst pf) (snd pf)) os EV).
    - exists w. split; [exact Lw|]. intros u H1 H2. destruct (HU u (vanish_first Td (0, 0) hq x x u hx H1 H2)) as (w' & Lw' & HW').
      exists w'. split; [exact Lw'|]. intros tau O c zs T A s ix iy X Y EZ ET EA LZ LT LA' Hd HK VT SM HI RX RY HC HQc HO EC0 HE HH FW FS HM W0 W1 NX NY.
      pose proof (opens_accepts O c zs T A s tau ix iy X Y h0 h1 h2 w w' EZ ET EA LZ LT LA' Hd HK VT SM HI RX RY HC HQc HO) as G. cbv beta zeta in G.
      assert (EC : forall i, fc (nth i (transcript_values O ix iy T) 0) = nth i [th; be; ga; y; x; yy; v; u] (fc 0)) by (intros i; rewrite <- EC0; symmetry; apply (map_nth (fun z => fc z))).
      rewrite !EC in G. cbn [nth] in G. apply G; try assumption. 
      rewrite (quotient_ext (word T) es th be ga x y HE). fold hq hx.
      assert (EX : map strip (attach (queries T (ix, iy) hq x) (fs hx)) = map strip os).
      { unfold os. apply queries_ext. intros i Hi. rewrite (HE i Hi). symmetry. apply (word_dummy es i Hi). }
      specialize (HW' tau). clearbody os. clear - EX HW'. revert EX HW'. generalize (attach (queries T (ix, iy) hq x) (fs hx)).
      intros os' EX G3. exact (proj2 (opens_strip _ _ _ _ _ _ _ _ _ EX) G3).
  Qed.
End Cols.

(** ** rows and quotient, with the size of the domain in the statements *)
Lemma violated_rows inst adv fixd sigm th be ga N j : 0 <= j < dom_n -> ~ row_ok inst adv fixd sigm th be ga j ->
  (Z.to_nat dom_n <= N)%nat -> (length inst <= N)%nat -> (forall i, (length (adv i) <= N)%nat) ->
  (forall i, (length (fixd i) <= N)%nat) -> (forall i, (length (sigm i) <= N)%nat) ->
  exists Ys, (length Ys < 23)%nat /\ forall y, ~ In y Ys ->
  forall h0 h1 h2, (length h0 <= N)%nat -> (length h1 <= N)%nat -> (length h2 <= N)%nat ->
  exists Xs, (length Xs < 4 * N)%nat /\ forall x, ~ In x Xs -> fexp x dom_n <> 1%fr ->
    peval (pieces x h0 h1 h2) x <> quotient (cell inst adv fixd sigm x) th be ga x y.
Proof.
  intros Hj NR LN LI LA LF LS. rewrite dom_nat in LN. pose proof dn_7 as D7. destruct N as [|D]; [lia|].
  exact (rows_bad inst adv fixd sigm th be ga D LI LA LF LS LN j Hj NR).
Qed.
Lemma satisfied_rows inst adv fixd sigm th be ga : let N := Z.to_nat dom_n in
  (length inst <= N)%nat -> (forall i, (length (adv i) <= N)%nat) ->
  (forall i, (length (fixd i) <= N)%nat) -> (forall i, (length (sigm i) <= N)%nat) ->
  (forall j, 0 <= j < dom_n -> row_ok inst adv fixd sigm th be ga j) ->
  forall y, exists h0 h1 h2, (length h0 <= N)%nat /\ (length h1 <= N)%nat /\ (length h2 <= N)%nat /\
  forall x, fexp x dom_n <> 1%fr -> peval (pieces x h0 h1 h2) x = quotient (cell inst adv fixd sigm x) th be ga x y.
Proof.
  cbv zeta. rewrite dom_nat. intros LI LA LF LS HR y. pose proof dn_7 as D7.
  assert (ED : exists D, S D = dn) by (exists (pred dn); lia). destruct ED as [D ED].
  pose proof (rows_good inst adv fixd sigm th be ga D) as G. rewrite ED in G.
  exact (G LI LA LF LS (le_n _) eq_refl HR y).
Qed.
Lemma right_openings x yy v osets N : x <> 0%fr ->
  (forall R l, In (R, l) osets -> rots_ok R /\ (length R <= N)%nat) ->
  (forall R l p f, In (R, l) osets -> In (p, f) l -> (length f <= N)%nat) -> (1 <= N)%nat ->
  (forall R l p f, In (R, l) osets -> In (p, f) l -> evaluates x R p f) ->
  exists w, (length w <= N)%nat /\ (forall X, quotient_at yy v x osets w X) /\
  forall u, vanish x u (without all_rots (first_rots (sets osets))) <> 0%fr ->
  exists w', (length w' <= N)%nat /\ forall X, opens_at yy v x u osets w w' X.
Proof. intros Hx HR HF HN HE. exact (honest_opening x Hx yy v osets N HR HF HN HE). Qed.
