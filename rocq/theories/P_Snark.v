(** From the rows of the columns to the opening identities: quotient, evaluations, commitments. *)
From Coq Require Import ZArith Lia Bool List Permutation Ring Field.
From Verif Require Import Params Go Curve Api NumThy FField FpField SpecCurve SpecVerify SpecPoly SpecRows P_Fr P_Curve P_Msm P_Group P_Order P_GroupSpec
  P_LinComb P_Dom P_VSpec P_Honest P_Shplonk P_Poly P_Open P_Rows.
Import ListNotations.
Open Scope Z_scope.

Local Opaque p_mod r_mod.
Local Opaque phi fmul fadd fsub fopp fdiv finv.
Lemma rot_zero x : rot x 0 = x.
Proof. unfold rot, fzpow, fexp. cbn [Z.ltb Z.compare]. rewrite Z.pow_0_r. change (fc 1) with 1%fr. ring. Qed.
Local Opaque rot fzpow fexp omega delta dom_n.

Lemma peval_repeat n X : peval (repeat 0%fr n) X = 0%fr.
Proof. induction n as [|n IH]; [reflexivity|]. cbn [repeat]. rewrite peval_cons, IH. ring. Qed.
Lemma ispol_shift m k F : ispol m F -> ispol (k + m) (fun X => fexp X (Z.of_nat k) * F X)%fr.
Proof.
  intros [f [L E]]. exists (repeat 0%fr k ++ f). rewrite app_length, repeat_length. split; [lia|]. intros X.
  rewrite peval_app, peval_repeat, repeat_length, E. ring.
Qed.
Lemma peval_split n X : forall q, peval q X = (peval (firstn n q) X + fexp X (Z.of_nat n) * peval (skipn n q) X)%fr.
Proof.
  induction n as [|n IH]; intros q.
  - cbn [firstn skipn]. change (Z.of_nat 0) with 0. rewrite fexp_0, peval_nil. ring.
  - destruct q as [|a q]; cbn [firstn skipn]; [rewrite peval_nil; ring|]. rewrite !peval_cons, (IH q), fexp_S. ring.
Qed.
Lemma pieces_eval x h0 h1 h2 X : peval (pieces x h0 h1 h2) X =
  (peval h0 X + fexp x dom_n * peval h1 X + fexp x dom_n * fexp x dom_n * peval h2 X)%fr.
Proof. unfold pieces. rewrite !plus_eval, !pscal_eval. ring. Qed.

Section Cols.
  Variables (inst : pol) (adv fixd sigm : nat -> pol) (theta beta gamma : Fr) (D : nat).
  Notation cellX := (cell inst adv fixd sigm).
  Notation ok := (row_ok inst adv fixd sigm theta beta gamma).
  Notation ex := (exprs inst adv fixd sigm theta beta gamma).
  Hypothesis LI : (length inst <= S D)%nat.
  Hypothesis LA : forall i, (length (adv i) <= S D)%nat.
  Hypothesis LF : forall i, (length (fixd i) <= S D)%nat.
  Hypothesis LS : forall i, (length (sigm i) <= S D)%nat.
  Hypothesis LN : (dn <= S D)%nat.

  Lemma comb_deg y : ispol (S (4 * D)) (fun X => horner y (ex X)).
  Proof.
    eapply ispol_ext; [intros X; rewrite (len_exprs inst adv fixd sigm theta beta gamma X); reflexivity|].
    apply (ispol_horner _ y (fun i X => nth i (ex X) 0%fr) (seq 0 23)). intros i Hi. apply in_seq in Hi.
    apply (deg_exprs inst adv fixd sigm theta beta gamma D LI LA LF LS LN). lia.
  Qed.
  Definition hfun (h0 h1 h2 : pol) (X : Fr) : Fr := peval (pieces X h0 h1 h2) X.
  Lemma hfun_pol h0 h1 h2 : (length h0 <= S D)%nat -> (length h1 <= S D)%nat -> (length h2 <= S D)%nat ->
    ispol (dn + (dn + S D)) (hfun h0 h1 h2).
  Proof.
    intros H0 H1 H2.
    eapply ispol_ext; [|apply (ispol_add _ (fun X => peval h0 X + fexp X (Z.of_nat dn) * peval h1 X)%fr (fun X => fexp X (Z.of_nat dn) * (fexp X (Z.of_nat dn) * peval h2 X))%fr)].
    - intros X. cbv beta. unfold hfun. rewrite pieces_eval, dn_n. ring.
    - apply ispol_add; [eapply ispol_le; [|apply (ispol_peval _ _ H0)]; lia|].
      eapply ispol_le; [|apply (ispol_shift (S D) dn), (ispol_peval _ _ H1)]. lia.
    - apply ispol_shift, ispol_shift, ispol_peval, H2.
  Qed.

  Lemma quotient_eq x y h : fexp x dom_n <> 1%fr ->
    (h = quotient (cellX x) theta beta gamma x y <-> (fexp x dom_n * h - h)%fr = horner y (ex x)).
  Proof.
    intros Hx. rewrite (exprs_outside inst adv fixd sigm theta beta gamma x Hx). unfold quotient. apply sub_nz in Hx. split.
    - intros ->. set (e := horner y _). transitivity ((fexp x dom_n - 1) * (e / (fexp x dom_n - 1)))%fr; [ring|]. apply div_r, Hx.
    - intros E. apply fdiv_unique; [exact Hx|]. rewrite <- E. ring.
  Qed.

  (** a violated row *)
  Lemma rows_bad j : 0 <= j < dom_n -> ~ ok j ->
    exists Ys, (length Ys < 23)%nat /\ forall y, ~ In y Ys ->
    forall h0 h1 h2, (length h0 <= S D)%nat -> (length h1 <= S D)%nat -> (length h2 <= S D)%nat ->
    exists Xs, (length Xs < 4 * S D)%nat /\ forall x, ~ In x Xs -> fexp x dom_n <> 1%fr ->
      peval (pieces x h0 h1 h2) x <> quotient (cellX x) theta beta gamma x y.
  Proof.
    intros Hj N.
    assert (W : exists e, In e (ex (fexp omega j)) /\ e <> 0%fr).
    { destruct (Forall_dec (fun e => e = 0%fr) (fun e => fr_dec e 0%fr) (ex (fexp omega j))) as [F|F].
      - exfalso. apply N. apply (row_iff inst adv fixd sigm theta beta gamma j Hj), F.
      - apply neg_Forall_Exists_neg in F; [|intros e; apply fr_dec]. apply Exists_exists in F. exact F. }
    destruct W as (e & He & Ne). destruct (horner_zeros (ex (fexp omega j)) e He Ne) as [Ys [LY HY]].
    exists Ys. split; [replace (length (ex (fexp omega j))) with 23%nat in LY by reflexivity; lia|]. intros y Hy h0 h1 h2 L0 L1 L2.
    destruct (few_zeros (4 * S D) (fun X => horner y (ex X) - (fexp X (Z.of_nat dn) * hfun h0 h1 h2 X - hfun h0 h1 h2 X))%fr (fexp omega j)) as [Xs [LX HX]].
    - apply ispol_sub; [eapply ispol_le; [|apply comb_deg]; lia|]. pose proof (hfun_pol h0 h1 h2 L0 L1 L2) as P.
      apply (ispol_sub _ (fun X => fexp X (Z.of_nat dn) * hfun h0 h1 h2 X)%fr (hfun h0 h1 h2)).
      + eapply ispol_le; [|exact (ispol_shift _ dn _ P)]. lia.
      + eapply ispol_le; [|exact P]. lia.
    - rewrite dn_n. assert (E1 : fexp (fexp omega j) dom_n = 1%fr).
      { rewrite <- fexp_mul by (pose proof dom_6; lia). apply omega_order; [nia|]. exists j. reflexivity. }
      rewrite E1. intros E. apply Hy, HY. rewrite <- E. ring.
    - exists Xs. split; [lia|]. intros x Hx Hn E. apply Hx, HX. apply (quotient_eq x y _ Hn) in E. unfold hfun.
      rewrite dn_n, E. ring.
  Qed.

  (** all rows satisfied *)
  Lemma rows_good : S D = dn -> (forall j, 0 <= j < dom_n -> ok j) -> forall y,
    exists h0 h1 h2, (length h0 <= dn)%nat /\ (length h1 <= dn)%nat /\ (length h2 <= dn)%nat /\
      forall x, fexp x dom_n <> 1%fr -> peval (pieces x h0 h1 h2) x = quotient (cellX x) theta beta gamma x y.
  Proof.
    intros ED H y. destruct (comb_deg y) as [f [Lf Ef]].
    destruct (divide_roots (map (fun k => fexp omega (Z.of_nat k)) (seq 0 dn)) f) as [q [Lq Eq]].
    - assert (NS : NoDup (seq 0 dn)) by apply seq_NoDup.
      assert (B : forall k, In k (seq 0 dn) -> (k < dn)%nat) by (intros k Hk; apply in_seq in Hk; lia).
      revert NS B. generalize (seq 0 dn). intros l. induction l as [|a l IH]; intros NS B; [constructor|]. cbn [map].
      inversion NS as [|? ? Na Nl]; subst. constructor; [|apply IH; [exact Nl|intros; apply B; right; assumption]].
      intros I. apply in_map_iff in I. destruct I as (b & E & Hb). apply Na.
      pose proof (B a (or_introl eq_refl)) as Ba. pose proof (B b (or_intror Hb)) as Bb.
      assert (R : forall k, (k < dn)%nat -> 0 <= Z.of_nat k < dom_n) by (intros k Hk; rewrite <- dn_n; lia).
      apply omega_inj in E; [|apply R, Bb|apply R, Ba]. apply Nat2Z.inj in E. subst b. exact Hb.
    - intros a Ha. apply in_map_iff in Ha. destruct Ha as (k & <- & Hk). apply in_seq in Hk. rewrite Ef.
      assert (R : 0 <= Z.of_nat k < dom_n) by (rewrite <- dn_n; lia).
      pose proof (proj2 (row_iff inst adv fixd sigm theta beta gamma _ R) (H _ R)) as F. revert F. generalize (ex (fexp omega (Z.of_nat k))). intros l F.
      rewrite horner_rev. apply zero_eval. apply Forall_rev. exact F.
    - rewrite map_length, seq_length in Lq.
      exists (firstn dn q), (firstn dn (skipn dn q)), (skipn dn (skipn dn q)).
      split; [rewrite firstn_length; lia|]. split; [rewrite firstn_length; lia|]. split; [rewrite !skipn_length; lia|].
      intros x Hx. apply (quotient_eq x y _ Hx). rewrite pieces_eval, <- Ef, Eq.
      rewrite map_map. pose proof (roots_prod dom_k omega x omega_root) as RP. rewrite <- dom_pow in RP.
      assert (RP' : prod (map (fun k => x - fexp omega (Z.of_nat k))%fr (seq 0 dn)) = (fexp x dom_n - 1)%fr) by exact RP.
      rewrite RP'. rewrite (peval_split dn x q), (peval_split dn x (skipn dn q)), dn_n. ring.
  Qed.
End Cols.

(** ** evaluations *)
Definition strip (o : oset) : list Z * list (list Fr * pol) := (fst o, map (fun pf => (p_evals (fst pf), snd pf)) (snd o)).
Lemma opened_strip yy v x u os os' w X : map strip os = map strip os' -> opened yy v x u os w X = opened yy v x u os' w X.
Proof.
  intros E. unfold opened.
  assert (EF : first_rots (sets os) = first_rots (sets os')).
  { destruct os as [|[R l] os], os' as [|[R' l'] os']; try discriminate; [reflexivity|]. injection E as E _. exact E. }
  rewrite <- EF. f_equal. unfold factor. rewrite <- EF. f_equal.
  assert (G : forall os, map (fun '(R, l) => (vanish x u (without all_rots R) / vanish x u (without all_rots (first_rots (sets os'))) *
     horner yy (map (fun '(p, f) => peval f X - interpolate x u R (p_evals p)) l))%fr) os =
     map (fun o => (vanish x u (without all_rots (fst o)) / vanish x u (without all_rots (first_rots (sets os'))) *
     horner yy (map (fun pf => peval (snd pf) X - interpolate x u (fst o) (fst pf)) (snd o)))%fr) (map strip os)).
  { intros l. rewrite map_map. apply map_ext. intros [R m]. cbn [strip fst snd]. rewrite map_map. do 2 f_equal. apply map_ext. intros [p f]. reflexivity. }
  rewrite <- EF in G. rewrite G, G, E. reflexivity.
Qed.
Lemma opens_strip yy v x u os os' w w' X : map strip os = map strip os' -> (opens_at yy v x u os w w' X <-> opens_at yy v x u os' w w' X).
Proof. intros E. unfold opens_at. rewrite (opened_strip _ _ _ _ _ _ _ _ E). reflexivity. Qed.

Lemma word_dummy (es : nat -> Fr) i : (44 <= i < 100)%nat -> word (map (fun i => val (es i)) (seq 0 100)) i = es i.
Proof.
  intros H. unfold word. rewrite (nth_indep _ 0 (val (es 0%nat))) by (rewrite map_length, seq_length; lia).
  rewrite (map_nth (fun i => val (es i))), seq_nth by lia. apply phi_val.
Qed.

Section Evals.
  Variables (inst : pol) (adv fixd sigm : nat -> pol) (hx : pol).
  Notation fs := (set_polys inst adv fixd sigm hx).
  Notation cellX := (cell inst adv fixd sigm).

  Lemma queries_ext T T' ic ic' h x x' : (forall i, (44 <= i < 100)%nat -> word T i = word T' i) ->
    map strip (attach (queries T ic h x) fs) = map strip (attach (queries T' ic' h x') fs).
  Proof.
    intros H.
    pose (tmpl := fun l : list Fr => let w i := nth (i - 44) l 0%fr in
      [([-6; 0; 1], combine [[w 81; w 79; w 80]; [w 84; w 82; w 83]; [w 87; w 85; w 86]]%nat (nth 0 fs []));
       ([0; -1], combine [[w 92; w 93]; [w 97; w 98]]%nat (nth 1 fs []));
       ([0], combine (map (fun i => [w i]) ([44; 45; 46; 47; 48; 51; 94; 99] ++ seq 58 13 ++ seq 72 7) ++ [[h]; [w 71]])%nat (nth 2 fs []));
       ([0; 1], combine [[w 49; w 50]; [w 88; w 89]; [w 90; w 91]; [w 95; w 96]]%nat (nth 3 fs []));
       ([0; 1; 2], combine [[w 52; w 55; w 57]; [w 53; w 54; w 56]]%nat (nth 4 fs []))]).
    assert (E : forall T ic x, map strip (attach (queries T ic h x) fs) = tmpl (map (word T) (seq 44 56))) by (intros; reflexivity).
    rewrite !E. f_equal. apply map_ext_in. intros i Hi. apply in_seq in Hi. apply H. lia.
  Qed.

  Lemma all_dec x os : (exists R l p f, In (R, l) os /\ In (p, f) l /\ ~ evaluates x R p f) \/
    Forall (fun o : oset => Forall (fun pf => evaluates x (fst o) (fst pf) (snd pf)) (snd o)) os.
  Proof.
    assert (DE : forall R (pf : poly * pol), {evaluates x R (fst pf) (snd pf)} + {~ evaluates x R (fst pf) (snd pf)}).
    { intros R pf. apply list_eq_dec. exact fr_dec. }
    destruct (Forall_dec (fun o : oset => Forall (fun pf => evaluates x (fst o) (fst pf) (snd pf)) (snd o))
      (fun o => Forall_dec _ (DE (fst o)) (snd o)) os) as [F|F]; [right; exact F|left].
    apply neg_Forall_Exists_neg in F; [|intros o; exact (Forall_dec _ (DE (fst o)) (snd o))].
    apply Exists_exists in F. destruct F as ([R l] & Ho & F). cbn [fst snd] in F.
    apply neg_Forall_Exists_neg in F; [|apply DE]. apply Exists_exists in F. destruct F as ([p f] & Hp & F).
    exists R, l, p, f. auto.
  Qed.

  Definition eval_lists : list (list nat) :=
    [[81; 79; 80]; [84; 82; 83]; [87; 85; 86]; [92; 93]; [97; 98]]%nat ++
    map (fun i => [i]) ([44; 45; 46; 47; 48; 51; 94; 99] ++ seq 58 13 ++ seq 72 7 ++ [71])%nat ++
    [[49; 50]; [88; 89]; [90; 91]; [95; 96]; [52; 55; 57]; [53; 54; 56]]%nat.
  Lemma eval_lists_all i : (44 <= i < 100)%nat -> exists l, In l eval_lists /\ In i l.
  Proof.
    intros H. assert (C : forallb (fun i => existsb (fun l => existsb (Nat.eqb i) l) eval_lists) (seq 44 56) = true) by (vm_compute; reflexivity).
    rewrite forallb_forall in C. specialize (C i ltac:(apply in_seq; lia)). apply existsb_exists in C. destruct C as (l & Hl & C).
    apply existsb_exists in C. destruct C as (k & Hk & C). apply Nat.eqb_eq in C. subst k. exists l. auto.
  Qed.
  Lemma map_eq_in {A B} (f g : A -> B) l a : map f l = map g l -> In a l -> f a = g a.
  Proof. induction l as [|b l IH]; intros E []; injection E as E1 E2; [congruence|auto]. Qed.
  Ltac take S l := let G := fresh "G" in
    match goal with |- Forall (fun l => map ?f l = map ?g l) _ => assert (G : map f l = map g l) by exact (Forall_inv S); apply Forall_inv_tail in S end.
  Lemma evals_right T ic h x : Forall (fun o : oset => Forall (fun pf => evaluates x (fst o) (fst pf) (snd pf)) (snd o)) (attach (queries T ic h x) fs) ->
    (forall i, (44 <= i < 100)%nat -> word T i = cellX x i) /\ h = peval hx x.
  Proof.
    intros H. enough (K : Forall (fun l => map (word T) l = map (cellX x) l) eval_lists /\ h = peval hx (rot x 0)).
    { rewrite rot_zero in K. split; [|apply K]. intros i Hi. destruct (eval_lists_all i Hi) as (l & Hl & I).
      destruct K as [K _]. rewrite Forall_forall in K. exact (map_eq_in _ _ l i (K l Hl) I). }
    pose proof (Forall_inv H) as S0. apply Forall_inv_tail in H. pose proof (Forall_inv H) as S1. apply Forall_inv_tail in H.
    pose proof (Forall_inv H) as S2. apply Forall_inv_tail in H. pose proof (Forall_inv H) as S3. apply Forall_inv_tail in H.
    pose proof (Forall_inv H) as S4. clear H.
    assert (Eh : h = peval hx (rot x 0)).
    { clear S0 S1 S3 S4. do 28 (apply Forall_inv_tail in S2). pose proof (Forall_inv S2) as E. exact (f_equal (fun l => nth 0 l 0%fr) E). }
    split; [|exact Eh]. clear Eh.
    take S0 [81; 79; 80]%nat. take S0 [84; 82; 83]%nat. take S0 [87; 85; 86]%nat. clear S0.
    take S1 [92; 93]%nat. take S1 [97; 98]%nat. clear S1.
    take S3 [49; 50]%nat. take S3 [88; 89]%nat. take S3 [90; 91]%nat. take S3 [95; 96]%nat. clear S3.
    take S4 [52; 55; 57]%nat. take S4 [53; 54; 56]%nat. clear S4.
    take S2 [44]%nat. take S2 [45]%nat. take S2 [46]%nat. take S2 [47]%nat. take S2 [48]%nat. take S2 [51]%nat. take S2 [94]%nat. take S2 [99]%nat.
    take S2 [58]%nat. take S2 [59]%nat. take S2 [60]%nat. take S2 [61]%nat. take S2 [62]%nat. take S2 [63]%nat. take S2 [64]%nat. take S2 [65]%nat.
    take S2 [66]%nat. take S2 [67]%nat. take S2 [68]%nat. take S2 [69]%nat. take S2 [70]%nat.
    take S2 [72]%nat. take S2 [73]%nat. take S2 [74]%nat. take S2 [75]%nat. take S2 [76]%nat. take S2 [77]%nat. take S2 [78]%nat.
    apply Forall_inv_tail in S2. take S2 [71]%nat. clear S2.
    cbn [eval_lists map app seq]. repeat (apply Forall_cons; [assumption|]). apply Forall_nil.
  Qed.
  Lemma evals_right' T ic h x : (forall i, (44 <= i < 100)%nat -> word T i = cellX x i) -> h = peval hx x ->
    Forall (fun o : oset => Forall (fun pf => evaluates x (fst o) (fst pf) (snd pf)) (snd o)) (attach (queries T ic h x) fs).
  Proof.
    intros H Hh. assert (X0 : rot x 0 = x) by apply rot_zero.
    assert (Hh' : h = peval hx (rot x 0)) by (rewrite X0; exact Hh).
    unfold queries, single, set_polys, vk_fixed, vk_sigma. cbn [attach combine map app seq].
    repeat (apply Forall_cons; [cbn [fst snd]; repeat (apply Forall_cons; [unfold evaluates; cbn [fst snd p_evals map h_poly];
      first [ rewrite !H by lia; reflexivity | rewrite <- Hh'; reflexivity ]|]); apply Forall_nil|]). apply Forall_nil.
  Qed.
End Evals.
