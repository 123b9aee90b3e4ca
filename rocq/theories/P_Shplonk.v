(** The accumulator and the SHPLONK opening identities. *)
From Coq Require Import ZArith Lia Bool List Permutation Ring Field.
From Verif Require Import Params Go Curve NumThy FField FpField SpecCurve SpecMisc SpecVerify SpecPoly
  P_Fr P_Curve P_Msm P_Group P_Order P_GroupSpec P_LinComb P_Restate P_Dom P_Final.
Import ListNotations.
Open Scope Z_scope.

Local Opaque p_mod r_mod.
Local Opaque phi fmul fadd fsub fopp fdiv finv.

Notation G := (Aff 1 2).
(** a in the exponent *)
Definition ge (a : Fr) : pt := zmul (val a) G.

Lemma zmul_mod P k : valid P -> zmul (k mod r_mod) P = zmul k P.
Proof. intros V. rewrite <- !pmul_zmul by exact V. unfold pmul. rewrite Z.mod_mod by (intros E; vm_compute in E; discriminate). reflexivity. Qed.

Lemma ge_valid a : valid (ge a). Proof. apply zmul_valid, gen_valid. Qed.
Lemma ge_fc z : ge (fc z) = zmul z G.
Proof. unfold ge. rewrite val_phi. apply zmul_mod, gen_valid. Qed.
Lemma ge_add a b : ge (a + b)%fr = padd (ge a) (ge b).
Proof.
  rewrite <- (phi_val _ r_gt1 a) at 1. rewrite <- (phi_val _ r_gt1 b) at 1. rewrite <- phi_add, ge_fc.
  apply zmul_add, gen_valid.
Qed.
Lemma ge_mul a b : ge (a * b)%fr = zmul (val a) (ge b).
Proof.
  rewrite <- (phi_val _ r_gt1 a) at 1. rewrite <- (phi_val _ r_gt1 b) at 1. rewrite <- phi_mul, ge_fc.
  apply zmul_mul, gen_valid.
Qed.
Lemma ge_opp a : ge (- a)%fr = pneg (ge a).
Proof. rewrite <- (phi_val _ r_gt1 a) at 1. rewrite <- phi_opp, ge_fc. apply zmul_opp, gen_valid. Qed.
Lemma ge_0 : ge 0%fr = Inf.
Proof. change 0%fr with (fc 0). rewrite ge_fc. reflexivity. Qed.
Lemma ge_inj a b : ge a = ge b -> a = b.
Proof. intros H. apply val_inj. apply gen_inj; try apply val_range. exact H. Qed.

(** the value of a list of terms *)
Notation tot l := (total (plain_terms l)).
Definition terms_ok (l : list ((Z * Z) * Fr)) : Prop := Forall term_ok (plain_terms l).

Lemma tot_valid l : terms_ok l -> valid (tot l). Proof. apply total_valid. Qed.
Lemma terms_ok_app l l' : terms_ok (l ++ l') <-> terms_ok l /\ terms_ok l'.
Proof. unfold terms_ok, plain_terms. rewrite map_app. apply Forall_app. Qed.
Lemma terms_ok_scale c l : terms_ok (scale c l) <-> terms_ok l.
Proof.
  unfold terms_ok, plain_terms, scale. rewrite map_map, !Forall_map. split; apply Forall_impl; intros [P a] H; exact H.
Qed.
Lemma tot_app l l' : terms_ok l -> terms_ok l' -> tot (l ++ l') = padd (tot l) (tot l').
Proof.
  unfold terms_ok, plain_terms. rewrite map_app. generalize (map (fun t => (fst t, val (snd t))) l) (map (fun t => (fst t, val (snd t))) l').
  intros m m' F F'. induction F as [|t m H F IH]; [reflexivity|]. cbn [app total]. rewrite IH. symmetry.
  apply padd_assoc; [apply tval_valid, H|apply total_valid, F|apply total_valid, F'].
Qed.
Lemma tot_scale c l : terms_ok l -> tot (scale c l) = zmul (val c) (tot l).
Proof.
  intros F. induction l as [|[P a] l IH]; [symmetry; apply zmul_inf|]. inversion F as [|? ? F1 F2]; subst.
  cbn [scale map plain_terms total fst snd]. change (map (fun '(P, a) => (P, (c * a)%fr)) l) with (scale c l).
  fold (plain_terms (scale c l)). fold (plain_terms l). rewrite IH by exact F2. pose proof (term_valid _ F1) as V. cbn [fst] in V.
  rewrite zmul_padd by (try apply (tval_valid _ F1); apply tot_valid, F2). f_equal. unfold tval. cbn [fst snd].
  rewrite !pmul_zmul by exact V. rewrite <- zmul_mul by exact V.
  rewrite <- (zmul_mod _ (val c * val a)) by exact V. f_equal.
Qed.

(** Horner and powers *)
Lemma horner_acc c l : forall a, fold_left (fun a e => (a * c + e)%fr) l a = (a * fexp c (Z.of_nat (length l)) + horner c l)%fr.
Proof.
  unfold horner. induction l as [|e l IH]; intros a; cbn [fold_left length].
  - change (Z.of_nat 0) with 0. rewrite fexp_0. ring.
  - rewrite IH, (IH (0 * c + e)%fr), fexp_S. ring.
Qed.
Lemma horner_cons c e l : horner c (e :: l) = (e * fexp c (Z.of_nat (length l)) + horner c l)%fr.
Proof. unfold horner at 1. cbn [fold_left]. rewrite horner_acc. ring. Qed.
Lemma powers_S c n : powers c (S n) = fexp c (Z.of_nat n) :: powers c n.
Proof. unfold powers. rewrite seq_S, rev_app_distr. reflexivity. Qed.
Lemma tot_powers {A} c (f : A -> list ((Z * Z) * Fr)) (g : A -> Fr) l : (forall a, In a l -> terms_ok (f a) /\ tot (f a) = ge (g a)) ->
  let m := flat_map (fun '(c, p) => scale c (f p)) (combine (powers c (length l)) l) in
  terms_ok m /\ tot m = ge (horner c (map g l)).
Proof.
  induction l as [|a l IH]; intros H; cbv zeta.
  - split; [constructor|]. cbn. symmetry. apply ge_0.
  - destruct (H a (or_introl eq_refl)) as [O E]. destruct (IH (fun b Hb => H b (or_intror Hb))) as [IO IE].
    cbn [length map]. rewrite powers_S. cbn [combine flat_map]. cbv zeta in IO, IE.
    assert (O' : terms_ok (scale (fexp c (Z.of_nat (length l))) (f a))) by (apply terms_ok_scale; exact O).
    split; [apply terms_ok_app; split; assumption|].
    rewrite tot_app, tot_scale, IE, E, horner_cons, map_length by assumption.
    rewrite ge_add, <- ge_mul. f_equal. f_equal. ring.
Qed.

Lemma horner_map_sub {A} c (f g : A -> Fr) l :
  horner c (map (fun a => f a - g a)%fr l) = (horner c (map f l) - horner c (map g l))%fr.
Proof.
  induction l as [|a l IH]; [unfold horner; cbn; ring|]. cbn [map]. rewrite !horner_cons, IH, !map_length. ring.
Qed.

Lemma committed_tot tau p f : committed tau p f -> terms_ok (p_com p) /\ tot (p_com p) = ge (peval f tau).
Proof.
  intros (Q & L & M). apply lin_comb_total in L. destruct L as [F E]. split; [exact F|]. rewrite <- E.
  apply multiple_zmul. exact M.
Qed.
Lemma commits_tot tau f P c : commits tau f P -> terms_ok [(P, c)] /\ tot [(P, c)] = ge (c * peval f tau)%fr.
Proof.
  intros (Q & E & M). assert (F : terms_ok [(P, c)]) by (constructor; [exists Q; exact E|constructor]).
  split; [exact F|]. cbn [plain_terms map total fst snd]. rewrite padd_inf_r. unfold tval. cbn [fst snd].
  rewrite (surjective_pairing P), (enc_of _ _ _ E). rewrite pmul_zmul by exact (enc_valid _ _ _ E).
  rewrite ge_mul. f_equal. apply multiple_zmul. exact M.
Qed.

Section Acc.
  Variables (tau yy v x u : Fr) (osets : list oset) (W W' : Z * Z) (w w' : pol) (R Q : pt).
  Notation S := (sets osets).
  Hypothesis HC : forall Rs l p f, In (Rs, l) osets -> In (p, f) l -> committed tau p f.
  Hypothesis HW : commits tau w W.
  Hypothesis HW' : commits tau w' W'.
  Hypothesis HQ : encodes (fst W') (snd W') Q.
  Notation E := (opening yy v x u S).
  Notation terms := (com_terms yy v x u S ++ [(W, (- vanish x u (first_rots S))%fr); (W', u)]).
  Hypothesis HR : lin_comb (claim E (plain_terms terms)) R.

  Definition fsum : Fr := horner v (map (fun '(Rs, l) => factor x u S Rs * horner yy (map (fun '(p, f) => peval f tau) l))%fr osets).

  Lemma set_tot Rs l : In (Rs, l) osets ->
    terms_ok (set_terms yy x u S Rs (map fst l)) /\
    tot (set_terms yy x u S Rs (map fst l)) = ge (factor x u S Rs * horner yy (map (fun '(p, f) => peval f tau) l))%fr.
  Proof.
    intros Hs. unfold set_terms.
    assert (EQ : flat_map (fun '(c, p) => scale c (p_com p)) (combine (powers yy (length (map fst l))) (map fst l)) =
      flat_map (fun '(c, pf) => scale c (p_com (fst pf))) (combine (powers yy (length l)) l)).
    { rewrite map_length. generalize (powers yy (length l)). clear. induction l as [|a l IH]; intros [|c cs]; try reflexivity.
      cbn [map combine flat_map]. rewrite IH. reflexivity. }
    rewrite EQ. clear EQ.
    destruct (tot_powers yy (fun pf : poly * pol => p_com (fst pf)) (fun pf => peval (snd pf) tau) l) as [O T].
    { intros [p f] Hp. apply committed_tot. exact (HC Rs l p f Hs Hp). }
    cbv zeta in O, T. split; [apply terms_ok_scale; exact O|]. rewrite tot_scale by exact O. rewrite T, <- ge_mul. do 3 f_equal.
    apply map_ext. intros [p f]. reflexivity.
  Qed.

  Lemma com_tot : terms_ok (com_terms yy v x u S) /\ tot (com_terms yy v x u S) = ge fsum.
  Proof.
    unfold com_terms.
    assert (EQ : flat_map (fun '(c, (Rs, ps)) => scale c (set_terms yy x u S Rs ps)) (combine (powers v (length S)) S) =
      flat_map (fun '(c, o) => scale c (set_terms yy x u S (fst o) (map fst (snd o)))) (combine (powers v (length osets)) osets)).
    { generalize (set_terms yy x u S). unfold sets. rewrite map_length. generalize (powers v (length osets)). clear.
      induction osets as [|o l IH]; intros [|c cs] g; try reflexivity.
      cbn [map combine flat_map forget]. rewrite IH. reflexivity. }
    rewrite EQ. clear EQ.
    destruct (tot_powers v (fun o : oset => set_terms yy x u S (fst o) (map fst (snd o)))
      (fun o => factor x u S (fst o) * horner yy (map (fun '(p, f) => peval f tau) (snd o)))%fr osets) as [O T].
    { intros [Rs l] Hs. apply set_tot. exact Hs. }
    split; [exact O|]. refine (eq_trans T _). unfold fsum. do 2 f_equal. apply map_ext. intros [Rs l]. reflexivity.
  Qed.

  Lemma acc_value : R = ge (fsum - E - vanish x u (first_rots S) * peval w tau + u * peval w' tau)%fr.
  Proof.
    destruct com_tot as [O T]. destruct (commits_tot tau w W (- vanish x u (first_rots S))%fr HW) as [O1 T1].
    destruct (commits_tot tau w' W' u HW') as [O2 T2].
    assert (O3 : terms_ok [(W, (- vanish x u (first_rots S))%fr); (W', u)]).
    { apply (terms_ok_app [_] [_]). split; assumption. }
    apply lin_comb_total in HR. destruct HR as [_ ->]. unfold claim. cbn [total].
    rewrite tot_app, T by assumption. change [(W, (- vanish x u (first_rots S))%fr); (W', u)] with ([(W, (- vanish x u (first_rots S))%fr)] ++ [(W', u)]).
    rewrite tot_app, T1, T2 by assumption. unfold tval. cbn [fst snd]. rewrite head_of, neg_gen.
    rewrite pmul_zmul by (apply pneg_valid, gen_valid).
    replace (zmul (val E) (pneg G1gen)) with (ge (- E)%fr).
    - rewrite <- !ge_add. f_equal. ring.
    - rewrite ge_opp. unfold ge. rewrite <- zmul_opp by exact gen_valid. change (pneg G1gen) with (zmul (-1) G1gen).
      rewrite <- zmul_mul by exact gen_valid. f_equal. lia.
  Qed.

  Lemma fsum_opened : (fsum - E - vanish x u (first_rots S) * peval w tau)%fr = opened yy v x u osets w tau.
  Proof.
    unfold fsum, opening, opened. f_equal.
    replace (map (fun '(R, ps) => (factor x u S R * horner yy (map (fun p => interpolate x u R (p_evals p)) ps))%fr) S)
      with (map (fun o : oset => factor x u S (fst o) * horner yy (map (fun '(p, f) => interpolate x u (fst o) (p_evals p)) (snd o)))%fr osets).
    - rewrite (map_ext _ (fun o : oset => factor x u S (fst o) * horner yy (map (fun '(p, f) => peval f tau) (snd o)))%fr) by (intros [? ?]; reflexivity).
      rewrite <- horner_map_sub. f_equal. apply map_ext. intros [Rs l]. cbn [fst snd].
      rewrite (map_ext (fun '(p, f) => (peval f tau - interpolate x u Rs (p_evals p))%fr)
        (fun pf => (let '(p, f) := pf in peval f tau) - (let '(p, f) := pf in interpolate x u Rs (p_evals p)))%fr) by (intros [? ?]; reflexivity).
      rewrite horner_map_sub. ring.
    - unfold sets at 3. rewrite map_map. apply map_ext. intros [Rs l]. cbn [forget fst snd]. rewrite map_map. do 2 f_equal.
      apply map_ext. intros [p f]. reflexivity.
  Qed.

  Lemma acc_identity : multiple Q (val tau) R <-> opens_at yy v x u osets w w' tau.
  Proof.
    assert (EQ : Q = ge (peval w' tau)).
    { destruct HW' as (Q' & E' & M). apply multiple_zmul in M. rewrite <- (enc_of _ _ _ HQ), (enc_of _ _ _ E'). exact M. }
    assert (V : valid Q) by exact (enc_valid _ _ _ HQ).
    unfold opens_at. rewrite <- fsum_opened. split.
    - intros M. apply multiple_zmul in M. rewrite acc_value, EQ, <- ge_mul in M. apply ge_inj in M.
      transitivity (tau * peval w' tau - u * peval w' tau)%fr; [ring|]. rewrite <- M. ring.
    - intros H. rewrite acc_value. rewrite <- H.
      replace ((tau - u) * peval w' tau + u * peval w' tau)%fr with (tau * peval w' tau)%fr by ring.
      rewrite ge_mul, <- EQ. apply zmul_multiple. exact V.
  Qed.
End Acc.
