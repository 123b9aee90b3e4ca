(** The SHPLONK opening: honest openings exist, and wrong evaluations are caught except for few challenges. *)
From Coq Require Import ZArith Lia Bool List Permutation Ring Field.
From Verif Require Import Params NumThy FField FpField SpecVerify SpecPoly P_Fr P_Curve P_Dom P_VSpec P_Honest P_Shplonk P_Poly.
Import ListNotations.
Open Scope Z_scope.

Local Opaque p_mod r_mod.
Local Opaque phi fmul fadd fsub fopp fdiv finv rot.

(** ** products, lists *)
Lemma prod_zero l : In 0%fr l -> prod l = 0%fr.
Proof.
  induction l as [|a l IH]; intros []; rewrite prod_cons; [subst a; ring|rewrite IH by assumption; ring].
Qed.
Lemma prod_nz l : (forall a, In a l -> a <> 0%fr) -> prod l <> 0%fr.
Proof.
  induction l as [|a l IH]; intros H; [exact fr_1_0|]. rewrite prod_cons. apply mul_nz; [apply H; left; reflexivity|].
  apply IH. intros b Hb. apply H. right. exact Hb.
Qed.
Lemma prod_perm l l' : Permutation l l' -> prod l = prod l'.
Proof.
  induction 1 as [|a l l' P IH|a b l|l l' l'' P IH P' IH']; rewrite ?prod_cons; [reflexivity|rewrite IH; reflexivity|ring|congruence].
Qed.
Lemma without_in T R k : In k (without T R) <-> In k T /\ ~ In k R.
Proof.
  unfold without. rewrite filter_In, negb_true_iff. split; intros [H N]; (split; [exact H|]).
  - intros I. apply (Bool.eq_true_false_abs _ (proj2 (existsb_exists (Z.eqb k) R) (ex_intro _ k (conj I (Z.eqb_refl k)))) N).
  - destruct (existsb (Z.eqb k) R) eqn:E; [|reflexivity]. apply existsb_exists in E. destruct E as [j [Hj E]].
    apply Z.eqb_eq in E. subst j. contradiction.
Qed.
Lemma without_nodup T R : NoDup T -> NoDup (without T R). Proof. apply NoDup_filter. Qed.
Lemma filter_perm {A} (f : A -> bool) l : Permutation l (filter (fun a => negb (f a)) l ++ filter f l).
Proof.
  induction l as [|a l IH]; [constructor|]. cbn [filter]. destruct (f a); cbn [negb].
  - apply Permutation_cons_app. exact IH.
  - cbn [app]. constructor. exact IH.
Qed.
Lemma without_perm T R : NoDup T -> NoDup R -> incl R T -> Permutation T (without T R ++ R).
Proof.
  intros NT NR I. refine (Permutation_trans (filter_perm (fun k => existsb (Z.eqb k) R) T) _). apply Permutation_app_head.
  apply NoDup_Permutation; [apply NoDup_filter, NT|exact NR|]. intros k. rewrite filter_In, existsb_exists. split.
  - intros [_ [j [Hj E]]]. apply Z.eqb_eq in E. subst j. exact Hj.
  - intros Hk. split; [apply I, Hk|]. exists k. split; [exact Hk|apply Z.eqb_refl].
Qed.
Lemma without_length T R : NoDup T -> NoDup R -> incl R T -> (length (without T R) + length R = length T)%nat.
Proof. intros NT NR I. rewrite (Permutation_length (without_perm T R NT NR I)), app_length. reflexivity. Qed.
Lemma all_rots_nodup : NoDup all_rots.
Proof. repeat constructor; cbn; intuition discriminate. Qed.

Lemma filter_length_le_ {A} (f : A -> bool) l : (length (filter f l) <= length l)%nat.
Proof. induction l as [|a l IH]; cbn [filter]; [lia|]. destruct (f a); cbn [length]; lia. Qed.

Section X.
  Variable x : Fr.
  Hypothesis Hx : x <> 0%fr.

  Lemma rot_inj j k : In j all_rots -> In k all_rots -> rot x j = rot x k -> j = k.
  Proof.
    intros Hj Hk E. destruct (Z.eq_dec j k) as [|N]; [assumption|exfalso].
    apply (rot_ne x j k Hx); [|rewrite E; ring]. unfold all_rots in *. cbn [In] in Hj, Hk.
    repeat match goal with H : _ \/ _ |- _ => destruct H as [H|H] end; try contradiction; subst j k;
      first [contradiction N; reflexivity | vm_compute; discriminate].
  Qed.
  Lemma rots_nodup R : NoDup R -> incl R all_rots -> NoDup (map (rot x) R).
  Proof.
    intros N I. induction N as [|k R H N IH]; [constructor|]. cbn [map]. constructor.
    - intros J. apply in_map_iff in J. destruct J as [j [E J]]. apply H. rewrite <- (rot_inj j k); [exact J|apply I; right; exact J|apply I; left; reflexivity|exact E].
    - apply IH. intros j J. apply I. right. exact J.
  Qed.

  Lemma vanish_0 X R k : In k R -> X = rot x k -> vanish x X R = 0%fr.
  Proof.
    intros H ->. unfold vanish. apply prod_zero. apply in_map_iff. exists k. split; [ring|exact H].
  Qed.
  Lemma vanish_nz R k : incl R all_rots -> In k all_rots -> ~ In k R -> vanish x (rot x k) R <> 0%fr.
  Proof.
    intros I Hk N. unfold vanish. apply prod_nz. intros a Ha. apply in_map_iff in Ha. destruct Ha as [j [<- J]]. apply sub_nz.
    intros E. apply N. rewrite (rot_inj k j); [exact J|exact Hk|apply I, J|exact E].
  Qed.
  Lemma vanish_split X R : NoDup R -> incl R all_rots -> vanish x X all_rots = (vanish x X (without all_rots R) * vanish x X R)%fr.
  Proof.
    intros N I. unfold vanish. rewrite <- prod_app, <- map_app. apply prod_perm, Permutation_map, without_perm; [apply all_rots_nodup|exact N|exact I].
  Qed.

  (** interpolation *)
  Lemma basis_ne R j k : In k R -> j <> k -> basis x (rot x k) R j = 0%fr.
  Proof.
    intros Hk N. unfold basis. apply prod_zero. apply in_map_iff. exists k. split.
    - rewrite fdiv_inv. ring.
    - apply without_in. split; [exact Hk|]. intros [E|[]]. contradiction.
  Qed.
  Lemma basis_eq R k : incl R all_rots -> In k R -> basis x (rot x k) R k = 1%fr.
  Proof.
    intros I Hk. unfold basis.
    assert (H : forall j, In j (without R [k]) -> (rot x k - rot x j)%fr <> 0%fr).
    { intros j Hj. apply without_in in Hj. destruct Hj as [Hj N]. apply sub_nz. intros E. apply N. left.
      apply rot_inj; [apply I, Hk|apply I, Hj|exact E]. }
    revert H. generalize (without R [k]). intros l H. induction l as [|j l IH]; [reflexivity|].
    cbn [map]. rewrite prod_cons, IH by (intros i Hi; apply H; right; exact Hi).
    pose proof (H j (or_introl eq_refl)) as Nz. rewrite fdiv_inv. rewrite (inv_r _ Nz). ring.
  Qed.
  Lemma sum_cons a l : SpecVerify.sum (a :: l) = (a + SpecVerify.sum l)%fr. Proof. reflexivity. Qed.
  Lemma interp_aux R k : incl R all_rots -> In k R -> forall l, incl (map fst l) R -> NoDup (map fst l) -> 
    SpecVerify.sum (map (fun '(j, e) => e * basis x (rot x k) R j)%fr l) =
    match find (fun je => Z.eqb (fst je) k) l with Some je => snd je | None => 0%fr end.
  Proof.
    intros I Hk. induction l as [|[j e] l IH]; intros HI HN; [reflexivity|]. cbn [map fst] in HI, HN.
    inversion HN as [|? ? Nj Nl]; subst. cbn [map find fst snd]. rewrite sum_cons.
    rewrite IH; [|intros i Hi; apply HI; right; exact Hi|exact Nl]. destruct (Z.eqb_spec j k) as [->|N].
    - rewrite basis_eq by assumption. destruct (find (fun je => fst je =? k) l) as [[i e']|] eqn:F; [|cbn [snd]; ring].
      apply find_some in F. destruct F as [F E]. cbn [fst] in E. apply Z.eqb_eq in E. subst i. exfalso. apply Nj.
      apply (in_map fst) in F. exact F.
    - rewrite (basis_ne R j k Hk N). destruct (find (fun je => fst je =? k) l); ring.
  Qed.
  Lemma combine_fst {A B} : forall (l : list A) (m : list B), length l = length m -> map fst (combine l m) = l.
  Proof. induction l as [|a l IH]; intros [|b m] H; try discriminate; [reflexivity|]. cbn. rewrite IH by (injection H; auto). reflexivity. Qed.
  (** the interpolation takes the claimed values *)
  Lemma interp_at R es k e : NoDup R -> incl R all_rots -> length R = length es -> In (k, e) (combine R es) ->
    interpolate x (rot x k) R es = e.
  Proof.
    intros N I L H. pose proof (combine_fst R es L) as EF. unfold interpolate.
    assert (Hk : In k R) by (rewrite <- EF; apply (in_map fst) in H; exact H).
    rewrite interp_aux; [|exact I|exact Hk|rewrite EF; apply incl_refl|rewrite EF; exact N].
    destruct (find (fun je => fst je =? k) (combine R es)) as [[j e']|] eqn:F.
    - apply find_some in F. destruct F as [F E]. cbn [fst] in E. apply Z.eqb_eq in E. subst j. cbn [snd].
      revert H F EF N. generalize (combine R es). intros l H F EF N. rewrite <- EF in N. clear - H F N.
      induction l as [|[j b] l IH]; [destruct H|]. cbn [map fst] in N. inversion N as [|? ? Nj Nl]; subst.
      destruct H as [H|H], F as [F|F].
      + congruence.
      + exfalso. apply Nj. injection H as -> ->. apply (in_map fst) in F. exact F.
      + exfalso. apply Nj. injection F as -> ->. apply (in_map fst) in H. exact H.
      + exact (IH H F Nl).
    - exfalso. apply (find_none _ _ F) in H. cbn [fst] in H. rewrite Z.eqb_refl in H. discriminate.
  Qed.
  Lemma combine_map {A B} (g : A -> B) l a : In a l -> In (a, g a) (combine l (map g l)).
  Proof. induction l as [|b l IH]; intros []; cbn [map combine]; [left; congruence|right; auto]. Qed.
  Lemma interp_right R p f k : rots_ok R -> evaluates x R p f -> In k R ->
    interpolate x (rot x k) R (p_evals p) = peval f (rot x k).
  Proof.
    intros (_ & N & I) E Hk. unfold evaluates in E. rewrite E. apply (interp_at R _ k); [exact N|exact I|rewrite map_length; reflexivity|].
    apply (combine_map (fun k => peval f (rot x k))). exact Hk.
  Qed.
  Lemma interp_wrong R p f : rots_ok R -> length (p_evals p) = length R -> ~ evaluates x R p f ->
    exists k, In k R /\ (peval f (rot x k) - interpolate x (rot x k) R (p_evals p))%fr <> 0%fr.
  Proof.
    intros (_ & N & I) L E.
    assert (H : exists k e, In (k, e) (combine R (p_evals p)) /\ e <> peval f (rot x k)).
    { unfold evaluates in E. revert L E. generalize (p_evals p). clear. induction R as [|k R IH]; intros [|e es] L E; try discriminate.
      - destruct E. reflexivity.
      - destruct (fr_dec e (peval f (rot x k))) as [->|D]; [|exists k, e; split; [left; reflexivity|exact D]].
        destruct (IH es) as (j & e' & H & D); [injection L; auto| |exists j, e'; split; [right; exact H|exact D]].
        intros ->. apply E. reflexivity. }
    destruct H as (k & e & H & D). exists k. split.
    - rewrite <- (combine_fst R (p_evals p)) by congruence. apply (in_map fst) in H. exact H.
    - rewrite (interp_at R _ k e) by (assumption || congruence). apply sub_nz. congruence.
  Qed.

  Lemma basis_pol R k : In k R -> ispol (length R) (fun X => basis x X R k).
  Proof.
    intros Hk. assert (L : (S (length (without R [k])) <= length R)%nat).
    { unfold without. clear - Hk. induction R as [|j R IH]; [destruct Hk|]. cbn [filter existsb length].
      destruct (Z.eqb_spec j k) as [->|N]; cbn [orb negb].
      - pose proof (filter_length_le_ (fun k0 => negb (existsb (Z.eqb k0) [k])) R). cbn [existsb] in H. lia.
      - destruct Hk as [Hk|Hk]; [contradiction|]. specialize (IH Hk). cbn [existsb] in IH. cbn [length]. lia. }
    eapply ispol_le; [exact L|]. unfold basis. generalize (without R [k]). intros l. clear L Hk.
    eapply ispol_ext; [|eapply ispol_le; [|apply (ispol_prod 1 (rot x) (fun _ => prod (map (fun j => frinv (rot x k - rot x j)%fr) l)) l), ispol_const]; lia].
    intros X. cbv beta. rewrite <- prod_map_mul. reflexivity.
  Qed.
  Lemma interp_pol n R es : (length R <= n)%nat -> ispol n (fun X => interpolate x X R es).
  Proof.
    intros H. unfold interpolate.
    eapply ispol_ext; [|apply (ispol_sum n (fun je X => snd je * basis x X R (fst je))%fr (combine R es))].
    - intros X. cbv beta. f_equal. apply map_ext. intros [k e]. reflexivity.
    - intros [k e] Hk. cbn [fst snd]. apply ispol_scal. eapply ispol_le; [exact H|]. apply basis_pol.
      apply in_combine_l in Hk. exact Hk.
  Qed.

  Section Sets.
    Variables (yy v : Fr) (osets : list oset) (N : nat).
    Notation S := (sets osets).
    Hypothesis HR : forall R l, In (R, l) osets -> rots_ok R /\ (length R <= N)%nat.
    Hypothesis HF : forall R l p f, In (R, l) osets -> In (p, f) l -> (length f <= N)%nat.
    Hypothesis HN : (1 <= N)%nat.

    Definition set_diff (X : Fr) (o : oset) : Fr := (vanish x X (without all_rots (fst o)) *
      horner yy (map (fun pf => peval (snd pf) X - interpolate x X (fst o) (p_evals (fst pf))) (snd o)))%fr.
    Lemma differences_eq X : differences yy v x osets X = horner v (map (set_diff X) osets).
    Proof.
      unfold differences. f_equal. apply map_ext. intros [R l]. unfold set_diff. cbn [fst snd]. do 2 f_equal.
      apply map_ext. intros [p f]. reflexivity.
    Qed.
    Lemma diff_pol : ispol (4 + N) (differences yy v x osets).
    Proof.
      eapply ispol_ext; [intros X; symmetry; apply differences_eq|]. apply (ispol_horner (4 + N) v (fun o X => set_diff X o)).
      intros [R l] Ho. unfold set_diff, vanish. cbn [fst snd]. destruct (HR R l Ho) as [(NE & ND & I) LR].
      eapply ispol_le; [|apply (ispol_prod N)].
      - pose proof (without_length all_rots R all_rots_nodup ND I) as L. change (length all_rots) with 5%nat in L.
        destruct R; [contradiction|]. cbn [length] in L. lia.
      - apply (ispol_horner N yy (fun pf X => peval (snd pf) X - interpolate x X R (p_evals (fst pf)))%fr).
        intros [p f] Hp. cbn [fst snd]. apply ispol_sub; [|apply interp_pol, LR]. apply ispol_peval. exact (HF R l p f Ho Hp).
    Qed.

    Lemma first_ok : NoDup (first_rots S) /\ incl (first_rots S) all_rots.
    Proof.
      unfold sets, first_rots. destruct osets as [|[R l] o]; [split; [constructor|intros ? []]|].
      cbn [map forget fst]. destruct (HR R l (or_introl eq_refl)) as [(_ & ND & I) _]. split; assumption.
    Qed.
    Lemma horner_scal {A} c d (F : A -> Fr) l : horner c (map (fun a => d * F a)%fr l) = (d * horner c (map F l))%fr.
    Proof.
      induction l as [|a l IH]; [unfold horner; cbn; ring|]. cbn [map]. rewrite !horner_cons, IH, !map_length. ring.
    Qed.
    (** opening to 0 at u is the quotient identity at u *)
    Lemma opened_u u w : vanish x u (without all_rots (first_rots S)) <> 0%fr ->
      (vanish x u (without all_rots (first_rots S)) * opened yy v x u osets w u)%fr =
      (differences yy v x osets u - vanish x u all_rots * peval w u)%fr.
    Proof.
      intros Nz. destruct first_ok as [ND I]. rewrite (vanish_split u _ ND I). unfold opened.
      set (d := vanish x u (without all_rots (first_rots S))) in *.
      replace (differences yy v x osets u) with (d * horner v (map (fun '(R, l) => factor x u S R *
        horner yy (map (fun '(p, f) => peval f u - interpolate x u R (p_evals p)) l)) osets))%fr; [ring|].
      rewrite <- horner_scal. unfold differences. f_equal. apply map_ext. intros [R l]. unfold factor. fold d.
      transitivity ((d * (vanish x u (without all_rots R) / d)) * horner yy (map (fun '(p, f) => peval f u - interpolate x u R (p_evals p)) l))%fr; [ring|].
      rewrite div_r by exact Nz. reflexivity.
    Qed.
    Lemma opened_pol u w M : (length w <= M)%nat -> (N <= M)%nat -> ispol M (opened yy v x u osets w).
    Proof.
      intros Lw LM. unfold opened. apply ispol_sub; [|apply ispol_scal, ispol_peval, Lw].
      eapply ispol_ext; [|apply (ispol_horner M v (fun o X => factor x u S (fst o) *
        horner yy (map (fun pf => peval (snd pf) X - interpolate x u (fst o) (p_evals (fst pf))) (snd o)))%fr osets)].
      - intros X. cbv beta. f_equal. apply map_ext. intros [R l]. cbn [fst snd]. do 2 f_equal. apply map_ext. intros [p f]. reflexivity.
      - intros [R l] Ho. cbn [fst snd]. apply ispol_scal.
        apply (ispol_horner M yy (fun pf X => peval (snd pf) X - interpolate x u R (p_evals (fst pf)))%fr).
        intros [p f] Hp. cbn [fst snd]. apply ispol_sub; [|apply ispol_const; lia]. apply ispol_peval.
        pose proof (HF R l p f Ho Hp). lia.
    Qed.

    (** ** honest openings *)
    Lemma honest_opening : (forall R l p f, In (R, l) osets -> In (p, f) l -> evaluates x R p f) ->
      exists w, (length w <= N)%nat /\ (forall X, quotient_at yy v x osets w X) /\ forall u, vanish x u (without all_rots (first_rots S)) <> 0%fr ->
          exists w', (length w' <= N)%nat /\ forall X, opens_at yy v x u osets w w' X.
    Proof.
      intros HE. destruct diff_pol as [d [Ld Ed]].
      destruct (divide_roots (map (rot x) all_rots) d) as [w [Lw Ew]].
      - apply rots_nodup; [apply all_rots_nodup|apply incl_refl].
      - intros a Ha. apply in_map_iff in Ha. destruct Ha as [k [<- Hk]]. rewrite Ed, differences_eq.
        replace (map (set_diff (rot x k)) osets) with (map (fun o : oset => (0 * 0)%fr) osets).
        + rewrite horner_scal. ring.
        + apply map_ext_in. intros [R l] Ho. unfold set_diff. cbn [fst snd]. destruct (HR R l Ho) as [OK _].
          destruct (in_dec Z.eq_dec k R) as [I|NI].
          * replace (map (fun pf => (peval (snd pf) (rot x k) - interpolate x (rot x k) R (p_evals (fst pf)))%fr) l)
              with (map (fun pf : poly * pol => (0 * 0)%fr) l); [rewrite horner_scal; ring|].
            apply map_ext_in. intros [p f] Hp. cbn [fst snd]. rewrite (interp_right R p f k OK (HE R l p f Ho Hp) I). ring.
          * rewrite (vanish_0 (rot x k) (without all_rots R) k); [ring| |reflexivity]. apply without_in. split; assumption.
      - exists w. assert (Q : forall X, quotient_at yy v x osets w X).
        { intros X. unfold quotient_at. rewrite <- Ed, Ew. rewrite map_map. reflexivity. }
        split; [rewrite map_length in Lw; change (length all_rots) with 5%nat in Lw; lia|]. split; [exact Q|].
        intros u Nz. destruct (opened_pol u w N) as [o [Lo Eo]]; [rewrite map_length in Lw; change (length all_rots) with 5%nat in Lw; lia|lia|].
        destruct (divide_roots [u] o) as [w' [Lw' Ew']].
        + constructor; [intros []|constructor].
        + intros a [<-|[]]. rewrite Eo. pose proof (opened_u u w Nz) as E. rewrite <- (Q u) in E.
          assert (E0 : (vanish x u (without all_rots (first_rots S)) * opened yy v x u osets w u = 0)%fr) by (rewrite E; ring).
          apply mul_eq0 in E0. destruct E0 as [E0|E0]; [contradiction|exact E0].
        + exists w'. split; [lia|]. intros X. unfold opens_at. rewrite <- Eo, Ew'. cbn [map]. rewrite prod_cons, prod_nil. ring.
    Qed.
  End Sets.
End X.

(** ** wrong evaluations *)
Lemma soundness x osets N m : x <> 0%fr ->
  (forall R l, In (R, l) osets -> rots_ok R /\ (length R <= N)%nat /\ (length l <= m)%nat) ->
  (forall R l p f, In (R, l) osets -> In (p, f) l -> (length f <= N)%nat /\ length (p_evals p) = length R) -> (1 <= N)%nat ->
  (exists R l p f, In (R, l) osets /\ In (p, f) l /\ ~ evaluates x R p f) ->
  exists Ys, (length Ys < m)%nat /\ forall yy, ~ In yy Ys ->
  exists Vs, (length Vs < length osets)%nat /\ forall v, ~ In v Vs ->
  forall w, (length w <= N)%nat ->
  exists Us, (length Us <= N + 4)%nat /\ forall u, ~ In u Us -> vanish x u (without all_rots (first_rots (sets osets))) <> 0%fr ->
  forall w', (length w' <= N)%nat ->
  exists Ts, (length Ts <= N)%nat /\ forall tau, ~ In tau Ts -> ~ opens_at yy v x u osets w w' tau.
Proof.
  intros Hx HR HF HN (R & l & p & f & Ho & Hp & HE).
  destruct (HR R l Ho) as (OK & LR & Lm). destruct (HF R l p f Ho Hp) as [Lf Le].
  destruct (interp_wrong x Hx R p f OK Le HE) as (k & Hk & Nz).
  assert (HR' : forall R l, In (R, l) osets -> rots_ok R /\ (length R <= N)%nat) by (intros R0 l0 H0; destruct (HR R0 l0 H0) as (? & ? & _); auto).
  assert (HF' : forall R l p f, In (R, l) osets -> In (p, f) l -> (length f <= N)%nat) by (intros R0 l0 p0 f0 H0 H1; exact (proj1 (HF R0 l0 p0 f0 H0 H1))).
  assert (KA : In k all_rots) by (apply (proj2 (proj2 OK)), Hk).
  destruct (horner_zeros (map (fun pf : poly * pol => (peval (snd pf) (rot x k) - interpolate x (rot x k) R (p_evals (fst pf)))%fr) l) _
    (in_map _ _ _ Hp) Nz) as [Ys [LY HY]].
  exists Ys. rewrite map_length in LY. split; [clear - LY Lm Hp; destruct l; [destruct Hp|]; cbn [length] in Lm, LY; apply le_n_S in LY; eapply Nat.le_trans; [exact LY|exact Lm]|]. intros yy Hy.
  assert (Nd : set_diff x yy (rot x k) (R, l) <> 0%fr).
  { unfold set_diff. cbn [fst snd]. apply mul_nz; [|intros E; apply Hy, HY, E]. apply (vanish_nz x Hx).
    - intros j Hj. apply without_in in Hj. apply Hj.
    - exact KA.
    - intros J. apply without_in in J. apply (proj2 J), Hk. }
  destruct (horner_zeros (map (set_diff x yy (rot x k)) osets) _ (in_map _ _ _ Ho) Nd) as [Vs [LV HV]].
  exists Vs. rewrite map_length in LV. split; [clear - LV Ho; destruct osets; [destruct Ho|]; cbn [length] in LV |- *; apply le_n_S in LV; exact LV|]. intros v Hv w Lw.
  assert (ND : differences yy v x osets (rot x k) <> 0%fr).
  { rewrite differences_eq. intros E. apply Hv, HV, E. }
  destruct (few_zeros (5 + N) (fun X => differences yy v x osets X - vanish x X all_rots * peval w X)%fr (rot x k)) as [Us [LU HU]].
  - apply ispol_sub.
    + eapply ispol_le; [|apply (diff_pol x yy v osets N HR' HF' HN)]. lia.
    + unfold vanish. apply (ispol_prod N (rot x) (peval w) all_rots), ispol_peval, Lw.
  - rewrite (vanish_0 x (rot x k) all_rots k KA eq_refl). intros E. apply ND. rewrite <- E. ring.
  - exists Us. split; [lia|]. intros u Hu Nv w' Lw'.
    assert (NO : opened yy v x u osets w u <> 0%fr).
    { intros E. apply Hu, HU. rewrite <- (opened_u x yy v osets N HR' HF' u w Nv), E. ring. }
    destruct (few_zeros (1 + N) (fun X => (X - u) * peval w' X - opened yy v x u osets w X)%fr u) as [Ts [LT HT]].
    + apply ispol_sub; [apply (ispol_lin N), ispol_peval, Lw'|]. apply (opened_pol x yy v osets N HF' HN); lia.
    + intros E. apply NO. transitivity (- ((u - u) * peval w' u - opened yy v x u osets w u))%fr; [ring|]. rewrite E. ring.
    + exists Ts. split; [lia|]. intros tau Ht E. apply Ht, HT. unfold opens_at in E. rewrite E. ring.
Qed.
