(** The facts of an accepted run as statements about the specification of the verifier. *)
From Coq Require Import ZArith Zpow_facts String Bool List Lia Arith Ring Field.
From Verif Require Import Params Go Curve Api FrOps Lib Steps NumThy FField FpField P_Fr P_Str SpecCurve SpecVerify
  P_Msm P_Flow P_Misc P_Step P_Exec P_Dom P_Eval P_Verify.
Import ListNotations.
Open Scope Z_scope.

Local Opaque phi fmul fadd fsub fopp fdiv finv rot fzpow fexp omega delta.

Section Whole.
  Variables (T A : list Z).
  Notation t := (fw T).
  Notation a := (fw A).
  Notation ex := (exec T A).
  Local Open Scope fr_scope.

  (** ** Against the specification *)
  Section Spec.
    Variable g : nat -> Fr.
    Hypothesis F : facts T A g.
    Notation x := (g 6%nat).
    Notation u := (g 9%nat).
    Notation yy := (g 7%nat).
    Notation v := (g 8%nat).
    Variable ic : Z * Z.

    Lemma fdiv_inv p q : p / q = p * frinv q. Proof. reflexivity. Qed.

    Lemma sp_interp1 e : interpolate x u [0%Z] [e] = e.
    Proof. cbv [interpolate combine map sum fold_right basis without filter existsb negb Z.eqb Pos.eqb orb prod]. ring. Qed.

    Lemma sp_inv : frinv (rot x (-6) - x) = a 0 /\ frinv (rot x (-6) - rot x 1) = a 1 /\ frinv (x - rot x (-6)) = a 2 /\
      frinv (x - rot x 1) = a 3 /\ frinv (rot x 1 - rot x (-6)) = a 4 /\ frinv (rot x 1 - x) = a 5 /\
      frinv (rot x (-1) - x) = a 6 /\ frinv (x - rot x (-1)) = a 7 /\ frinv ((u - rot x (-1)) * (u - rot x 2)) = a 8 /\
      frinv (x - rot x 2) = a 17 /\ frinv (rot x 1 - rot x 2) = a 18 /\ frinv (rot x 2 - x) = a 19 /\ frinv (rot x 2 - rot x 1) = a 20.
    Proof.
      destruct F as [I _ _ _ _]. cbv zeta in I.
      destruct I as (I0 & I1 & I2 & I3 & I4 & I5 & I6 & I7 & I8 & I17 & I18 & I19 & I20).
      repeat match goal with |- _ /\ _ => split end; symmetry; apply inv_unique;
      [exact (proj1 I0) | exact (proj1 I1) | exact (proj1 I2) | exact (proj1 I3) | exact (proj1 I4) | exact (proj1 I5)
      | exact (proj1 I6) | exact (proj1 I7) | exact (proj1 I8) | exact (proj1 I17) | exact (proj1 I18) | exact (proj1 I19) | exact (proj1 I20)].
    Qed.

    Lemma sp_interpA e0 e1 e2 : interpolate x u [-6; 0; 1]%Z [e0; e1; e2] =
      i3 u (rot x (-6)) x (rot x 1) (a 0 * a 1) (a 2 * a 3) (a 4 * a 5) e0 e1 e2.
    Proof.
      cbv [interpolate combine map sum fold_right basis without filter existsb negb Z.eqb Pos.eqb orb prod i3].
      rewrite !rot_0, !fdiv_inv. destruct sp_inv as (-> & -> & -> & -> & -> & -> & _). ring.
    Qed.
    Lemma sp_interpB e0 e1 : interpolate x u [0; -1]%Z [e0; e1] = i2 u x (rot x (-1)) (a 7) (a 6) e0 e1.
    Proof.
      cbv [interpolate combine map sum fold_right basis without filter existsb negb Z.eqb Pos.eqb orb prod i2].
      rewrite !rot_0, !fdiv_inv. destruct sp_inv as (_ & _ & _ & _ & _ & _ & -> & -> & _). ring.
    Qed.
    Lemma sp_interpD e0 e1 : interpolate x u [0; 1]%Z [e0; e1] = i2 u x (rot x 1) (a 3) (a 5) e0 e1.
    Proof.
      cbv [interpolate combine map sum fold_right basis without filter existsb negb Z.eqb Pos.eqb orb prod i2].
      rewrite !rot_0, !fdiv_inv. destruct sp_inv as (_ & _ & _ & -> & _ & -> & _). ring.
    Qed.
    Lemma sp_interpE e0 e1 e2 : interpolate x u [0; 1; 2]%Z [e0; e1; e2] =
      i3 u x (rot x 1) (rot x 2) (a 3 * a 17) (a 5 * a 18) (a 19 * a 20) e0 e1 e2.
    Proof.
      cbv [interpolate combine map sum fold_right basis without filter existsb negb Z.eqb Pos.eqb orb prod i3].
      rewrite !rot_0, !fdiv_inv. destruct sp_inv as (_ & _ & _ & -> & _ & -> & _ & _ & _ & -> & -> & -> & ->). ring.
    Qed.

    Variable h : Fr.
    Notation qs := (queries T ic h x).

    Lemma sp_factor R : factor x u qs R = vanish x u (without all_rots R) * a 8.
    Proof.
      unfold factor. rewrite fdiv_inv. f_equal. destruct sp_inv as (_ & _ & _ & _ & _ & _ & _ & _ & E & _). rewrite <- E.
      f_equal. cbv [vanish first_rots queries without all_rots filter existsb negb Z.eqb Pos.eqb orb prod map fold_right]. ring.
    Qed.
    Lemma sp_factors :
      factor x u qs [-6; 0; 1]%Z = 1 /\
      factor x u qs [0; -1]%Z = (u - rot x (-6)) * (u - rot x 1) * (u - rot x 2) * a 8 /\
      factor x u qs [0]%Z = (u - rot x (-6)) * (u - rot x (-1)) * (u - rot x 1) * (u - rot x 2) * a 8 /\
      factor x u qs [0; 1]%Z = (u - rot x (-6)) * (u - rot x (-1)) * (u - rot x 2) * a 8 /\
      factor x u qs [0; 1; 2]%Z = (u - rot x (-6)) * (u - rot x (-1)) * a 8.
    Proof.
      rewrite !sp_factor. cbv [vanish without all_rots filter existsb negb Z.eqb Pos.eqb orb prod map fold_right].
      split; [|repeat match goal with |- _ /\ _ => split end; ring].
      destruct F as [I _ _ _ _]. cbv zeta in I. destruct I as (_ & _ & _ & _ & _ & _ & _ & _ & [I8 _] & _).
      transitivity ((u - rot x (-1)) * (u - rot x 2) * a 8); [ring | exact I8].
    Qed.

    Lemma map_evals (ps : list poly) (R : list Z) : map (fun p => interpolate x u R (p_evals p)) ps =
      map (interpolate x u R) (map p_evals ps).
    Proof. rewrite map_map. reflexivity. Qed.

    Lemma sp_opening : h = a 16 -> opening yy v x u qs = ex scalar_part g 18%nat.
    Proof.
      intros Hh. destruct F as [_ _ _ E _]. cbv zeta in E. rewrite E. clear E. unfold opening.
      destruct sp_factors as (E0 & E1 & E2 & E3 & E4).
      assert (Q : exists pA pB pC pD pE, qs = [([-6; 0; 1]%Z, pA); ([0; -1]%Z, pB); ([0]%Z, pC); ([0; 1]%Z, pD); ([0; 1; 2]%Z, pE)] /\
        map p_evals pA = [[t 81%nat; t 79%nat; t 80%nat]; [t 84%nat; t 82%nat; t 83%nat]; [t 87%nat; t 85%nat; t 86%nat]] /\
        map p_evals pB = [[t 92%nat; t 93%nat]; [t 97%nat; t 98%nat]] /\
        map p_evals pC = map (fun i => [i]) (map t single_evals ++ [h; t 71%nat]) /\
        map p_evals pD = [[t 49%nat; t 50%nat]; [t 88%nat; t 89%nat]; [t 90%nat; t 91%nat]; [t 95%nat; t 96%nat]] /\
        map p_evals pE = [[t 52%nat; t 55%nat; t 57%nat]; [t 53%nat; t 54%nat; t 56%nat]]).
      { unfold queries. do 5 eexists. repeat (split; [reflexivity|]). reflexivity. }
      destruct Q as (pA & pB & pC & pD & pE & Q & QA & QB & QC & QD & QE).
      rewrite Q in *. clear Q. cbn [map]. rewrite E0, E1, E2, E3, E4, !map_evals, QA, QB, QC, QD, QE. cbn [map].
      rewrite !sp_interpA, !sp_interpB, !sp_interpD, !sp_interpE.
      rewrite (map_map (fun i => [i])), (map_ext (fun e => interpolate x u [0%Z] [e]) (fun e => e) sp_interp1), map_id, Hh.
      match goal with |- horner _ (1 * ?z :: _) = _ => replace (1 * z) with z by ring end. reflexivity.
    Qed.

    (** the Lagrange helpers *)
    Lemma sp_lag k i : fexp x dom_n <> 1 -> islag A x k i -> a i = lagrange x k.
    Proof.
      intros Hx [E _]. pose proof (outside x k Hx) as N. apply sub_nz in N. unfold lagrange.
      transitivity (fzpow omega k / fc dom_n * (fexp x dom_n - 1) / (x - fzpow omega k)).
      - apply fdiv_unique; assumption.
      - rewrite !fdiv_inv. ring.
    Qed.
    Lemma sp_active : fexp x dom_n <> 1 -> act (a 10) (a 11) (a 12) (a 13) (a 14) (a 15) = l_active x.
    Proof.
      intros Hx. destruct F as [_ L _ _ _]. cbv zeta in L. destruct L as (L9 & L10 & L11 & L12 & L13 & L14 & L15).
      rewrite (sp_lag _ _ Hx L10), (sp_lag _ _ Hx L11), (sp_lag _ _ Hx L12), (sp_lag _ _ Hx L13), (sp_lag _ _ Hx L14), (sp_lag _ _ Hx L15).
      unfold act, l_active, l_last, l_blind. cbn [map sum fold_right]. ring.
    Qed.
    Lemma sp_quotient : fexp x dom_n <> 1 -> a 16 = quotient t (g 2%nat) (g 3%nat) (g 4%nat) x (g 5%nat).
    Proof.
      intros Hx. destruct F as [_ L [Q _] _ _]. cbv zeta in *. destruct L as (L9 & L10 & _).
      rewrite (sp_active Hx) in Q. rewrite (sp_lag _ _ Hx L9), (sp_lag _ _ Hx L10) in Q.
      change (lagrange x 0) with (l_0 x) in Q. change (lagrange x (-6)) with (l_last x) in Q. rewrite exprs_spec in Q.
      unfold quotient. apply fdiv_unique; [apply sub_nz, Hx | exact Q].
    Qed.
    Lemma sp_helpers i : fexp x dom_n <> 1 -> (i < 21)%nat ->
      nth i A 0%Z = val (nth i (helpers x u (quotient t (g 2%nat) (g 3%nat) (g 4%nat) x (g 5%nat))) 0).
    Proof.
      intros Hx Hi. assert (R : rng A i /\ a i = nth i (helpers x u (quotient t (g 2%nat) (g 3%nat) (g 4%nat) x (g 5%nat))) 0).
      2:{ destruct R as [R <-]. symmetry. unfold fw. rewrite val_phi. apply Z.mod_small, R. }
      rewrite <- (sp_quotient Hx).
      destruct F as [I L [Q RQ] _ _]. cbv zeta in *.
      destruct L as (L9 & L10 & L11 & L12 & L13 & L14 & L15).
      destruct I as (I0 & I1 & I2 & I3 & I4 & I5 & I6 & I7 & I8 & I17 & I18 & I19 & I20).
      destruct sp_inv as (S0 & S1 & S2 & S3 & S4 & S5 & S6 & S7 & S8 & S17 & S18 & S19 & S20).
      assert (V8 : vanish x u [-1; 2]%Z = (u - rot x (-1)) * (u - rot x 2)).
      { cbv [vanish prod map fold_right]. ring. }
      unfold helpers. cbv zeta. rewrite !rot_0, V8. cbn [map app].
      do 21 (destruct i as [|i]; [cbn [nth]; split;
        [ match goal with
          | H : isinv A _ ?k |- rng A ?k => exact (proj2 H)
          | H : islag A _ _ ?k |- rng A ?k => exact (proj2 H)
          | H : rng A ?k |- rng A ?k => exact H
          end
        | match goal with
          | H : ?b = fw A ?k |- fw A ?k = ?b => exact (eq_sym H)
          | H : islag A _ _ ?k |- fw A ?k = lagrange _ _ => exact (sp_lag _ _ Hx H)
          | |- fw A ?k = fw A ?k => reflexivity
          end ]|]).
      lia.
    Qed.
  End Spec.
End Whole.
