(** The scalars of an accepted run against the specification of the verifier. *)
From Coq Require Import ZArith Zpow_facts String Bool List Lia Arith Ring Field.
From Verif Require Import Params Go Curve Api FrOps Lib Steps NumThy FField FpField P_Fr P_Str SpecCurve SpecVerify
  P_Msm P_Flow P_Misc P_Step P_Exec P_Dom P_Eval.
Import ListNotations.
Open Scope Z_scope.

Local Opaque phi fmul fadd fsub fopp fdiv finv rot fzpow fexp omega delta.

Section Whole.
  Variables (T A : list Z).
  Notation t := (fw T).
  Notation a := (fw A).
  Notation ex := (exec T A).
  Local Open Scope fr_scope.

  Definition scalar_part : list mop := sA ++ sB ++ sC ++ sD ++ sE ++ sF ++ sG ++ sH ++ sI ++ sJ ++ sK.

  (** the constraint expressions with the helper values in place of the Lagrange values *)
  Definition exprs (th be ga x L0 LL L : Fr) : list Fr :=
    gates t ++
    [L0 * (1 - t 79%nat); LL * (t 88%nat * t 88%nat - t 88%nat);
     L0 * (t 82%nat - t 81%nat); L0 * (t 85%nat - t 84%nat); L0 * (t 88%nat - t 87%nat);
     chunkp be ga x L (t 79%nat) (t 80%nat) [(0, t 45%nat, t 72%nat); (1, t 46%nat, t 73%nat)]%Z;
     chunkp be ga x L (t 82%nat) (t 83%nat) [(2, t 47%nat, t 74%nat); (3, t 48%nat, t 75%nat)]%Z;
     chunkp be ga x L (t 85%nat) (t 86%nat) [(4, t 49%nat, t 76%nat); (5, t 51%nat, t 77%nat)]%Z;
     chunkp be ga x L (t 88%nat) (t 89%nat) [(6, t 44%nat, t 78%nat)]%Z] ++
    lkp L0 LL L be ga (t 90%nat) (t 91%nat) (t 92%nat) (t 93%nat) (t 94%nat) (t 67%nat * th + t 52%nat) (tbl T th) ++
    lkp L0 LL L be ga (t 95%nat) (t 96%nat) (t 97%nat) (t 98%nat) (t 99%nat) (fc 18 * th + t 53%nat) (tbl T th).

  Lemma exprs_spec th be ga x : exprs th be ga x (l_0 x) (l_last x) (l_active x) = expressions t th be ga x.
  Proof. reflexivity. Qed.
  Lemma comb_horner y l : comb y l 0 = horner y l. Proof. reflexivity. Qed.
  Lemma comb_app y l l' h : comb y (l ++ l') h = comb y l' (comb y l h). Proof. apply fold_left_app. Qed.

  Definition inv_ok (g : nat -> Fr) : Prop :=
    let x := g 6%nat in let u := g 9%nat in
      isinv A (rot x (-6) - x) 0 /\ isinv A (rot x (-6) - rot x 1) 1 /\ isinv A (x - rot x (-6)) 2 /\ isinv A (x - rot x 1) 3 /\
      isinv A (rot x 1 - rot x (-6)) 4 /\ isinv A (rot x 1 - x) 5 /\ isinv A (rot x (-1) - x) 6 /\ isinv A (x - rot x (-1)) 7 /\
      isinv A ((u - rot x (-1)) * (u - rot x 2)) 8 /\
      isinv A (x - rot x 2) 17 /\ isinv A (rot x 1 - rot x 2) 18 /\ isinv A (rot x 2 - x) 19 /\ isinv A (rot x 2 - rot x 1) 20.
  Definition lag_ok (g : nat -> Fr) : Prop :=
    let x := g 6%nat in
      islag A x 0 9 /\ islag A x (-6) 10 /\ islag A x (-5) 11 /\ islag A x (-4) 12 /\ islag A x (-3) 13 /\ islag A x (-2) 14 /\ islag A x (-1) 15.
  Definition quot_ok (g : nat -> Fr) : Prop :=
    let x := g 6%nat in
      (fexp x dom_n - 1) * a 16 = horner (g 5%nat) (exprs (g 2%nat) (g 3%nat) (g 4%nat) x (a 9) (a 10)
          (act (a 10) (a 11) (a 12) (a 13) (a 14) (a 15))) /\ rng A 16.
  Definition open_at (g : nat -> Fr) : Prop :=
    let x := g 6%nat in let u := g 9%nat in let yy := g 7%nat in let v := g 8%nat in
      let w6 := rot x (-6) in let w1 := rot x 1 in let wm := rot x (-1) in let w2 := rot x 2 in
      ex scalar_part g 18%nat =
        horner v [horner yy (map (fun '(i, j, k) => i3 u w6 x w1 (a 0 * a 1) (a 2 * a 3) (a 4 * a 5) (t i) (t j) (t k))
                              [(81, 79, 80); (84, 82, 83); (87, 85, 86)]%nat);
                  (u - w6) * (u - w1) * (u - w2) * a 8 *
                    horner yy (map (fun '(i, j) => i2 u x wm (a 7) (a 6) (t i) (t j)) [(92, 93); (97, 98)]%nat);
                  (u - w6) * (u - wm) * (u - w1) * (u - w2) * a 8 * horner yy (map t single_evals ++ [a 16; t 71%nat]);
                  (u - w6) * (u - wm) * (u - w2) * a 8 *
                    horner yy (map (fun '(i, j) => i2 u x w1 (a 3) (a 5) (t i) (t j)) [(49, 50); (88, 89); (90, 91); (95, 96)]%nat);
                  (u - w6) * (u - wm) * a 8 *
                    horner yy (map (fun '(i, j, k) => i3 u x w1 w2 (a 3 * a 17) (a 5 * a 18) (a 19 * a 20) (t i) (t j) (t k))
                      [(52, 55, 57); (53, 54, 56)]%nat)].
  Definition regs_at (g : nat -> Fr) : Prop :=
    let x := g 6%nat in let u := g 9%nat in let g' := ex scalar_part g in
      let w6 := rot x (-6) in let w1 := rot x 1 in let wm := rot x (-1) in let w2 := rot x 2 in
      g' 6%nat = g 6%nat /\ g' 7%nat = g 7%nat /\ g' 8%nat = g 8%nat /\ g' 9%nat = g 9%nat /\
      g' 17%nat = u - w6 /\ g' 22%nat = u - w1 /\ g' 35%nat = fexp x dom_n /\
      g' 28%nat = (u - w6) * (u - w1) * (u - w2) * a 8 /\
      g' 33%nat = (u - w6) * (u - wm) * (u - w1) * (u - w2) * a 8 /\
      g' 25%nat = (u - w6) * (u - wm) * (u - w2) * a 8 /\
      g' 20%nat = (u - w6) * (u - wm) * a 8.

  (** what the divisions assert, and what the registers hold *)
  Record facts (g : nat -> Fr) : Prop := {
    f_inv : inv_ok g; f_lag : lag_ok g; f_quot : quot_ok g; f_open : open_at g; f_regs : regs_at g }.

  Ltac low F H := repeat first [rewrite (F 2%nat) in H by lia | rewrite (F 3%nat) in H by lia | rewrite (F 4%nat) in H by lia |
    rewrite (F 5%nat) in H by lia | rewrite (F 6%nat) in H by lia | rewrite (F 7%nat) in H by lia |
    rewrite (F 8%nat) in H by lia | rewrite (F 9%nat) in H by lia].

  Lemma whole_iff g : (oks T A scalar_part g <-> inv_ok g /\ lag_ok g /\ quot_ok g) /\ open_at g /\ regs_at g.
  Proof.
    assert (EO : oks T A scalar_part g <-> oks T A (sA ++ sB ++ sC ++ sD ++ sE ++ sF ++ sG ++ sH ++ sI ++ sJ ++ sK) g) by reflexivity.
    rewrite !oks_app in EO.
    assert (EX : ex scalar_part g = ex sK (ex sJ (ex sI (ex sH (ex sG (ex sF (ex sE (ex sD (ex sC (ex sB (ex sA g)))))))))))
      by (unfold scalar_part; rewrite !exec_app; reflexivity).
    destruct (segA T A g) as (A17 & A19 & A23 & A26 & A30 & A32 & A18).
    pose proof (okA T A g) as IA.
    assert (FA : forall j, (2 <= j < 10)%nat -> ex sA g j = g j).
    { intros j Hj. apply exec_frame. do 10 (destruct j as [|j]; [first [lia | reflexivity]|]). lia. }
    set (gA := ex sA g) in *. clearbody gA.
    destruct (segB T A gA) as (B20 & B21). pose proof (okB T A gA) as IB.
    assert (FB : forall j, (2 <= j < 10)%nat \/ In j [17; 18; 19; 23; 26; 30; 32]%nat -> ex sB gA j = gA j).
    { intros j Hj. apply exec_frame. cbn [In] in Hj.
      do 33 (destruct j as [|j]; [first [lia | reflexivity]|]). lia. }
    set (gB := ex sB gA) in *. clearbody gB.
    assert (X6 : gB 6%nat = g 6%nat) by (rewrite FB, FA by lia; reflexivity).
    assert (X9 : gB 9%nat = g 9%nat) by (rewrite FB, FA by lia; reflexivity).
    low FA B20. low FA B21. low FA IB.
    destruct (segC T A gB) as (C17 & C22 & C24 & C25 & C20 & C27 & C28);
      [rewrite X6, FB by (clear; cbn; tauto); assumption | rewrite X6, FB by (clear; cbn; tauto); assumption | rewrite X6; assumption |].
    pose proof (okC T A gB ltac:(rewrite X6; exact B20)) as IC.
    rewrite X6, ?X9 in *.
    assert (FC : forall j, (2 <= j < 10)%nat \/ In j [18; 19; 21; 23; 26; 30; 32]%nat -> ex sC gB j = gB j).
    { intros j Hj. apply exec_frame. cbn [In] in Hj.
      do 33 (destruct j as [|j]; [first [lia | reflexivity]|]). lia. }
    set (gC := ex sC gB) in *. clearbody gC.
    pose proof (segD T A gC) as D29.
    assert (FD : forall j, j <> 29%nat -> ex sD gC j = gC j).
    { intros j Hj. apply exec_frame. apply Nat.eqb_neq in Hj. cbn. rewrite Hj. reflexivity. }
    set (gD := ex sD gC) in *. clearbody gD.
    assert (LD : forall j, (2 <= j < 10)%nat -> gD j = g j).
    { intros j Hj. rewrite FD, FC, FB, FA by lia. reflexivity. }
    destruct (segE T A gD) as (E33 & E36 & E38 & E31).
    assert (FE : forall j, (2 <= j < 31)%nat \/ j = 32%nat -> ex sE gD j = gD j).
    { intros j Hj. apply exec_frame. do 33 (destruct j as [|j]; [first [lia | reflexivity]|]). lia. }
    set (gE := ex sE gD) in *. clearbody gE.
    assert (LE : forall j, (2 <= j < 10)%nat -> gE j = g j).
    { intros j Hj. rewrite FE, LD by lia. reflexivity. }
    low LD E31.
    pose proof (fun h H => segF T A gE h E33 E36 E38 H) as SF. low LE SF. specialize (SF _ E31).
    destruct SF as (F33 & F35 & F36 & F37 & F31).
    pose proof (okF T A gE) as IF. low LE F35. low LE F36. low LE IF.
    assert (FF : forall j, (2 <= j < 31)%nat \/ j = 32%nat -> ex sF gE j = gE j).
    { intros j Hj. apply exec_frame. do 33 (destruct j as [|j]; [first [lia | reflexivity]|]). lia. }
    set (gF := ex sF gE) in *. clearbody gF.
    assert (LF : forall j, (2 <= j < 10)%nat -> gF j = g j).
    { intros j Hj. rewrite FF, LE by lia. reflexivity. }
    pose proof (fun h => segG T A gF h F33 F37) as SG. low LF SG. specialize (SG _ F31).
    destruct SG as (G38 & G39 & G31).
    pose proof (okG T A gF ltac:(rewrite (LF 6%nat) by lia; exact F36)) as IG.
    low LF G31. low LF G39. low LF IG.
    assert (FG : forall j, (2 <= j < 31)%nat \/ In j [32; 33; 35; 36; 37]%nat -> ex sG gF j = gF j).
    { intros j Hj. apply exec_frame. cbn [In] in Hj. do 38 (destruct j as [|j]; [first [lia | reflexivity]|]). lia. }
    set (gG := ex sG gF) in *. clearbody gG.
    assert (LG : forall j, (2 <= j < 10)%nat -> gG j = g j).
    { intros j Hj. rewrite FG, LF by lia. reflexivity. }
    pose proof (segH T A gG (gG 31%nat) ltac:(rewrite FG by (clear; cbn; tauto); exact F33) ltac:(rewrite FG by (clear; cbn; tauto); exact F37)
      ltac:(rewrite (LG 3%nat), (LG 6%nat) by lia; exact G39) eq_refl) as H31.
    low LG H31.
    assert (FH : forall j, (2 <= j < 31)%nat \/ In j [32; 33; 35; 36; 37; 38; 39]%nat -> ex sH gG j = gG j).
    { intros j Hj. apply exec_frame. cbn [In] in Hj. do 40 (destruct j as [|j]; [first [lia | reflexivity]|]). lia. }
    set (gH := ex sH gG) in *. clearbody gH.
    assert (LH : forall j, (2 <= j < 10)%nat -> gH j = g j).
    { intros j Hj. rewrite FH, LG by lia. reflexivity. }
    pose proof (okI T A gH (gH 31%nat) ltac:(rewrite FH, FG by (clear; cbn; tauto); exact F33) ltac:(rewrite FH, FG by (clear; cbn; tauto); exact F37)
      eq_refl) as Q.
    low LH Q.
    rewrite (FH 36%nat), (FG 36%nat), F36, (FH 38%nat), G38 in Q by (clear; cbn; tauto).
    rewrite H31, G38, G31 in Q. rewrite <- !comb_app in Q.
    destruct (segI T A gH) as [I31 _].
    assert (FI : forall j, (2 <= j < 31)%nat \/ In j [32; 35; 36]%nat -> ex sI gH j = gH j).
    { intros j Hj. apply exec_frame. cbn [In] in Hj. do 37 (destruct j as [|j]; [first [lia | reflexivity]|]). lia. }
    set (gI := ex sI gH) in *. clearbody gI.
    assert (LI : forall j, (2 <= j < 10)%nat -> gI j = g j).
    { intros j Hj. rewrite FI, LH by lia. reflexivity. }
    assert (UI : forall j, (2 <= j < 31)%nat \/ j = 32%nat -> gI j = gD j).
    { intros j Hj. rewrite FI, FH, FG, FF, FE by (cbn [In]; lia). reflexivity. }
    assert (P17 : gI 17%nat = gI 9%nat - rot (gI 6%nat) (-6)) by (rewrite ?(LI 6%nat), ?(LI 9%nat), (UI 17%nat), (FD 17%nat) by (cbn [In]; lia); exact C17).
    assert (P20 : gI 20%nat = gI 9%nat - rot (gI 6%nat) (-1)) by (rewrite ?(LI 6%nat), ?(LI 9%nat), (UI 20%nat), (FD 20%nat) by (cbn [In]; lia); exact C20).
    assert (P22 : gI 22%nat = gI 9%nat - rot (gI 6%nat) 1) by (rewrite ?(LI 6%nat), ?(LI 9%nat), (UI 22%nat), (FD 22%nat) by (cbn [In]; lia); exact C22).
    assert (P25 : gI 25%nat = gI 9%nat - rot (gI 6%nat) 2) by (rewrite ?(LI 6%nat), ?(LI 9%nat), (UI 25%nat), (FD 25%nat) by (cbn [In]; lia); exact C25).
    assert (P27 : gI 27%nat = a 8) by (rewrite ?(LI 6%nat), ?(LI 9%nat), (UI 27%nat), (FD 27%nat) by (cbn [In]; lia); exact C27).
    assert (P30 : gI 30%nat = a 3 * rot (gI 6%nat) 1) by (rewrite ?(LI 6%nat), ?(LI 9%nat), (UI 30%nat), (FD 30%nat), (FC 30%nat), (FB 30%nat) by (cbn [In]; lia); exact A30).
    assert (P32 : gI 32%nat = a 5 * gI 6%nat) by (rewrite ?(LI 6%nat), ?(LI 9%nat), (UI 32%nat), (FD 32%nat), (FC 32%nat), (FB 32%nat) by (cbn [In]; lia); exact A32).
    assert (P23 : gI 23%nat = a 3) by (rewrite ?(LI 6%nat), ?(LI 9%nat), (UI 23%nat), (FD 23%nat), (FC 23%nat), (FB 23%nat) by (cbn [In]; lia); exact A23).
    assert (P26 : gI 26%nat = a 5) by (rewrite ?(LI 6%nat), ?(LI 9%nat), (UI 26%nat), (FD 26%nat), (FC 26%nat), (FB 26%nat) by (cbn [In]; lia); exact A26).
    destruct (segJ T A gI P17 P20 P22 P25 P27 P30 P32 P23 P26) as (J20 & J33 & J25 & J21 & J29 & J18 & J30).
    low LI J20. low LI J33. low LI J25. low LI J21. low LI J29. low LI J18. low LI J30.
    assert (FJ : forall j, (2 <= j < 10)%nat \/ In j [17; 19; 22; 23; 24; 26; 27; 28; 35]%nat -> ex sJ gI j = gI j).
    { intros j Hj. apply exec_frame. cbn [In] in Hj. do 36 (destruct j as [|j]; [first [lia | reflexivity]|]). lia. }
    set (gJ := ex sJ gI) in *. clearbody gJ.
    assert (LJ : forall j, (2 <= j < 10)%nat -> gJ j = g j).
    { intros j Hj. rewrite FJ, LI by lia. reflexivity. }
    assert (R19 : gJ 19%nat = rot (gJ 6%nat) 1).
    { rewrite (LJ 6%nat) by lia. rewrite (FJ 19%nat), (UI 19%nat), (FD 19%nat), (FC 19%nat), (FB 19%nat) by (cbn [In]; lia). exact A19. }
    assert (R24 : gJ 24%nat = rot (gJ 6%nat) 2).
    { rewrite (LJ 6%nat) by lia. rewrite (FJ 24%nat), (UI 24%nat), (FD 24%nat) by (cbn [In]; lia). exact C24. }
    assert (R23 : gJ 23%nat = a 3) by (rewrite (FJ 23%nat) by (cbn [In]; lia); exact P23).
    assert (R26 : gJ 26%nat = a 5) by (rewrite (FJ 26%nat) by (cbn [In]; lia); exact P26).
    assert (R27 : gJ 27%nat = a 8) by (rewrite (FJ 27%nat) by (cbn [In]; lia); exact P27).
    assert (R21 : gJ 21%nat = - (a 3 * rot (gJ 6%nat) 1)) by (rewrite (LJ 6%nat) by lia; exact J21).
    assert (R29 : gJ 29%nat = - (a 5 * gJ 6%nat)) by (rewrite (LJ 6%nat) by lia; exact J29).
    destruct (segK T A gJ R19 R24 R23 R26 R21 R29 R27) as (K20 & K18).
    pose proof (okK T A gJ R19 R24) as IK.
    low LJ K18. low LJ K20. low LJ IK.
    assert (FK : forall j, (2 <= j < 10)%nat \/ In j [17; 22; 25; 28; 33; 35]%nat -> ex sK gJ j = gJ j).
    { intros j Hj. apply exec_frame. cbn [In] in Hj. do 36 (destruct j as [|j]; [first [lia | reflexivity]|]). lia. }
    set (gK := ex sK gJ) in *. clearbody gK.
    assert (LK : forall j, (2 <= j < 10)%nat -> gK j = g j).
    { intros j Hj. rewrite FK, LJ by lia. reflexivity. }
    split; [|split; [unfold open_at | unfold regs_at]; cbv zeta; rewrite ?EX].
    - rewrite EO. unfold inv_ok, lag_ok, quot_ok. cbv zeta. rewrite <- comb_horner. split.
      + intros (KA & KB & KC & _ & _ & KF & KG & _ & KI & _ & KK).
        apply (proj1 IA) in KA. apply (proj1 IB) in KB. apply (proj1 IC) in KC. apply (proj1 IF) in KF. apply (proj1 IG) in KG.
        apply (proj1 Q) in KI. apply (proj1 IK) in KK.
        destruct KA as (I0 & I1 & I2 & I3 & I4 & I5), KB as (I6 & I7), KK as (I17 & I18 & I19 & I20), KF as (I9 & I10).
        exact (conj (conj I0 (conj I1 (conj I2 (conj I3 (conj I4 (conj I5 (conj I6 (conj I7 (conj KC (conj I17 (conj I18 (conj I19 I20))))))))))))
          (conj (conj I9 (conj I10 KG)) KI)).
      + intros ((I0 & I1 & I2 & I3 & I4 & I5 & I6 & I7 & KC & I17 & I18 & I19 & I20) & (I9 & I10 & KG) & KI).
        exact (conj (proj2 IA (conj I0 (conj I1 (conj I2 (conj I3 (conj I4 I5)))))) (conj (proj2 IB (conj I6 I7)) (conj (proj2 IC KC)
          (conj (okD T A _) (conj (okE T A _) (conj (proj2 IF (conj I9 I10)) (conj (proj2 IG KG) (conj (okH T A _) (conj (proj2 Q KI)
          (conj (okJ T A _) (proj2 IK (conj I17 (conj I18 (conj I19 I20)))))))))))))).
    - rewrite K18, J18, J30, J25, J20, I31. rewrite (UI 18%nat), (UI 21%nat), (UI 28%nat), (UI 29%nat) by lia. rewrite (FD 18%nat), (FD 21%nat), (FD 28%nat), D29 by lia.
      rewrite (FC 18%nat), (FB 18%nat), A18, (FC 21%nat), B21, C28 by (cbn [In]; lia).
      rewrite (FC 7%nat), (FB 7%nat), (FA 7%nat) by lia.
      assert (HA : forall y l p q, horner y (l ++ [p; q]) = (horner y l * y + p) * y + q).
      { intros. unfold horner. rewrite fold_left_app. reflexivity. }
      assert (H5 : forall y p q r s z, horner y [p; q; r; s; z] = (((p * y + q) * y + r) * y + s) * y + z)
        by (intros; cbv [horner fold_left]; ring).
      rewrite HA, H5.
      match goal with |- context [horner ?y (map t single_evals)] => generalize (horner y (map t single_evals)); intros ? end.
      repeat match goal with |- context [horner ?y (map ?f ?l)] => generalize (horner y (map f l)); intros ? end.
      ring.
    - rewrite (LK 6%nat), (LK 7%nat), (LK 8%nat), (LK 9%nat) by lia. repeat (split; [reflexivity|]).
      rewrite (FK 17%nat), (FK 22%nat), (FK 25%nat), (FK 28%nat), (FK 33%nat), (FK 35%nat) by (cbn [In]; lia).
      rewrite (FJ 17%nat), (FJ 22%nat), (FJ 28%nat), (FJ 35%nat) by (cbn [In]; lia). rewrite K20, J20, J33, J25.
      rewrite (FI 35%nat), (FH 35%nat), (FG 35%nat), F35 by (cbn [In]; lia).
      rewrite (UI 17%nat), (UI 22%nat), (UI 28%nat) by lia. rewrite (FD 17%nat), (FD 22%nat), (FD 28%nat) by lia. rewrite C17, C22, C28. repeat (split; [reflexivity|]). reflexivity.
  Qed.

  Lemma whole g : oks T A scalar_part g -> facts g.
  Proof. destruct (whole_iff g) as (E & Ho & Hr). intros H. destruct (proj1 E H) as (H1 & H2 & H3). exact (Build_facts g H1 H2 H3 Ho Hr). Qed.
End Whole.
