(** The helper values that satisfy the divisions of the verification statements: exactly the specified ones. *)
From Coq Require Import ZArith Zpow_facts String Bool List Lia Arith Ring Field Permutation.
From Verif Require Import Params Go Curve Api FrOps Lib Steps NumThy FField FpField P_Fr P_Str P_Curve SpecCurve SpecMisc
  SpecVerify P_Msm P_Flow P_Misc P_Kyc P_Step P_Exec P_Dom P_Eval P_Verify P_VSpec P_Acc P_Comp P_Accept.
Import ListNotations.
Open Scope Z_scope.

Lemma rot_def x k : rot x k = (fzpow omega k * x)%fr. Proof. reflexivity. Qed.
Local Opaque phi fmul fadd fsub fopp fdiv finv rot fzpow fexp omega delta.

Lemma fzpow_inj j k : fzpow omega j = fzpow omega k -> j mod dom_n = k mod dom_n.
Proof.
  rewrite !fzpow_mod. assert (N : 0 < dom_n) by reflexivity.
  pose proof (Z.mod_pos_bound j dom_n N) as Ha. pose proof (Z.mod_pos_bound k dom_n N) as Hb.
  generalize dependent (j mod dom_n). generalize dependent (k mod dom_n). clear j k.
  assert (W : forall a b, 0 <= a < dom_n -> 0 <= b < dom_n -> a <= b -> fexp omega a = fexp omega b -> a = b).
  { intros a b Ha Hb Hab E. replace b with (a + (b - a)) in E by lia. rewrite fexp_add in E by lia.
    assert (E1 : fexp omega (b - a) = 1%fr).
    { pose proof (omega_nz a ltac:(lia)) as Na.
      assert (D : (fexp omega a * (fexp omega (b - a) - 1) = 0)%fr).
      { transitivity (fexp omega a * fexp omega (b - a) - fexp omega a)%fr; [ring|]. rewrite <- E. ring. }
      apply (fmul_eq0 r_mod r_gt1 prime_r) in D. destruct D as [D|D]; [contradiction|].
      destruct (F_dec r_mod (fexp omega (b - a)) 1%fr) as [|X]; [assumption|]. apply sub_nz in X. contradiction. }
    apply omega_order in E1; [|lia]. destruct E1 as [c Ec]. assert (c = 0) by nia. lia. }
  intros b Hb a Ha E. destruct (Z.le_ge_cases a b); [apply W; auto | symmetry; apply W; auto].
Qed.

Lemma rot_ne x j k : x <> 0%fr -> j mod dom_n <> k mod dom_n -> (rot x j - rot x k)%fr <> 0%fr.
Proof.
  intros Hx Hjk. apply sub_nz. intros E. rewrite !rot_def in E.
  assert (D : ((fzpow omega j - fzpow omega k) * x = 0)%fr).
  { transitivity (fzpow omega j * x - fzpow omega k * x)%fr; [ring|]. rewrite E. ring. }
  apply (fmul_eq0 r_mod r_gt1 prime_r) in D. destruct D as [D|D]; [|contradiction].
  apply Hjk, fzpow_inj. destruct (F_dec r_mod (fzpow omega j) (fzpow omega k)) as [|X]; [assumption|].
  apply sub_nz in X. contradiction.
Qed.

Lemma inv_r a : a <> 0%fr -> (a * frinv a = 1)%fr.
Proof. intros H. transitivity (frinv a * a)%fr; [ring|]. apply (finv_l r_mod r_gt1 prime_r), H. Qed.
Lemma div_r a b : b <> 0%fr -> (b * (a / b) = a)%fr.
Proof. intros H. rewrite fdiv_inv. transitivity (a * (b * frinv b))%fr; [ring|]. rewrite inv_r by exact H. ring. Qed.

Section Honest.
  Variables (T A : list Z).
  Notation t := (fw T).
  Notation a := (fw A).
  Local Open Scope fr_scope.

  Lemma a_val i h : nth i A 0%Z = val h -> a i = h /\ rng A i.
  Proof.
    intros E. unfold fw, rng. rewrite E. split; [apply phi_val | apply val_range].
  Qed.
  Lemma isinv_val d i : d <> 0 -> nth i A 0%Z = val (frinv d) -> isinv A d i.
  Proof. intros Hd E. destruct (a_val i _ E) as [Ea R]. split; [|exact R]. rewrite Ea. apply inv_r, Hd. Qed.
  Lemma islag_val x k i : fexp x dom_n <> 1 -> nth i A 0%Z = val (lagrange x k) -> islag A x k i.
  Proof.
    intros Hx E. destruct (a_val i _ E) as [Ea R]. split; [|exact R]. rewrite Ea. unfold lagrange.
    pose proof (outside x k Hx) as N. apply sub_nz in N.
    transitivity (fzpow omega k / fc dom_n * ((x - fzpow omega k) * ((fexp x dom_n - 1) / (x - fzpow omega k)))); [ring|].
    rewrite div_r by exact N. reflexivity.
  Qed.

  Lemma honest_ok g : let x := g 6%nat in let u := g 9%nat in
    x <> 0 -> fexp x dom_n <> 1 -> u <> rot x (-1) -> u <> rot x 2 ->
    (forall i, (i < 21)%nat -> nth i A 0%Z =
      val (nth i (helpers x u (quotient t (g 2%nat) (g 3%nat) (g 4%nat) x (g 5%nat))) 0)) ->
    oks T A scalar_part g.
  Proof.
    intros x u Hx0 Hx Hu1 Hu2 H. apply (proj2 (proj1 (whole_iff T A g))). fold t in H.
    set (q := quotient t (g 2%nat) (g 3%nat) (g 4%nat) x (g 5%nat)) in *.
    assert (V8 : vanish x u [-1; 2]%Z = (u - rot x (-1)) * (u - rot x 2)).
    { cbv [vanish prod map fold_right]. ring. }
    pose proof (H 0%nat ltac:(lia)) as H0. pose proof (H 1%nat ltac:(lia)) as H1. pose proof (H 2%nat ltac:(lia)) as H2.
    pose proof (H 3%nat ltac:(lia)) as H3. pose proof (H 4%nat ltac:(lia)) as H4. pose proof (H 5%nat ltac:(lia)) as H5.
    pose proof (H 6%nat ltac:(lia)) as H6. pose proof (H 7%nat ltac:(lia)) as H7. pose proof (H 8%nat ltac:(lia)) as H8.
    pose proof (H 9%nat ltac:(lia)) as H9. pose proof (H 10%nat ltac:(lia)) as H10. pose proof (H 11%nat ltac:(lia)) as H11.
    pose proof (H 12%nat ltac:(lia)) as H12. pose proof (H 13%nat ltac:(lia)) as H13. pose proof (H 14%nat ltac:(lia)) as H14.
    pose proof (H 15%nat ltac:(lia)) as H15. pose proof (H 16%nat ltac:(lia)) as H16. pose proof (H 17%nat ltac:(lia)) as H17.
    pose proof (H 18%nat ltac:(lia)) as H18. pose proof (H 19%nat ltac:(lia)) as H19. pose proof (H 20%nat ltac:(lia)) as H20.
    clear H. unfold helpers in *. cbv zeta in *. cbn [map app nth] in *. rewrite V8 in H8.
    assert (D : forall j k i, nth i A 0%Z = val (frinv (rot x j - rot x k)) -> j mod dom_n <> k mod dom_n ->
      isinv A (rot x j - rot x k) i).
    { intros j k i E Hn. apply isinv_val; [apply rot_ne; assumption | exact E]. }
    apply D in H0; [|discriminate]. apply D in H1; [|discriminate]. apply D in H2; [|discriminate]. apply D in H3; [|discriminate].
    apply D in H4; [|discriminate]. apply D in H5; [|discriminate]. apply D in H6; [|discriminate]. apply D in H7; [|discriminate].
    apply D in H17; [|discriminate]. apply D in H18; [|discriminate]. apply D in H19; [|discriminate]. apply D in H20; [|discriminate].
    apply isinv_val in H8; [|apply fmul_nz; apply sub_nz; assumption].
    rewrite !rot_0 in *.
    pose proof (islag_val x 0 9 Hx H9) as L9. pose proof (islag_val x (-6) 10 Hx H10) as L10.
    pose proof (islag_val x (-5) 11 Hx H11) as L11. pose proof (islag_val x (-4) 12 Hx H12) as L12.
    pose proof (islag_val x (-3) 13 Hx H13) as L13. pose proof (islag_val x (-2) 14 Hx H14) as L14.
    pose proof (islag_val x (-1) 15 Hx H15) as L15.
    apply a_val in H9, H10, H11, H12, H13, H14, H15, H16.
    split; [|split].
    - unfold inv_ok. cbv zeta. fold x u.
      exact (conj H0 (conj H1 (conj H2 (conj H3 (conj H4 (conj H5 (conj H6 (conj H7 (conj H8 (conj H17 (conj H18 (conj H19 H20)))))))))))).
    - unfold lag_ok. cbv zeta. fold x. exact (conj L9 (conj L10 (conj L11 (conj L12 (conj L13 (conj L14 L15)))))).
    - unfold quot_ok. cbv zeta. fold x. split; [|exact (proj2 H16)].
      rewrite (proj1 H9), (proj1 H10), (proj1 H11), (proj1 H12), (proj1 H13), (proj1 H14), (proj1 H15), (proj1 H16).
      assert (Ha : act (lagrange x (-6)) (lagrange x (-5)) (lagrange x (-4)) (lagrange x (-3)) (lagrange x (-2)) (lagrange x (-1)) = l_active x).
      { unfold act, l_active, l_last, l_blind. cbn [map sum fold_right]. ring. }
      rewrite Ha. change (lagrange x 0) with (l_0 x). change (lagrange x (-6)) with (l_last x). rewrite exprs_spec.
      unfold q, quotient. apply div_r. apply sub_nz, Hx.
  Qed.

  Lemma honest_nec g : let x := g 6%nat in let u := g 9%nat in oks T A scalar_part g ->
    x <> 0 /\ u <> rot x (-1) /\ u <> rot x 2.
  Proof.
    intros x u H. destruct (whole T A g H) as [I _ _ _ _]. unfold inv_ok in I. cbv zeta in I. fold x u in I.
    destruct I as ([I0 _] & _ & _ & _ & _ & _ & _ & _ & [I8 _] & _).
    split; [|split].
    - intros E. rewrite E in I0. apply fr_1_0. rewrite <- I0, rot_def. ring.
    - intros E. apply fr_1_0. rewrite <- I8, E. ring.
    - intros E. apply fr_1_0. rewrite <- I8, E. ring.
  Qed.
End Honest.

(** the remaining statements contain no division *)
Lemma oks_nodiv T A ms : forallb (fun m => match m with MSet _ e => nodiv e | _ => true end) ms = true -> forall g, oks T A ms g.
Proof.
  induction ms as [|[i e|i x y e|x y e] l IH]; cbn [oks forallb]; intros H g; [exact Logic.I| | |].
  - apply andb_true_iff in H. destruct H as [He H]. split; [apply nodiv_ok, He | apply IH, H].
  - apply IH, H.
  - apply IH, H.
Qed.
Lemma sL_nodiv : forallb (fun m => match m with MSet _ e => nodiv e | _ => true end) sL = true.
Proof. vm_compute. reflexivity. Qed.

Lemma honest_all T A g : oks T A scalar_part g -> oks T A (group prog1 ++ group prog2 ++ group prog3) g.
Proof. intros H. rewrite segments_all, oks_app. split; [exact H | apply oks_nodiv, sL_nodiv]. Qed.
