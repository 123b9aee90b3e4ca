(** Facts about the curve arithmetic of Curve.v. *)
From Coq Require Import ZArith Znumtheory Zpow_facts Lia String Bool List Ring Field.
From Verif Require Import Params Go Curve Api FrOps Lib NumThy NumPow NumCert FField FpField P_Fr P_Str.
Import ListNotations.
Open Scope Z_scope.

Lemma r_lt_p : r_mod < p_mod. Proof. reflexivity. Qed.
Lemma p_lt_2256 : p_mod < 2 ^ 256. Proof. reflexivity. Qed.
Lemma p_lt_2r : p_mod < 2 * r_mod. Proof. reflexivity. Qed.

(** ** From Z mod p to the field *)
Lemma fq_mod a : fq (a mod p_mod) = fq a. Proof. apply phi_mod. Qed.
Lemma fq_add a b : fq (a + b) = (fq a + fq b)%fp. Proof. apply phi_add. Qed.
Lemma fq_sub a b : fq (a - b) = (fq a - fq b)%fp. Proof. apply phi_sub. Qed.
Lemma fq_mul a b : fq (a * b) = (fq a * fq b)%fp. Proof. apply phi_mul. Qed.
Lemma fq_opp a : fq (- a) = (- fq a)%fp. Proof. apply phi_opp. Qed.
Lemma fq_inv a : fq (inv_mod p_mod a) = fpinv (fq a).
Proof. unfold finv. f_equal. rewrite val_phi. unfold inv_mod. rewrite Z.mod_mod by auto. reflexivity. Qed.
Lemma fq_div a b : fq (pdiv_mod a b) = (fq a / fq b)%fp.
Proof. unfold pdiv_mod. rewrite fq_mod, fq_mul, fq_inv. reflexivity. Qed.
Lemma fq_psub a b : fq (psub_mod a b) = (fq a - fq b)%fp.
Proof. unfold psub_mod. rewrite fq_mod. apply fq_sub. Qed.
Lemma fq_padd a b : fq (padd_mod a b) = (fq a + fq b)%fp.
Proof. unfold padd_mod. rewrite fq_mod. apply fq_add. Qed.
Lemma fq_eq a b : fq a = fq b <-> a mod p_mod = b mod p_mod. Proof. apply phi_eq_iff. Qed.
Lemma fq_inj a b : 0 <= a < p_mod -> 0 <= b < p_mod -> fq a = fq b -> a = b.
Proof. intros Ha Hb H. apply fq_eq in H. rewrite !modp_small in H by assumption. exact H. Qed.
Lemma fq_0 a : fq a = 0%fp <-> a mod p_mod = 0.
Proof. unfold fzero. rewrite fq_eq. rewrite Z.mod_0_l by auto. tauto. Qed.

Lemma on_curve_iff x y : on_curve x y = true <-> (fq y * fq y = fq x * fq x * fq x + fq 3)%fp.
Proof.
  unfold on_curve. rewrite Z.eqb_eq. rewrite <- !fq_mul, <- fq_add. symmetry. apply fq_eq.
Qed.

Lemma fp_mul_eq0 (a b : Fp) : (a * b = 0)%fp -> (a = 0 \/ b = 0)%fp.
Proof. apply fmul_eq0. exact prime_p. Qed.
Lemma fp_sub_0 (a b : Fp) : (a - b = 0)%fp -> a = b.
Proof. intros H. replace a with (a - b + b)%fp by ring. rewrite H. ring. Qed.
Lemma fp_sub_n0 (a b : Fp) : a <> b -> (a - b <> 0)%fp.
Proof. intros N H. apply N. apply fp_sub_0. exact H. Qed.

(** ** A line meets the curve in a third point *)
Lemma third_point (l x1 y1 t2 : Fp) :
  (y1 * y1 = x1 * x1 * x1 + fq 3)%fp ->
  (fq 3 * x1 * x1 - fq 2 * l * y1 + t2 * (fq 3 * x1 - l * l) + t2 * t2 = 0)%fp ->
  let x3 := (l * l - (x1 + (x1 + t2)))%fp in
  let y3 := (l * (x1 - x3) - y1)%fp in
  (y3 * y3 = x3 * x3 * x3 + fq 3)%fp.
Proof.
  intros E1 K x3 y3. apply fp_sub_0.
  transitivity ((y1 * y1 - (x1 * x1 * x1 + fq 3)) -
    (x3 - x1) * (fq 3 * x1 * x1 - fq 2 * l * y1 + t2 * (fq 3 * x1 - l * l) + t2 * t2))%fp.
  - subst x3 y3. ring.
  - rewrite K, E1. ring.
Qed.

Lemma fp_two_n0 : (fq 2 <> 0)%fp.
Proof. intros H. apply fq_0 in H. vm_compute in H. discriminate. Qed.

Lemma line_pt_valid l x1 y1 x2 y2 :
  on_curve x1 y1 = true -> on_curve x2 y2 = true ->
  (fq x1 <> fq x2 /\ (fq l * (fq x2 - fq x1) = fq y2 - fq y1)%fp) \/
  (fq x1 = fq x2 /\ (fq l * (fq 2 * fq y1) = fq 3 * fq x1 * fq x1)%fp) ->
  valid_pt (line_pt l x1 y1 x2) = true.
Proof.
  intros C1 C2 H. unfold line_pt, valid_pt.
  set (x3 := psub_mod (l * l) (x1 + x2)). set (y3 := psub_mod (l * (x1 - x3)) y1).
  pose proof (modp_range (l * l - (x1 + x2))) as R1. fold (psub_mod (l * l) (x1 + x2)) in R1. fold x3 in R1.
  pose proof (modp_range (l * (x1 - x3) - y1)) as R2. fold (psub_mod (l * (x1 - x3)) y1) in R2. fold y3 in R2.
  replace (0 <=? x3) with true by (symmetry; apply Z.leb_le; lia).
  replace (x3 <? p_mod) with true by (symmetry; apply Z.ltb_lt; lia).
  replace (0 <=? y3) with true by (symmetry; apply Z.leb_le; lia).
  replace (y3 <? p_mod) with true by (symmetry; apply Z.ltb_lt; lia).
  cbn [andb]. apply on_curve_iff. apply on_curve_iff in C1, C2.
  pose proof (third_point (fq l) (fq x1) (fq y1) (fq x2 - fq x1)%fp C1) as T. cbv zeta in T.
  assert (X3 : fq x3 = (fq l * fq l - (fq x1 + (fq x1 + (fq x2 - fq x1))))%fp).
  { subst x3. rewrite fq_psub, fq_mul, fq_add. ring. }
  assert (Y3 : fq y3 = (fq l * (fq x1 - fq x3) - fq y1)%fp).
  { subst y3. rewrite fq_psub, fq_mul, fq_sub. reflexivity. }
  rewrite Y3, X3. apply T. clear T X3 Y3.
  destruct H as [[N H]|[E H]].
  - set (t := (fq x2 - fq x1)%fp) in *.
    assert (Nt : t <> 0%fp) by (apply fp_sub_n0; congruence).
    match goal with |- ?k = _ => set (K := k) end.
    assert (E : (t * K = 0)%fp).
    { transitivity ((fq x2 * fq x2 * fq x2 + fq 3 - fq y2 * fq y2) - (fq x1 * fq x1 * fq x1 + fq 3 - fq y1 * fq y1)
        - ((fq y1 + fq l * t - fq y2) * (fq y1 + fq l * t + fq y2)))%fp.
      - subst K t. ring.
      - rewrite H, C1, C2. ring. }
    apply fp_mul_eq0 in E. tauto.
  - rewrite <- E. transitivity (fq 3 * fq x1 * fq x1 - fq l * (fq 2 * fq y1))%fp; [ring|]. rewrite H. ring.
Qed.

Lemma valid_aff x y : valid_pt (Aff x y) = true <->
  0 <= x < p_mod /\ 0 <= y < p_mod /\ on_curve x y = true.
Proof.
  unfold valid_pt. rewrite !andb_true_iff, !Z.leb_le, !Z.ltb_lt. tauto.
Qed.

Lemma fq_neq a b : 0 <= a < p_mod -> 0 <= b < p_mod -> a <> b -> fq a <> fq b.
Proof. intros Ha Hb N H. apply N. apply fq_inj; assumption. Qed.

Lemma fq_n0 a : 0 <= a < p_mod -> a <> 0 -> fq a <> 0%fp.
Proof. intros Ha N H. apply fq_0 in H. rewrite modp_small in H by assumption. contradiction. Qed.

Lemma padd_valid P Q : valid_pt P = true -> valid_pt Q = true -> valid_pt (padd P Q) = true.
Proof.
  destruct P as [|x1 y1]; [auto|]. destruct Q as [|x2 y2]; [auto|]. intros H1 H2.
  pose proof H1 as V1. pose proof H2 as V2. apply valid_aff in V1, V2.
  destruct V1 as (X1 & Y1 & C1), V2 as (X2 & Y2 & C2). unfold padd.
  destruct (x1 =? x2) eqn:Ex.
  - apply Z.eqb_eq in Ex. subst x2. destruct (y1 =? y2) eqn:Ey; cbn [andb]; [|reflexivity].
    destruct (y1 =? 0) eqn:E0; cbn [negb]; [reflexivity|]. apply Z.eqb_neq in E0.
    apply line_pt_valid with y2; try assumption. right. split; [reflexivity|].
    rewrite fq_div, !fq_mul. field. split; [apply fq_n0; assumption | apply fp_two_n0].
  - apply Z.eqb_neq in Ex. apply line_pt_valid with y2; try assumption. left.
    split; [apply fq_neq; assumption|]. rewrite fq_div, !fq_sub. field.
    apply fp_sub_n0. apply not_eq_sym. apply fq_neq; assumption.
Qed.

Lemma pmul_pos_valid k P : valid_pt P = true -> valid_pt (pmul_pos k P) = true.
Proof.
  intros H. induction k; cbn [pmul_pos]; auto; repeat apply padd_valid; auto.
Qed.

Lemma pmul_valid k P : valid_pt P = true -> valid_pt (pmul k P) = true.
Proof.
  intros H. unfold pmul. destruct (k mod r_mod); [reflexivity | apply pmul_pos_valid; exact H | reflexivity].
Qed.

Lemma pmul_mod k P : pmul (k mod r_mod) P = pmul k P.
Proof. unfold pmul. rewrite modr_idem. reflexivity. Qed.

(** ** No points of order two, few points with coordinates 0 mod r *)
Lemma cube_3q : match powq 3 (Z.to_pos ((p_mod - 1) / 3)) p_mod qs_cube with Some (z, _) => negb (z =? 1) | None => false end = true.
Proof. vm_compute. reflexivity. Qed.
Lemma cube_gen (a n : Z) (e : positive) qs : 0 < n ->
  match powq a e n qs with Some (z, _) => negb (z =? 1) | None => false end = true -> a ^ Zpos e mod n <> 1.
Proof.
  intros Hn. destruct (powq a e n qs) as [[z t]|] eqn:E; [|discriminate]. apply powq_mod in E; [|exact Hn].
  intros H. apply negb_true_iff, Z.eqb_neq in H. rewrite <- E. exact H.
Qed.
Lemma cube_3 : 3 ^ ((p_mod - 1) / 3) mod p_mod <> 1.
Proof. exact (cube_gen 3 p_mod (Z.to_pos ((p_mod - 1) / 3)) qs_cube p_pos cube_3q). Qed.
Lemma minus3_not_cube x : (x * x * x + 3) mod p_mod <> 0.
Proof.
  intros H.
  assert (Hx : ~ (p_mod | x)).
  { intros D. apply Z.mod_divide in D; auto.
    rewrite <- Zplus_mod_idemp_l in H. rewrite <- Z.mul_mod_idemp_r, D, Z.mul_0_r in H by auto.
    rewrite Z.mod_0_l in H by auto. vm_compute in H. discriminate. }
  pose proof (fermat_little p_mod x prime_p Hx) as F.
  set (m := (p_mod - 1) / 3).
  assert (Em : p_mod - 1 = 3 * m) by (vm_compute; reflexivity).
  rewrite Em, Z.pow_mul_r in F by (lia || (vm_compute; discriminate)).
  assert (E3 : (x ^ 3) mod p_mod = (-3) mod p_mod).
  { replace (x ^ 3) with (-3 + (x * x * x + 3)) by ring. rewrite Z.add_mod, H, Z.add_0_r, Z.mod_mod by auto. reflexivity. }
  rewrite Zpower_mod in F by exact p_pos.
  rewrite E3 in F.
  rewrite <- Zpower_mod in F by exact p_pos.
  assert (Ev : m = 2 * (m / 2)) by (vm_compute; reflexivity).
  assert (Hm : 0 <= m / 2) by (vm_compute; discriminate).
  rewrite Ev, Z.pow_mul_r in F by lia. change ((-3) ^ 2) with (3 ^ 2) in F.
  rewrite <- Z.pow_mul_r, <- Ev in F by lia.
  exact (cube_3 F).
Qed.

Lemma on_curve_y0 x : on_curve x 0 = false.
Proof.
  unfold on_curve. apply Z.eqb_neq. rewrite Z.mul_0_l, Z.mod_0_l by auto. apply not_eq_sym. apply minus3_not_cube.
Qed.

Lemma valid_not_00 X Y : valid_pt (Aff X Y) = true -> X mod r_mod = 0 -> Y mod r_mod = 0 -> False.
Proof.
  intros H HX HY. apply valid_aff in H. destruct H as (RX & RY & C).
  assert (D : forall a, 0 <= a < p_mod -> a mod r_mod = 0 -> a = 0 \/ a = r_mod).
  { intros a Ra E. apply Z.mod_divide in E; auto. destruct E as [q Hq].
    pose proof p_lt_2r as L2. pose proof r_pos as Lr.
    assert (B : 0 <= q < 2) by nia. assert (C2 : q = 0 \/ q = 1) by lia. destruct C2 as [-> | ->]; lia. }
  destruct (D X RX HX) as [-> | ->], (D Y RY HY) as [-> | ->]; vm_compute in C; discriminate.
Qed.

(** ** The unified addition formula *)
Lemma add_unified_inf_l x y : valid_pt (Aff x y) = true -> add_unified (0, 0) (x, y) = (x, y).
Proof.
  intros H. apply valid_aff in H. destruct H as (RX & RY & C). unfold add_unified.
  assert (N : y <> 0) by (intros ->; rewrite on_curve_y0 in C; discriminate).
  unfold padd_mod. rewrite Z.add_0_l, modp_small by assumption.
  replace (y =? 0) with false by (symmetry; apply Z.eqb_neq; exact N).
  rewrite andb_false_r. reflexivity.
Qed.

Lemma add_unified_inf_r x y : valid_pt (Aff x y) = true -> add_unified (x, y) (0, 0) = (x, y).
Proof.
  intros H. apply valid_aff in H. destruct H as (RX & RY & C). unfold add_unified.
  assert (N : y <> 0) by (intros ->; rewrite on_curve_y0 in C; discriminate).
  unfold padd_mod. rewrite Z.add_0_r, modp_small by assumption.
  replace (y =? 0) with false by (symmetry; apply Z.eqb_neq; exact N). reflexivity.
Qed.

Lemma add_unified_opp x1 y1 x2 y2 : (y1 + y2) mod p_mod = 0 -> add_unified (x1, y1) (x2, y2) = (0, 0).
Proof. intros H. unfold add_unified, padd_mod. rewrite H. reflexivity. Qed.

Lemma line_pt_ext l l' x1 y1 x2 : fq l = fq l' -> line_pt l x1 y1 x2 = line_pt l' x1 y1 x2.
Proof.
  intros H. unfold line_pt.
  assert (E : psub_mod (l * l) (x1 + x2) = psub_mod (l' * l') (x1 + x2)).
  { unfold psub_mod. apply fq_eq. rewrite !fq_sub, !fq_mul, H. reflexivity. }
  rewrite E. f_equal. unfold psub_mod at 1 3. apply fq_eq. rewrite !fq_sub, !fq_mul, H. reflexivity.
Qed.

Lemma add_unified_gen x1 y1 x2 y2 :
  valid_pt (Aff x1 y1) = true -> valid_pt (Aff x2 y2) = true -> (y1 + y2) mod p_mod <> 0 ->
  Aff (fst (add_unified (x1, y1) (x2, y2))) (snd (add_unified (x1, y1) (x2, y2))) = padd (Aff x1 y1) (Aff x2 y2).
Proof.
  intros H1 H2 Hs. apply valid_aff in H1, H2. destruct H1 as (X1 & Y1 & C1), H2 as (X2 & Y2 & C2).
  assert (N1 : y1 <> 0) by (intros ->; rewrite on_curve_y0 in C1; discriminate).
  assert (N2 : y2 <> 0) by (intros ->; rewrite on_curve_y0 in C2; discriminate).
  assert (HsF : (fq y1 + fq y2 <> 0)%fp).
  { rewrite <- fq_add. intros H. apply fq_0 in H. contradiction. }
  unfold add_unified, padd. cbv zeta.
  replace (padd_mod y1 y2 =? 0) with false by (symmetry; apply Z.eqb_neq; exact Hs).
  replace (y1 =? 0) with false by (symmetry; apply Z.eqb_neq; exact N1).
  replace (y2 =? 0) with false by (symmetry; apply Z.eqb_neq; exact N2).
  rewrite !andb_false_r. cbn [fst snd negb].
  set (l := pdiv_mod (psub_mod ((x1 + x2) * (x1 + x2)) (x1 * x2)) (padd_mod y1 y2)).
  change (Aff (psub_mod (l * l) (x1 + x2)) (psub_mod (l * (x1 - psub_mod (l * l) (x1 + x2))) y1))
    with (line_pt l x1 y1 x2).
  assert (L : fq l = ((fq x1 * fq x1 + fq x1 * fq x2 + fq x2 * fq x2) / (fq y1 + fq y2))%fp).
  { subst l. rewrite fq_div, fq_psub, fq_padd, !fq_mul, !fq_add. field. exact HsF. }
  apply on_curve_iff in C1, C2.
  destruct (x1 =? x2) eqn:Ex.
  - apply Z.eqb_eq in Ex. subst x2.
    assert (Ey : y1 = y2).
    { apply fq_inj; try assumption. apply fp_sub_0.
      assert (E : ((fq y1 - fq y2) * (fq y1 + fq y2) = 0)%fp).
      { transitivity (fq y1 * fq y1 - fq y2 * fq y2)%fp; [ring|]. rewrite C1, C2. ring. }
      apply fp_mul_eq0 in E. tauto. }
    subst y2. rewrite Z.eqb_refl. cbn [andb negb].
    apply line_pt_ext. rewrite L, fq_div, !fq_mul. field.
    split; [apply fq_n0; assumption|]. split; [apply fp_two_n0 |]. exact HsF.
  - apply Z.eqb_neq in Ex. apply line_pt_ext. rewrite L, fq_div, !fq_sub.
    assert (Nx : (fq x2 - fq x1 <> 0)%fp) by (apply fp_sub_n0, not_eq_sym, fq_neq; assumption).
    assert (Hc : ((fq x1 * fq x1 + fq x1 * fq x2 + fq x2 * fq x2) * (fq x2 - fq x1) =
                  (fq y2 - fq y1) * (fq y1 + fq y2))%fp).
    { transitivity ((fq x2 * fq x2 * fq x2 + fq 3) - (fq x1 * fq x1 * fq x1 + fq 3))%fp; [ring|].
      rewrite <- C1, <- C2. ring. }
    transitivity (((fq x1 * fq x1 + fq x1 * fq x2 + fq x2 * fq x2) * (fq x2 - fq x1)) /
                  ((fq y1 + fq y2) * (fq x2 - fq x1)))%fp; [field; split; assumption|].
    rewrite Hc. field. split; assumption.
Qed.

Lemma padd_opp x y1 y2 : valid_pt (Aff x y1) = true -> (y1 + y2) mod p_mod = 0 ->
  0 <= y2 < p_mod -> padd (Aff x y1) (Aff x y2) = Inf.
Proof.
  intros H Hs R. apply valid_aff in H. destruct H as (X1 & Y1 & C1).
  unfold padd. rewrite Z.eqb_refl. destruct (y1 =? y2) eqn:E; [|reflexivity].
  apply Z.eqb_eq in E. subst y2. cbn [andb].
  destruct (y1 =? 0) eqn:E0; [reflexivity|]. apply Z.eqb_neq in E0. exfalso.
  apply fq_0 in Hs. rewrite fq_add in Hs.
  assert (H2 : (fq 2 * fq y1 = 0)%fp) by (rewrite <- Hs; ring).
  apply fp_mul_eq0 in H2. destruct H2 as [H2|H2]; [exact (fp_two_n0 H2) | apply (fq_n0 y1); assumption].
Qed.

(** Everything about [add_unified] on valid points, textbook sum on the right. *)
Lemma add_unified_spec P Q : valid_pt P = true -> valid_pt Q = true ->
  add_unified (coords0 P) (coords0 Q) = coords0 (padd P Q) \/
  (exists x1 y1 x2 y2, P = Aff x1 y1 /\ Q = Aff x2 y2 /\ x1 <> x2 /\ (y1 + y2) mod p_mod = 0 /\
     add_unified (coords0 P) (coords0 Q) = (0, 0)).
Proof.
  intros HP HQ. destruct P as [|x1 y1], Q as [|x2 y2]; cbn [coords0 padd].
  - left. reflexivity.
  - left. apply add_unified_inf_l. exact HQ.
  - left. apply add_unified_inf_r. exact HP.
  - destruct (Z.eq_dec ((y1 + y2) mod p_mod) 0) as [E|N].
    + destruct (Z.eq_dec x1 x2) as [->|Nx].
      * left. change (if x2 =? x2 then _ else _) with (padd (Aff x2 y1) (Aff x2 y2)).
        rewrite padd_opp; try assumption; [apply add_unified_opp; exact E|]. apply valid_aff in HQ. tauto.
      * right. exists x1, y1, x2, y2. repeat split; auto. apply add_unified_opp. exact E.
    + left. pose proof (add_unified_gen x1 y1 x2 y2 HP HQ N) as G.
      change (if x1 =? x2 then _ else _) with (padd (Aff x1 y1) (Aff x2 y2)).
      rewrite <- G. cbn [coords0]. destruct (add_unified (x1, y1) (x2, y2)); reflexivity.
Qed.
