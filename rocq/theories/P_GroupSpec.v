(** The model's point arithmetic computes the group law of SpecCurve.v. *)
From Coq Require Import ZArith Znumtheory Lia Bool List Ring Field.
From Verif Require Import Params Go Curve NumThy FField FpField SpecCurve P_Fr P_Curve P_Group P_Order.
Import ListNotations.
Open Scope Z_scope.

Local Opaque p_mod r_mod.
Local Opaque phi fmul fadd fsub fopp fdiv finv.

Lemma point_valid P : is_point P <-> valid P.
Proof.
  split.
  - intros (a & b & [(_ & _ & ->)|(A & B & C & ->)]); [reflexivity|]. apply valid_aff.
    split; [exact A|]. split; [exact B|]. unfold on_curve. apply Z.eqb_eq. exact C.
  - intros V. destruct P as [|x y]; [exists 0, 0; left; auto|]. exists x, y. right.
    apply valid_aff in V. destruct V as (A & B & C). unfold on_curve in C. apply Z.eqb_eq in C. auto.
Qed.

Lemma fq_eqp a b : eqp a b <-> fq a = fq b.
Proof. unfold eqp. symmetry. apply fq_eq. Qed.

Lemma fq_lift (a : Fp) : exists z, fq z = a.
Proof. exists (val a). apply phi_val. Qed.

Lemma small_n0 z : 0 < z < 1000 -> fq z <> 0%fp.
Proof.
  intros H E. apply fq_0 in E. rewrite Z.mod_small in E; [lia|].
  assert (1000 < p_mod) by (vm_compute; reflexivity). lia.
Qed.

Lemma group_sum_valid P Q R : group_sum P Q R -> valid P /\ valid Q /\ valid R.
Proof.
  destruct 1; repeat match goal with H : is_point _ |- _ => apply point_valid in H end; auto.
Qed.

Lemma group_sum_padd P Q R : group_sum P Q R -> padd P Q = R.
Proof.
  destruct 1 as [Q VQ|P VP|x y y' V V' E|x1 y1 x2 y2 x3 y3 l c V1 V2 V3 L1 L2 L3 K].
  - reflexivity.
  - apply padd_inf_r.
  - apply point_valid in V, V'. unfold eqp in E. rewrite Z.mod_0_l in E by apply p_n0.
    apply padd_opp; [exact V|exact E|]. apply valid_aff in V'. tauto.
  - apply point_valid in V1, V2, V3. apply fq_eqp in L1, L2, L3.
    rewrite fq_add, fq_mul in L1, L2, L3. rewrite fq_opp in L3.
    assert (K' : forall t, (fq t * fq t * fq t + fq 3 - (fq l * fq t + fq c) * (fq l * fq t + fq c) =
      (fq t - fq x1) * (fq t - fq x2) * (fq t - fq x3))%fp).
    { intros t. specialize (K t). apply fq_eqp in K. rewrite fq_sub, fq_add, !fq_mul, !fq_add, fq_mul, !fq_sub in K. exact K. }
    clear K. pose proof (K' 0) as K0. pose proof (K' 1) as K1. pose proof (K' (-1)) as K2. clear K'.
    change (-1) with (- (1)) in K2. rewrite fq_opp in K2. change (fq 0) with 0%fp in *. change (fq 1) with 1%fp in *.
    set (X1 := fq x1) in *. set (X2 := fq x2) in *. set (X3 := fq x3) in *. set (l' := fq l) in *. set (c' := fq c) in *.
    assert (C0 : (c' * c' - fq 3 = X1 * X2 * X3)%fp).
    { transitivity (- (0 * 0 * 0 + fq 3 - (l' * 0 + c') * (l' * 0 + c')))%fp; [ring|].
      rewrite K0. ring. }
    assert (N2 : fq 2 <> 0%fp) by exact fp_two_n0.
    assert (C2 : (X3 = l' * l' - X1 - X2)%fp).
    { apply (fp_cancel _ _ (fq 2)); [exact N2|]. apply fp_sub_0.
      apply fp_0_sub in K0. apply fp_0_sub in K1. apply fp_0_sub in K2.
      match type of K0 with ?a = _ => match type of K1 with ?b = _ => match type of K2 with ?d = _ =>
        transitivity (b + d - fq 2 * a)%fp; [|rewrite K0, K1, K2; ring] end end end. ring. }
    assert (C1 : (fq 2 * l' * c' = - (X1 * X2 + X1 * X3 + X2 * X3))%fp).
    { apply (fp_cancel _ _ (fq 2)); [exact N2|]. apply fp_sub_0.
      apply fp_0_sub in K1. apply fp_0_sub in K2.
      match type of K1 with ?b = _ => match type of K2 with ?d = _ =>
        transitivity (d - b)%fp; [|rewrite K1, K2; ring] end end. ring. }
    apply (padd_intro l').
    + exact V1.
    + exact V2.
    + exact V3.
    + intros H. cbn [pneg] in H. injection H as Hx Hy. apply (valid_y_n0 _ _ V1).
      assert (E : fq y2 = (- fq y1)%fp) by (rewrite Hy, fq_mod, fq_opp; reflexivity).
      assert (EX : X2 = X1) by (unfold X1, X2; rewrite Hx; reflexivity).
      assert (H2 : (fq 2 * fq y1 = 0)%fp).
      { transitivity (fq y1 - (- fq y1))%fp; [ring|]. rewrite <- E, L1, L2, EX. ring. }
      apply fp_mul_eq0 in H2. destruct H2 as [H2|H2]; [destruct (N2 H2)|exact H2].
    + split.
      * rewrite L1, L2. fold X1 X2. ring.
      * rewrite L1, L2. fold X1 X2. apply fp_sub_0. apply fp_0_sub in C1.
        transitivity (fq 2 * l' * c' - - (X1 * X2 + X1 * X3 + X2 * X3))%fp; [|exact C1]. rewrite C2. ring.
    + exact C2.
    + rewrite L1. fold X1 X3. transitivity (- (l' * X3 + c'))%fp; [|ring].
      rewrite <- L3. ring.
Qed.

Lemma padd_group_sum P Q : valid P -> valid Q -> group_sum P Q (padd P Q).
Proof.
  intros V W. destruct P as [|x1 y1]; [apply gs_zero_l, point_valid, W|].
  destruct Q as [|x2 y2]; [apply gs_zero_r, point_valid, V|].
  destruct (pt_dec (Aff x2 y2) (pneg (Aff x1 y1))) as [E|N].
  - rewrite E at 2. rewrite pneg_add by exact V. cbn [pneg] in E. injection E as -> E.
    apply gs_opposite; [apply point_valid, V|apply point_valid, W|]. apply fq_eqp.
    rewrite fq_add, E, fq_mod, fq_opp. change (fq 0) with 0%fp. ring.
  - destruct (padd_cases _ _ _ _ V W N) as (l & x & y & E & V3 & [S R] & X & Y). rewrite E.
    pose proof V as V0. apply valid_aff in V0. destruct V0 as (_ & _ & C1). apply on_curve_iff in C1.
    destruct (fq_lift l) as (lz & Hl). destruct (fq_lift (fq y1 - l * fq x1)%fp) as (cz & Hc).
    apply (gs_line _ _ _ _ _ _ lz cz); try (apply point_valid; assumption).
    + apply fq_eqp. rewrite fq_add, fq_mul, Hl, Hc. ring.
    + apply fq_eqp. rewrite fq_add, fq_mul, Hl, Hc. transitivity (fq y1 + l * (fq x2 - fq x1))%fp; [|ring].
      rewrite <- S. ring.
    + apply fq_eqp. rewrite fq_opp, fq_add, fq_mul, Hl, Hc, Y. ring.
    + intros t. apply fq_eqp. rewrite fq_sub, fq_add, !fq_mul, !fq_add, fq_mul, !fq_sub, Hl, Hc, X.
      assert (Y2 : fq y2 = (fq y1 + l * (fq x2 - fq x1))%fp).
      { transitivity (fq y1 + (fq y2 - fq y1))%fp; [ring|]. rewrite S. reflexivity. }
      rewrite Y2 in R. apply fp_0_sub in R. apply fp_0_sub in C1. apply fp_sub_0.
      match type of R with ?a = _ => match type of C1 with ?b = _ =>
        transitivity (- (fq t - fq x1) * a - b)%fp; [|rewrite R, C1; ring] end end. ring.
Qed.

(** C49 *)
Lemma c49_sum P Q R : is_point P -> is_point Q -> (group_sum P Q R <-> padd P Q = R).
Proof.
  intros V W. apply point_valid in V, W. split; [apply group_sum_padd|].
  intros <-. apply padd_group_sum; assumption.
Qed.

Lemma c49_total P Q : is_point P -> is_point Q -> exists R, is_point R /\ group_sum P Q R.
Proof.
  intros V W. apply point_valid in V, W. exists (padd P Q). split; [|apply padd_group_sum; assumption].
  apply point_valid, padd_valid; assumption.
Qed.

Lemma c49_unique P Q R R' : group_sum P Q R -> group_sum P Q R' -> R = R'.
Proof. intros H H'. rewrite <- (group_sum_padd _ _ _ H). apply group_sum_padd. exact H'. Qed.

Lemma c49_comm P Q R : group_sum P Q R -> group_sum Q P R.
Proof.
  intros H. pose proof (group_sum_valid _ _ _ H) as (V & W & _). rewrite <- (group_sum_padd _ _ _ H).
  rewrite padd_comm by assumption. apply padd_group_sum; assumption.
Qed.

Lemma c49_assoc P Q R S T U : group_sum P Q S -> group_sum S R T -> group_sum Q R U -> group_sum P U T.
Proof.
  intros H1 H2 H3. pose proof (group_sum_valid _ _ _ H1) as (VP & VQ & _).
  pose proof (group_sum_valid _ _ _ H2) as (_ & VR & _). pose proof (group_sum_valid _ _ _ H3) as (_ & _ & VU).
  apply group_sum_padd in H1, H2, H3. subst S T U. rewrite padd_assoc by assumption.
  apply padd_group_sum; assumption.
Qed.

Lemma c49_inverse P : is_point P -> group_sum P (pneg P) Inf.
Proof.
  intros V. apply point_valid in V. rewrite <- (pneg_add P V). apply padd_group_sum; [exact V|apply pneg_valid, V].
Qed.

(** C50 *)
Lemma multiple_valid P k Q : multiple P k Q -> valid P.
Proof. induction 1; [apply point_valid; assumption|assumption|assumption]. Qed.

Lemma multiple_zmul P k Q : multiple P k Q -> Q = zmul k P.
Proof.
  intros H. pose proof (multiple_valid _ _ _ H) as V. induction H as [|k Q R H IH S|k Q R H IH S].
  - reflexivity.
  - rewrite zmul_succ by exact V. rewrite <- IH. symmetry. apply group_sum_padd. exact S.
  - rewrite zmul_pred by exact V. rewrite <- IH. pose proof (group_sum_valid _ _ _ S) as (_ & W & _).
    rewrite <- (group_sum_padd _ _ _ S). symmetry. apply cancel_l; assumption.
Qed.

Lemma zmul_multiple P k : valid P -> multiple P k (zmul k P).
Proof.
  intros V. revert k. apply Z.bi_induction.
  - intros x y E. rewrite E. reflexivity.
  - apply mu_zero, point_valid, V.
  - intros k. unfold Z.succ. split; intros H.
    + apply (mu_succ _ _ _ _ H). rewrite zmul_succ by exact V. apply padd_group_sum; [exact V|apply zmul_valid, V].
    + replace k with (k + 1 - 1) at 1 by lia. apply (mu_pred _ _ _ _ H). rewrite zmul_succ by exact V.
      apply padd_group_sum; [exact V|apply zmul_valid, V].
Qed.

Lemma c50_multiple P k Q : is_point P -> (multiple P k Q <-> pmul k P = Q).
Proof.
  intros V. apply point_valid in V. rewrite pmul_zmul by exact V. split.
  - intros H. symmetry. apply multiple_zmul. exact H.
  - intros <-. apply zmul_multiple. exact V.
Qed.

Lemma c50_total P k : is_point P -> exists Q, is_point Q /\ multiple P k Q.
Proof.
  intros V. apply point_valid in V. exists (zmul k P). split; [apply point_valid, zmul_valid, V|apply zmul_multiple, V].
Qed.

Lemma c50_unique P k Q Q' : multiple P k Q -> multiple P k Q' -> Q = Q'.
Proof. intros H H'. rewrite (multiple_zmul _ _ _ H). symmetry. apply multiple_zmul. exact H'. Qed.

Lemma c50_order P k : is_point P -> P <> Inf -> (multiple P k Inf <-> (r_mod | k)).
Proof.
  intros V N. apply point_valid in V. split.
  - intros H. apply multiple_zmul in H. destruct (Zdivide_dec r_mod k) as [D|D]; [exact D|]. exfalso. apply N.
    apply (zmul_gcd P k r_mod V); [symmetry; exact H|apply exponent_r, V|].
    apply rel_prime_sym, prime_rel_prime; [exact prime_r|exact D].
  - intros [c ->]. replace Inf with (zmul (c * r_mod) P); [apply zmul_multiple, V|].
    rewrite zmul_mul, exponent_r by exact V. apply zmul_inf.
Qed.

(** every point is a multiple of the generator (1,2) *)
Lemma c50_cyclic P : is_point P -> exists k, 0 <= k < r_mod /\ multiple (Aff 1 2) k P.
Proof.
  intros V. apply point_valid in V. pose proof r_gt1 as R1.
  assert (S : forall n, (exists z, (z < n)%nat /\ P = zmul (Z.of_nat z) G1gen) \/ (forall z, (z < n)%nat -> P <> zmul (Z.of_nat z) G1gen)).
  { intros n. induction n as [|n [[z [Hz E]]|IH]]; [right; lia|left; exists z; split; [lia|exact E]|].
    destruct (pt_dec P (zmul (Z.of_nat n) G1gen)) as [E|N]; [left; exists n; split; [lia|exact E]|right]. intros z Hz.
    destruct (Nat.eq_dec z n) as [->|]; [exact N|apply IH; lia]. }
  destruct (S (Z.to_nat r_mod)) as [[z [Hz E]]|N].
  - exists (Z.of_nat z). split; [lia|]. rewrite E. apply zmul_multiple, gen_valid.
  - exfalso.
    assert (N1 : forall c, P <> zmul c G1gen).
    { intros c E. pose proof (Z.mod_pos_bound c r_mod ltac:(lia)) as B. apply (N (Z.to_nat (c mod r_mod))); [lia|].
      rewrite Z2Nat.id by lia. rewrite E. rewrite (Z.div_mod c r_mod) at 1 by lia.
      rewrite zmul_add, (Z.mul_comm r_mod), zmul_mul, gen_order, zmul_inf by exact gen_valid. reflexivity. }
    apply (three_cosets P V N1). intros c E.
    pose proof (exponent_r P V) as ER. assert (O : exists m, r_mod = 2 * m + 1) by (exists (r_mod / 2); vm_compute; reflexivity). destruct O as [m Om].
    rewrite Om in ER. rewrite zmul_add, (Z.mul_comm 2 m), zmul_mul, E in ER by exact V. rewrite <- zmul_mul in ER by exact gen_valid.
    apply padd_eq_inf in ER; [|apply zmul_valid, gen_valid|apply zmul_valid, V].
    apply (N1 (- (m * c))). rewrite zmul_opp by exact gen_valid. rewrite ER. rewrite zmul_1. symmetry. apply pneg_invol, V.
Qed.
Lemma c50_add P a b Q R S : multiple P a Q -> multiple P b R -> group_sum Q R S -> multiple P (a + b) S.
Proof.
  intros H1 H2 H3. pose proof (multiple_valid _ _ _ H1) as V. apply multiple_zmul in H1, H2.
  apply group_sum_padd in H3. subst. rewrite <- zmul_add by exact V. apply zmul_multiple. exact V.
Qed.
Lemma c50_distr P Q R k A B C : group_sum P Q R -> multiple P k A -> multiple Q k B -> multiple R k C -> group_sum A B C.
Proof.
  intros S HA HB HC. pose proof (group_sum_valid _ _ _ S) as (V & W & _).
  apply multiple_zmul in HA, HB, HC. apply group_sum_padd in S. subst. rewrite zmul_padd by assumption.
  apply padd_group_sum; apply zmul_valid; assumption.
Qed.
Lemma c50_mul P a b Q R : multiple P a Q -> multiple Q b R -> multiple P (b * a) R.
Proof.
  intros H1 H2. pose proof (multiple_valid _ _ _ H1) as V. apply multiple_zmul in H1, H2. subst.
  rewrite <- zmul_mul by exact V. apply zmul_multiple. exact V.
Qed.
