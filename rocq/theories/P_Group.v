(** The chord-and-tangent addition of Curve.v is an abelian group law on the points of
    y^2 = x^3 + 3 over Z/p. *)
From Coq Require Import ZArith Znumtheory Lia Bool List Ring Field.
From Verif Require Import Params Go Curve NumThy FField FpField P_Fr P_Curve.
Import ListNotations.
Open Scope Z_scope.

Local Opaque p_mod r_mod.
Lemma p_n0 : p_mod <> 0. Proof. pose proof p_pos. lia. Qed.

Local Opaque phi fmul fadd fsub fopp fdiv finv.

(** ** Slopes: chord and tangent alike satisfy both equations *)
Definition slp (l x1 y1 x2 y2 : Fp) : Prop :=
  (y2 - y1 = l * (x2 - x1))%fp /\ ((y1 + y2) * l = x1 * x1 + x1 * x2 + x2 * x2)%fp.

Lemma fp_0_sub (a b : Fp) : a = b -> (a - b = 0)%fp.
Proof. intros ->. ring. Qed.

Lemma fp_cancel (a b c : Fp) : c <> 0%fp -> (c * a = c * b)%fp -> a = b.
Proof.
  intros N H. apply fp_sub_0. assert (E : (c * (a - b) = 0)%fp).
  { transitivity (c * a - c * b)%fp; [ring|]. rewrite H. ring. }
  apply fp_mul_eq0 in E. tauto.
Qed.

Lemma slp_sym l x1 y1 x2 y2 : slp l x1 y1 x2 y2 -> slp l x2 y2 x1 y1.
Proof.
  intros [A B]. split.
  - transitivity (- (y2 - y1))%fp; [ring|]. rewrite A. ring.
  - transitivity ((y1 + y2) * l)%fp; [ring|]. rewrite B. ring.
Qed.

Lemma slp_unique l m x1 y1 x2 y2 : slp l x1 y1 x2 y2 -> slp m x1 y1 x2 y2 ->
  (x1 <> x2 \/ (y1 + y2 <> 0)%fp) -> l = m.
Proof.
  intros [A B] [A' B'] [N|N].
  - apply (fp_cancel _ _ (x2 - x1)%fp); [apply fp_sub_n0; congruence|].
    transitivity (l * (x2 - x1))%fp; [ring|]. rewrite <- A, A'. ring.
  - apply (fp_cancel _ _ (y1 + y2)%fp); [exact N|]. rewrite B, B'. reflexivity.
Qed.

(** slope of the line through (A+B) and C *)
Lemma slope_DC (l m k x1 y1 x2 y2 x3 y3 x4 y4 : Fp) :
  slp l x1 y1 x2 y2 -> slp m x2 y2 x3 y3 -> (m - l <> 0)%fp -> (k * (m - l) = x3 - x1)%fp ->
  (x4 = l * l - x1 - x2)%fp -> (y4 = l * (x1 - x4) - y1)%fp ->
  slp (k - l)%fp x4 y4 x3 y3.
Proof.
  intros [S1 R1] [S2 R2] N K X4 Y4.
  assert (Y2 : y2 = (y1 + l * (x2 - x1))%fp).
  { transitivity (y1 + (y2 - y1))%fp; [ring|]. rewrite S1. reflexivity. }
  assert (Y3 : y3 = (y1 + l * (x2 - x1) + m * (x3 - x2))%fp).
  { transitivity (y2 + (y3 - y2))%fp; [ring|]. rewrite S2, Y2. reflexivity. }
  apply fp_0_sub in R1. apply fp_0_sub in R2. apply fp_0_sub in K.
  rewrite Y3, Y2 in R2. rewrite Y2 in R1.
  assert (A : (y3 - y4 = (k - l) * (x3 - x4))%fp).
  { apply (fp_cancel _ _ (m - l)%fp); [exact N|]. apply fp_sub_0.
    transitivity
     (((y1 + l * (x2 - x1) + (y1 + l * (x2 - x1) + m * (x3 - x2))) * m - (x2 * x2 + x2 * x3 + x3 * x3))
      - ((y1 + (y1 + l * (x2 - x1))) * l - (x1 * x1 + x1 * x2 + x2 * x2))
      - (k * (m - l) - (x3 - x1)) * (x3 - x4))%fp.
    - rewrite Y3, Y4, X4. ring.
    - rewrite R1, R2, K. ring. }
  split; [exact A|].
  apply fp_sub_0.
  assert (E : (y4 + y3 = l * (x3 - x4) + (m - l) * (x3 - x2))%fp) by (rewrite Y3, Y4; ring).
  transitivity
   (- l * (y3 - y4 - (k - l) * (x3 - x4)) + (k * (m - l) - (x3 - x1)) * (x3 - x2)
    + ((y1 + (y1 + l * (x2 - x1))) * l - (x1 * x1 + x1 * x2 + x2 * x2)))%fp.
  - rewrite E, Y3, Y4, X4. ring.
  - rewrite (fp_0_sub _ _ A), K, R1. ring.
Qed.

(** ** The cases of [padd] *)
Lemma valid_y_n0 x y : valid_pt (Aff x y) = true -> fq y <> 0%fp.
Proof.
  intros H. apply valid_aff in H. destruct H as (_ & R & C). apply fq_n0; [exact R|].
  intros ->. rewrite on_curve_y0 in C. discriminate.
Qed.

Lemma pt_eq x y x' y' : valid_pt (Aff x y) = true -> valid_pt (Aff x' y') = true ->
  fq x = fq x' -> fq y = fq y' -> Aff x y = Aff x' y'.
Proof.
  intros V V' E F. apply valid_aff in V, V'. f_equal; apply fq_inj; tauto.
Qed.

Lemma pneg_valid P : valid_pt P = true -> valid_pt (pneg P) = true.
Proof.
  destruct P as [|x y]; [auto|]. intros H. apply valid_aff in H. destruct H as (RX & RY & C).
  cbn [pneg]. apply valid_aff. split; [exact RX|]. split; [apply modp_range|].
  apply on_curve_iff. apply on_curve_iff in C. rewrite fq_mod, fq_opp, <- C. ring.
Qed.

Lemma pneg_invol P : valid_pt P = true -> pneg (pneg P) = P.
Proof.
  intros V. pose proof (pneg_valid _ (pneg_valid _ V)) as V2.
  destruct P as [|x y]; [reflexivity|]. cbn [pneg] in V2 |- *.
  apply pt_eq; try assumption; [reflexivity|]. rewrite fq_mod, fq_opp, fq_mod, fq_opp. ring.
Qed.

(** non-opposite points: x1 <> x2 or y1 + y2 <> 0 *)
Lemma not_opp x1 y1 x2 y2 : valid_pt (Aff x1 y1) = true -> valid_pt (Aff x2 y2) = true ->
  Aff x2 y2 <> pneg (Aff x1 y1) -> fq x1 <> fq x2 \/ (fq y1 + fq y2 <> 0)%fp.
Proof.
  intros V1 V2 N. pose proof (pneg_valid _ V1) as V1'.
  apply valid_aff in V1. pose proof V2 as V2'. apply valid_aff in V2.
  destruct (Z.eq_dec x1 x2) as [->|Nx].
  - right. intros H. apply N. cbn [pneg] in V1' |- *. apply pt_eq; try assumption; [reflexivity|].
    rewrite fq_mod, fq_opp. transitivity (fq y1 + fq y2 - fq y1)%fp; [ring|]. rewrite H. ring.
  - left. apply fq_neq; tauto.
Qed.

Lemma pneg_add P : valid_pt P = true -> padd P (pneg P) = Inf.
Proof.
  intros V. destruct P as [|x y]; [reflexivity|]. cbn [pneg]. apply padd_opp; [exact V| |apply modp_range].
  rewrite Z.add_mod_idemp_r by apply p_n0. replace (y + - y) with 0 by lia. apply Z.mod_0_l, p_n0.
Qed.

Lemma padd_cases x1 y1 x2 y2 : valid_pt (Aff x1 y1) = true -> valid_pt (Aff x2 y2) = true ->
  Aff x2 y2 <> pneg (Aff x1 y1) ->
  exists l x3 y3, padd (Aff x1 y1) (Aff x2 y2) = Aff x3 y3 /\ valid_pt (Aff x3 y3) = true /\
    slp l (fq x1) (fq y1) (fq x2) (fq y2) /\
    (fq x3 = l * l - fq x1 - fq x2)%fp /\ (fq y3 = l * (fq x1 - fq x3) - fq y1)%fp.
Proof.
  intros V1 V2 N. pose proof (padd_valid _ _ V1 V2) as V3.
  pose proof (valid_y_n0 _ _ V1) as Y1. pose proof (not_opp _ _ _ _ V1 V2 N) as NO.
  pose proof V1 as W1. pose proof V2 as W2. apply valid_aff in W1, W2.
  destruct W1 as (RX1 & RY1 & C1), W2 as (RX2 & RY2 & C2). apply on_curve_iff in C1, C2.
  assert (L : forall l, valid_pt (line_pt l x1 y1 x2) = true -> slp (fq l) (fq x1) (fq y1) (fq x2) (fq y2) ->
    exists l' x3 y3, line_pt l x1 y1 x2 = Aff x3 y3 /\ valid_pt (Aff x3 y3) = true /\
    slp l' (fq x1) (fq y1) (fq x2) (fq y2) /\
    (fq x3 = l' * l' - fq x1 - fq x2)%fp /\ (fq y3 = l' * (fq x1 - fq x3) - fq y1)%fp).
  { intros l V S. unfold line_pt in *. eexists (fq l), _, _. split; [reflexivity|]. split; [exact V|].
    split; [exact S|]. rewrite !fq_psub, !fq_mul, fq_add, fq_sub, fq_psub, fq_mul, fq_add. split; ring. }
  unfold padd in V3 |- *. destruct (x1 =? x2) eqn:Ex.
  - apply Z.eqb_eq in Ex. subst x2.
    assert (Ey : y1 = y2).
    { apply fq_inj; try assumption. apply fp_sub_0.
      assert (E : ((fq y1 - fq y2) * (fq y1 + fq y2) = 0)%fp).
      { transitivity (fq y1 * fq y1 - fq y2 * fq y2)%fp; [ring|]. rewrite C1, C2. ring. }
      apply fp_mul_eq0 in E. destruct E as [E|E]; [exact E|]. destruct NO as [NO|NO]; [congruence|contradiction]. }
    subst y2. rewrite Z.eqb_refl in V3 |- *. cbn [andb] in V3 |- *.
    destruct (y1 =? 0) eqn:E0.
    { exfalso. apply Z.eqb_eq in E0. subst y1. apply Y1. reflexivity. }
    cbn [negb] in V3 |- *. apply L; [exact V3|]. split.
    + ring.
    + rewrite fq_div, !fq_mul. field. split; [exact Y1|exact fp_two_n0].
  - apply Z.eqb_neq in Ex. apply L; [exact V3|].
    assert (Nx : (fq x2 - fq x1 <> 0)%fp) by (apply fp_sub_n0, not_eq_sym, fq_neq; assumption).
    rewrite fq_div, !fq_sub. split.
    + field. exact Nx.
    + apply (fp_cancel _ _ (fq x2 - fq x1)%fp); [exact Nx|].
      transitivity (fq y2 * fq y2 - fq y1 * fq y1)%fp; [field; exact Nx|]. rewrite C1, C2. ring.
Qed.

(** any slope gives the sum *)
Lemma padd_intro l x1 y1 x2 y2 x3 y3 :
  valid_pt (Aff x1 y1) = true -> valid_pt (Aff x2 y2) = true -> valid_pt (Aff x3 y3) = true ->
  Aff x2 y2 <> pneg (Aff x1 y1) -> slp l (fq x1) (fq y1) (fq x2) (fq y2) ->
  (fq x3 = l * l - fq x1 - fq x2)%fp -> (fq y3 = l * (fq x1 - fq x3) - fq y1)%fp ->
  padd (Aff x1 y1) (Aff x2 y2) = Aff x3 y3.
Proof.
  intros V1 V2 V3 N S X3 Y3. destruct (padd_cases _ _ _ _ V1 V2 N) as (l' & x & y & E & V & S' & X & Y).
  pose proof (slp_unique _ _ _ _ _ _ S S' (not_opp _ _ _ _ V1 V2 N)) as <-.
  rewrite E. assert (EX : fq x = fq x3) by (rewrite X, X3; reflexivity).
  apply pt_eq; try assumption. rewrite Y, Y3, EX. reflexivity.
Qed.

Lemma pt_dec (P Q : pt) : {P = Q} + {P <> Q}.
Proof.
  destruct P as [|x y], Q as [|x' y']; try (left; reflexivity); try (right; discriminate).
  destruct (Z.eq_dec x x') as [->|N]; [|right; congruence].
  destruct (Z.eq_dec y y') as [->|N]; [left; reflexivity|right; congruence].
Defined.

Lemma opp_sym P Q : valid_pt P = true -> valid_pt Q = true -> Q = pneg P -> P = pneg Q.
Proof. intros V W ->. symmetry. apply pneg_invol. exact V. Qed.

Lemma padd_inf_r P : padd P Inf = P.
Proof. destruct P; reflexivity. Qed.

Lemma padd_comm P Q : valid_pt P = true -> valid_pt Q = true -> padd P Q = padd Q P.
Proof.
  intros V1 V2. destruct P as [|x1 y1]; [symmetry; apply padd_inf_r|].
  destruct Q as [|x2 y2]; [reflexivity|].
  destruct (pt_dec (Aff x2 y2) (pneg (Aff x1 y1))) as [E|N].
  - pose proof (opp_sym _ _ V1 V2 E) as E'. rewrite E at 1. rewrite pneg_add by exact V1.
    rewrite E'. rewrite pneg_add by exact V2. reflexivity.
  - destruct (padd_cases _ _ _ _ V1 V2 N) as (l & x & y & E & V & S & X & Y). rewrite E. symmetry.
    apply (padd_intro l); try assumption.
    + intros H. apply N. apply opp_sym; assumption.
    + apply slp_sym. exact S.
    + rewrite X. ring.
    + destruct S as [S _]. rewrite Y.
      transitivity (l * (fq x2 - fq x) - fq y1 - l * (fq x2 - fq x1))%fp; [ring|]. rewrite <- S. ring.
Qed.

Lemma pneg_fix P : valid_pt P = true -> P = pneg P -> P = Inf.
Proof.
  intros V E. destruct P as [|x y]; [reflexivity|]. exfalso. cbn [pneg] in E. injection E as E.
  assert (H : fq y = fq ((- y) mod p_mod)) by (rewrite <- E; reflexivity).
  rewrite fq_mod, fq_opp in H. assert (H2 : (fq 2 * fq y = 0)%fp).
  { transitivity (fq y + fq y)%fp; [ring|]. rewrite H at 1. ring. }
  apply fp_mul_eq0 in H2. destruct H2 as [H2|H2]; [exact (fp_two_n0 H2) | exact (valid_y_n0 _ _ V H2)].
Qed.

(** ** Cancellation *)
Lemma cancel_affine x1 y1 x2 y2 : valid_pt (Aff x1 y1) = true -> valid_pt (Aff x2 y2) = true ->
  padd (pneg (Aff x1 y1)) (padd (Aff x1 y1) (Aff x2 y2)) = Aff x2 y2.
Proof.
  intros V1 V2. destruct (pt_dec (Aff x2 y2) (pneg (Aff x1 y1))) as [E|N].
  - rewrite E, pneg_add by exact V1. apply padd_inf_r.
  - destruct (padd_cases _ _ _ _ V1 V2 N) as (l & x & y & E & V & S & X & Y). rewrite E.
    pose proof (pneg_valid _ V1) as V1'. cbn [pneg] in V1' |- *.
    destruct S as [S R].
    pose proof V1 as W1. pose proof V2 as W2. apply valid_aff in W1, W2.
    destruct W1 as (_ & _ & C1), W2 as (_ & _ & C2). apply on_curve_iff in C1, C2.
    apply (padd_intro (- l)%fp); try assumption.
    + intros H. change (Aff x1 ((- y1) mod p_mod)) with (pneg (Aff x1 y1)) in H.
      rewrite pneg_invol in H by exact V1. injection H as -> ->.
      apply (valid_y_n0 _ _ V1). assert (H2 : (fq 2 * fq y1 = 0)%fp).
      { transitivity (fq y1 + fq y1)%fp; [ring|]. rewrite Y at 1. ring. }
      apply fp_mul_eq0 in H2. destruct H2 as [H2|H2]; [destruct (fp_two_n0 H2)|exact H2].
    + split.
      * rewrite fq_mod, fq_opp, Y. ring.
      * rewrite fq_mod, fq_opp, Y. apply fp_sub_0.
        assert (Ey : fq y2 = (fq y1 + l * (fq x2 - fq x1))%fp).
        { transitivity (fq y1 + (fq y2 - fq y1))%fp; [ring|]. rewrite S. reflexivity. }
        rewrite Ey in R. apply fp_0_sub in R.
        transitivity ((fq y1 + (fq y1 + l * (fq x2 - fq x1))) * l -
          (fq x1 * fq x1 + fq x1 * fq x2 + fq x2 * fq x2))%fp; [|exact R].
        rewrite X. ring.
    + rewrite X. ring.
    + rewrite fq_mod, fq_opp. transitivity (fq y1 + l * (fq x2 - fq x1))%fp; [|ring]. rewrite <- S. ring.
Qed.

Lemma cancel_l P Q : valid_pt P = true -> valid_pt Q = true -> padd (pneg P) (padd P Q) = Q.
Proof.
  intros V1 V2. destruct P as [|x1 y1]; [destruct Q; reflexivity|].
  destruct Q as [|x2 y2]; [|apply cancel_affine; assumption].
  rewrite padd_inf_r, padd_comm; [apply pneg_add; exact V1|apply pneg_valid; exact V1|exact V1].
Qed.

Lemma pneg_padd P Q : valid_pt P = true -> valid_pt Q = true -> pneg (padd P Q) = padd (pneg P) (pneg Q).
Proof.
  intros V1 V2. destruct P as [|x1 y1]; [destruct Q; reflexivity|].
  destruct Q as [|x2 y2]; [rewrite !padd_inf_r; reflexivity|].
  destruct (pt_dec (Aff x2 y2) (pneg (Aff x1 y1))) as [E|N].
  - rewrite E, pneg_add by exact V1. rewrite pneg_add by (apply pneg_valid; exact V1). reflexivity.
  - destruct (padd_cases _ _ _ _ V1 V2 N) as (l & x & y & E & V & [S R] & X & Y). rewrite E.
    pose proof (pneg_valid _ V1) as V1'. pose proof (pneg_valid _ V2) as V2'. pose proof (pneg_valid _ V) as V'.
    assert (N' : pneg (Aff x2 y2) <> pneg (pneg (Aff x1 y1))).
    { intros H. apply N. rewrite <- (pneg_invol _ V2), H, pneg_invol by exact V1'. reflexivity. }
    symmetry. cbn [pneg] in V1', V2', V', N' |- *. apply (padd_intro (- l)%fp); try assumption.
    + split; rewrite !fq_mod, !fq_opp.
      * transitivity (- (fq y2 - fq y1))%fp; [ring|]. rewrite S. ring.
      * rewrite <- R. ring.
    + rewrite X. ring.
    + rewrite !fq_mod, !fq_opp, Y. ring.
Qed.

(** ** Associativity *)
Lemma assoc_generic x1 y1 x2 y2 x3 y3 :
  valid_pt (Aff x1 y1) = true -> valid_pt (Aff x2 y2) = true -> valid_pt (Aff x3 y3) = true ->
  Aff x2 y2 <> pneg (Aff x1 y1) -> Aff x3 y3 <> pneg (Aff x2 y2) -> Aff x1 y1 <> Aff x3 y3 ->
  padd (padd (Aff x1 y1) (Aff x2 y2)) (Aff x3 y3) = padd (Aff x1 y1) (padd (Aff x2 y2) (Aff x3 y3)).
Proof.
  intros VA VB VC NAB NBC NAC.
  destruct (pt_dec (Aff x3 y3) (pneg (padd (Aff x1 y1) (Aff x2 y2)))) as [H|ND].
  { pose proof (padd_valid _ _ VA VB) as VD. rewrite H at 1. rewrite pneg_add by exact VD.
    rewrite H, pneg_padd, (padd_comm (pneg (Aff x1 y1))) by (try apply pneg_valid; assumption).
    rewrite <- (pneg_invol (Aff x2 y2)) at 1 by exact VB.
    rewrite cancel_l by (apply pneg_valid; assumption). symmetry. apply pneg_add. exact VA. }
  destruct (pt_dec (padd (Aff x2 y2) (Aff x3 y3)) (pneg (Aff x1 y1))) as [H|NE].
  { exfalso. apply ND. rewrite pneg_padd by assumption. rewrite <- H.
    rewrite padd_comm by (try apply padd_valid; try apply pneg_valid; assumption).
    symmetry. apply cancel_l; assumption. }
  destruct (padd_cases _ _ _ _ VA VB NAB) as (l & x4 & y4 & ED & VD & SD & X4 & Y4).
  destruct (padd_cases _ _ _ _ VB VC NBC) as (m & x5 & y5 & EE & VE & SE & X5 & Y5).
  rewrite ED in *. rewrite EE in *.
  pose proof (proj1 SD) as SD1. pose proof (proj1 SE) as SE1.
  assert (Nm : (m - l <> 0)%fp).
  { intros H. apply fp_sub_0 in H. subst m.
    assert (Y31 : (fq y3 - fq y1 = l * (fq x3 - fq x1))%fp).
    { transitivity ((fq y3 - fq y2) + (fq y2 - fq y1))%fp; [ring|]. rewrite SD1, SE1. ring. }
    assert (Hp : ((fq x3 - fq x1) * (l * l - fq x1 - fq x2 - fq x3) = 0)%fp).
    { pose proof (fp_0_sub _ _ (proj2 SD)) as R1. pose proof (fp_0_sub _ _ (proj2 SE)) as R2.
      apply fp_0_sub in Y31.
      transitivity (((fq y2 + fq y3) * l - (fq x2 * fq x2 + fq x2 * fq x3 + fq x3 * fq x3))
         - ((fq y1 + fq y2) * l - (fq x1 * fq x1 + fq x1 * fq x2 + fq x2 * fq x2))
         - l * (fq y3 - fq y1 - l * (fq x3 - fq x1)))%fp; [ring|]. rewrite R1, R2, Y31. ring. }
    apply fp_mul_eq0 in Hp. destruct Hp as [Hp|Hp].
    - apply NAC. apply fp_sub_0 in Hp. apply pt_eq; try assumption; [congruence|].
      apply fp_sub_0. transitivity (- (fq y3 - fq y1))%fp; [ring|]. rewrite Y31, Hp. ring.
    - assert (E4 : fq x3 = fq x4).
      { rewrite X4. apply fp_sub_0. transitivity (- (l * l - fq x1 - fq x2 - fq x3))%fp; [ring|]. rewrite Hp. ring. }
      apply ND. pose proof (pneg_valid _ VD) as VD'. cbn [pneg] in VD' |- *. apply pt_eq; try assumption.
      rewrite fq_mod, fq_opp, Y4, <- E4. transitivity (fq y1 + (fq y3 - fq y1))%fp; [ring|]. rewrite Y31. ring. }
  set (k := ((fq x3 - fq x1) / (m - l))%fp).
  assert (K : (k * (m - l) = fq x3 - fq x1)%fp) by (subst k; field; exact Nm).
  assert (Nm' : (l - m <> 0)%fp).
  { intros H. apply Nm. transitivity (- (l - m))%fp; [ring|]. rewrite H. ring. }
  assert (K' : (k * (l - m) = fq x1 - fq x3)%fp).
  { transitivity (- (k * (m - l)))%fp; [ring|]. rewrite K. ring. }
  pose proof (slope_DC _ _ _ _ _ _ _ _ _ _ _ SD SE Nm K X4 Y4) as T1.
  assert (X5' : (fq x5 = m * m - fq x3 - fq x2)%fp) by (rewrite X5; ring).
  assert (Y5' : (fq y5 = m * (fq x3 - fq x5) - fq y3)%fp).
  { rewrite Y5. transitivity (m * (fq x3 - fq x5) - fq y2 - m * (fq x3 - fq x2))%fp; [ring|]. rewrite <- SE1. ring. }
  pose proof (slope_DC _ _ _ _ _ _ _ _ _ _ _ (slp_sym _ _ _ _ _ SE) (slp_sym _ _ _ _ _ SD) Nm' K' X5' Y5') as T2.
  destruct (padd_cases _ _ _ _ VD VC ND) as (s & x6 & y6 & E6 & V6 & S6 & X6 & Y6).
  pose proof (slp_unique _ _ _ _ _ _ S6 T1 (not_opp _ _ _ _ VD VC ND)) as ->.
  rewrite E6. symmetry. apply (padd_intro (k - m)%fp); try assumption.
  - apply slp_sym. exact T2.
  - rewrite X6, X4, X5. apply fp_sub_0. apply fp_0_sub in K.
    transitivity (fq 2 * (k * (m - l) - (fq x3 - fq x1)))%fp; [ring|]. rewrite K. ring.
  - (* ordinate through C instead of D *)
    assert (Y6' : (fq y6 = (k - l) * (fq x3 - fq x6) - fq y3)%fp).
    { rewrite Y6. destruct T1 as [T1 _].
      transitivity ((k - l) * (fq x3 - fq x6) - fq y4 - (k - l) * (fq x3 - fq x4))%fp; [ring|]. rewrite <- T1. ring. }
    rewrite Y6'.
    assert (Y3 : fq y3 = (fq y1 + l * (fq x2 - fq x1) + m * (fq x3 - fq x2))%fp).
    { transitivity (fq y1 + (fq y2 - fq y1) + (fq y3 - fq y2))%fp; [ring|]. rewrite SD1, SE1. ring. }
    rewrite Y3, X6, X4. apply fp_sub_0. apply fp_0_sub in K.
    transitivity ((fq 2 * l - k) * (k * (m - l) - (fq x3 - fq x1)))%fp; [ring|]. rewrite K. ring.
Qed.

Lemma padd_assoc P Q R : valid_pt P = true -> valid_pt Q = true -> valid_pt R = true ->
  padd (padd P Q) R = padd P (padd Q R).
Proof.
  intros VP VQ VR.
  destruct P as [|x1 y1]; [reflexivity|]. destruct Q as [|x2 y2]; [rewrite padd_inf_r; reflexivity|].
  destruct R as [|x3 y3]; [rewrite !padd_inf_r; reflexivity|].
  destruct (pt_dec (Aff x1 y1) (Aff x3 y3)) as [E|NAC].
  { rewrite <- E. rewrite (padd_comm (padd _ _)), (padd_comm (Aff x2 y2)) by (try apply padd_valid; assumption).
    reflexivity. }
  destruct (pt_dec (Aff x2 y2) (pneg (Aff x1 y1))) as [E|NAB].
  { rewrite E, pneg_add by exact VP.
    pose proof (cancel_l _ _ (pneg_valid _ VP) VR) as H. rewrite pneg_invol in H by exact VP.
    rewrite H. reflexivity. }
  destruct (pt_dec (Aff x3 y3) (pneg (Aff x2 y2))) as [E|NBC].
  { rewrite E, pneg_add by exact VQ. rewrite padd_inf_r.
    rewrite padd_comm, padd_comm with (P := Aff x1 y1) by (try apply padd_valid; try apply pneg_valid; assumption).
    apply cancel_l; assumption. }
  apply assoc_generic; assumption.
Qed.
