(** Multiples of a point; every point of the curve is annihilated by r. *)
From Coq Require Import ZArith Znumtheory Lia Bool List Ring Field.
From Verif Require Import Params Go Curve NumThy FField FpField P_Fr P_Curve P_Group P_OrderCert.
Import ListNotations.
Open Scope Z_scope.

Local Opaque p_mod r_mod.
Local Opaque phi fmul fadd fsub fopp fdiv finv.

Notation valid P := (valid_pt P = true).

(** ** Multiples *)
Fixpoint times (n : nat) (P : pt) : pt :=
  match n with 0%nat => Inf | S m => padd P (times m P) end.

Lemma times_valid n P : valid P -> valid (times n P).
Proof. intros V. induction n; [reflexivity|]. apply padd_valid; assumption. Qed.

Lemma times_add a b P : valid P -> times (a + b) P = padd (times a P) (times b P).
Proof.
  intros V. induction a as [|a IH]; [reflexivity|]. cbn [Nat.add times]. rewrite IH.
  symmetry. apply padd_assoc; try apply times_valid; exact V.
Qed.

Lemma pmul_pos_times k P : valid P -> pmul_pos k P = times (Pos.to_nat k) P.
Proof.
  intros V. induction k as [k IH|k IH|].
  - cbn [pmul_pos]. rewrite IH, Pos2Nat.inj_xI. cbn [times]. f_equal.
    replace (2 * Pos.to_nat k)%nat with (Pos.to_nat k + Pos.to_nat k)%nat by lia.
    rewrite times_add by exact V. reflexivity.
  - cbn [pmul_pos]. rewrite IH, Pos2Nat.inj_xO.
    replace (2 * Pos.to_nat k)%nat with (Pos.to_nat k + Pos.to_nat k)%nat by lia.
    rewrite times_add by exact V. reflexivity.
  - cbn [pmul_pos]. change (Pos.to_nat 1) with 1%nat. cbn [times]. symmetry. apply padd_inf_r.
Qed.

Definition zmul (k : Z) (P : pt) : pt :=
  match k with Z0 => Inf | Zpos q => pmul_pos q P | Zneg q => pneg (pmul_pos q P) end.

Lemma zmul_valid k P : valid P -> valid (zmul k P).
Proof.
  intros V. destruct k; [reflexivity|apply pmul_pos_valid; exact V|]. apply pneg_valid, pmul_pos_valid, V.
Qed.

Lemma zmul_nonneg k P : valid P -> 0 <= k -> zmul k P = times (Z.to_nat k) P.
Proof. intros V H. destruct k; [reflexivity|apply pmul_pos_times; exact V|lia]. Qed.

Lemma zmul_opp k P : valid P -> zmul (- k) P = pneg (zmul k P).
Proof.
  intros V. destruct k; [reflexivity|reflexivity|]. cbn [Z.opp zmul]. symmetry. apply pneg_invol.
  apply pmul_pos_valid. exact V.
Qed.

Lemma zmul_succ k P : valid P -> zmul (k + 1) P = padd P (zmul k P).
Proof.
  intros V. destruct (Z_le_gt_dec 0 k) as [H|H].
  - rewrite !zmul_nonneg by (lia || exact V). rewrite Z2Nat.inj_add by lia.
    change (Z.to_nat 1) with 1%nat. rewrite Nat.add_comm. reflexivity.
  - rewrite <- (Z.opp_involutive (k + 1)), <- (Z.opp_involutive k), !(zmul_opp (- _)) by exact V.
    rewrite !zmul_nonneg by (lia || exact V).
    replace (Z.to_nat (- k)) with (S (Z.to_nat (- (k + 1)))) by lia. replace (- - k + 1) with (k + 1) by lia.
    cbn [times]. rewrite pneg_padd by first [exact V | apply times_valid; exact V].
    pose proof (pneg_valid _ (times_valid (Z.to_nat (- (k + 1))) _ V)) as W.
    rewrite <- padd_assoc by first [exact V | exact W | apply pneg_valid; exact V].
    rewrite pneg_add by exact V. reflexivity.
Qed.

Lemma zmul_pred k P : valid P -> zmul (k - 1) P = padd (pneg P) (zmul k P).
Proof.
  intros V. replace (zmul k P) with (padd P (zmul (k - 1) P)).
  - symmetry. apply cancel_l; [exact V|apply zmul_valid; exact V].
  - rewrite <- zmul_succ by exact V. f_equal. lia.
Qed.

Lemma zmul_add a b P : valid P -> zmul (a + b) P = padd (zmul a P) (zmul b P).
Proof.
  intros V. revert a. apply Z.bi_induction.
  - intros x y E. rewrite E. reflexivity.
  - reflexivity.
  - intros a. unfold Z.succ. replace (a + 1 + b) with (a + b + 1) by lia. rewrite !zmul_succ by exact V.
    pose proof (zmul_valid a _ V) as Va. pose proof (zmul_valid b _ V) as Vb.
    rewrite padd_assoc by assumption. split; [intros ->; reflexivity|].
    intros H. apply (f_equal (padd (pneg P))) in H.
    rewrite !cancel_l in H by (try apply padd_valid; try apply zmul_valid; assumption). exact H.
Qed.

Lemma zmul_1 P : zmul 1 P = P. Proof. reflexivity. Qed.
Lemma zmul_0 P : zmul 0 P = Inf. Proof. reflexivity. Qed.
Lemma zmul_sub a b P : valid P -> zmul (a - b) P = padd (zmul a P) (pneg (zmul b P)).
Proof. intros V. rewrite <- Z.add_opp_r, zmul_add, zmul_opp by exact V. reflexivity. Qed.

Lemma zmul_mul a b P : valid P -> zmul (a * b) P = zmul a (zmul b P).
Proof.
  intros V. pose proof (zmul_valid b _ V) as Vb. revert a. apply Z.bi_induction.
  - intros x y E. rewrite E. reflexivity.
  - reflexivity.
  - intros a. unfold Z.succ. rewrite Z.mul_add_distr_r, Z.mul_1_l.
    rewrite zmul_add, zmul_succ by assumption.
    rewrite (padd_comm (zmul (a * b) P)) by (apply zmul_valid; assumption).
    split; [intros ->; reflexivity|]. intros H. apply (f_equal (padd (pneg (zmul b P)))) in H.
    rewrite !cancel_l in H by (repeat apply zmul_valid; assumption). exact H.
Qed.

Lemma zmul_inf k : zmul k Inf = Inf.
Proof.
  revert k. apply Z.bi_induction.
  - intros x y E. rewrite E. reflexivity.
  - reflexivity.
  - intros a. unfold Z.succ. rewrite zmul_succ by reflexivity. reflexivity.
Qed.

Lemma padd_swap A B C D : valid A -> valid B -> valid C -> valid D ->
  padd (padd A B) (padd C D) = padd (padd A C) (padd B D).
Proof.
  intros VA VB VC VD. rewrite !padd_assoc by (try apply padd_valid; assumption). f_equal.
  rewrite <- !padd_assoc by assumption. f_equal. apply padd_comm; assumption.
Qed.

Lemma zmul_padd k P Q : valid P -> valid Q -> zmul k (padd P Q) = padd (zmul k P) (zmul k Q).
Proof.
  intros V W. pose proof (padd_valid _ _ V W) as VW. revert k. apply Z.bi_induction.
  - intros x y E. rewrite E. reflexivity.
  - reflexivity.
  - intros a. unfold Z.succ. rewrite !zmul_succ by assumption.
    rewrite (padd_swap P _ Q _) by (try apply zmul_valid; assumption).
    split; [intros ->; reflexivity|]. intros H. apply (f_equal (padd (pneg (padd P Q)))) in H.
    rewrite !cancel_l in H by (try apply padd_valid; try apply zmul_valid; assumption). exact H.
Qed.

Lemma padd_eq_inf P Q : valid P -> valid Q -> padd P Q = Inf -> P = pneg Q.
Proof.
  intros V W H. apply (f_equal (padd (pneg P))) in H. rewrite cancel_l, padd_inf_r in H by assumption.
  rewrite H. symmetry. apply pneg_invol. exact V.
Qed.

Lemma zmul_eq a b P : valid P -> zmul a P = zmul b P -> zmul (a - b) P = Inf.
Proof. intros V H. rewrite zmul_sub, H by exact V. apply pneg_add. apply zmul_valid, V. Qed.

(** no points of order two *)
Lemma no_two_torsion P : valid P -> zmul 2 P = Inf -> P = Inf.
Proof.
  intros V H. apply pneg_fix; [exact V|]. apply padd_eq_inf; assumption.
Qed.

(** ** The generator has order r *)
Definition G1gen : pt := Aff 1 2.
Lemma gen_valid : valid G1gen. Proof. vm_compute. reflexivity. Qed.
Lemma neg_gen_valid : valid (Aff 1 (p_mod - 2)). Proof. vm_compute. reflexivity. Qed.
Lemma neg_gen : Aff 1 (p_mod - 2) = pneg G1gen. Proof. vm_compute. reflexivity. Qed.

Lemma fq_eq_add_mul a b q : a = b + q * p_mod -> fq a = fq b.
Proof. intros ->. apply fq_eq. apply Z_mod_plus_full. Qed.

Lemma line_ok_sum l x1 y1 x2 y2 x3 y3 q2 q3 :
  valid (Aff x1 y1) -> valid (Aff x2 y2) -> Aff x2 y2 <> pneg (Aff x1 y1) ->
  (forall m, slp m (fq x1) (fq y1) (fq x2) (fq y2) -> m = fq l) ->
  line_ok p_mod l x1 y1 x2 x3 y3 q2 q3 = true -> padd (Aff x1 y1) (Aff x2 y2) = Aff x3 y3.
Proof.
  intros V1 V2 N U H. unfold line_ok in H. rewrite !andb_true_iff, !Z.eqb_eq, !Z.leb_le, !Z.ltb_lt in H.
  destruct H as (((((E1 & E2) & A) & B) & C) & D).
  apply fq_eq_add_mul in E1. apply fq_eq_add_mul in E2. rewrite fq_mul, !fq_add in E1. rewrite fq_mul, fq_sub, fq_add in E2.
  destruct (padd_cases _ _ _ _ V1 V2 N) as (m & x & y & E & V & S & X & Y). rewrite E.
  specialize (U m S). subst m. apply valid_aff in V.
  assert (EX : fq x = fq x3) by (rewrite X, E1; ring).
  f_equal; apply fq_inj; try tauto. rewrite Y, EX, E2. ring.
Qed.

Lemma ostep_ok k x y s k' x' y' : zmul k G1gen = Aff x y -> ostep_chk (k, x, y) s = Some (k', x', y') ->
  zmul k' G1gen = Aff x' y'.
Proof.
  intros E H. pose proof (zmul_valid k _ gen_valid) as V. rewrite E in V.
  destruct s as [l x3 y3 q1 q2 q3|l x3 y3 q1 q2 q3|l x3 y3 q1 q2 q3]; unfold ostep_chk in H; cbv beta iota in H.
  - destruct (_ && _) eqn:C in H; [|discriminate]. injection H as <- <- <-.
    apply andb_true_iff in C. destruct C as [C1 C2]. apply Z.eqb_eq in C1.
    apply fq_eq_add_mul in C1. rewrite !fq_mul in C1.
    change (zmul (2 * k) G1gen = Aff x3 y3). rewrite <- Z.add_diag, zmul_add, E by exact gen_valid.
    eapply line_ok_sum; try exact C2; try exact V.
    + intros H. apply pneg_fix in H; [discriminate|exact V].
    + intros m [_ S]. apply (fp_cancel _ _ (fq 2 * fq y)%fp).
      * intros H. apply fp_mul_eq0 in H. destruct H as [H|H]; [exact (fp_two_n0 H)|exact (valid_y_n0 _ _ V H)].
      * transitivity ((fq y + fq y) * m)%fp; [ring|]. rewrite S.
        transitivity (fq l * (fq 2 * fq y))%fp; [|ring]. rewrite C1. ring.
  - destruct (_ && _) eqn:C in H; [|discriminate]. injection H as <- <- <-.
    apply andb_true_iff in C. destruct C as [C1 C2]. unfold chord_ok in C1. apply andb_true_iff in C1.
    destruct C1 as [Nx C1]. apply negb_true_iff, Z.eqb_neq in Nx. apply Z.eqb_eq in C1.
    apply fq_eq_add_mul in C1. rewrite fq_mul, !fq_sub in C1.
    rewrite zmul_add, E, zmul_1 by exact gen_valid. unfold G1gen.
    assert (Nf : (fq 1 - fq x <> 0)%fp).
    { apply fp_sub_n0. intros H. apply Nx. apply valid_aff in V. symmetry. apply fq_inj; [|tauto|exact H].
      pose proof p_gt1. lia. }
    eapply line_ok_sum; try exact C2; try exact V; try exact gen_valid.
    + intros H. cbn [pneg] in H. injection H as H _. congruence.
    + intros m [S _]. apply (fp_cancel _ _ (fq 1 - fq x)%fp); [exact Nf|].
      transitivity (m * (fq 1 - fq x))%fp; [ring|]. rewrite <- S, <- C1. ring.
  - destruct (_ && _) eqn:C in H; [|discriminate]. injection H as <- <- <-.
    apply andb_true_iff in C. destruct C as [C1 C2]. unfold chord_ok in C1. apply andb_true_iff in C1.
    destruct C1 as [Nx C1]. apply negb_true_iff, Z.eqb_neq in Nx. apply Z.eqb_eq in C1.
    apply fq_eq_add_mul in C1. rewrite fq_mul, (fq_sub _ y), fq_sub in C1.
    rewrite zmul_sub, E, zmul_1, <- neg_gen by exact gen_valid.
    assert (Nf : (fq 1 - fq x <> 0)%fp).
    { apply fp_sub_n0. intros H. apply Nx. apply valid_aff in V. symmetry. apply fq_inj; [|tauto|exact H].
      pose proof p_gt1. lia. }
    eapply line_ok_sum; try exact C2; try exact V; try exact neg_gen_valid.
    + intros H. cbn [pneg] in H. injection H as H _. congruence.
    + intros m [S _]. apply (fp_cancel _ _ (fq 1 - fq x)%fp); [exact Nf|].
      transitivity (m * (fq 1 - fq x))%fp; [ring|]. rewrite <- S, <- C1. ring.
Qed.

Lemma ochain_ok l : forall k x y k' x' y', zmul k G1gen = Aff x y -> ochain (k, x, y) l = Some (k', x', y') ->
  zmul k' G1gen = Aff x' y'.
Proof.
  induction l as [|s l IH]; intros k x y k' x' y' E H.
  - cbn [ochain] in H. injection H as <- <- <-. exact E.
  - cbn [ochain] in H. destruct (ostep_chk (k, x, y) s) as [[[k1 x1] y1]|] eqn:C; [|discriminate].
    apply (IH k1 x1 y1); [|exact H]. exact (ostep_ok _ _ _ _ _ _ _ E C).
Qed.

Lemma gen_order : zmul r_mod G1gen = Inf.
Proof.
  pose proof (ochain_ok _ 1 1 2 _ _ _ eq_refl order_chain) as H.
  replace r_mod with (r_mod - 1 + 1) by lia. rewrite zmul_succ, H, neg_gen by exact gen_valid.
  apply pneg_add. exact gen_valid.
Qed.

Lemma zmul_gcd P a b : valid P -> zmul a P = Inf -> zmul b P = Inf -> rel_prime a b -> P = Inf.
Proof.
  intros V A B H. apply rel_prime_bezout in H. destruct H as [u v E].
  rewrite <- (zmul_1 P), <- E, zmul_add, !zmul_mul, A, B, !zmul_inf by exact V. reflexivity.
Qed.

Lemma gen_inj i j : 0 <= i < r_mod -> 0 <= j < r_mod -> zmul i G1gen = zmul j G1gen -> i = j.
Proof.
  intros Hi Hj H. apply zmul_eq in H; [|exact gen_valid].
  destruct (Z.eq_dec i j) as [E|N]; [exact E|]. exfalso.
  assert (R : rel_prime (i - j) r_mod).
  { apply rel_prime_sym, prime_rel_prime; [exact prime_r|]. intros [c D].
    assert (c = 0) by nia. subst c. lia. }
  pose proof (zmul_gcd _ _ _ gen_valid H gen_order R) as X. discriminate X.
Qed.

(** ** Counting: at most 2p+1 points *)
Definition code (P : pt) : Z := match P with Inf => 0 | Aff x y => 1 + 2 * x + y mod 2 end.

Lemma code_range P : valid P -> 0 <= code P < 2 * p_mod + 1.
Proof.
  intros V. pose proof p_gt1. destruct P as [|x y]; cbn [code]; [lia|]. apply valid_aff in V.
  pose proof (Z.mod_pos_bound y 2). lia.
Qed.

Lemma p_odd : p_mod mod 2 = 1. Proof. vm_compute. reflexivity. Qed.

Lemma code_inj P Q : valid P -> valid Q -> code P = code Q -> P = Q.
Proof.
  intros V W E. destruct P as [|x y], Q as [|x' y']; cbn [code] in E.
  - reflexivity.
  - exfalso. apply valid_aff in W. pose proof (Z.mod_pos_bound y' 2). lia.
  - exfalso. apply valid_aff in V. pose proof (Z.mod_pos_bound y 2). lia.
  - pose proof (Z.mod_pos_bound y 2). pose proof (Z.mod_pos_bound y' 2).
    assert (Ex : x = x') by lia. assert (Ey : y mod 2 = y' mod 2) by lia. subst x'.
    pose proof V as V0. apply valid_aff in V, W. destruct V as (RX & RY & C), W as (_ & RY' & C').
    apply on_curve_iff in C, C'. f_equal.
    assert (F : ((fq y - fq y') * (fq y + fq y') = 0)%fp).
    { transitivity (fq y * fq y - fq y' * fq y')%fp; [ring|]. rewrite C, C'. ring. }
    apply fp_mul_eq0 in F. destruct F as [F|F].
    + apply fq_inj; try assumption. apply fp_sub_0. exact F.
    + exfalso. rewrite <- fq_add in F. apply fq_0 in F. apply Z.mod_divide in F; [|apply p_n0].
      destruct F as [c F]. pose proof (valid_y_n0 _ _ V0) as Y0.
      assert (y <> 0) by (intros ->; apply Y0; reflexivity).
      assert (c = 1) by nia. subst c.
      assert (O : (y + y') mod 2 = 1) by (rewrite F, Z.mul_1_l; exact p_odd).
      rewrite Z.add_mod, Ey in O by lia. assert (D : y' mod 2 = 0 \/ y' mod 2 = 1) by lia.
      destruct D as [D|D]; rewrite D in O; discriminate O.
Qed.

Lemma pigeonhole n m (f : Z -> Z) : 0 <= m -> (forall i, 0 <= i < n -> 0 <= f i < m) ->
  (forall i j, 0 <= i < n -> 0 <= j < n -> f i = f j -> i = j) -> n <= m.
Proof.
  intros Hm R I. destruct (Z_le_gt_dec n 0) as [|Hn]; [lia|].
  set (dom := map Z.of_nat (seq 0 (Z.to_nat n))). set (cod := map Z.of_nat (seq 0 (Z.to_nat m))).
  assert (D : forall i, In i dom <-> 0 <= i < n).
  { intros i. unfold dom. rewrite in_map_iff. split.
    - intros (k & <- & K). apply in_seq in K. lia.
    - intros K. exists (Z.to_nat i). split; [lia|]. apply in_seq. lia. }
  assert (ND : NoDup (map f dom)).
  { apply nodup_map_in; [intros i j Hi Hj; apply I; apply D; assumption|].
    unfold dom. apply FinFun.Injective_map_NoDup; [intros a b; lia|apply seq_NoDup]. }
  assert (IN : incl (map f dom) cod).
  { intros z Hz. apply in_map_iff in Hz. destruct Hz as (i & <- & Hi). apply D, R in Hi.
    unfold cod. apply in_map_iff. exists (Z.to_nat (f i)). split; [lia|]. apply in_seq. lia. }
  pose proof (NoDup_incl_length ND IN) as L. unfold dom, cod in L. rewrite !map_length, !seq_length in L. lia.
Qed.

Lemma two_p_lt_3r : 2 * p_mod + 1 < 3 * r_mod. Proof. vm_compute. reflexivity. Qed.

(** if neither P nor 2P is a multiple of the generator, there are 3r points *)
Lemma three_cosets P : valid P -> (forall c, P <> zmul c G1gen) -> (forall c, zmul 2 P <> zmul c G1gen) -> False.
Proof.
  intros V N1 N2. pose proof r_pos as Rp.
  assert (Vf : forall i, valid (padd (zmul (i / r_mod) P) (zmul (i mod r_mod) G1gen))).
  { intros i. apply padd_valid; apply zmul_valid; [exact V|exact gen_valid]. }
  assert (B : 3 * r_mod <= 2 * p_mod + 1).
  { apply (pigeonhole (3 * r_mod) (2 * p_mod + 1)
      (fun i => code (padd (zmul (i / r_mod) P) (zmul (i mod r_mod) G1gen)))).
    - pose proof p_pos. lia.
    - intros i _. apply code_range, Vf.
    - intros i j Hi Hj E. apply code_inj in E; [|apply Vf|apply Vf].
      pose proof (Z.mod_pos_bound i r_mod Rp) as Mi. pose proof (Z.mod_pos_bound j r_mod Rp) as Mj.
      pose proof (Z.div_mod i r_mod) as Di. pose proof (Z.div_mod j r_mod) as Dj.
      assert (Qi : 0 <= i / r_mod < 3) by (split; [apply Z.div_pos; lia|apply Z.div_lt_upper_bound; lia]).
      assert (Qj : 0 <= j / r_mod < 3) by (split; [apply Z.div_pos; lia|apply Z.div_lt_upper_bound; lia]).
      set (a := i / r_mod) in *. set (b := j / r_mod) in *. set (s := i mod r_mod) in *. set (t := j mod r_mod) in *.
      assert (E2 : zmul (a - b) P = zmul (t - s) G1gen).
      { pose proof (zmul_valid a _ V) as Va. pose proof (zmul_valid b _ V) as Vb.
        pose proof (zmul_valid s _ gen_valid) as Vs. pose proof (zmul_valid t _ gen_valid) as Vt.
        rewrite !zmul_sub by (exact V || exact gen_valid).
        apply (f_equal (fun X => padd X (padd (pneg (zmul b P)) (pneg (zmul s G1gen))))) in E.
        cbv beta in E.
        rewrite (padd_swap (zmul a P) (zmul s G1gen)), (padd_swap (zmul b P) (zmul t G1gen)) in E
          by (try apply pneg_valid; assumption).
        rewrite !pneg_add, padd_inf_r in E by assumption. cbn [padd] in E. exact E. }
      destruct (Z.eq_dec a b) as [Eab|Nab].
      + assert (s = t). { apply gen_inj; try assumption. rewrite Eab, Z.sub_diag in E2. cbn [zmul] in E2.
          rewrite zmul_sub in E2 by exact gen_valid. symmetry in E2. apply padd_eq_inf in E2.
          - rewrite pneg_invol in E2 by apply zmul_valid, gen_valid. symmetry. exact E2.
          - apply zmul_valid, gen_valid.
          - apply pneg_valid, zmul_valid, gen_valid. }
        rewrite Di, Dj by lia. congruence.
      + exfalso.
        assert (C : a - b = 1 \/ a - b = -1 \/ a - b = 2 \/ a - b = -2) by lia.
        assert (F : forall c d, zmul (- c) P = zmul d G1gen -> zmul c P = zmul (- d) G1gen).
        { intros c d X. rewrite zmul_opp in X |- * by (exact V || exact gen_valid). rewrite <- X.
          symmetry. apply pneg_invol, zmul_valid, V. }
        destruct C as [C|[C|[C|C]]]; rewrite C in E2.
        * exact (N1 _ E2).
        * exact (N1 _ (F 1 _ E2)).
        * exact (N2 _ E2).
        * exact (N2 _ (F 2 _ E2)). }
  pose proof two_p_lt_3r. lia.
Qed.

Theorem exponent_r P : valid P -> zmul r_mod P = Inf.
Proof.
  intros V. destruct (pt_dec (zmul r_mod P) Inf) as [E|N]; [exact E|]. exfalso.
  assert (K : forall c, zmul r_mod (zmul c G1gen) = Inf).
  { intros c. rewrite <- zmul_mul, Z.mul_comm, zmul_mul, gen_order by exact gen_valid. apply zmul_inf. }
  apply (three_cosets P V).
  - intros c E. apply N. rewrite E. apply K.
  - intros c E. apply N. apply no_two_torsion; [apply zmul_valid, V|].
    rewrite <- zmul_mul, Z.mul_comm, zmul_mul, E by exact V. apply K.
Qed.

(** [pmul] is multiplication by the integer *)
Theorem pmul_zmul k P : valid P -> pmul k P = zmul k P.
Proof.
  intros V. pose proof r_pos as Rp. transitivity (zmul (k mod r_mod) P).
  - unfold pmul. pose proof (Z.mod_pos_bound k r_mod Rp). destruct (k mod r_mod); [reflexivity|reflexivity|lia].
  - rewrite (Z.div_mod k r_mod) at 2 by lia.
    rewrite zmul_add, Z.mul_comm, zmul_mul, exponent_r, zmul_inf by exact V. reflexivity.
Qed.
