(** The twist: Fp2 is a field, and the points of the twist form a group (C69). *)
From Coq Require Import ZArith Znumtheory Zpow_facts Lia Bool List Ring Field.
From Verif Require Import Params Go Curve NumThy FField FpField P_Fr P_Curve SpecCurve SpecMisc SpecPairing SpecTwist P_Tower P_Weier P_Twist.
Import ListNotations.
Open Scope Z_scope.

Local Opaque p_mod.
Local Opaque phi fmul fadd fsub fopp fdiv finv.

(** ** -1 is not a square *)
Lemma minus_one_not_square d n t : prime d -> d = 4 * n + 3 -> 0 <= n -> (t * t + 1) mod d = 0 -> False.
Proof.
  intros Hp Hd Hn H. pose proof (prime_ge_2 _ Hp) as D2.
  assert (E : (t * t) mod d = (-1) mod d).
  { replace (t * t) with ((t * t + 1) + (-1)) by ring. rewrite Zplus_mod, H, Z.add_0_l, Z.mod_mod by lia. reflexivity. }
  assert (N : ~ (d | t)).
  { intros [c ->]. replace (c * d * (c * d) + 1) with (1 + (c * (c * d)) * d) in H by ring.
    rewrite Z_mod_plus_full, Z.mod_small in H by lia. discriminate. }
  pose proof (fermat_little d t Hp N) as F.
  assert (P : forall k, 0 <= k -> ((t * t) ^ k) mod d = ((-1) ^ k) mod d).
  { intros k Hk. rewrite (Zpower_mod (t * t)), E, <- Zpower_mod by lia. reflexivity. }
  specialize (P (2 * n + 1) ltac:(lia)). rewrite <- Z.pow_2_r, <- Z.pow_mul_r in P by lia.
  replace (2 * (2 * n + 1)) with (d - 1) in P by lia. rewrite F in P.
  rewrite Z.pow_add_r, Z.pow_mul_r in P by lia. change ((-1) ^ 2) with 1 in P. rewrite Z.pow_1_l in P by lia.
  change (1 * (-1) ^ 1) with (-1) in P. replace (-1) with ((d - 1) + (-1) * d) in P by lia.
  rewrite Z_mod_plus_full, Z.mod_small in P by lia. lia.
Qed.
Lemma p_form : p_mod = 4 * (p_mod / 4) + 3 /\ 0 <= p_mod / 4.
Proof. vm_compute. split; [reflexivity|intros Q; discriminate Q]. Qed.
Lemma sum_sq (a b : Fp) : (a * a + b * b = 0)%fp -> a = 0%fp /\ b = 0%fp.
Proof.
  intros H. destruct (F_dec p_mod b 0%fp) as [B|B].
  - split; [|exact B]. rewrite B in H. assert (E : (a * a = 0)%fp) by (rewrite <- H; ring). apply fp_mul_eq0 in E. tauto.
  - exfalso. destruct p_form as [F1 F2]. apply (minus_one_not_square p_mod _ (val (a / b)%fp) prime_p F1 F2).
    assert (E : fq (val (a / b)%fp * val (a / b)%fp + 1) = 0%fp).
    { rewrite fq_add, fq_mul, phi_val. change (fq 1) with 1%fp. transitivity ((a * a + b * b) / (b * b))%fp; [field; exact B|].
      rewrite H. field. exact B. }
    apply fq_0 in E. exact E.
Qed.

(** ** The field *)
Notation K := (Fp * Fp)%type.
Definition kinv (x : K) : K :=
  let n := (fst x * fst x + snd x * snd x)%fp in ((fst x / n)%fp, (- snd x / n)%fp).
Definition kdiv (x y : K) : K := omul F2 x (kinv y).
Lemma F2_field : field_theory (o0 F2) (o1 F2) (oadd F2) (omul F2) (osub F2) (oopp F2) kdiv kinv eq.
Proof.
  constructor.
  - exact F2_ring.
  - intros H. apply (f_equal fst) in H. cbn [F2 quad o0 o1 fpo fst] in H. exact (F_1_neq_0 fp_field H).
  - reflexivity.
  - intros [a b] N. unfold kinv. cbv zeta. cbn [F2 quad omul oadd o1 o0 fpo fst snd].
    assert (D : (a * a + b * b <> 0)%fp).
    { intros H. apply sum_sq in H. destruct H as [-> ->]. apply N. reflexivity. }
    rewrite fq_m1. f_equal; field; exact D.
Qed.
Lemma K_dec (x y : K) : {x = y} + {x <> y}.
Proof.
  destruct x as [a b], y as [c d]. destruct (F_dec p_mod a c) as [->|]; [destruct (F_dec p_mod b d) as [->|]|];
    [left; reflexivity|right; congruence|right; congruence].
Qed.

(** ** From pairs of integers *)
Definition e2 (x : Z * Z) : K := (fq (fst x), fq (snd x)).
Lemma e2_add x y : e2 (x + y)%f2 = oadd F2 (e2 x) (e2 y).
Proof.
  destruct x, y. unfold e2. cbn [zp2 quad oadd zp F2 fpo fst snd]. unfold padd_mod. rewrite !fq_mod, !phi_add. reflexivity.
Qed.
Lemma e2_sub x y : e2 (x - y)%f2 = osub F2 (e2 x) (e2 y).
Proof.
  destruct x, y. unfold e2. cbn [zp2 quad osub zp F2 fpo fst snd]. unfold psub_mod. rewrite !fq_mod, !phi_sub. reflexivity.
Qed.
Lemma e2_mul x y : e2 (x * y)%f2 = omul F2 (e2 x) (e2 y).
Proof.
  destruct x, y. unfold e2. cbn [zp2 quad omul oadd zp F2 fpo fst snd]. unfold padd_mod, Curve.pmul_mod.
  rewrite !fq_mod, !phi_add, !fq_mod, !phi_mul, ?fq_mod, ?phi_mul. reflexivity.
Qed.
Lemma modp_can z : 0 <= z mod p_mod < p_mod. Proof. apply Z.mod_pos_bound. pose proof p_gt1. lia. Qed.
Lemma can_add x y : canon2 (x + y)%f2. Proof. destruct x, y. split; apply modp_can. Qed.
Lemma can_sub x y : canon2 (x - y)%f2. Proof. destruct x, y. split; apply modp_can. Qed.
Lemma can_mul x y : canon2 (x * y)%f2. Proof. destruct x, y. split; apply modp_can. Qed.
Lemma e2_inj x y : canon2 x -> canon2 y -> e2 x = e2 y -> x = y.
Proof.
  destruct x, y. unfold canon2, e2. cbn [fst snd]. intros [A B] [C D] E.
  pose proof (f_equal fst E) as E1. pose proof (f_equal snd E) as E2. cbn [fst snd] in E1, E2.
  f_equal; apply fq_inj; assumption.
Qed.
Lemma e2_lift (a : K) : exists x, canon2 x /\ e2 x = a.
Proof.
  destruct a as [a b]. exists (val a, val b). split; [split; apply val_range|]. unfold e2. cbn [fst snd]. rewrite !phi_val. reflexivity.
Qed.
Lemma zero_can : canon2 (0, 0). Proof. vm_compute. repeat split; intros Q; discriminate Q. Qed.
Lemma three_can : canon2 (3, 0). Proof. vm_compute. repeat split; intros Q; discriminate Q. Qed.
Lemma e2_zero : e2 (0, 0) = o0 F2. Proof. reflexivity. Qed.

Definition kb : K := e2 twist_b.
Lemma kb_eq : omul F2 (e2 (9, 1)) kb = e2 (3, 0).
Proof. unfold kb. rewrite <- e2_mul. apply (f_equal e2). vm_compute. reflexivity. Qed.
Lemma small_nz z : 0 < z < 1000 -> fq z <> 0%fp.
Proof.
  intros H E. apply fq_0 in E. rewrite Z.mod_small in E; [lia|].
  assert (1000 < p_mod) by (vm_compute; reflexivity). lia.
Qed.
Lemma N2 : oadd F2 (o1 F2) (o1 F2) <> o0 F2.
Proof.
  intros H. change (o1 F2) with (e2 (1, 0)) in H. rewrite <- e2_add in H. apply (f_equal fst) in H.
  change (fq (fst ((1, 0) + (1, 0))%f2) = fq 0) in H. revert H. apply (small_nz 2). lia.
Qed.
Lemma N3 : oadd F2 (oadd F2 (o1 F2) (o1 F2)) (o1 F2) <> o0 F2.
Proof.
  intros H. change (o1 F2) with (e2 (1, 0)) in H. rewrite <- !e2_add in H. apply (f_equal fst) in H.
  change (fq 3 = 0%fp) in H. revert H. apply (small_nz 3). lia.
Qed.
Lemma N9 : e2 (9, 1) <> o0 F2.
Proof. intros H. apply (f_equal fst) in H. change (fq 9 = 0%fp) in H. revert H. apply small_nz. lia. Qed.
Lemma Nb : kb <> o0 F2.
Proof.
  intros H. pose proof kb_eq as E. rewrite H in E. apply (f_equal fst) in E. change (fst (e2 (3, 0))) with (fq 3) in E.
  apply (small_nz 3); [lia|]. rewrite <- E. cbn [F2 quad omul oadd o0 fpo fst snd]. ring.
Qed.

Definition E (P : option g2) : option (K * K) := match P with None => None | Some (x, y) => Some (e2 x, e2 y) end.
Notation onk := (onc (oadd F2) (omul F2) kb).
Notation ksm := (ksum (o0 F2) (oadd F2) (omul F2) (osub F2) (oopp F2) kb).
Notation kmu := (kmult (o0 F2) (oadd F2) (omul F2) (osub F2) (oopp F2) kb).
Add Field K_field : F2_field.

Lemma on_twist_k x y : on_twist (x, y) <-> onk (Some (e2 x, e2 y)).
Proof.
  rewrite <- c34_check. unfold g2_is_on_curve. cbn [onc]. unfold kb.
  assert (M : forall u v, fp2_mul u v = (u * v)%f2).
  { intros [u0 u1] [v0 v1]. unfold fp2_mul. cbn [fst snd zp2 quad omul oadd zp]. unfold psub_mod, padd_mod, Curve.pmul_mod. f_equal.
    - apply fq_eq. repeat first [rewrite fq_mod|rewrite fq_m1|rewrite fq_sub|rewrite fq_add|rewrite fq_mul]. ring.
    - apply fq_eq. repeat first [rewrite fq_mod|rewrite fq_m1|rewrite fq_sub|rewrite fq_add|rewrite fq_mul]. ring. }
  assert (A : forall u v, fp2_add u v = (u + v)%f2) by (intros [] []; reflexivity).
  rewrite !M, A. rewrite <- !e2_mul, <- e2_add. unfold fp2_eqb. rewrite andb_true_iff, !Z.eqb_eq.
  split.
  - intros [H1 H2]. f_equal. apply injective_projections; assumption.
  - intros H. apply e2_inj in H; [|apply can_mul|apply can_add]. rewrite H. auto.
Qed.

Definition can (P : option g2) : Prop := match P with None => True | Some (x, y) => canon2 x /\ canon2 y end.
Lemma twist_point_k P : twist_point P <-> can P /\ onk (E P).
Proof.
  destruct P as [[x y]|]; [|cbn; tauto]. cbn [twist_point can E]. rewrite on_twist_k. tauto.
Qed.
Lemma E_inj P Q : can P -> can Q -> E P = E Q -> P = Q.
Proof.
  destruct P as [[x y]|], Q as [[x' y']|]; cbn [can E]; intros A B H; try discriminate; [|reflexivity].
  assert (Hp : (e2 x, e2 y) = (e2 x', e2 y')) by congruence. pose proof (f_equal fst Hp) as Hx. pose proof (f_equal snd Hp) as Hy.
  cbn [fst snd] in Hx, Hy. destruct A, B. f_equal. f_equal; apply e2_inj; assumption.
Qed.
Lemma E_lift (P : option (K * K)) : exists Q, can Q /\ E Q = P.
Proof.
  destruct P as [[x y]|]; [|exists None; split; [exact I|reflexivity]].
  destruct (e2_lift x) as (x' & Cx & <-), (e2_lift y) as (y' & Cy & <-). exists (Some (x', y')). split; [split; assumption|reflexivity].
Qed.
Lemma line_eq x1 x2 x3 l c t :
  ((9, 1) * ((t - x1) * (t - x2) * (t - x3) - (t * t * t - (l * t + c) * (l * t + c))))%f2 = (3, 0) <->
  (let T := e2 t in let m := omul F2 in let a := oadd F2 in let s := osub F2 in
   s (a (m (m T T) T) kb) (m (a (m (e2 l) T) (e2 c)) (a (m (e2 l) T) (e2 c)))
   = m (m (s T (e2 x1)) (s T (e2 x2))) (s T (e2 x3))).
Proof.
  cbv zeta. split; intros H.
  - apply (f_equal e2) in H. rewrite e2_mul, e2_sub, <- kb_eq in H. apply (cancelk _ _ _ _ _ _ _ _ F2_field K_dec _ _ _ N9) in H.
    rewrite !e2_mul, !e2_sub, !e2_mul, !e2_add, !e2_mul in H. rewrite <- H. ring.
  - apply e2_inj; [apply can_mul|exact three_can|]. rewrite e2_mul, e2_sub, <- kb_eq. f_equal.
    rewrite !e2_mul, !e2_sub, !e2_mul, !e2_add, !e2_mul. rewrite <- H. ring.
Qed.
Lemma some_inv {A B} (a c : A) (b d : B) : Some (a, b) = Some (c, d) -> a = c /\ b = d.
Proof. intros H. injection H. auto. Qed.
Lemma kopp_sub (x : K) : oopp F2 x = osub F2 (o0 F2) x :> K. Proof. ring. Qed.
Lemma sum_k P Q R : can P -> can Q -> can R -> (twist_sum P Q R <-> ksm (E P) (E Q) (E R)).
Proof.
  intros CP CQ CR. split.
  - destruct 1 as [Q V|P V|x y y' V V' H|x1 y1 x2 y2 x3 y3 l c V1 V2 V3 L1 L2 L3 H];
      repeat match goal with V : twist_point _ |- _ => apply twist_point_k in V; apply proj2 in V; cbn [E] in V end; cbn [E].
    + apply ks_zero_l, V.
    + apply ks_zero_r, V.
    + apply ks_opposite; try assumption. rewrite <- e2_add, H. reflexivity.
    + apply ks_line with (l := e2 l) (c := e2 c); try assumption.
      * rewrite L1 at 1. rewrite e2_add, e2_mul. reflexivity.
      * rewrite L2 at 1. rewrite e2_add, e2_mul. reflexivity.
      * apply (f_equal e2) in L3. rewrite e2_sub, e2_add, e2_mul in L3. rewrite <- L3. rewrite e2_zero. apply kopp_sub.
      * intros t. destruct (e2_lift t) as (t' & _ & <-). apply (line_eq x1 x2 x3 l c t'). apply H.
  - intros H. remember (E P) as P' eqn:EP. remember (E Q) as Q' eqn:EQ. remember (E R) as R' eqn:ER.
    destruct H as [Q' V|P' V|x y y' V V' H|x1 y1 x2 y2 x3 y3 l c V1 V2 V3 L1 L2 L3 H].
    + assert (P = None) as -> by (apply E_inj; [exact CP|exact I|symmetry; exact EP]).
      assert (Q = R) as -> by (apply E_inj; [exact CQ|exact CR|congruence]). apply ts_zero_l. apply twist_point_k. rewrite <- ER. auto.
    + assert (Q = None) as -> by (apply E_inj; [exact CQ|exact I|symmetry; exact EQ]).
      assert (P = R) as -> by (apply E_inj; [exact CP|exact CR|congruence]). apply ts_zero_r. apply twist_point_k. rewrite <- ER. auto.
    + assert (R = None) as -> by (apply E_inj; [exact CR|exact I|symmetry; exact ER]).
      destruct P as [[u v]|]; [|discriminate]. destruct Q as [[u' v']|]; [|discriminate]. cbn [E] in EP, EQ.
      apply some_inv in EP, EQ. destruct EP as [-> ->], EQ as [Ex ->]. destruct CP as [C1 C2], CQ as [C3 C4].
      assert (u = u') as -> by (apply e2_inj; assumption).
      apply ts_opposite; try (apply twist_point_k; cbn [can E]; auto).
      apply e2_inj; [apply can_add|exact zero_can|]. rewrite e2_add. exact H.
    + destruct P as [[u1 v1]|]; [|discriminate]. destruct Q as [[u2 v2]|]; [|discriminate]. destruct R as [[u3 v3]|]; [|discriminate].
      cbn [E] in EP, EQ, ER. apply some_inv in EP, EQ, ER. destruct EP as [-> ->], EQ as [-> ->], ER as [-> ->].
      destruct (e2_lift l) as (l' & Cl & <-), (e2_lift c) as (c' & Cc & <-).
      destruct CP as [C1 C2], CQ as [C3 C4], CR as [C5 C6].
      apply ts_line with (l := l') (c := c'); try (apply twist_point_k; cbn [can E]; auto).
      * apply e2_inj; [assumption|apply can_add|]. rewrite e2_add, e2_mul. exact L1.
      * apply e2_inj; [assumption|apply can_add|]. rewrite e2_add, e2_mul. exact L2.
      * apply e2_inj; [apply can_sub|apply can_add|]. rewrite e2_sub, e2_add, e2_mul, <- L3, e2_zero. symmetry. apply kopp_sub.
      * intros t. apply line_eq. apply H.
Qed.
Lemma sum_can P Q R : twist_sum P Q R -> twist_point P /\ twist_point Q /\ twist_point R.
Proof. destruct 1; repeat split; try assumption; try exact I; try apply H; try apply H0; try apply H1. Qed.

Lemma c69_total P Q : twist_point P -> twist_point Q -> exists R, twist_sum P Q R.
Proof.
  intros VP VQ. apply twist_point_k in VP, VQ. destruct VP as [CP VP], VQ as [CQ VQ].
  destruct (ksum_total _ _ _ _ _ _ _ _ F2_field K_dec kb _ _ VP VQ) as (R & H).
  destruct (E_lift R) as (R' & CR & <-). exists R'. apply sum_k; assumption.
Qed.
Lemma sum_e P Q R : twist_sum P Q R -> can P /\ can Q /\ can R /\ ksm (E P) (E Q) (E R).
Proof.
  intros H. pose proof (sum_can _ _ _ H) as (A & B & C). apply twist_point_k in A, B, C.
  destruct A as [A _], B as [B _], C as [C _]. repeat split; try assumption. apply sum_k; assumption.
Qed.
Lemma c69_unique P Q R R' : twist_sum P Q R -> twist_sum P Q R' -> R = R'.
Proof.
  intros H H'. apply sum_e in H, H'. destruct H as (_ & _ & C & H), H' as (_ & _ & C' & H').
  apply E_inj; [exact C|exact C'|]. exact (ksum_unique _ _ _ _ _ _ _ _ F2_field K_dec kb N2 N3 Nb _ _ _ _ H H').
Qed.
Lemma c69_comm P Q R : twist_sum P Q R -> twist_sum Q P R.
Proof.
  intros H. apply sum_e in H. destruct H as (A & B & C & H). apply sum_k; try assumption.
  exact (ksum_comm _ _ _ _ _ _ _ _ F2_field K_dec kb N2 N3 Nb _ _ _ H).
Qed.
Lemma c69_assoc P Q R S T U : twist_sum P Q S -> twist_sum S R T -> twist_sum Q R U -> twist_sum P U T.
Proof.
  intros H1 H2 H3. apply sum_e in H1, H2, H3. destruct H1 as (A & _ & _ & H1), H2 as (_ & _ & B & H2), H3 as (_ & _ & C & H3).
  apply sum_k; try assumption. exact (ksum_assoc _ _ _ _ _ _ _ _ F2_field K_dec kb N2 N3 Nb _ _ _ _ _ _ H1 H2 H3).
Qed.

Lemma mult_e P k Q : twist_multiple P k Q -> can P /\ can Q /\ kmu (E P) k (E Q).
Proof.
  induction 1 as [V|k Q R H (A & B & IH) S|k Q R H (A & B & IH) S].
  - apply twist_point_k in V. destruct V as [C V]. split; [exact C|]. split; [exact I|]. apply km_zero, V.
  - apply sum_e in S. destruct S as (_ & _ & C & S). split; [exact A|]. split; [exact C|]. exact (km_succ _ _ _ _ _ _ _ _ _ _ IH S).
  - apply sum_e in S. destruct S as (_ & C & _ & S). split; [exact A|]. split; [exact C|]. exact (km_pred _ _ _ _ _ _ _ _ _ _ IH S).
Qed.
Lemma e_mult P k Q : can P -> can Q -> kmu (E P) k (E Q) -> twist_multiple P k Q.
Proof.
  intros CP CQ H. remember (E P) as P' eqn:EP. remember (E Q) as Q' eqn:EQ. revert Q CQ EQ.
  induction H as [V|k Q' R' H IH S|k Q' R' H IH S]; intros Q CQ EQ.
  - assert (Q = None) as -> by (apply E_inj; [exact CQ|exact I|symmetry; exact EQ]). apply tm_zero. apply twist_point_k. subst P'. auto.
  - destruct (E_lift Q') as (W & CW & EW). apply (tm_succ _ _ W); [apply IH; auto|]. apply sum_k; try assumption. subst P' R' Q'. exact S.
  - destruct (E_lift Q') as (W & CW & EW). apply (tm_pred _ _ W); [apply IH; auto|]. apply sum_k; try assumption. subst P' R' Q'. exact S.
Qed.
Notation zmk := (zmul (o0 F2) (oadd F2) (omul F2) (osub F2) (oopp F2) kdiv K_dec).
(** a finite point annihilated by r has order r *)
Lemma order_k P k : twist_point (Some P) -> zmk r_mod (E (Some P)) = None -> (twist_multiple (Some P) k None <-> (r_mod | k)).
Proof.
  intros V H. apply twist_point_k in V. destruct V as [C V].
  rewrite <- (prime_order _ _ _ _ _ _ _ _ F2_field K_dec kb N2 N3 Nb _ r_mod k prime_r V); [|destruct P; discriminate|exact H].
  split; [intros M; apply mult_e in M; apply M|]. intros M. apply e_mult; [exact C|exact I|exact M].
Qed.
