(** secp256k1: the sums and multiples of SpecEcdsa.v are those of the group of the curve over Z/p; the base point and
    the KYC key have order n (C76). *)
From Coq Require Import ZArith Znumtheory Lia Bool List Ring Field.
From Verif Require Import FField P_Weier Agg SpecKeys SpecEcdsa P_SecpNum P_SecpEx P_SecpOrd.
Import ListNotations.
Open Scope Z_scope.

Definition sp : Z := secp_p.
Lemma sp_eq : sp = secp_p. Proof. reflexivity. Qed.
Lemma sp_prime : prime sp. Proof. exact prime_secp_p. Qed.
Lemma sp_big : 1000 < sp. Proof. reflexivity. Qed.
Local Opaque sp.
Lemma sp_gt1 : 1 < sp. Proof. pose proof sp_big. lia. Qed.

Notation K := (F sp).
Notation fq := (phi sp sp_gt1).
Definition k0 : K := fzero sp sp_gt1.
Definition k1 : K := fone sp sp_gt1.
Definition ka : K -> K -> K := fadd sp sp_gt1.
Definition km : K -> K -> K := fmul sp sp_gt1.
Definition ksu : K -> K -> K := fsub sp sp_gt1.
Definition ko : K -> K := fopp sp sp_gt1.
Definition kd : K -> K -> K := fdiv sp sp_gt1.
Definition ki : K -> K := finv sp sp_gt1.
Lemma k_field : field_theory k0 k1 ka km ksu ko kd ki eq.
Proof. exact (F_field sp sp_gt1 sp_prime). Qed.
Add Field kfield : k_field.
Lemma k_dec (a b : K) : {a = b} + {a <> b}. Proof. exact (F_dec sp a b). Qed.
Definition kb : K := fq 7.
Lemma q0 : fq 0 = k0. Proof. reflexivity. Qed.
Lemma q1 : fq 1 = k1. Proof. reflexivity. Qed.
Lemma qadd a b : fq (a + b) = ka (fq a) (fq b). Proof. apply phi_add. Qed.
Lemma qsub a b : fq (a - b) = ksu (fq a) (fq b). Proof. apply phi_sub. Qed.
Lemma qmul a b : fq (a * b) = km (fq a) (fq b). Proof. apply phi_mul. Qed.
Lemma qopp a : fq (- a) = ko (fq a). Proof. apply phi_opp. Qed.
Lemma qmod a : fq (a mod sp) = fq a. Proof. apply phi_mod. Qed.
Lemma qeq a b : eqp a b <-> fq a = fq b.
Proof. unfold eqp. rewrite <- sp_eq. symmetry. apply phi_eq_iff. Qed.
Lemma qinj a b : 0 <= a < sp -> 0 <= b < sp -> fq a = fq b -> a = b.
Proof. intros A B H. apply phi_eq_iff in H. rewrite !Z.mod_small in H by assumption. exact H. Qed.
Lemma qnz z : 0 < z < 1000 -> fq z <> k0.
Proof. intros H E. rewrite <- q0 in E. pose proof sp_big. apply qinj in E; lia. Qed.
Local Opaque phi k0 k1 ka km ksu ko kd ki.
Lemma N2 : ka k1 k1 <> k0.
Proof. rewrite <- q1, <- qadd. apply qnz. lia. Qed.
Lemma N3 : ka (ka k1 k1) k1 <> k0.
Proof. rewrite <- !q1, <- !qadd. apply qnz. lia. Qed.
Lemma Nb : kb <> k0.
Proof. apply qnz. lia. Qed.

Notation onk := (onc ka km kb).
Notation kad := (kadd k0 ka km ksu kd k_dec).
Notation kne := (kneg ko).
Notation zm := (zmul k0 ka km ksu ko kd k_dec).
Definition k_on := kadd_on k0 k1 ka km ksu ko kd ki k_field k_dec kb.
Definition k_negon := kneg_on k0 k1 ka km ksu ko kd ki k_field kb.
Definition k_neginv := kneg_invol k0 k1 ka km ksu ko kd ki k_field.
Definition k_negadd := kneg_kadd k0 k1 ka km ksu ko kd ki k_field k_dec kb N2 N3 Nb.
Definition k_opp := kneg_add k0 k1 ka km ksu ko kd ki k_field k_dec.
Definition k_intro := kadd_intro k0 k1 ka km ksu ko kd ki k_field k_dec kb N2 N3 Nb.
Definition k_cancel := cancel_l k0 k1 ka km ksu ko kd ki k_field k_dec kb N2 N3 Nb.
Definition z_add := zmul_add k0 k1 ka km ksu ko kd ki k_field k_dec kb N2 N3 Nb.
Definition z_succ := zmul_succ k0 k1 ka km ksu ko kd ki k_field k_dec kb N2 N3 Nb.
Definition z_opp := zmul_opp k0 k1 ka km ksu ko kd ki k_field k_dec.
Definition z_on := zmul_on k0 k1 ka km ksu ko kd ki k_field k_dec kb.
Definition z_1 := zmul_1 k0 ka km ksu ko kd k_dec.

(** points with coordinates in [0, p) *)
Definition good (P : spt) : Prop :=
  match P with SInf => True | SAff x y => 0 <= x < sp /\ 0 <= y < sp /\ eqp (y * y) (x * x * x + 7) end.
Definition inj (P : spt) : option (K * K) := match P with SInf => None | SAff x y => Some (fq x, fq y) end.
Definition out (P : option (K * K)) : spt := match P with None => SInf | Some (x, y) => SAff (val x) (val y) end.
Definition sneg (P : spt) : spt := match P with SInf => SInf | SAff x y => SAff x ((- y) mod sp) end.
Lemma good_on P : good P -> onk (inj P).
Proof.
  destruct P as [|x y]; [intros _; exact I|]. intros (_ & _ & H). cbn [inj onc]. apply qeq in H.
  rewrite qmul, qadd, !qmul in H. exact H.
Qed.
Lemma inj_eq P Q : good P -> good Q -> inj P = inj Q -> P = Q.
Proof.
  destruct P as [|x y], Q as [|x' y']; intros A B E; try reflexivity; try discriminate E.
  destruct A as (A1 & A2 & _), B as (B1 & B2 & _). cbn [inj] in E.
  assert (E1 : fq x = fq x') by congruence. assert (E2 : fq y = fq y') by congruence.
  apply qinj in E1; [|assumption|assumption]. apply qinj in E2; [|assumption|assumption]. congruence.
Qed.
Lemma inj_out P : inj (out P) = P.
Proof. destruct P as [[x y]|]; [|reflexivity]. cbn [out inj]. rewrite !phi_val. reflexivity. Qed.
Lemma out_good P : onk P -> good (out P).
Proof.
  destruct P as [[x y]|]; [|intros _; exact I]. intros H. cbn [out good]. split; [apply val_range|]. split; [apply val_range|].
  apply qeq. rewrite qmul, qadd, !qmul, !phi_val. exact H.
Qed.
Lemma on_good x y : 0 <= x < sp -> 0 <= y < sp -> onk (Some (fq x, fq y)) -> good (SAff x y).
Proof.
  intros A B H. split; [exact A|]. split; [exact B|]. apply qeq. rewrite qmul, qadd, !qmul. exact H.
Qed.
Lemma modb z : 0 <= z mod sp < sp. Proof. apply Z.mod_pos_bound. pose proof sp_gt1. lia. Qed.

(** the slope of a chord or tangent *)
Lemma sub_z (a b : K) : ksu a b = k0 -> a = b.
Proof. intros H. transitivity (ka (ksu a b) b); [ring|]. rewrite H. ring. Qed.
Lemma chord_slp t x1 y1 x2 y2 : onk (Some (x1, y1)) -> onk (Some (x2, y2)) -> x1 <> x2 ->
  km t (ksu x2 x1) = ksu y2 y1 -> slp ka km ksu t x1 y1 x2 y2.
Proof.
  intros C1 C2 N H. split; [symmetry; exact H|]. cbn [onc] in C1, C2.
  assert (D : ksu x2 x1 <> k0) by (intros Z; apply N; symmetry; apply sub_z; exact Z).
  assert (E : km (ksu x2 x1) (ksu (km (ka y1 y2) t) (ka (ka (km x1 x1) (km x1 x2)) (km x2 x2))) = k0).
  { transitivity (ksu (km (ka y1 y2) (km t (ksu x2 x1))) (ksu (km (km x2 x2) x2) (km (km x1 x1) x1))); [ring|].
    rewrite H. transitivity (ksu (ksu (km y2 y2) (km y1 y1)) (ksu (km (km x2 x2) x2) (km (km x1 x1) x1))); [ring|].
    rewrite C1, C2. ring. }
  apply (mul0 k0 k1 ka km ksu ko kd ki k_field k_dec) in E. destruct E as [E|E]; [contradiction|]. apply sub_z. exact E.
Qed.
Lemma tang_slp t x y : km t (km (ka k1 k1) y) = km (ka (ka k1 k1) k1) (km x x) -> slp ka km ksu t x y x y.
Proof.
  intros H. split; [ring|]. transitivity (km t (km (ka k1 k1) y)); [ring|]. rewrite H. ring.
Qed.
Lemma q2 y : fq (2 * y) = km (ka k1 k1) (fq y).
Proof. replace (2 * y) with ((1 + 1) * y) by ring. rewrite qmul, qadd, q1. reflexivity. Qed.
Lemma q3 y : fq (3 * y) = km (ka (ka k1 k1) k1) (fq y).
Proof. replace (3 * y) with ((1 + 1 + 1) * y) by ring. rewrite qmul, !qadd, q1. reflexivity. Qed.

Lemma line_inj t x1 y1 x2 y2 x3 y3 : good (SAff x1 y1) -> good (SAff x2 y2) -> slp ka km ksu (fq t) (fq x1) (fq y1) (fq x2) (fq y2) ->
  x3 = (t * t - x1 - x2) mod sp -> y3 = (t * (x1 - x3) - y1) mod sp ->
  good (SAff x3 y3) /\ inj (SAff x3 y3) = kad (inj (SAff x1 y1)) (inj (SAff x2 y2)).
Proof.
  intros G1 G2 S E3 F3. pose proof (good_on _ G1) as O1. pose proof (good_on _ G2) as O2.
  assert (E : inj (SAff x3 y3) = kad (inj (SAff x1 y1)) (inj (SAff x2 y2))).
  { cbn [inj] in *. rewrite (k_intro _ _ _ _ _ O1 O2 S). unfold kline. cbv zeta.
    assert (X : fq x3 = ksu (ksu (km (fq t) (fq t)) (fq x1)) (fq x2)) by (rewrite E3, qmod, !qsub, qmul; reflexivity).
    assert (Y : fq y3 = ksu (km (fq t) (ksu (fq x1) (fq x3))) (fq y1)) by (rewrite F3, qmod, qsub, qmul, qsub; reflexivity).
    rewrite Y, X. reflexivity. }
  split; [|exact E]. apply on_good; [rewrite E3; apply modb | rewrite F3; apply modb|].
  change (onk (inj (SAff x3 y3))). rewrite E. exact (k_on _ _ O1 O2).
Qed.
Lemma ssum_inj P Q R : good P -> good Q -> ssum P Q R -> good R /\ inj R = kad (inj P) (inj Q).
Proof.
  intros GP GQ H. destruct H as [Q|P|x y y' E|x1 y1 x2 y2 t x3 y3 N E E3 F3|x y t x3 y3 N E E3 F3].
  - split; [exact GQ | reflexivity].
  - split; [exact GP|]. destruct P; reflexivity.
  - split; [exact I|]. cbn [inj kadd]. destruct (k_dec (fq x) (fq x)) as [_|C]; [|contradiction C; reflexivity].
    apply qeq in E. rewrite qadd, q0 in E. destruct (k_dec (ka (fq y) (fq y')) k0) as [_|C]; [reflexivity | contradiction].
  - rewrite <- sp_eq in *. apply (line_inj t); try assumption. apply chord_slp; [exact (good_on _ GP) | exact (good_on _ GQ) | |].
    + intros C. apply N. destruct GP as (A & _), GQ as (B & _). apply qinj; assumption.
    + apply qeq in E. rewrite qmul, !qsub in E. exact E.
  - rewrite <- sp_eq in *. apply (line_inj t); try assumption. apply tang_slp.
    apply qeq in E. rewrite qmul, q2, q3, qmul in E. exact E.
Qed.
Lemma div_mul (a d : K) : d <> k0 -> km (kd a d) d = a.
Proof.
  intros N. destruct k_field as [R _ DV IL]. rewrite DV. transitivity (km a (km (ki d) d)); [ring|]. rewrite (IL d N). ring.
Qed.
Lemma k_nz_sub (a b : K) : a <> b -> ksu b a <> k0.
Proof. intros N H. apply N. symmetry. apply sub_z. exact H. Qed.
Lemma ssum_total P Q : good P -> good Q -> exists R, ssum P Q R.
Proof.
  intros GP GQ. destruct P as [|x1 y1]; [exists Q; constructor|]. destruct Q as [|x2 y2]; [exists (SAff x1 y1); constructor|].
  destruct (Z.eq_dec x1 x2) as [E|N].
  - subst x2. destruct (k_dec (fq (y1 + y2)) k0) as [Z0|NZ]; [exists SInf; apply ss_opp, qeq; exact Z0|].
    assert (y1 = y2).
    { destruct GP as (_ & B1 & C1), GQ as (_ & B2 & C2). apply qinj; try assumption.
      apply qeq in C1, C2. rewrite qmul in C1, C2.
      assert (E : km (ksu (fq y1) (fq y2)) (ka (fq y1) (fq y2)) = k0).
      { transitivity (ksu (km (fq y1) (fq y1)) (km (fq y2) (fq y2))); [ring|]. rewrite C1, C2. ring. }
      apply (mul0 k0 k1 ka km ksu ko kd ki k_field k_dec) in E. destruct E as [E|E]; [apply sub_z; exact E|].
      rewrite qadd in NZ. contradiction. }
    subst y2. assert (D : km (ka k1 k1) (fq y1) <> k0) by (rewrite <- q2; replace (2 * y1) with (y1 + y1) by ring; exact NZ).
    pose (t := val (kd (km (ka (ka k1 k1) k1) (km (fq x1) (fq x1))) (km (ka k1 k1) (fq y1)))).
    eexists. apply (ss_tangent x1 y1 t); [| |reflexivity|reflexivity].
    + intros C. apply qeq in C. rewrite q2, q0 in C. contradiction.
    + apply qeq. rewrite qmul, q2, q3, qmul. unfold t. rewrite phi_val. apply div_mul. exact D.
  - assert (D : ksu (fq x2) (fq x1) <> k0).
    { apply k_nz_sub. intros C. apply N. destruct GP as (A & _), GQ as (B & _). apply qinj; assumption. }
    pose (t := val (kd (ksu (fq y2) (fq y1)) (ksu (fq x2) (fq x1)))).
    eexists. apply (ss_chord x1 y1 x2 y2 t); [exact N| |reflexivity|reflexivity].
    apply qeq. rewrite qmul, !qsub. unfold t. rewrite phi_val. apply div_mul. exact D.
Qed.
Lemma ssum_iff P Q R : good P -> good Q -> (ssum P Q R <-> good R /\ inj R = kad (inj P) (inj Q)).
Proof.
  intros GP GQ. split; [apply ssum_inj; assumption|]. intros [GR E]. destruct (ssum_total P Q GP GQ) as (R' & H).
  destruct (ssum_inj _ _ _ GP GQ H) as [GR' E']. assert (R' = R) by (apply inj_eq; congruence). subst R'. exact H.
Qed.
Lemma smult_iff P : good P -> forall k R, smult k P R <-> good R /\ inj R = zm (Zpos k) (inj P).
Proof.
  intros GP. pose proof (good_on _ GP) as OP.
  assert (GZ : forall z, good (out (zm z (inj P)))) by (intros z; apply out_good, z_on, OP).
  induction k as [k IH|k IH|]; intros R; cbn [smult].
  - replace (Zpos (xI k)) with (Zpos k + Zpos k + 1) by lia. rewrite !z_add, z_1 by assumption. split.
    + intros (Q & D & HQ & HD & HR). apply IH in HQ. destruct HQ as [GQ EQ].
      apply (ssum_iff _ _ _ GQ GQ) in HD. destruct HD as [GD ED]. apply (ssum_iff _ _ _ GD GP) in HR. destruct HR as [GR ER].
      split; [exact GR|]. rewrite ER, ED, EQ. reflexivity.
    + intros [GR ER]. exists (out (zm (Zpos k) (inj P))), (out (zm (Zpos k + Zpos k) (inj P))).
      split; [apply IH; split; [apply GZ | apply inj_out]|]. split.
      * apply ssum_iff; try apply GZ. split; [apply GZ|]. rewrite !inj_out. apply z_add, OP.
      * apply ssum_iff; [apply GZ | exact GP|]. split; [exact GR|]. rewrite inj_out, z_add by exact OP. exact ER.
  - replace (Zpos (xO k)) with (Zpos k + Zpos k) by lia. rewrite !z_add by assumption. split.
    + intros (Q & HQ & HR). apply IH in HQ. destruct HQ as [GQ EQ].
      apply (ssum_iff _ _ _ GQ GQ) in HR. destruct HR as [GR ER]. split; [exact GR|]. rewrite ER, EQ. reflexivity.
    + intros [GR ER]. exists (out (zm (Zpos k) (inj P))). split; [apply IH; split; [apply GZ | apply inj_out]|].
      apply ssum_iff; try apply GZ. split; [exact GR|]. rewrite !inj_out. exact ER.
  - rewrite z_1. split; [intros ->; split; [exact GP | reflexivity]|]. intros [GR ER]. apply inj_eq; assumption.
Qed.
Lemma smultz_iff P k R : good P -> 0 <= k -> (smultz k P R <-> good R /\ inj R = zm k (inj P)).
Proof.
  intros GP Hk. destruct k as [|k|k]; [|apply smult_iff, GP|lia]. cbn [smultz zmul]. split.
  - intros ->. split; [exact I | reflexivity].
  - intros [GR E]. destruct R; [reflexivity | discriminate E].
Qed.

(** ** Negatives *)
Lemma inj_neg P : inj (sneg P) = kne (inj P).
Proof. destruct P as [|x y]; [reflexivity|]. cbn [sneg inj kneg]. rewrite qmod, qopp. reflexivity. Qed.
Lemma good_neg P : good P -> good (sneg P).
Proof.
  intros G. destruct P as [|x y]; [exact I|]. cbn [sneg]. apply on_good; [apply G | apply modb|].
  change (onk (inj (sneg (SAff x y)))). rewrite inj_neg. apply k_negon, good_on, G.
Qed.
Lemma ssum_neg P Q R : good P -> good Q -> ssum P Q R -> ssum (sneg P) (sneg Q) (sneg R).
Proof.
  intros GP GQ H. apply (ssum_iff _ _ _ GP GQ) in H. destruct H as [GR E].
  apply ssum_iff; try (apply good_neg; assumption). split; [apply good_neg, GR|].
  rewrite !inj_neg, E. apply k_negadd; apply good_on; assumption.
Qed.
(** the multiple n - k is the negative of the multiple k *)
Lemma mult_neg P n k R : good P -> zm n (inj P) = None -> 0 <= k <= n -> smultz k P R -> smultz (n - k) P (sneg R).
Proof.
  intros GP ZN Hk H. apply smultz_iff in H; [|exact GP|lia]. destruct H as [GR E].
  apply smultz_iff; [exact GP|lia|]. split; [apply good_neg, GR|]. rewrite inj_neg, E.
  unfold Z.sub. rewrite z_add, ZN, z_opp by (apply good_on, GP). reflexivity.
Qed.

(** ** The base point and the key *)
Lemma good_of x y : on_secp x y -> good (SAff x y).
Proof. intros (A & B & C). split; [exact A|]. split; [exact B | exact C]. Qed.
Lemma gen_good : good (SAff secp_gx secp_gy).
Proof. apply good_of. unfold on_secp. vm_compute. repeat split; try reflexivity; discriminate. Qed.
Lemma key_good : good (SAff kyc_pub_x kyc_pub_y).
Proof. apply good_of. unfold on_secp. vm_compute. repeat split; try reflexivity; discriminate. Qed.
Lemma fq_sp y : fq (sp - y) = ko (fq y).
Proof. rewrite <- qopp. apply phi_eq_iff. replace (sp - y) with (- y + 1 * sp) by ring. apply Z_mod_plus_full. Qed.
Lemma order_of n x y y' : 0 <= n -> good (SAff x y) -> smultz n (SAff x y) (SAff x y') -> y' = sp - y -> zm (n + 1) (inj (SAff x y)) = None.
Proof.
  intros Hn G H E. apply smultz_iff in H; [|exact G|exact Hn]. destruct H as [_ H].
  rewrite z_succ by (apply good_on, G). rewrite <- H. cbn [inj]. rewrite E, fq_sp. exact (k_opp (Some (fq x, fq y))).
Qed.
Definition sn : Z := secp_n.
Lemma sn_eq : sn = secp_n. Proof. reflexivity. Qed.
Lemma sn_prime : prime sn. Proof. exact prime_secp_n. Qed.
Lemma sn_og : smultz (sn - 1) (SAff secp_gx secp_gy) (SAff secp_gx og_y). Proof. apply og_mul. reflexivity. Qed.
Lemma sn_oq : smultz (sn - 1) (SAff kyc_pub_x kyc_pub_y) (SAff kyc_pub_x oq_y). Proof. apply oq_mul. reflexivity. Qed.
Local Opaque sn secp_gx secp_gy kyc_pub_x kyc_pub_y og_y oq_y.
Lemma sn_pos : 0 <= sn - 1. Proof. pose proof (prime_ge_2 _ sn_prime). lia. Qed.
Lemma sn_1 : sn = sn - 1 + 1. Proof. ring. Qed.
Lemma gen_order : zm sn (inj (SAff secp_gx secp_gy)) = None.
Proof. rewrite sn_1. exact (order_of _ _ _ _ sn_pos gen_good sn_og og_neg). Qed.
Lemma key_order : zm sn (inj (SAff kyc_pub_x kyc_pub_y)) = None.
Proof. rewrite sn_1. exact (order_of _ _ _ _ sn_pos key_good sn_oq oq_neg). Qed.
(** a point with n P = 0: k P = 0 exactly for the multiples of n *)
Lemma z_order P k : onk P -> P <> None -> zm sn P = None -> (zm k P = None <-> (sn | k)).
Proof.
  intros O N Z0. rewrite <- (prime_order k0 k1 ka km ksu ko kd ki k_field k_dec kb N2 N3 Nb P sn k sn_prime O N Z0). split.
  - intros H. rewrite <- H. apply (zmul_kmult k0 k1 ka km ksu ko kd ki k_field k_dec kb N2 N3 Nb). exact O.
  - intros H. symmetry. exact (kmult_zmul k0 k1 ka km ksu ko kd ki k_field k_dec kb N2 N3 Nb _ _ _ H).
Qed.
