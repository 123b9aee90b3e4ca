(** The signatures for a hash and a number r: s and n - s, and no other with the same point (C76). *)
From Coq Require Import ZArith Znumtheory Bool List Lia.
From Verif Require Import FField P_Weier Params Go Api Agg SpecMisc SpecKeys SpecEcdsa SpecKycTest SpecMalle P_Fr P_Misc P_Kyc
  P_SecpNum P_SecpOrd P_SecpGroup.
Import ListNotations.
Open Scope Z_scope.

Lemma sn_p : sp < 2 * sn. Proof. reflexivity. Qed.
Lemma sn_lt : sn < sp. Proof. reflexivity. Qed.
Lemma sn_odd : sn = 2 * (sn / 2) + 1. Proof. vm_compute. reflexivity. Qed.
Local Opaque sn sp secp_gx secp_gy kyc_pub_x kyc_pub_y zmul.
Lemma sn2 : 2 <= sn. Proof. exact (prime_ge_2 _ sn_prime). Qed.

Definition z_mul := zmul_mul k0 k1 ka km ksu ko kd ki k_field k_dec kb N2 N3 Nb.
Definition k_assoc := kadd_assoc k0 k1 ka km ksu ko kd ki k_field k_dec kb N2 N3 Nb.
Definition k_comm := kadd_comm k0 k1 ka km ksu ko kd ki k_field k_dec kb N2 N3 Nb.
Definition z_none := zmul_none k0 k1 ka km ksu ko kd ki k_field k_dec kb N2 N3 Nb.

Lemma order_zm px py : order_n px py -> good (SAff px py) /\ zm sn (inj (SAff px py)) = None.
Proof.
  intros [C H]. pose proof (good_of _ _ C) as G. split; [exact G|]. rewrite <- sn_eq in H.
  apply smultz_iff in H; [|exact G|pose proof sn2; lia]. destruct H as [_ H]. symmetry. exact H.
Qed.
Lemma zm_order px py : on_secp px py -> zm sn (inj (SAff px py)) = None -> order_n px py.
Proof.
  intros C H. split; [exact C|]. rewrite <- sn_eq. apply smultz_iff; [exact (good_of _ _ C)|pose proof sn2; lia|].
  split; [exact I|]. symmetry. exact H.
Qed.
Lemma key_order_n : order_n kyc_pub_x kyc_pub_y.
Proof. apply zm_order; [exact key_good | exact key_order]. Qed.
Lemma gen_order_n : order_n secp_gx secp_gy.
Proof. apply zm_order; [exact gen_good | exact gen_order]. Qed.
Lemma c76_order px py k : order_n px py -> 0 <= k -> (smultz k (SAff px py) SInf <-> (secp_n | k)).
Proof.
  intros H Hk. destruct (order_zm _ _ H) as [G Z0]. rewrite <- sn_eq.
  rewrite <- (z_order (inj (SAff px py)) k (good_on _ G) ltac:(discriminate) Z0), smultz_iff by assumption.
  split; [intros [_ E]; symmetry; exact E | intros E; split; [exact I | symmetry; exact E]].
Qed.

(** multiples modulo n *)
Lemma zm_mod P k : onk P -> zm sn P = None -> zm (k mod sn) P = zm k P.
Proof.
  intros O Z0. pose proof sn2. rewrite (Z.div_mod k sn) at 2 by lia. rewrite Z.mul_comm, z_add by exact O.
  rewrite z_mul by exact O. rewrite Z0, z_none. reflexivity.
Qed.
Lemma mult_negm P k R : good P -> zm sn (inj P) = None -> smultz (k mod sn) P R -> smultz ((- k) mod sn) P (sneg R).
Proof.
  intros G Z0 H. pose proof sn2. pose proof (good_on _ G) as O.
  apply smultz_iff in H; [|exact G|apply Z.mod_pos_bound; lia]. destruct H as [GR E].
  apply smultz_iff; [exact G|apply Z.mod_pos_bound; lia|]. split; [apply good_neg, GR|].
  rewrite inj_neg, E, !zm_mod, z_opp by assumption. reflexivity.
Qed.
Lemma c76_negate px py h r s x y : order_n px py -> signs_at px py h r s x y ->
  secp_n - s <> s /\ exists y', eqp (y + y') 0 /\ signs_at px py h r (secp_n - s) x y'.
Proof.
  intros K (HR & HS & w & A & B & W & MA & MB & SS & X). destruct (order_zm _ _ K) as [GK ZK]. unfold signs_at. rewrite <- sn_eq in *.
  pose proof sn2. pose proof sn_odd. split; [lia|]. exists ((- y) mod sp). split.
  { apply qeq. rewrite qadd, qmod, qopp. transitivity (ka (fq y) (ko (fq y))); [reflexivity|]. rewrite <- qopp, <- qadd. f_equal. ring. }
  split; [exact HR|]. split; [lia|]. exists (- w), (sneg A), (sneg B). split.
  { replace ((sn - s) * - w) with (s * w + (- w) * sn) by ring. rewrite Z_mod_plus_full. exact W. }
  replace (h * - w) with (- (h * w)) by ring. replace (r * - w) with (- (r * w)) by ring.
  split; [exact (mult_negm _ _ _ gen_good gen_order MA)|]. split; [exact (mult_negm _ _ _ GK ZK MB)|]. split; [|exact X].
  change (ssum (sneg A) (sneg B) (sneg (SAff x y))). apply ssum_neg; [| |exact SS].
  - apply smultz_iff in MA; [apply MA | exact gen_good | apply Z.mod_pos_bound; lia].
  - apply smultz_iff in MB; [apply MB | exact GK | apply Z.mod_pos_bound; lia].
Qed.
Lemma c76_x px py h r s x y : order_n px py -> signs_at px py h r s x y -> x = r \/ x = r + secp_n.
Proof.
  intros K (HR & HS & w & A & B & W & MA & MB & SS & X). destruct (order_zm _ _ K) as [GK ZK]. rewrite <- sn_eq in *.
  pose proof sn2. pose proof sn_p.
  apply smultz_iff in MA; [|exact gen_good|apply Z.mod_pos_bound; lia]. apply smultz_iff in MB; [|exact GK|apply Z.mod_pos_bound; lia].
  destruct (ssum_inj _ _ _ (proj1 MA) (proj1 MB) SS) as [(GX & _ & _) _].
  pose proof (Z.div_mod x sn ltac:(lia)) as D. assert (x / sn = 0 \/ x / sn = 1).
  { assert (0 <= x / sn) by (apply Z.div_pos; lia). assert (x / sn < 2) by (apply Z.div_lt_upper_bound; lia). lia. }
  rewrite X in D. nia.
Qed.

(** distributivity *)
Lemma z_distr P Q k : onk P -> onk Q -> 0 <= k -> zm k (kad P Q) = kad (zm k P) (zm k Q).
Proof.
  intros OP OQ Hk. pattern k. apply natlike_ind; [reflexivity | | exact Hk]. clear k Hk. intros k Hk IH.
  unfold Z.succ. rewrite !z_succ by (try apply k_on; assumption). rewrite IH.
  pose proof (z_on k _ OP) as ZP. pose proof (z_on k _ OQ) as ZQ. set (a := zm k P) in *. set (c := zm k Q) in *. clearbody a c.
  pose proof (k_on _ _ OP OQ). pose proof (k_on _ _ ZP ZQ). pose proof (k_on _ _ OQ ZQ). pose proof (k_on _ _ OQ ZP). pose proof (k_on _ _ ZP OQ).
  rewrite (k_assoc P Q (kad a c)) by assumption. rewrite <- (k_assoc Q a c) by assumption. rewrite (k_comm Q a) by assumption.
  rewrite (k_assoc a Q c) by assumption. rewrite <- (k_assoc P a (kad Q c)) by assumption. reflexivity.
Qed.
(** the verifier's point is the multiple w of one point *)
Lemma sig_point px py h r s x y : order_n px py -> signs_at px py h r s x y ->
  exists w, 0 <= w < sn /\ (s * w) mod sn = 1 /\ good (SAff x y) /\
    inj (SAff x y) = zm w (kad (zm h (inj (SAff secp_gx secp_gy))) (zm r (inj (SAff px py)))).
Proof.
  intros K (HR & HS & w & A & B & W & MA & MB & SS & X). destruct (order_zm _ _ K) as [GK ZK]. rewrite <- sn_eq in *.
  pose proof sn2. pose proof gen_good as GG. pose proof gen_order as ZG. pose proof (good_on _ GG) as OG. pose proof (good_on _ GK) as OK.
  apply smultz_iff in MA; [|exact GG|apply Z.mod_pos_bound; lia]. apply smultz_iff in MB; [|exact GK|apply Z.mod_pos_bound; lia].
  destruct (ssum_inj _ _ _ (proj1 MA) (proj1 MB) SS) as [GX EX]. destruct MA as [_ EA], MB as [_ EB].
  exists (w mod sn). split; [apply Z.mod_pos_bound; lia|]. split; [rewrite Zmult_mod_idemp_r; exact W|]. split; [exact GX|].
  rewrite EX, EA, EB. rewrite z_distr by (try apply z_on; try assumption; apply Z.mod_pos_bound; lia).
  rewrite <- !z_mul by assumption. rewrite !zm_mod by assumption.
  rewrite <- (zm_mod _ (w mod sn * h)), <- (zm_mod _ (w mod sn * r)) by assumption. rewrite !Zmult_mod_idemp_l, !zm_mod by assumption.
  rewrite (Z.mul_comm w h), (Z.mul_comm w r). reflexivity.
Qed.
Lemma same_x x y y' : good (SAff x y) -> good (SAff x y') -> inj (SAff x y') = inj (SAff x y) \/ inj (SAff x y') = kne (inj (SAff x y)).
Proof.
  intros G G'. pose proof (good_on _ G) as O. pose proof (good_on _ G') as O'. cbn [inj onc kneg] in *.
  assert (E : km (ksu (fq y') (fq y)) (ka (fq y') (fq y)) = k0).
  { assert (I : km (fq y') (fq y') = km (fq y) (fq y)) by (rewrite O, O'; reflexivity).
    pose proof (f_equal (fun z => ksu z (km (fq y) (fq y))) I) as J. cbv beta in J.
    rewrite <- !qmul, <- !qsub in J. rewrite <- qsub, <- qadd, <- qmul.
    replace ((y' - y) * (y' + y)) with (y' * y' - y * y) by ring. rewrite J. rewrite Z.sub_diag. reflexivity. }
  apply (mul0 k0 k1 ka km ksu ko kd ki k_field k_dec) in E. destruct E as [E|E].
  - left. rewrite (sub_z _ _ E). reflexivity.
  - right. rewrite <- qopp. rewrite <- qadd, <- q0 in E.
    assert (I : fq y' = fq (- y)); [|rewrite I; reflexivity]. apply sub_z. rewrite <- qsub. replace (y' - - y) with (y' + y) by ring. exact E.
Qed.
Lemma c76_only px py h r s s' x y y' : order_n px py -> signs_at px py h r s x y -> signs_at px py h r s' x y' ->
  s' = s \/ s' = secp_n - s.
Proof.
  intros K H H'. pose proof (order_zm _ _ K) as [GK ZK]. pose proof gen_good as GG. pose proof gen_order as ZG.
  pose proof (good_on _ GG) as OG. pose proof (good_on _ GK) as OK. pose proof sn2.
  destruct (sig_point _ _ _ _ _ _ _ K H) as (w & HW & W & G & E). destruct (sig_point _ _ _ _ _ _ _ K H') as (w' & HW' & W' & G' & E').
  destruct H as (HR & HS & _), H' as (_ & HS' & _). rewrite <- sn_eq in *.
  set (T := kad (zm h (inj (SAff secp_gx secp_gy))) (zm r (inj (SAff px py)))) in *.
  assert (OT : onk T) by (apply k_on; apply z_on; assumption).
  assert (ZT : zm sn T = None).
  { unfold T. rewrite z_distr by (try apply z_on; try assumption; lia). rewrite <- !z_mul by assumption.
    rewrite (Z.mul_comm sn h), (Z.mul_comm sn r), !z_mul by assumption. rewrite ZG, ZK, !z_none. reflexivity. }
  clearbody T. assert (NT : T <> None) by (intros C; rewrite C, z_none in E; discriminate E).
  assert (D : (sn | w' - w) \/ (sn | w' + w)).
  { destruct (same_x x y y' G G') as [I|I]; rewrite E, E' in I.
    - left. refine (proj1 (z_order T (w' - w) OT NT ZT) _). unfold Z.sub. rewrite z_add, z_opp, I by exact OT. apply k_opp.
    - right. refine (proj1 (z_order T (w' + w) OT NT ZT) _). rewrite z_add, I by exact OT. rewrite k_comm by (try apply k_negon; apply z_on; exact OT). apply k_opp. }
  assert (F : forall c, (c = 1 \/ c = -1) -> (sn | w' - c * w) -> (sn | s' - c * s)).
  { intros c Hc [q Hq]. assert (V : exists k, s * w = 1 + k * sn) by (exists (s * w / sn); pose proof (Z.div_mod (s * w) sn ltac:(lia)); lia).
    assert (V' : exists k, s' * w' = 1 + k * sn) by (exists (s' * w' / sn); pose proof (Z.div_mod (s' * w') sn ltac:(lia)); lia).
    destruct V as [k V], V' as [k' V']. exists (c * s * k' - s' * k - c * s * s' * q).
    destruct Hc as [-> | ->]; nia. }
  destruct D as [D|D].
  - left. destruct (F 1 (or_introl eq_refl) ltac:(rewrite Z.mul_1_l; exact D)) as [q Q]. assert (q = 0) by nia. nia.
  - right. destruct (F (-1) (or_intror eq_refl) ltac:(replace (w' - -1 * w) with (w' + w) by ring; exact D)) as [q Q]. assert (q = 1) by nia. nia.
Qed.

(** ** The circuit *)
Lemma valid_at px py h r s : ecdsa_valid px py h r s <-> exists x y, signs_at px py h r s x y.
Proof.
  split.
  - intros (R & S & w & A & B & x & y & H). exists x, y. split; [exact R|]. split; [exact S|]. exists w, A, B. exact H.
  - intros (x & y & R & S & w & A & B & H). split; [exact R|]. split; [exact S|]. exists w, A, B, x, y. exact H.
Qed.
Lemma c76_valid px py h r s : order_n px py -> ecdsa_valid px py h r s -> ecdsa_valid px py h r (secp_n - s) /\ secp_n - s <> s.
Proof.
  intros K H. apply valid_at in H. destruct H as (x & y & H). destruct (c76_negate _ _ _ _ _ _ _ K H) as (N & y' & _ & H').
  split; [|exact N]. apply valid_at. exists x, y'. exact H'.
Qed.
Lemma c76_test O c h r s st st' : ecdsa_right O kyc_pub_x kyc_pub_y h r s -> ecdsa_right O kyc_pub_x kyc_pub_y h r (secp_n - s) ->
  kyc_hash c = EmConst h -> kyc_sig c = (EmConst r, EmConst s) ->
  KycDefine O Test c st = Done (None, st') -> KycDefine O Test (with_s c (secp_n - s)) st = Done (None, st').
Proof.
  intros R R' Hh Hs H. pose proof (ecdsa_accepts O c h r s st st' Hh Hs H) as V.
  assert (V' : o_ecdsa O kyc_pub_x kyc_pub_y h r (secp_n - s) = true).
  { apply R'. apply R in V. exact (proj1 (c76_valid _ _ _ _ _ key_order_n V)). }
  revert H. unfold KycDefine, ecdsa_verify, with_s. cbn [kyc_hash kyc_sig kyc kyc_cond fst snd]. rewrite Hh, Hs. cbn [fst snd].
  rewrite V, V'. exact (fun H => H).
Qed.
Lemma c76_compiled O n m l S w : ecdsa_right O kyc_pub_x kyc_pub_y (ae w 2%nat) (ae w 0%nat) (ae w 1%nat) ->
  ecdsa_right O kyc_pub_x kyc_pub_y (ae w 2%nat) (ae w 0%nat) (secp_n - ae w 1%nat) ->
  compile_kyc O n m l = inl S -> sat O w S ->
  let N := (2 + n + m + l)%nat in
  exists w', sat O w' S /\ (forall i, (i < N + 4)%nat -> aw w' i = aw w i) /\
    ae w' 0%nat = ae w 0%nat /\ ae w' 1%nat = secp_n - ae w 1%nat /\ ae w' 2%nat = ae w 2%nat /\ ae w' 1%nat <> ae w 1%nat.
Proof.
  intros R R' E Hs N. destruct (kyc_shape_build O n m l) as (S' & E' & H1 & H2).
  assert (S' = S) by congruence. subst S'. cbv zeta in H1, H2. fold N in H1, H2. destruct (H1 w Hs) as (V & A0 & A1 & L). clear H1.
  apply R in V. destruct (c76_valid _ _ _ _ _ key_order_n V) as [V' NE].
  destruct (H2 {| aw := aw w; ae := fun i => match i with O => ae w 0%nat | 1%nat => secp_n - ae w 1%nat | _ => ae w 2%nat end |}) as (w' & B1 & B2 & B3).
  - cbn [aw ae]. split; [apply R', V'|]. split; [exact A0|]. split; [exact A1 | exact L].
  - exists w'. split; [exact B3|]. split; [exact B1|]. rewrite B2. cbn [ae]. repeat split. exact NE.
Qed.
