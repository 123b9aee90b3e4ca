(** The prime fields Z/r and Z/p as Coq types with [ring]/[field] support.
    Mathematical background for specifications and proofs; no code is modelled here. *)
From Coq Require Import ZArith Znumtheory List Lia Bool Eqdep_dec Ring Field.
From Verif Require Import Params NumThy.
Open Scope Z_scope.

(** ** Correctness of the modular inverse *)
Lemma egcd_correct m a : 1 < m -> forall fuel r0 r1 s0 s1,
  0 <= r1 -> r1 < r0 -> r0 * r1 < 2 ^ Z.of_nat fuel ->
  Z.gcd r0 r1 = 1 ->
  (r0 - s0 * a) mod m = 0 -> (r1 - s1 * a) mod m = 0 ->
  (egcd fuel r0 r1 s0 s1 * a) mod m = 1.
Proof.
  intros Hm. induction fuel as [|f IH]; intros r0 r1 s0 s1 H1 H2 H3 Hg E0 E1; cbn [egcd].
  - assert (r1 = 0) by (cbn in H3; nia). subst r1. cbn [Z.eqb].
    rewrite Z.gcd_0_r, Z.abs_eq in Hg by lia. subst r0.
    apply Z.mod_divide in E0; [|lia]. destruct E0 as [k Hk].
    replace (s0 * a) with (1 + (- k) * m) by lia. rewrite Z.mod_add by lia. apply Z.mod_small. lia.
  - destruct (r1 =? 0) eqn:Er.
    + apply Z.eqb_eq in Er. subst r1.
      rewrite Z.gcd_0_r, Z.abs_eq in Hg by lia. subst r0.
      apply Z.mod_divide in E0; [|lia]. destruct E0 as [k Hk].
      replace (s0 * a) with (1 + (- k) * m) by lia. rewrite Z.mod_add by lia. apply Z.mod_small. lia.
    + apply Z.eqb_neq in Er. cbv zeta.
      assert (Hmod : r0 - r0 / r1 * r1 = r0 mod r1) by (rewrite Z.mod_eq by lia; ring).
      pose proof (Z.mod_pos_bound r0 r1 ltac:(lia)) as B.
      apply IH; rewrite ?Hmod; try lia.
      * pose proof (Z.div_mod r0 r1 ltac:(lia)) as D.
        assert (1 <= r0 / r1) by (apply Z.div_le_lower_bound; lia).
        rewrite Nat2Z.inj_succ, Z.pow_succ_r in H3 by lia.
        assert (2 * (r0 mod r1) < r0) by nia. nia.
      * rewrite Z.gcd_comm, Z.gcd_mod by lia. rewrite Z.gcd_comm. exact Hg.
      * rewrite <- Hmod. apply Z.mod_divide in E0, E1; try lia.
        destruct E0 as [k0 K0], E1 as [k1 K1]. apply Z.mod_divide; [lia|].
        exists (k0 - r0 / r1 * k1). nia.
Qed.

Lemma inv_mod_correct m a : 1 < m -> Z.gcd a m = 1 -> (inv_mod m a * a) mod m = 1.
Proof.
  intros Hm Hg. unfold inv_mod. rewrite Z.mul_mod_idemp_l by lia.
  pose proof (Z.mod_pos_bound a m ltac:(lia)) as B.
  apply egcd_correct; try lia.
  - rewrite Z2Nat.id by (pose proof (Z.log2_up_nonneg m); lia).
    pose proof (Z.log2_up_spec m ltac:(lia)) as [_ Hl].
    replace (2 * Z.log2_up m + 2) with (Z.log2_up m + Z.log2_up m + 2) by lia.
    rewrite !Z.pow_add_r by (pose proof (Z.log2_up_nonneg m); lia).
    assert (0 < 2 ^ Z.log2_up m) by lia. change (2 ^ 2) with 4. nia.
  - rewrite Z.gcd_comm, Z.gcd_mod by lia. rewrite Z.gcd_comm. exact Hg.
  - rewrite Z.mul_0_l, Z.sub_0_r. apply Z.mod_same. lia.
  - rewrite Z.mul_1_l. rewrite Zminus_mod, Zmod_mod, Z.sub_diag. reflexivity.
Qed.

Lemma inv_mod_range m a : 0 < m -> 0 <= inv_mod m a < m.
Proof. intros. unfold inv_mod. apply Z.mod_pos_bound. lia. Qed.

Lemma prime_gcd_1 m a : prime m -> a mod m <> 0 -> Z.gcd a m = 1.
Proof.
  intros Hp Ha. apply Zgcd_1_rel_prime. apply rel_prime_sym. apply prime_rel_prime; [exact Hp|].
  intros H. apply Ha. apply Z.mod_divide; [pose proof (prime_ge_2 _ Hp); lia | exact H].
Qed.

(** ** The type Z/m *)
Definition inrange (m z : Z) : bool := (0 <=? z) && (z <? m).
Definition F (m : Z) : Set := { z : Z | inrange m z = true }.
Definition val {m} (a : F m) : Z := proj1_sig a.

Lemma val_inj {m} (a b : F m) : val a = val b -> a = b.
Proof.
  destruct a as [a Ha], b as [b Hb]; cbn. intros ->. f_equal. apply UIP_dec. apply bool_dec.
Qed.

Lemma val_range {m} (a : F m) : 0 <= val a < m.
Proof.
  destruct a as [a Ha]; cbn. unfold inrange in Ha. apply andb_true_iff in Ha.
  rewrite Z.leb_le, Z.ltb_lt in Ha. exact Ha.
Qed.

Section Modulus.
  Variable m : Z.
  Hypothesis Hm : 1 < m.

  Lemma inrange_mod z : inrange m (z mod m) = true.
  Proof.
    unfold inrange. pose proof (Z.mod_pos_bound z m ltac:(lia)).
    apply andb_true_iff. rewrite Z.leb_le, Z.ltb_lt. exact H.
  Qed.
End Modulus.

Section FOps.
  Variable m : Z.
  Variable Hm : 1 < m.
  Definition phi (z : Z) : F m := exist _ (z mod m) (inrange_mod m Hm z).
  Definition fzero := phi 0.
  Definition fone := phi 1.
  Definition fadd (a b : F m) := phi (val a + val b).
  Definition fsub (a b : F m) := phi (val a - val b).
  Definition fmul (a b : F m) := phi (val a * val b).
  Definition fopp (a : F m) := phi (- val a).
  Definition finv (a : F m) := phi (inv_mod m (val a)).
  Definition fdiv (a b : F m) := fmul a (finv b).

  Lemma val_phi z : val (phi z) = z mod m. Proof. reflexivity. Qed.
  Lemma phi_val a : phi (val a) = a.
  Proof. apply val_inj. rewrite val_phi. apply Z.mod_small. apply val_range. Qed.
  Lemma phi_eq_iff a b : phi a = phi b <-> a mod m = b mod m.
  Proof.
    split; intros H; [rewrite <- !val_phi, H; reflexivity | apply val_inj; rewrite !val_phi; exact H].
  Qed.
  Lemma phi_mod a : phi (a mod m) = phi a.
  Proof. apply phi_eq_iff. apply Z.mod_mod. lia. Qed.

  Lemma phi_add a b : phi (a + b) = fadd (phi a) (phi b).
  Proof. apply phi_eq_iff. rewrite !val_phi. apply Z.add_mod. lia. Qed.
  Lemma phi_sub a b : phi (a - b) = fsub (phi a) (phi b).
  Proof. apply phi_eq_iff. rewrite !val_phi. apply Zminus_mod. Qed.
  Lemma phi_mul a b : phi (a * b) = fmul (phi a) (phi b).
  Proof. apply phi_eq_iff. rewrite !val_phi. apply Z.mul_mod. lia. Qed.
  Lemma phi_opp a : phi (- a) = fopp (phi a).
  Proof.
    apply phi_eq_iff. rewrite !val_phi.
    replace (- a) with (0 - a) by ring. replace (- (a mod m)) with (0 - a mod m) by ring.
    rewrite Zminus_mod_idemp_r. reflexivity.
  Qed.

  Lemma F_ring : ring_theory fzero fone fadd fmul fsub fopp (@eq (F m)).
  Proof.
    constructor; intros;
      repeat match goal with x : F m |- _ => rewrite <- (phi_val x); generalize (val x); clear x; intros x end;
      unfold fzero, fone; rewrite <- ?phi_add, <- ?phi_mul, <- ?phi_opp, <- ?phi_sub;
      rewrite <- ?phi_add, <- ?phi_mul, <- ?phi_opp, <- ?phi_sub; f_equal; ring.
  Qed.

  Lemma phi_morph : ring_morph fzero fone fadd fmul fsub fopp (@eq (F m))
                      0 1 Z.add Z.mul Z.sub Z.opp Z.eqb phi.
  Proof.
    constructor; intros; try reflexivity.
    - apply phi_add. - apply phi_sub. - apply phi_mul. - apply phi_opp.
    - apply Z.eqb_eq in H. subst. reflexivity.
  Qed.

  Hypothesis Hp : prime m.

  Lemma finv_l a : a <> fzero -> fmul (finv a) a = fone.
  Proof.
    intros Ha. apply val_inj. unfold finv, fmul, fone. rewrite !val_phi.
    rewrite Z.mul_mod_idemp_l by lia. rewrite inv_mod_correct; [rewrite Z.mod_small; lia | exact Hm |].
    apply prime_gcd_1; [exact Hp|]. intros H. apply Ha. rewrite <- (phi_val a). apply phi_eq_iff.
    rewrite H. reflexivity.
  Qed.

  Lemma F_field : field_theory fzero fone fadd fmul fsub fopp fdiv finv (@eq (F m)).
  Proof.
    constructor.
    - apply F_ring.
    - unfold fone, fzero. intros H. apply phi_eq_iff in H. rewrite !Z.mod_small in H; lia.
    - reflexivity.
    - apply finv_l.
  Qed.

  Lemma fmul_eq0 a b : fmul a b = fzero -> a = fzero \/ b = fzero.
  Proof.
    intros H. apply (f_equal val) in H. unfold fmul, fzero in H. rewrite !val_phi, Z.mod_0_l in H by lia.
    apply Z.mod_divide in H; [|lia]. apply prime_mult in H; [|exact Hp].
    destruct H as [H|H]; [left|right]; rewrite <- (phi_val a) || rewrite <- (phi_val b);
      apply phi_eq_iff; rewrite (proj2 (Z.mod_divide _ m ltac:(lia)) H), Z.mod_0_l by lia; reflexivity.
  Qed.

  Lemma F_dec (a b : F m) : {a = b} + {a <> b}.
  Proof.
    destruct (Z.eq_dec (val a) (val b)) as [E|E]; [left; apply val_inj, E | right; intros ->; apply E; reflexivity].
  Qed.
End FOps.

Lemma r_gt1 : 1 < r_mod. Proof. reflexivity. Qed.
Lemma p_gt1 : 1 < p_mod. Proof. reflexivity. Qed.
Lemma prime_r : prime r_mod. Proof. exact prime_fr. Qed.
Lemma prime_p : prime p_mod. Proof. exact prime_fp. Qed.
