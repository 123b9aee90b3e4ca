(** The model's membership test for the twist is the equation, for every pair of coordinates: C34. *)
From Coq Require Import ZArith Bool List Lia.
From Verif Require Import Params Go Curve Api FrOps Agg SpecCurve SpecMisc.
Open Scope Z_scope.

Definition i82 : Z := 7207104360239761353666499452706663748717078063988307791373219794578306190631.
Lemma eqp_div a b : eqp a b <-> (p_mod | a - b).
Proof.
  unfold eqp. split; intros H.
  - apply Z.mod_divide; [discriminate|]. rewrite Zminus_mod, H, Z.sub_diag. reflexivity.
  - destruct H as [k H]. replace a with (b + k * p_mod) by lia. apply Z_mod_plus_full.
Qed.
Lemma i82_ok : exists m, 82 * i82 = 1 + m * p_mod.
Proof. exists ((82 * i82 - 1) / p_mod). vm_compute. reflexivity. Qed.
Lemma b0_ok : exists n, 82 * fst twist_b - 27 = n * p_mod.
Proof. exists ((82 * fst twist_b - 27) / p_mod). vm_compute. reflexivity. Qed.
Lemma b1_ok : exists n, 82 * snd twist_b + 3 = n * p_mod.
Proof. exists ((82 * snd twist_b + 3) / p_mod). vm_compute. reflexivity. Qed.
Lemma cancel82 a : (p_mod | 82 * a) -> (p_mod | a).
Proof.
  intros [k H]. destruct i82_ok as [m M]. exists (k * i82 - m * a). rewrite Z.mul_sub_distr_r.
  replace (k * i82 * p_mod) with (i82 * (k * p_mod)) by ring. rewrite <- H.
  replace (m * a * p_mod) with ((m * p_mod) * a) by ring. replace (m * p_mod) with (82 * i82 - 1) by lia. ring.
Qed.
(** d = 3 / (9 + u) *)
Lemma twist_eq d0 d1 : (eqp (9 * d0 - d1) 3 /\ eqp (d0 + 9 * d1) 0) <-> (eqp d0 (fst twist_b) /\ eqp d1 (snd twist_b)).
Proof.
  rewrite !eqp_div. destruct b0_ok as [n0 N0], b1_ok as [n1 N1]. split.
  - intros [[k1 H1] [k2 H2]]. split; apply cancel82.
    + exists (9 * k1 + k2 - n0). lia.
    + exists (9 * k2 - k1 - n1). lia.
  - intros [[k1 H1] [k2 H2]]. split; apply cancel82.
    + exists (82 * (9 * k1 - k2) + 9 * n0 - n1). lia.
    + exists (82 * (k1 + 9 * k2) + n0 + 9 * n1). lia.
Qed.
Lemma mod_eqb a b a' b' : eqp a a' -> eqp b b' -> (a mod p_mod =? b mod p_mod) = true <-> eqp a' b'.
Proof. unfold eqp. intros A B. rewrite Z.eqb_eq, A, B. reflexivity. Qed.
Lemma eqp_mod a : eqp (a mod p_mod) a. Proof. apply Z.mod_mod. discriminate. Qed.
Lemma eqp_refl a : eqp a a. Proof. reflexivity. Qed.
Lemma eqp_add' a b c d : eqp a b -> eqp c d -> eqp (a + c) (b + d).
Proof. unfold eqp. intros H K. rewrite Zplus_mod, H, K, <- Zplus_mod. reflexivity. Qed.
Lemma eqp_sub' a b c d : eqp a b -> eqp c d -> eqp (a - c) (b - d).
Proof. unfold eqp. intros H K. rewrite Zminus_mod, H, K, <- Zminus_mod. reflexivity. Qed.
Lemma eqp_mul' a b c d : eqp a b -> eqp c d -> eqp (a * c) (b * d).
Proof. unfold eqp. intros H K. rewrite Zmult_mod, H, K, <- Zmult_mod. reflexivity. Qed.
Lemma move a b c : eqp a (b + c) <-> eqp (a - b) c.
Proof. rewrite !eqp_div. replace (a - (b + c)) with (a - b - c) by ring. reflexivity. Qed.

Lemma c34_check P : g2_is_on_curve P = true <-> on_twist P.
Proof.
  destruct P as [[x0 x1] [y0 y1]]. unfold g2_is_on_curve, fp2_eqb, fp2_add, fp2_mul, on_twist. cbn [fst snd]. cbv zeta.
  rewrite twist_eq, <- !move. unfold padd_mod, psub_mod. rewrite andb_true_iff.
  assert (S0 : eqp ((x0 * x0 - x1 * x1) mod p_mod * x0 - (x0 * x1 + x1 * x0) mod p_mod * x1) (x0 * x0 * x0 - 3 * x0 * x1 * x1)).
  { replace (x0 * x0 * x0 - 3 * x0 * x1 * x1) with ((x0 * x0 - x1 * x1) * x0 - (x0 * x1 + x1 * x0) * x1) by ring.
    apply eqp_sub'; (apply eqp_mul'; [apply eqp_mod | apply eqp_refl]). }
  assert (S1 : eqp ((x0 * x0 - x1 * x1) mod p_mod * x1 + (x0 * x1 + x1 * x0) mod p_mod * x0) (3 * x0 * x0 * x1 - x1 * x1 * x1)).
  { replace (3 * x0 * x0 * x1 - x1 * x1 * x1) with ((x0 * x0 - x1 * x1) * x1 + (x0 * x1 + x1 * x0) * x0) by ring.
    apply eqp_add'; (apply eqp_mul'; [apply eqp_mod | apply eqp_refl]). }
  assert (E0 := mod_eqb (y0 * y0 - y1 * y1) (((x0 * x0 - x1 * x1) mod p_mod * x0 - (x0 * x1 + x1 * x0) mod p_mod * x1) mod p_mod + fst twist_b)
    (y0 * y0 - y1 * y1) (x0 * x0 * x0 - 3 * x0 * x1 * x1 + fst twist_b) (eqp_refl _)
    (eqp_add' _ _ _ _ (eq_trans (eqp_mod _) S0) (eqp_refl _))).
  assert (E1 := mod_eqb (y0 * y1 + y1 * y0) (((x0 * x0 - x1 * x1) mod p_mod * x1 + (x0 * x1 + x1 * x0) mod p_mod * x0) mod p_mod + snd twist_b)
    (2 * y0 * y1) (3 * x0 * x0 * x1 - x1 * x1 * x1 + snd twist_b) ltac:(replace (2 * y0 * y1) with (y0 * y1 + y1 * y0) by ring; apply eqp_refl)
    (eqp_add' _ _ _ _ (eq_trans (eqp_mod _) S1) (eqp_refl _))).
  rewrite E0, E1, (move (y0 * y0) (y1 * y1)). reflexivity.
Qed.
(** the first point is accepted; a pair satisfying only the first component of the equation is not *)
Definition half_twist : g2 := ((1, 0), (6464011439942880178931372961296180748807660084322016608414825236174932917047, 0)).
Definition half_twist_fst : Z * Z := (fst (fst half_twist), fst (snd half_twist)).
Lemma ex34_check : g2_is_on_curve g20_const = true /\
  eqp (snd half_twist_fst * snd half_twist_fst - fst half_twist_fst * fst half_twist_fst * fst half_twist_fst) (fst twist_b) /\
  g2_is_on_curve half_twist = false.
Proof. split; [vm_compute; reflexivity|]. split; vm_compute; reflexivity. Qed.
