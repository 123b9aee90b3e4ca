(** The rows of the columns and the statement of SpecPlonk.v. *)
From Coq Require Import ZArith Lia Bool List Permutation Ring Field.
From Verif Require Import Params NumThy FField FpField SpecVerify SpecPoly SpecRows SpecPlonk P_Fr P_Curve P_Dom P_VSpec P_Honest P_Shplonk P_Poly P_Open P_Rows P_Snark P_Perm.
Import ListNotations.
Open Scope Z_scope.

(** ** labels of the cells are distinct *)
Fixpoint sqr_n (n : nat) (a : Z) : Z := match n with O => a | S m => sqr_n m ((a * a) mod r_mod) end.
Lemma sqr_n_ok n : forall a, fexp (fc a) (2 ^ Z.of_nat n) = fc (sqr_n n a).
Proof.
  induction n as [|n IH]; intros a; [change (2 ^ Z.of_nat 0) with 1; apply fexp_1|].
  rewrite Nat2Z.inj_succ, Z.pow_succ_r by lia. rewrite fexp_mul by lia. rewrite fexp_2. cbn [sqr_n]. rewrite <- IH.
  rewrite phi_mod, phi_mul. reflexivity.
Qed.
Definition delta_n : Z := Eval vm_compute in sqr_n 23 4131629893567559867359510883348571134090853742863529169391034518566172092834.
Lemma delta_pow : fexp delta dom_n = fc delta_n.
Proof. unfold dom_n, delta. change 23 with (Z.of_nat 23). rewrite sqr_n_ok. apply f_equal. vm_compute. reflexivity. Qed.
Lemma delta_free d : (1 <= d <= 6)%nat -> fexp (fc delta_n) (Z.of_nat d) <> 1%fr.
Proof.
  intros H. change (1%fr) with (fc 1). unfold fexp. rewrite phi_eq_iff, val_phi.
  do 7 (destruct d as [|d]; [first [lia | vm_compute; discriminate]|]). lia.
Qed.
Lemma delta_not_0 : delta <> 0%fr.
Proof. intros E. apply phi_eq_iff in E. revert E. vm_compute. discriminate. Qed.
Local Opaque p_mod r_mod delta_n.
Local Opaque phi fmul fadd fsub fopp fdiv finv.

Local Opaque rot fzpow fexp omega delta dom_n.

Definition lab (k : nat) (j : Z) : Fr := (fexp delta (Z.of_nat k) * fexp omega j)%fr.
Lemma fexp_nz a k : 0 <= k -> a <> 0%fr -> fexp a k <> 0%fr.
Proof.
  intros Hk Ha. rewrite <- (Z2Nat.id k Hk). induction (Z.to_nat k) as [|m IH]; [change (Z.of_nat 0) with 0; rewrite fexp_0; exact fr_1_0|].
  rewrite fexp_S. apply mul_nz; assumption.
Qed.
Lemma fexp_zero k : 0 < k -> fexp 0%fr k = 0%fr.
Proof. intros H. replace k with (1 + (k - 1)) by lia. rewrite fexp_add, fexp_1 by lia. ring. Qed.
Lemma mul_cancel a b c : a <> 0%fr -> (a * b = a * c)%fr -> b = c.
Proof. intros Ha E. apply sub_eq0. assert (E0 : (a * (b - c) = 0)%fr) by (transitivity (a * b - a * c)%fr; [ring|rewrite E; ring]). apply mul_eq0 in E0. destruct E0; [contradiction|assumption]. Qed.
Lemma lab_n k j : 0 <= j -> fexp (lab k j) dom_n = fexp (fc delta_n) (Z.of_nat k).
Proof.
  intros Hj. pose proof dom_6. unfold lab. refine (eq_trans (fexp_prod _ _ dom_n ltac:(lia)) _).
  assert (E1 : fexp (fexp delta (Z.of_nat k)) dom_n = fexp (fc delta_n) (Z.of_nat k)).
  { refine (eq_trans (eq_sym (fexp_mul delta (Z.of_nat k) dom_n ltac:(lia) ltac:(lia))) _). refine (eq_trans (f_equal (fexp delta) (Z.mul_comm _ _)) _).
    refine (eq_trans (fexp_mul delta dom_n (Z.of_nat k) ltac:(lia) ltac:(lia)) _). exact (f_equal (fun a => fexp a (Z.of_nat k)) delta_pow). }
  assert (E2 : fexp (fexp omega j) dom_n = 1%fr).
  { refine (eq_trans (eq_sym (fexp_mul omega j dom_n ltac:(lia) ltac:(lia))) _). refine (eq_trans (f_equal (fexp omega) (Z.mul_comm _ _)) _).
    refine (eq_trans (fexp_mul omega dom_n j ltac:(lia) ltac:(lia)) _). refine (eq_trans (f_equal (fun a => fexp a j) omega_n) _). apply fexp_one, Hj. }
  rewrite E1, E2. ring.
Qed.
Lemma lab_inj k j k' j' : (k < 7)%nat -> (k' < 7)%nat -> 0 <= j < dom_n -> 0 <= j' < dom_n -> lab k j = lab k' j' -> k = k' /\ j = j'.
Proof.
  intros Hk Hk' Hj Hj' E. pose proof dom_6 as D6.
  assert (D0 : fc delta_n <> 0%fr).
  { intros E0. pose proof (lab_n 1 0 ltac:(lia)) as L. unfold lab in L. rewrite fexp_0 in L. change (Z.of_nat 1) with 1 in L.
    rewrite !fexp_1 in L. destruct (fr_dec delta 0%fr) as [Ed|Nd].
    - exact (delta_not_0 Ed).
    - apply (fexp_nz delta dom_n ltac:(lia) Nd). rewrite delta_pow. exact E0. }
  assert (EK : forall a b : nat, (a < 7)%nat -> (b < 7)%nat -> (a <= b)%nat -> fexp (fc delta_n) (Z.of_nat a) = fexp (fc delta_n) (Z.of_nat b) -> a = b).
  { intros a b Ha Hb Hab Eab. destruct (Nat.eq_dec a b) as [|N]; [assumption|exfalso]. apply (delta_free (b - a) ltac:(lia)).
    apply (mul_cancel (fexp (fc delta_n) (Z.of_nat a))); [apply fexp_nz; [lia|exact D0]|].
    rewrite <- fexp_add by lia. replace (Z.of_nat a + Z.of_nat (b - a)) with (Z.of_nat b) by lia. rewrite <- Eab. ring. }
  assert (Ek : k = k').
  { pose proof (lab_n k j ltac:(lia)) as L. rewrite E, lab_n in L by lia. destruct (Nat.le_gt_cases k k') as [Le|Gt]; [apply EK; auto|symmetry; apply EK; auto; lia]. }
  split; [exact Ek|]. subst k'. apply omega_inj; try assumption. apply (mul_cancel (fexp delta (Z.of_nat k))); [|exact E].
  apply fexp_nz; [lia|]. exact delta_not_0.
Qed.

(** ** values on rows *)
Definition act : nat := Z.to_nat (dom_n - 6).
Lemma act_Z : Z.of_nat act = dom_n - 6. Proof. pose proof dom_6. unfold act. apply Z2Nat.id. lia. Qed.
Lemma act_pos : (0 < act)%nat. Proof. pose proof dom_6. pose proof act_Z. lia. Qed.
Local Opaque act.
Lemma rot_row j k : 0 <= j -> 0 <= j + k -> rot (fexp omega j) k = fexp omega (j + k).
Proof.
  intros Hj Hk. pose proof dom_6. pose proof (Z.mod_pos_bound k dom_n ltac:(lia)) as B. rewrite rot_def, fzpow_mod, <- fexp_add by lia.
  rewrite <- (fexp_mod_n (k mod dom_n + j)), <- (fexp_mod_n (j + k)) by lia. f_equal. rewrite Z.add_mod_idemp_l by lia. f_equal. lia.
Qed.
Lemma rot_row_neg k : k <= 0 <= dom_n + k -> rot (fexp omega 0) k = fexp omega (dom_n + k).
Proof.
  intros Hk. pose proof dom_6. rewrite <- (Z.add_0_l k) at 1. rewrite rot_def, fzpow_mod, fexp_0.
  rewrite Z.add_0_l. rewrite <- (fexp_mod_n (dom_n + k)) by lia. replace ((dom_n + k) mod dom_n) with (k mod dom_n); [ring|].
  rewrite <- (Z.add_mod_idemp_l dom_n), Z.mod_same, Z.add_0_l by lia. reflexivity.
Qed.

Section Rows.
  Variables (inst : pol) (adv fixd sigm : nat -> pol) (theta beta gamma : Fr).
  Notation ok := (row_ok inst adv fixd sigm theta beta gamma).
  Lemma w44 X : cell inst adv fixd sigm X 44%nat = peval inst (rot X 0). Proof. reflexivity. Qed.
  Lemma w45 X : cell inst adv fixd sigm X 45%nat = peval (adv 0%nat) (rot X 0). Proof. reflexivity. Qed.
  Lemma w46 X : cell inst adv fixd sigm X 46%nat = peval (adv 1%nat) (rot X 0). Proof. reflexivity. Qed.
  Lemma w47 X : cell inst adv fixd sigm X 47%nat = peval (adv 2%nat) (rot X 0). Proof. reflexivity. Qed.
  Lemma w48 X : cell inst adv fixd sigm X 48%nat = peval (adv 3%nat) (rot X 0). Proof. reflexivity. Qed.
  Lemma w49 X : cell inst adv fixd sigm X 49%nat = peval (adv 4%nat) (rot X 0). Proof. reflexivity. Qed.
  Lemma w50 X : cell inst adv fixd sigm X 50%nat = peval (adv 4%nat) (rot X 1). Proof. reflexivity. Qed.
  Lemma w51 X : cell inst adv fixd sigm X 51%nat = peval (adv 5%nat) (rot X 0). Proof. reflexivity. Qed.
  Lemma w52 X : cell inst adv fixd sigm X 52%nat = peval (adv 6%nat) (rot X 0). Proof. reflexivity. Qed.
  Lemma w53 X : cell inst adv fixd sigm X 53%nat = peval (adv 7%nat) (rot X 0). Proof. reflexivity. Qed.
  Lemma w54 X : cell inst adv fixd sigm X 54%nat = peval (adv 7%nat) (rot X 1). Proof. reflexivity. Qed.
  Lemma w55 X : cell inst adv fixd sigm X 55%nat = peval (adv 6%nat) (rot X 1). Proof. reflexivity. Qed.
  Lemma w56 X : cell inst adv fixd sigm X 56%nat = peval (adv 7%nat) (rot X 2). Proof. reflexivity. Qed.
  Lemma w57 X : cell inst adv fixd sigm X 57%nat = peval (adv 6%nat) (rot X 2). Proof. reflexivity. Qed.
  Lemma w58 X : cell inst adv fixd sigm X 58%nat = peval (fixd 0%nat) (rot X 0). Proof. reflexivity. Qed.
  Lemma w59 X : cell inst adv fixd sigm X 59%nat = peval (fixd 1%nat) (rot X 0). Proof. reflexivity. Qed.
  Lemma w60 X : cell inst adv fixd sigm X 60%nat = peval (fixd 2%nat) (rot X 0). Proof. reflexivity. Qed.
  Lemma w61 X : cell inst adv fixd sigm X 61%nat = peval (fixd 3%nat) (rot X 0). Proof. reflexivity. Qed.
  Lemma w62 X : cell inst adv fixd sigm X 62%nat = peval (fixd 4%nat) (rot X 0). Proof. reflexivity. Qed.
  Lemma w63 X : cell inst adv fixd sigm X 63%nat = peval (fixd 5%nat) (rot X 0). Proof. reflexivity. Qed.
  Lemma w64 X : cell inst adv fixd sigm X 64%nat = peval (fixd 6%nat) (rot X 0). Proof. reflexivity. Qed.
  Lemma w65 X : cell inst adv fixd sigm X 65%nat = peval (fixd 7%nat) (rot X 0). Proof. reflexivity. Qed.
  Lemma w66 X : cell inst adv fixd sigm X 66%nat = peval (fixd 8%nat) (rot X 0). Proof. reflexivity. Qed.
  Lemma w67 X : cell inst adv fixd sigm X 67%nat = peval (fixd 9%nat) (rot X 0). Proof. reflexivity. Qed.
  Lemma w68 X : cell inst adv fixd sigm X 68%nat = peval (fixd 10%nat) (rot X 0). Proof. reflexivity. Qed.
  Lemma w69 X : cell inst adv fixd sigm X 69%nat = peval (fixd 11%nat) (rot X 0). Proof. reflexivity. Qed.
  Lemma w70 X : cell inst adv fixd sigm X 70%nat = peval (fixd 12%nat) (rot X 0). Proof. reflexivity. Qed.
  Lemma w72 X : cell inst adv fixd sigm X 72%nat = peval (sigm 0%nat) (rot X 0). Proof. reflexivity. Qed.
  Lemma w73 X : cell inst adv fixd sigm X 73%nat = peval (sigm 1%nat) (rot X 0). Proof. reflexivity. Qed.
  Lemma w74 X : cell inst adv fixd sigm X 74%nat = peval (sigm 2%nat) (rot X 0). Proof. reflexivity. Qed.
  Lemma w75 X : cell inst adv fixd sigm X 75%nat = peval (sigm 3%nat) (rot X 0). Proof. reflexivity. Qed.
  Lemma w76 X : cell inst adv fixd sigm X 76%nat = peval (sigm 4%nat) (rot X 0). Proof. reflexivity. Qed.
  Lemma w77 X : cell inst adv fixd sigm X 77%nat = peval (sigm 5%nat) (rot X 0). Proof. reflexivity. Qed.
  Lemma w78 X : cell inst adv fixd sigm X 78%nat = peval (sigm 6%nat) (rot X 0). Proof. reflexivity. Qed.
  Lemma w79 X : cell inst adv fixd sigm X 79%nat = peval (adv 12%nat) (rot X 0). Proof. reflexivity. Qed.
  Lemma w80 X : cell inst adv fixd sigm X 80%nat = peval (adv 12%nat) (rot X 1). Proof. reflexivity. Qed.
  Lemma w81 X : cell inst adv fixd sigm X 81%nat = peval (adv 12%nat) (rot X (-6)). Proof. reflexivity. Qed.
  Lemma w82 X : cell inst adv fixd sigm X 82%nat = peval (adv 13%nat) (rot X 0). Proof. reflexivity. Qed.
  Lemma w83 X : cell inst adv fixd sigm X 83%nat = peval (adv 13%nat) (rot X 1). Proof. reflexivity. Qed.
  Lemma w84 X : cell inst adv fixd sigm X 84%nat = peval (adv 13%nat) (rot X (-6)). Proof. reflexivity. Qed.
  Lemma w85 X : cell inst adv fixd sigm X 85%nat = peval (adv 14%nat) (rot X 0). Proof. reflexivity. Qed.
  Lemma w86 X : cell inst adv fixd sigm X 86%nat = peval (adv 14%nat) (rot X 1). Proof. reflexivity. Qed.
  Lemma w87 X : cell inst adv fixd sigm X 87%nat = peval (adv 14%nat) (rot X (-6)). Proof. reflexivity. Qed.
  Lemma w88 X : cell inst adv fixd sigm X 88%nat = peval (adv 15%nat) (rot X 0). Proof. reflexivity. Qed.
  Lemma w89 X : cell inst adv fixd sigm X 89%nat = peval (adv 15%nat) (rot X 1). Proof. reflexivity. Qed.
  Lemma w90 X : cell inst adv fixd sigm X 90%nat = peval (adv 16%nat) (rot X 0). Proof. reflexivity. Qed.
  Lemma w91 X : cell inst adv fixd sigm X 91%nat = peval (adv 16%nat) (rot X 1). Proof. reflexivity. Qed.
  Lemma w92 X : cell inst adv fixd sigm X 92%nat = peval (adv 8%nat) (rot X 0). Proof. reflexivity. Qed.
  Lemma w93 X : cell inst adv fixd sigm X 93%nat = peval (adv 8%nat) (rot X (-1)). Proof. reflexivity. Qed.
  Lemma w94 X : cell inst adv fixd sigm X 94%nat = peval (adv 9%nat) (rot X 0). Proof. reflexivity. Qed.
  Lemma w95 X : cell inst adv fixd sigm X 95%nat = peval (adv 17%nat) (rot X 0). Proof. reflexivity. Qed.
  Lemma w96 X : cell inst adv fixd sigm X 96%nat = peval (adv 17%nat) (rot X 1). Proof. reflexivity. Qed.
  Lemma w97 X : cell inst adv fixd sigm X 97%nat = peval (adv 10%nat) (rot X 0). Proof. reflexivity. Qed.
  Lemma w98 X : cell inst adv fixd sigm X 98%nat = peval (adv 10%nat) (rot X (-1)). Proof. reflexivity. Qed.
  Lemma w99 X : cell inst adv fixd sigm X 99%nat = peval (adv 11%nat) (rot X 0). Proof. reflexivity. Qed.

  Ltac words H := rewrite ?w44, ?w45, ?w46, ?w47, ?w48, ?w49, ?w50, ?w51, ?w52, ?w53, ?w54, ?w55, ?w56, ?w57, ?w58, ?w59, ?w60, ?w61, ?w62, ?w63, ?w64, ?w65, ?w66, ?w67, ?w68, ?w69, ?w70, ?w72, ?w73, ?w74, ?w75, ?w76, ?w77, ?w78, ?w79, ?w80, ?w81, ?w82, ?w83, ?w84, ?w85, ?w86, ?w87, ?w88, ?w89, ?w90, ?w91, ?w92, ?w93, ?w94, ?w95, ?w96, ?w97, ?w98, ?w99 in H.
  Lemma row_ok_dec j : 0 <= j < dom_n -> {ok j} + {~ ok j}.
  Proof.
    intros Hj. destruct (Forall_dec (fun e => e = 0%fr) (fun e => fr_dec e 0%fr) (exprs inst adv fixd sigm theta beta gamma (fexp omega j))) as [F|F].
    - left. apply (row_iff inst adv fixd sigm theta beta gamma j Hj), F.
    - right. intros K. apply F, (row_iff inst adv fixd sigm theta beta gamma j Hj), K.
  Qed.
  Lemma row_gates j : 0 <= j -> ok j -> gates_hold adv fixd j.
  Proof.
    intros Hj (G & L1 & L2 & L3 & _). unfold gate_main in G. words G.
    unfold SpecVerify.limbs in L1, L2, L3. cbn [length seq combine map] in L1, L2, L3. words L1. words L2. words L3.
    rewrite !rot_zero, (rot_row j 1) in G by lia. rewrite !rot_zero in L1.
    rewrite !rot_zero, !(rot_row j 1) in L2 by lia. rewrite !rot_zero, !(rot_row j 1), !(rot_row j 2) in L3 by lia.
    exact (conj G (conj L1 (conj L2 L3))).
  Qed.

  Hypothesis ROWS : forall j, 0 <= j < dom_n -> ok j.
  Notation V f i := (value f (Z.of_nat i)).
  Lemma row_first : V (adv 12%nat) 0 = 1%fr /\ V (adv 13%nat) 0 = V (adv 12%nat) act /\ V (adv 14%nat) 0 = V (adv 13%nat) act /\
    V (adv 15%nat) 0 = V (adv 14%nat) act /\ V (adv 16%nat) 0 = 1%fr /\ V (adv 8%nat) 0 = V (adv 9%nat) 0 /\
    V (adv 17%nat) 0 = 1%fr /\ V (adv 10%nat) 0 = V (adv 11%nat) 0.
  Proof.
    pose proof dom_6. destruct (ROWS 0 ltac:(lia)) as (_ & _ & _ & _ & F & _). specialize (F eq_refl). words F.
    rewrite !rot_zero, (rot_row_neg (-6)) in F by lia. replace (dom_n + -6) with (Z.of_nat act) in F by (rewrite act_Z; lia).
    change (Z.of_nat 0) with 0. exact F.
  Qed.
  Lemma row_last : Forall (fun z => z = 0%fr \/ z = 1%fr) [V (adv 15%nat) act; V (adv 16%nat) act; V (adv 17%nat) act].
  Proof.
    pose proof dom_6. destruct (ROWS (dom_n - 6) ltac:(lia)) as (_ & _ & _ & _ & _ & F & _). specialize (F eq_refl). words F.
    rewrite !rot_zero in F. rewrite <- act_Z in F. exact F.
  Qed.
  Definition cv (k i : nat) : Fr := V (copied inst adv k) i.
  Definition sv (k i : nat) : Fr := V (sigm k) i.
  Lemma row_active i : (i < act)%nat ->
    let up k := (cv k i + beta * sv k i + gamma)%fr in
    let down k := (cv k i + fexp delta (Z.of_nat k) * beta * fexp omega (Z.of_nat i) + gamma)%fr in
    (V (adv 12%nat) (S i) * (up 0%nat * (up 1%nat * 1)) = V (adv 12%nat) i * (down 0%nat * (down 1%nat * 1)))%fr /\
    (V (adv 13%nat) (S i) * (up 2%nat * (up 3%nat * 1)) = V (adv 13%nat) i * (down 2%nat * (down 3%nat * 1)))%fr /\
    (V (adv 14%nat) (S i) * (up 4%nat * (up 5%nat * 1)) = V (adv 14%nat) i * (down 4%nat * (down 5%nat * 1)))%fr /\
    (V (adv 15%nat) (S i) * (up 6%nat * 1) = V (adv 15%nat) i * (down 6%nat * 1))%fr.
  Proof.
    intros Hi up down. pose proof act_Z as AZ. destruct (ROWS (Z.of_nat i) ltac:(lia)) as (_ & _ & _ & _ & _ & _ & F).
    destruct (F ltac:(lia)) as (F1 & F2 & F3 & F4 & _). clear F. unfold product_step in F1, F2, F3, F4. cbn [map] in F1, F2, F3, F4.
    words F1. words F2. words F3. words F4. rewrite !rot_zero, !rot_row in F1, F2, F3, F4 by lia.
    replace (Z.of_nat i + 1) with (Z.of_nat (S i)) in F1, F2, F3, F4 by lia.
    exact (conj F1 (conj F2 (conj F3 F4))).
  Qed.
  Lemma row_lookup1 i : (i < act)%nat ->
    (V (adv 16%nat) (S i) * (V (adv 8%nat) i + beta) * (V (adv 9%nat) i + gamma) =
     V (adv 16%nat) i * (V (fixd 9%nat) i * theta + V (adv 6%nat) i + beta) * (V (fixd 10%nat) i * theta + V (fixd 11%nat) i + gamma))%fr /\
    (V (adv 8%nat) i = V (adv 9%nat) i \/ forall k, i = S k -> V (adv 8%nat) i = V (adv 8%nat) k).
  Proof.
    intros Hi. pose proof act_Z as AZ. destruct (ROWS (Z.of_nat i) ltac:(lia)) as (_ & _ & _ & _ & _ & _ & F).
    destruct (F ltac:(lia)) as (_ & _ & _ & _ & F1 & _). clear F. unfold lookup_step in F1. words F1. rewrite !rot_zero, (rot_row _ 1) in F1 by lia.
    replace (Z.of_nat i + 1) with (Z.of_nat (S i)) in F1 by lia. destruct F1 as [F1 F2]. split; [exact F1|].
    destruct F2 as [F2|F2]; [left; exact F2|right]. intros k ->. rewrite rot_row in F2 by lia. replace (Z.of_nat (S k) + -1) with (Z.of_nat k) in F2 by lia. exact F2.
  Qed.
  Lemma row_lookup2 i : (i < act)%nat ->
    (V (adv 17%nat) (S i) * (V (adv 10%nat) i + beta) * (V (adv 11%nat) i + gamma) =
     V (adv 17%nat) i * (fc 18 * theta + V (adv 7%nat) i + beta) * (V (fixd 10%nat) i * theta + V (fixd 11%nat) i + gamma))%fr /\
    (V (adv 10%nat) i = V (adv 11%nat) i \/ forall k, i = S k -> V (adv 10%nat) i = V (adv 10%nat) k).
  Proof.
    intros Hi. pose proof act_Z as AZ. destruct (ROWS (Z.of_nat i) ltac:(lia)) as (_ & _ & _ & _ & _ & _ & F).
    destruct (F ltac:(lia)) as (_ & _ & _ & _ & _ & F1). clear F. unfold lookup_step in F1. words F1. rewrite !rot_zero, (rot_row _ 1) in F1 by lia.
    replace (Z.of_nat i + 1) with (Z.of_nat (S i)) in F1 by lia. destruct F1 as [F1 F2]. split; [exact F1|].
    destruct F2 as [F2|F2]; [left; exact F2|right]. intros k ->. rewrite rot_row in F2 by lia. replace (Z.of_nat (S k) + -1) with (Z.of_nat k) in F2 by lia. exact F2.
  Qed.
End Rows.

(** ** the permutation argument on the rows *)
Definition places : list (nat * nat) := flat_map (fun k => map (pair k) (seq 0 act)) (seq 0 7).
Lemma places_in k i : In (k, i) places <-> (k < 7)%nat /\ (i < act)%nat.
Proof.
  unfold places. rewrite in_flat_map. split.
  - intros (a & Ha & H). apply in_map_iff in H. destruct H as (b & E & Hb). apply pair_equal_spec in E. destruct E as [-> ->].
    apply in_seq in Ha, Hb. lia.
  - intros [Hk Hi]. exists k. split; [apply in_seq; lia|]. apply in_map, in_seq. lia.
Qed.
Lemma places_length : length places = (7 * act)%nat.
Proof. unfold places. cbn [seq flat_map]. rewrite !app_length, !map_length, !seq_length. cbn [length]. lia. Qed.
Lemma prod_places (g : nat * nat -> Fr) : let P k := prod (map (fun i => g (k, i)) (seq 0 act)) in
  prod (map g places) = (P 0%nat * (P 1%nat * (P 2%nat * (P 3%nat * (P 4%nat * (P 5%nat * (P 6%nat * 1)))))))%fr.
Proof.
  unfold places. generalize (seq 0 act). intros l. cbn [seq flat_map]. rewrite !map_app, !prod_app, !map_map. reflexivity.
Qed.

Lemma copies_bad inst (a fixd sigm : nat -> pol) sigma k0 j0 : encodes_sigma sigm sigma -> (k0 < 7)%nat -> usable j0 ->
  value (copied inst a k0) j0 <> value (copied inst a (fst (sigma k0 j0))) (snd (sigma k0 j0)) ->
  exists Bs, (length Bs = 7 * act)%nat /\ forall be, ~ In be Bs ->
  exists Gs, (length Gs <= 14 * act)%nat /\ forall ga, ~ In ga Gs ->
  forall adv th, (forall i, (i < 8)%nat -> adv i = a i) -> ~ (forall j, 0 <= j < dom_n -> row_ok inst adv fixd sigm th be ga j).
Proof.
  intros HS Hk Hj NE. pose proof act_Z as AZ. unfold usable in Hj.
  set (L1 := map (fun '(k, i) => (cv inst a k i, sv sigm k i)) places).
  set (L2 := map (fun '(k, i) => (cv inst a k i, lab k (Z.of_nat i))) places).
  destruct (HS k0 j0 Hk Hj) as (Hk1 & Hj1 & Es). unfold usable in Hj1. set (k1 := fst (sigma k0 j0)) in *. set (j1 := snd (sigma k0 j0)) in *.
  assert (I1 : In (value (copied inst a k0) j0, lab k1 j1) L1).
  { unfold L1. apply in_map_iff. exists (k0, Z.to_nat j0). split; [|apply places_in; lia]. unfold cv, sv. rewrite Z2Nat.id by lia. rewrite Es. reflexivity. }
  assert (I2 : ~ In (value (copied inst a k0) j0, lab k1 j1) L2).
  { unfold L2. intros I. apply in_map_iff in I. destruct I as ([k i] & E & I). apply places_in in I. apply pair_equal_spec in E. destruct E as [E1 E2].
    apply lab_inj in E2; try lia. destruct E2 as [-> E2]. apply NE. rewrite <- E1. unfold cv. rewrite E2. reflexivity. }
  assert (LL : length L1 = length L2) by (unfold L1, L2; rewrite !map_length; reflexivity).
  assert (LP : length L1 = (7 * act)%nat) by (unfold L1; rewrite map_length; apply places_length).
  destruct (perm_few L1 L2 _ _ LL I1 I2) as [Bs [LB HB]]. cbv zeta in HB. exists Bs. split; [lia|]. intros be Hbe.
  destruct (HB be Hbe) as [Gs [LG HG]]. exists Gs. split; [lia|]. intros ga Hga adv th HA ROWS.
  assert (Ec : forall k i, (k < 7)%nat -> cv inst adv k i = cv inst a k i).
  { intros k i Hk'. unfold cv, copied. rewrite !HA by lia. reflexivity. }
  pose proof (row_first inst adv fixd sigm th be ga ROWS) as (Z1 & Z2 & Z3 & Z4 & _).
  pose proof (Forall_inv (row_last inst adv fixd sigm th be ga ROWS)) as ZL. cbv beta in ZL.
  pose proof (row_active inst adv fixd sigm th be ga ROWS) as RA. cbv zeta in RA.
  apply (HG ga Hga _ ZL). unfold L1, L2. rewrite !map_map, !pr_map.
  rewrite (prod_places (fun x => (fst (let '(k, i) := x in (cv inst a k i, sv sigm k i)) + be * snd (let '(k, i) := x in (cv inst a k i, sv sigm k i)) + ga)%fr)).
  rewrite (prod_places (fun x => (fst (let '(k, i) := x in (cv inst a k i, lab k (Z.of_nat i))) + be * snd (let '(k, i) := x in (cv inst a k i, lab k (Z.of_nat i))) + ga)%fr)).
  cbv beta iota zeta. cbn [fst snd].
  set (U := fun k => prod (map (fun i => cv inst a k i + be * sv sigm k i + ga)%fr (seq 0 act))).
  set (D := fun k => prod (map (fun i => cv inst a k i + be * lab k (Z.of_nat i) + ga)%fr (seq 0 act))).
  fold (U 0%nat) (U 1%nat) (U 2%nat) (U 3%nat) (U 4%nat) (U 5%nat) (U 6%nat).
  fold (D 0%nat) (D 1%nat) (D 2%nat) (D 3%nat) (D 4%nat) (D 5%nat) (D 6%nat).
  assert (ED : forall k i, (k < 7)%nat -> (cv inst adv k i + fexp delta (Z.of_nat k) * be * fexp omega (Z.of_nat i) + ga)%fr = (cv inst a k i + be * lab k (Z.of_nat i) + ga)%fr).
  { intros k i Hk'. rewrite Ec by exact Hk'. unfold lab. ring. }
  assert (T2 : forall f k k', (k < 7)%nat -> (k' < 7)%nat -> (forall i, (i < act)%nat ->
      (value f (Z.of_nat (S i)) * ((cv inst adv k i + be * sv sigm k i + ga) * ((cv inst adv k' i + be * sv sigm k' i + ga) * 1)) =
       value f (Z.of_nat i) * ((cv inst adv k i + fexp delta (Z.of_nat k) * be * fexp omega (Z.of_nat i) + ga) * ((cv inst adv k' i + fexp delta (Z.of_nat k') * be * fexp omega (Z.of_nat i) + ga) * 1)))%fr) ->
      (value f (Z.of_nat act) * (U k * U k') = value f (Z.of_nat 0) * (D k * D k'))%fr).
  { intros f k k' Hk' Hk'' H. unfold U, D. rewrite <- !prod_map_mul. apply (telescope (fun i => value f (Z.of_nat i))
      (fun i => (cv inst a k i + be * sv sigm k i + ga) * (cv inst a k' i + be * sv sigm k' i + ga))%fr
      (fun i => (cv inst a k i + be * lab k (Z.of_nat i) + ga) * (cv inst a k' i + be * lab k' (Z.of_nat i) + ga))%fr).
    intros i Hi. specialize (H i Hi). rewrite !ED, !Ec in H by assumption. refine (eq_trans _ (eq_trans H _)); ring. }
  assert (T1 : forall f k, (k < 7)%nat -> (forall i, (i < act)%nat ->
      (value f (Z.of_nat (S i)) * ((cv inst adv k i + be * sv sigm k i + ga) * 1) =
       value f (Z.of_nat i) * ((cv inst adv k i + fexp delta (Z.of_nat k) * be * fexp omega (Z.of_nat i) + ga) * 1))%fr) ->
      (value f (Z.of_nat act) * U k = value f (Z.of_nat 0) * D k)%fr).
  { intros f k Hk' H. unfold U, D. apply (telescope (fun i => value f (Z.of_nat i))
      (fun i => cv inst a k i + be * sv sigm k i + ga)%fr (fun i => cv inst a k i + be * lab k (Z.of_nat i) + ga)%fr).
    intros i Hi. specialize (H i Hi). rewrite !ED, !Ec in H by assumption. refine (eq_trans _ (eq_trans H _)); ring. }
  pose proof (T2 (adv 12%nat) 0%nat 1%nat ltac:(lia) ltac:(lia) (fun i Hi => proj1 (RA i Hi))) as E1.
  pose proof (T2 (adv 13%nat) 2%nat 3%nat ltac:(lia) ltac:(lia) (fun i Hi => proj1 (proj2 (RA i Hi)))) as E2.
  pose proof (T2 (adv 14%nat) 4%nat 5%nat ltac:(lia) ltac:(lia) (fun i Hi => proj1 (proj2 (proj2 (RA i Hi))))) as E3.
  pose proof (T1 (adv 15%nat) 6%nat ltac:(lia) (fun i Hi => proj2 (proj2 (proj2 (RA i Hi))))) as E4.
  rewrite Z1 in E1. rewrite Z2 in E2. rewrite Z3 in E3. rewrite Z4 in E4. clear - E1 E2 E3 E4.
  revert E1 E2 E3 E4. generalize (value (adv 12%nat) (Z.of_nat act)) (value (adv 13%nat) (Z.of_nat act)) (value (adv 14%nat) (Z.of_nat act)) (value (adv 15%nat) (Z.of_nat act)).
  generalize (U 0%nat) (U 1%nat) (U 2%nat) (U 3%nat) (U 4%nat) (U 5%nat) (U 6%nat) (D 0%nat) (D 1%nat) (D 2%nat) (D 3%nat) (D 4%nat) (D 5%nat) (D 6%nat).
  intros u0 u1 u2 u3 u4 u5 u6 d0 d1 d2 d3 d4 d5 d6 z1 z2 z3 z4 E1 E2 E3 E4.
  transitivity ((z4 * u6) * (u4 * u5) * (u2 * u3) * (u0 * u1))%fr; [ring|]. rewrite E4.
  transitivity ((z3 * (u4 * u5)) * d6 * (u2 * u3) * (u0 * u1))%fr; [ring|]. rewrite E3.
  transitivity ((z2 * (u2 * u3)) * (d4 * d5) * d6 * (u0 * u1))%fr; [ring|]. rewrite E2.
  transitivity ((z1 * (u0 * u1)) * (d2 * d3) * (d4 * d5) * d6)%fr; [ring|]. rewrite E1. ring.
Qed.

(** ** the lookup argument on the rows *)
Lemma lookup_bad (tag val : nat -> Fr) (fixd : nat -> pol) j0 : usable j0 ->
  ~ in_table fixd (tag (Z.to_nat j0)) (val (Z.to_nat j0)) ->
  exists Ths, (length Ths = act)%nat /\ forall th, ~ In th Ths -> forall p p' : nat -> Fr,
  exists Bs, (length Bs <= 2 * act)%nat /\ forall be, ~ In be Bs ->
  exists Gs, (length Gs <= 2 * act)%nat /\ forall ga, ~ In ga Gs ->
  forall z : nat -> Fr, z 0%nat = 1%fr -> z act = 0%fr \/ z act = 1%fr -> p 0%nat = p' 0%nat ->
    (forall i, (i < act)%nat ->
      (z (S i) * (p i + be) * (p' i + ga) = z i * (tag i * th + val i + be) *
         (value (fixd 10%nat) (Z.of_nat i) * th + value (fixd 11%nat) (Z.of_nat i) + ga))%fr /\
      (p i = p' i \/ forall k, i = S k -> p i = p k)) -> False.
Proof.
  intros Hj NT. pose proof act_Z as AZ. unfold usable in Hj. set (i0 := Z.to_nat j0) in *. assert (Hi : (i0 < act)%nat) by lia.
  destruct (collide (val i0) (tag i0) (map (fun i => (value (fixd 11%nat) (Z.of_nat i), value (fixd 10%nat) (Z.of_nat i))) (seq 0 act))) as [Ths [LT HT]].
  { intros I. apply in_map_iff in I. destruct I as (i & E & I). apply in_seq in I. apply pair_equal_spec in E. destruct E as [E1 E2]. apply NT.
    exists (Z.of_nat i). split; [unfold usable; lia|]. split; symmetry; assumption. }
  exists Ths. split; [rewrite LT, map_length, seq_length; reflexivity|]. intros th Hth p p'. specialize (HT th Hth). rewrite map_map in HT. cbn [fst snd] in HT.
  set (f := fun i => (tag i * th + val i)%fr). set (t := fun i => (value (fixd 10%nat) (Z.of_nat i) * th + value (fixd 11%nat) (Z.of_nat i))%fr).
  assert (NF : forall i, (i < act)%nat -> f i0 <> t i).
  { intros i Hi' E. apply HT. apply in_map_iff. exists i. split; [|apply in_seq; lia]. transitivity (t i); [unfold t; ring|]. rewrite <- E. unfold f. ring. }
  destruct (fr_dec (p 0%nat) (p' 0%nat)) as [E0|N0].
  2:{ exists []. split; [cbn; lia|]. intros be _. exists []. split; [cbn; lia|]. intros ga _ z _ _ E0. contradiction. }
  assert (DS : forall i, {(S i < act)%nat -> p (S i) = p' (S i) \/ p (S i) = p i} + {~ ((S i < act)%nat -> p (S i) = p' (S i) \/ p (S i) = p i)}).
  { intros i. destruct (fr_dec (p (S i)) (p' (S i))) as [E|N1]; [left; auto|]. destruct (fr_dec (p (S i)) (p i)) as [E|N2]; [left; auto|].
    destruct (lt_dec (S i) act) as [L|L]; [right; intros H; destruct (H L); contradiction|left; intros; contradiction]. }
  destruct (nat_all_dec _ DS act) as [HS|(i & Hi' & NS)].
  2:{ exists []. split; [cbn; lia|]. intros be _. exists []. split; [cbn; lia|]. intros ga _ z _ _ _ HR. apply NS. intros L.
      destruct (HR (S i) L) as [_ [H|H]]; [left; exact H|right; exact (H i eq_refl)]. }
  destruct (lookup_few act p p' f t i0 E0 (fun i L => HS i ltac:(lia) L) Hi NF) as [Bs [LB HB]]. exists Bs. split; [exact LB|]. intros be Hbe.
  destruct (HB be Hbe) as [Gs [LG HG]]. exists Gs. split; [exact LG|]. intros ga Hga z Z0 ZM _ HR. apply (HG ga Hga z Z0 ZM). intros i Hi'. exact (proj1 (HR i Hi')).
Qed.

(** ** every way to violate the statement *)
Lemma usable_row j : usable j -> 0 <= j < dom_n. Proof. unfold usable. lia. Qed.
Lemma in_list_dec (x : Fr) l : {~ In x l} + {~ ~ In x l}.
Proof. destruct (in_dec fr_dec x l); [right; tauto|left; assumption]. Qed.
Lemma imp_dec (A B : Prop) : {A} + {~ A} -> {B} + {~ B} -> {A -> B} + {~ (A -> B)}.
Proof. intros [a|a] [b|b]; [left; tauto|right; tauto|left; tauto|left; tauto]. Qed.
Lemma and_dec (A B : Prop) : {A} + {~ A} -> {B} + {~ B} -> {A /\ B} + {~ (A /\ B)}.
Proof. intros [a|a] [b|b]; [left; tauto|right; tauto|right; tauto|right; tauto]. Qed.
Lemma gates_dec adv fixd j : {gates_hold adv fixd j} + {~ gates_hold adv fixd j}.
Proof. unfold gates_hold. cbv zeta. repeat apply and_dec; try apply imp_dec; try apply fr_dec; apply in_list_dec. Qed.
Lemma table_dec fixd tag v : in_table fixd tag v \/ ~ in_table fixd tag v.
Proof.
  destruct (row_all_dec (fun i => ~ (tag = value (fixd 10%nat) i /\ v = value (fixd 11%nat) i)) (dom_n - 6)) as [A|(i & Hi & N)].
  - intros i. destruct (and_dec _ _ (fr_dec tag (value (fixd 10%nat) i)) (fr_dec v (value (fixd 11%nat) i))); [right; tauto|left; assumption].
  - right. intros (i & Hi & H). exact (A i Hi H).
  - left. exists i. split; [exact Hi|]. destruct (and_dec _ _ (fr_dec tag (value (fixd 10%nat) i)) (fr_dec v (value (fixd 11%nat) i))); [assumption|contradiction].
Qed.
Lemma nat_all_or (P : nat -> Prop) : (forall i, P i \/ ~ P i) -> forall m, (forall i, (i < m)%nat -> P i) \/ (exists i, (i < m)%nat /\ ~ P i).
Proof.
  intros D m. induction m as [|m [IH|(i & Hi & N)]]; [left; lia| |right; exists i; split; [lia|exact N]].
  destruct (D m) as [Y|N]; [left|right; exists m; split; [lia|exact N]]. intros i Hi. destruct (Nat.eq_dec i m) as [->|]; [exact Y|apply IH; lia].
Qed.
Lemma row_all_or (P : Z -> Prop) n : (forall i, P i \/ ~ P i) -> (forall j, 0 <= j < n -> P j) \/ (exists j, 0 <= j < n /\ ~ P j).
Proof.
  intros D. destruct (nat_all_or (fun i => P (Z.of_nat i)) (fun i => D (Z.of_nat i)) (Z.to_nat n)) as [A|(i & Hi & N)].
  - left. intros j Hj. specialize (A (Z.to_nat j) ltac:(lia)). rewrite Z2Nat.id in A by lia. exact A.
  - right. exists (Z.of_nat i). split; [lia|exact N].
Qed.
Lemma not_rows inst adv fixd sigm th be ga : ~ (forall j, 0 <= j < dom_n -> row_ok inst adv fixd sigm th be ga j) ->
  exists j, 0 <= j < dom_n /\ ~ row_ok inst adv fixd sigm th be ga j.
Proof.
  intros N. destruct (row_all_or (fun j => 0 <= j < dom_n -> row_ok inst adv fixd sigm th be ga j) dom_n) as [A|(j & Hj & K)].
  - intros j. destruct (Z_le_dec 0 j) as [L|L]; [|left; lia]. destruct (Z_lt_dec j dom_n) as [G|G]; [|left; lia].
    destruct (row_ok_dec inst adv fixd sigm th be ga j ltac:(lia)) as [Y|Y]; [left; auto|right; auto].
  - exfalso. apply N. intros j Hj. exact (A j Hj Hj).
  - exists j. split; [exact Hj|]. intros R. apply K. intros _. exact R.
Qed.

Lemma plonk_bad inst (a fixd sigm : nat -> pol) sigma : encodes_sigma sigm sigma -> ~ satisfies inst a fixd sigma ->
  exists Ths, Z.of_nat (length Ths) < dom_n /\ forall th, ~ In th Ths ->
  forall p : nat -> pol,
  exists Bs, Z.of_nat (length Bs) < 7 * dom_n /\ forall be, ~ In be Bs ->
  exists Gs, Z.of_nat (length Gs) < 14 * dom_n /\ forall ga, ~ In ga Gs ->
  forall q : nat -> pol, exists j, 0 <= j < dom_n /\ ~ row_ok inst (join a p q) fixd sigm th be ga j.
Proof.
  intros HS NS. pose proof act_Z as AZ. pose proof dom_6 as D6.
  assert (J8 : forall p q i, (i < 8)%nat -> join a p q i = a i) by (intros p q i Hi; unfold join; destruct (Nat.ltb_spec i 8); [reflexivity|lia]).
  destruct (row_all_dec (gates_hold a fixd) dom_n (gates_dec a fixd)) as [GA|(j & Hj & NG)].
  2:{ exists []. split; [cbn [length]; lia|]. intros th _ p. exists []. split; [cbn [length]; lia|]. intros be _. exists []. split; [cbn [length]; lia|]. intros ga _ q.
      exists j. split; [exact Hj|]. intros R. apply NG. exact (row_gates inst (join a p q) fixd sigm th be ga j (proj1 Hj) R). }
  destruct (nat_all_or (fun k => forall j, usable j -> value (copied inst a k) j = value (copied inst a (fst (sigma k j))) (snd (sigma k j)))) with (m := 7%nat) as [CA|(k & Hk & NC)].
  { intros k. destruct (row_all_dec (fun j => value (copied inst a k) j = value (copied inst a (fst (sigma k j))) (snd (sigma k j))) (dom_n - 6)) as [A|E];
      [intros; apply fr_dec|left; intros j Hj; exact (A j Hj)|right; intros H; destruct E as (j & Hj & N); exact (N (H j Hj))]. }
  2:{ assert (E : exists j, usable j /\ value (copied inst a k) j <> value (copied inst a (fst (sigma k j))) (snd (sigma k j))).
      { destruct (row_all_dec (fun j => value (copied inst a k) j = value (copied inst a (fst (sigma k j))) (snd (sigma k j))) (dom_n - 6)) as [A|E];
          [intros; apply fr_dec|exfalso; apply NC; intros j Hj; exact (A j Hj)|exact E]. }
      destruct E as (j & Hj & NE). destruct (copies_bad inst a fixd sigm sigma k j HS Hk Hj NE) as [Bs [LB HB]].
      exists []. split; [cbn [length]; lia|]. intros th _ p. exists Bs. split; [lia|]. intros be Hbe. destruct (HB be Hbe) as [Gs [LG HG]].
      exists Gs. split; [lia|]. intros ga Hga q. apply not_rows, (HG ga Hga). apply J8. }
  assert (LK : exists j, usable j /\ (~ in_table fixd (value (fixd 9%nat) j) (value (a 6%nat) j) \/ ~ in_table fixd (fc 18) (value (a 7%nat) j))).
  { destruct (row_all_or (fun j => in_table fixd (value (fixd 9%nat) j) (value (a 6%nat) j) /\ in_table fixd (fc 18) (value (a 7%nat) j)) (dom_n - 6)) as [A|(j & Hj & N)].
    - intros j. destruct (table_dec fixd (value (fixd 9%nat) j) (value (a 6%nat) j)), (table_dec fixd (fc 18) (value (a 7%nat) j)); tauto.
    - exfalso. apply NS. split; [exact GA|]. split; [exact (fun k j Hk => CA k Hk j)|exact A].
    - exists j. split; [exact Hj|]. destruct (table_dec fixd (value (fixd 9%nat) j) (value (a 6%nat) j)); tauto. }
  destruct LK as (j & Hj & [NT|NT]).
  - destruct (lookup_bad (fun i => value (fixd 9%nat) (Z.of_nat i)) (fun i => value (a 6%nat) (Z.of_nat i)) fixd j Hj) as [Ths [LT HT]].
    { cbv beta. rewrite Z2Nat.id by (unfold usable in Hj; lia). exact NT. }
    exists Ths. split; [lia|]. intros th Hth p.
    destruct (HT th Hth (fun i => value (p 8%nat) (Z.of_nat i)) (fun i => value (p 9%nat) (Z.of_nat i))) as [Bs [LB HB]]. exists Bs. split; [lia|]. intros be Hbe.
    destruct (HB be Hbe) as [Gs [LG HG]]. exists Gs. split; [lia|]. intros ga Hga q. apply not_rows. intros ROWS.
    destruct (row_first inst (join a p q) fixd sigm th be ga ROWS) as (_ & _ & _ & _ & F1 & F2 & _).
    pose proof (row_last inst (join a p q) fixd sigm th be ga ROWS) as L. apply Forall_cons_iff in L. destruct L as [_ L]. apply Forall_cons_iff in L. destruct L as [L _].
    apply (HG ga Hga (fun i => value (q 16%nat) (Z.of_nat i)) F1 L F2). intros i Hi. exact (row_lookup1 inst (join a p q) fixd sigm th be ga ROWS i Hi).
  - destruct (lookup_bad (fun _ => fc 18) (fun i => value (a 7%nat) (Z.of_nat i)) fixd j Hj) as [Ths [LT HT]].
    { cbv beta. rewrite Z2Nat.id by (unfold usable in Hj; lia). exact NT. }
    exists Ths. split; [lia|]. intros th Hth p.
    destruct (HT th Hth (fun i => value (p 10%nat) (Z.of_nat i)) (fun i => value (p 11%nat) (Z.of_nat i))) as [Bs [LB HB]]. exists Bs. split; [lia|]. intros be Hbe.
    destruct (HB be Hbe) as [Gs [LG HG]]. exists Gs. split; [lia|]. intros ga Hga q. apply not_rows. intros ROWS.
    destruct (row_first inst (join a p q) fixd sigm th be ga ROWS) as (_ & _ & _ & _ & _ & _ & F1 & F2).
    pose proof (row_last inst (join a p q) fixd sigm th be ga ROWS) as L. do 2 (apply Forall_cons_iff in L; destruct L as [_ L]). apply Forall_cons_iff in L. destruct L as [L _].
    apply (HG ga Hga (fun i => value (q 17%nat) (Z.of_nat i)) F1 L F2). intros i Hi. exact (row_lookup2 inst (join a p q) fixd sigm th be ga ROWS i Hi).
Qed.
