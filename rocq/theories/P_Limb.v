(** Checking point operations on machine integers: coordinates are lists of nine 29-bit limbs, slopes and
    quotients are supplied.  Only used to exhibit concrete accepted runs. *)
From Coq Require Import ZArith Bool List Lia Uint63 Ring Field.
From Verif Require Import Params Curve NumThy FField FpField P_Curve SpecCurve SpecMisc SpecVerify.
Import ListNotations.
Open Scope Z_scope.
Notation "'W63'" := 9223372036854775808.

Lemma wB63 : wB = W63. Proof. reflexivity. Qed.
Lemma to_Z_range i : 0 <= to_Z i < W63. Proof. rewrite <- wB63. apply to_Z_bounded. Qed.

(** ** Limb lists *)
Definition base : Z := 536870912.
Fixpoint lval (l : list int) : Z := match l with [] => 0 | x :: t => to_Z x + base * lval t end.
Definition bounded (n : Z) (l : list int) : Prop := Forall (fun x => to_Z x <= n) l.

Fixpoint scale (a : int) (l : list int) : list int := match l with [] => [] | x :: t => (a * x)%uint63 :: scale a t end.
Fixpoint ladd (k l : list int) : list int :=
  match k, l with [], _ => l | _, [] => k | x :: k', y :: l' => (x + y)%uint63 :: ladd k' l' end.
Fixpoint lmul (k l : list int) : list int := match k with [] => [] | x :: k' => ladd (scale x l) (0%uint63 :: lmul k' l) end.
Fixpoint norm (c : int) (l : list int) : list int :=
  match l with [] => [c] | x :: t => let s := (c + x)%uint63 in (s land 536870911)%uint63 :: norm (s >> 29)%uint63 t end.
Fixpoint zeros (l : list int) : bool := match l with [] => true | x :: t => if eqb x 0 then zeros t else false end.
Fixpoint leqb (k l : list int) : bool :=
  match k, l with
  | [], _ => zeros l
  | _, [] => zeros k
  | x :: k', y :: l' => if eqb x y then leqb k' l' else false
  end.
Definition eqv (k l : list int) : bool := leqb (norm 0 k) (norm 0 l).
(** lexicographic comparison, for normalised lists of the same length *)
Fixpoint llt (k l : list int) : comparison :=
  match k, l with
  | x :: k', y :: l' => match llt k' l' with Eq => if ltb x y then Lt else if eqb x y then Eq else Gt | c => c end
  | _, _ => Eq
  end.
Fixpoint digits (l : list int) : bool := match l with [] => true | x :: t => if leb x 536870911 then digits t else false end.
Fixpoint len (l : list int) : int := match l with [] => 0%uint63 | _ :: t => (1 + len t)%uint63 end.

Lemma lval_nonneg l : 0 <= lval l.
Proof. induction l as [|x t IH]; cbn [lval]; [lia|]. pose proof (to_Z_range x). unfold base. lia. Qed.
Lemma bounded_mono m n l : m <= n -> bounded m l -> bounded n l.
Proof. intros H. unfold bounded. apply Forall_impl. lia. Qed.

Lemma ble m n l : bounded m l -> m <= n -> bounded n l.
Proof. intros H L. exact (bounded_mono m n l L H). Qed.

Lemma scale_ok a l m n : to_Z a <= m -> bounded n l -> 0 <= n -> m * n < W63 ->
  bounded (m * n) (scale a l) /\ lval (scale a l) = to_Z a * lval l.
Proof.
  intros Ha H Hn Hw. induction H as [|x t Hx Ht [IH1 IH2]]; cbn [scale lval]; [split; [constructor | lia]|].
  pose proof (to_Z_range x). pose proof (to_Z_range a).
  assert (E : to_Z (a * x)%uint63 = to_Z a * to_Z x).
  { rewrite mul_spec, wB63. apply Z.mod_small. nia. }
  split; [constructor; [rewrite E; nia | exact IH1]|]. rewrite E, IH2. unfold base. ring.
Qed.
Lemma ladd_ok m n : m + n < W63 -> 0 <= m -> 0 <= n -> forall k l, bounded m k -> bounded n l ->
  bounded (m + n) (ladd k l) /\ lval (ladd k l) = lval k + lval l.
Proof.
  intros Hw Hm Hn k l Hk. revert l. induction Hk as [|x t Hx Ht IH]; intros l Hl; cbn [ladd].
  - cbn [lval]. split; [apply (bounded_mono n); [lia | exact Hl] | lia].
  - destruct Hl as [|y u Hy Hu]; cbn [lval].
    + split; [apply (bounded_mono m); [lia | constructor; assumption] | lia].
    + pose proof (to_Z_range x). pose proof (to_Z_range y).
      assert (E : to_Z (x + y)%uint63 = to_Z x + to_Z y) by (rewrite add_spec, wB63; apply Z.mod_small; lia).
      destruct (IH u Hu) as [I1 I2]. split; [constructor; [rewrite E; lia | exact I1]|]. rewrite E, I2. unfold base. ring.
Qed.
Lemma ladd_b m n k l : bounded m k -> bounded n l -> m + n < W63 -> 0 <= m -> 0 <= n ->
  bounded (m + n) (ladd k l) /\ lval (ladd k l) = lval k + lval l.
Proof. intros Hk Hl Hw Hm Hn. exact (ladd_ok m n Hw Hm Hn k l Hk Hl). Qed.
Lemma lmul_ok m n l : 0 <= m -> 0 <= n -> bounded n l -> forall k, bounded m k -> Z.of_nat (length k) * (m * n) < W63 ->
  bounded (Z.of_nat (length k) * (m * n)) (lmul k l) /\ lval (lmul k l) = lval k * lval l.
Proof.
  intros Hm Hn Hl k Hk. induction Hk as [|x t Hx Ht IH]; intros Hw; cbn [lmul lval length] in *; [split; [constructor | lia]|].
  rewrite Nat2Z.inj_succ in *. assert (P : 0 <= m * n) by nia.
  destruct IH as [I1 I2]; [nia|].
  destruct (scale_ok x l m n Hx Hl Hn ltac:(nia)) as [S1 S2].
  assert (B0 : bounded (Z.of_nat (length t) * (m * n)) (0%uint63 :: lmul t l)).
  { constructor; [rewrite to_Z_0; nia | exact I1]. }
  destruct (ladd_ok (m * n) (Z.of_nat (length t) * (m * n)) ltac:(nia) P ltac:(nia) _ _ S1 B0) as [A1 A2].
  split; [apply (bounded_mono (m * n + Z.of_nat (length t) * (m * n))); [nia | exact A1]|].
  rewrite A2, S2. cbn [lval]. rewrite to_Z_0, I2. ring.
Qed.
Definition top : Z := 9223371967635312640.
Lemma norm_ok l : forall c, to_Z c <= 34359738368 -> bounded top l ->
  bounded 34359738368 (norm c l) /\ lval (norm c l) = to_Z c + lval l.
Proof.
  unfold top. induction l as [|x t IH]; intros c Hc H; cbn [norm lval]; [split; [constructor; [exact Hc | constructor] | lia]|].
  inversion H as [|? ? Hx Ht]; subst.
  pose proof (to_Z_range x). pose proof (to_Z_range c).
  assert (E : to_Z (c + x)%uint63 = to_Z c + to_Z x) by (rewrite add_spec, wB63; apply Z.mod_small; lia).
  pose proof (to_Z_range (c + x)%uint63) as R. cbv zeta. set (s := (c + x)%uint63) in *. clearbody s.
  assert (S : to_Z (s >> 29)%uint63 = to_Z s / base) by (rewrite lsr_spec; reflexivity).
  assert (L : to_Z (s land 536870911)%uint63 = to_Z s mod base).
  { rewrite land_spec'. change (to_Z 536870911) with (Z.ones 29). rewrite Z.land_ones by lia. reflexivity. }
  pose proof (Z.div_mod (to_Z s) base ltac:(unfold base; lia)) as D.
  pose proof (Z.mod_pos_bound (to_Z s) base ltac:(unfold base; lia)) as D2.
  assert (C : to_Z s / base <= 34359738368) by (apply Z.div_le_upper_bound; unfold base; lia).
  destruct (IH (s >> 29)%uint63) as [I1 I2]; [rewrite S; exact C | exact Ht |].
  split; [constructor; [rewrite L; unfold base in *; lia | exact I1]|].
  rewrite I2, S, L. unfold base in *. lia.
Qed.
Lemma zeros_ok l : zeros l = true -> lval l = 0.
Proof.
  induction l as [|x t IH]; cbn [zeros lval]; [reflexivity|]. destruct (eqb x 0) eqn:E; [|discriminate].
  apply eqb_correct in E. subst x. intros H. rewrite (IH H), to_Z_0. reflexivity.
Qed.
Lemma leqb_ok : forall k l, leqb k l = true -> lval k = lval l.
Proof.
  induction k as [|x k IH]; intros [|y l] H; cbn [leqb lval] in *.
  - reflexivity.
  - symmetry. apply (zeros_ok _ H).
  - apply (zeros_ok _ H).
  - destruct (eqb x y) eqn:E; [|discriminate]. apply eqb_correct in E. subst y. rewrite (IH l H). reflexivity.
Qed.
Lemma eqv_ok k l : bounded top k -> bounded top l -> eqv k l = true -> lval k = lval l.
Proof.
  intros Hk Hl H. unfold eqv in H. apply leqb_ok in H.
  assert (Z0 : to_Z 0%uint63 <= 34359738368) by (rewrite to_Z_0; lia).
  rewrite (proj2 (norm_ok k _ Z0 Hk)), (proj2 (norm_ok l _ Z0 Hl)) in H. lia.
Qed.
Lemma digits_ok l : digits l = true -> bounded 536870911 l.
Proof.
  induction l as [|x t IH]; cbn [digits]; intros H; [constructor|]. destruct (leb x 536870911) eqn:E; [|discriminate].
  apply leb_spec in E. constructor; [exact E | apply IH, H].
Qed.
Lemma llt_ok : forall k l, length k = length l -> bounded 536870911 k -> bounded 536870911 l ->
  match llt k l with Lt => lval k < lval l | Eq => lval k = lval l | Gt => lval l < lval k end.
Proof.
  induction k as [|x k IH]; intros [|y l] L Hk Hl; try discriminate L; cbn [llt lval]; [reflexivity|].
  inversion Hk as [|? ? Hx Hk']; inversion Hl as [|? ? Hy Hl']; subst. specialize (IH l (eq_add_S _ _ L) Hk' Hl').
  pose proof (to_Z_range x). pose proof (to_Z_range y).
  destruct (llt k l).
  - destruct (ltb x y) eqn:E1; [apply ltb_spec in E1; rewrite IH; lia|].
    assert (N : ~ to_Z x < to_Z y) by (intros C; apply ltb_spec in C; congruence).
    destruct (eqb x y) eqn:E2; [apply eqb_correct in E2; subst; rewrite IH; reflexivity|].
    assert (N2 : to_Z x <> to_Z y).
    { intros C. apply to_Z_inj in C. subst. rewrite eqb_refl in E2. discriminate. }
    rewrite IH. lia.
  - unfold base. lia.
  - unfold base. lia.
Qed.

(** ** Elements and points *)
Definition elem (l : list int) : Prop := length l = 9%nat /\ bounded 536870911 l.
Definition elemb (l : list int) : bool :=
  match l with [_; _; _; _; _; _; _; _; _] => digits l | _ => false end.
Lemma elemb_ok l : elemb l = true -> elem l.
Proof.
  intros H. assert (L : length l = 9%nat).
  { do 9 (destruct l as [|? l]; [discriminate H|]). destruct l; [reflexivity | discriminate H]. }
  split; [exact L|]. apply digits_ok. do 9 (destruct l as [|? l]; [discriminate L|]). destruct l; [exact H | discriminate L].
Qed.

Fixpoint limbs (n : nat) (z : Z) : list int :=
  match n with O => [] | S m => of_Z (z mod base) :: limbs m (z / base) end.
Definition pl : list int := Eval vm_compute in limbs 9 p_mod.
Definition p3 : list int := Eval vm_compute in limbs 18 (3 * p_mod * p_mod).
Definition p1c : list int := Eval vm_compute in limbs 9 (3 * p_mod).
Lemma pl_elem : elem pl. Proof. apply elemb_ok. vm_compute. reflexivity. Qed.
Lemma p3_b : bounded 536870911 p3. Proof. apply digits_ok. vm_compute. reflexivity. Qed.
Lemma p1c_b : bounded 536870911 p1c. Proof. apply digits_ok. vm_compute. reflexivity. Qed.
Lemma pl_val : lval pl = p_mod. Proof. vm_compute. reflexivity. Qed.
Lemma p3_val : lval p3 = 3 * p_mod * p_mod. Proof. vm_compute. reflexivity. Qed.
Lemma p1c_val : lval p1c = 3 * p_mod. Proof. vm_compute. reflexivity. Qed.

Definition lpt := (list int * list int)%type.
Definition topt (P : lpt) : pt := Aff (lval (fst P)) (lval (snd P)).
Definition good (P : lpt) : Prop := elem (fst P) /\ elem (snd P) /\ lval (fst P) < p_mod /\ lval (snd P) < p_mod.

(** supplied values of one operation: slope, two differences, three quotients, result *)
Record wit := { w_l : list int; w_d : list int; w_f : list int; w_q1 : list int; w_q2 : list int; w_q3 : list int; w_r : lpt }.
Definition ltp (l : list int) : bool := match llt l pl with Lt => true | _ => false end.
(** z = x - y modulo p *)
Definition subp (z x y : list int) : bool := if eqv (ladd z y) x then true else eqv (ladd z y) (ladd x pl).
(** the line of slope l through (x1,y1), abscissa x2, meets the curve in the reflection of w_r *)
Definition line_chk (x1 y1 x2 : list int) (w : wit) : bool :=
  let (x3, y3) := w_r w in
  elemb (w_l w) && elemb (w_f w) && elemb (w_q2 w) && elemb (w_q3 w) && elemb x3 && elemb y3 && ltp x3 && ltp y3 &&
  eqv (ladd (lmul (w_l w) (w_l w)) p1c) (ladd (lmul (w_q2 w) pl) (ladd x1 (ladd x2 x3))) &&
  subp (w_f w) x1 x3 &&
  eqv (ladd (lmul (w_l w) (w_f w)) p1c) (ladd (lmul (w_q3 w) pl) (ladd y1 y3)).
Definition add_chk (P Q : lpt) (w : wit) : bool :=
  negb (leqb (fst P) (fst Q)) && negb (leqb (fst Q) (fst P)) && elemb (w_d w) && elemb (w_q1 w) && subp (w_d w) (fst Q) (fst P) &&
  eqv (ladd (lmul (w_l w) (w_d w)) (ladd (snd P) p1c)) (ladd (lmul (w_q1 w) pl) (snd Q)) &&
  line_chk (fst P) (snd P) (fst Q) w.
Definition dbl_chk (P : lpt) (w : wit) : bool :=
  negb (zeros (snd P)) && elemb (w_q1 w) &&
  eqv (ladd (lmul (w_l w) (ladd (snd P) (snd P))) p3)
      (ladd (lmul (w_q1 w) pl) (let s := norm 0 (lmul (fst P) (fst P)) in ladd s (ladd s s))) &&
  line_chk (fst P) (snd P) (fst P) w.

Ltac bd := unfold top; lia.
Lemma mul_el k l : elem k -> elem l -> bounded 2594073375701729289 (lmul k l) /\ lval (lmul k l) = lval k * lval l.
Proof.
  intros [Lk Hk] [_ Hl]. destruct (lmul_ok 536870911 536870911 l ltac:(lia) ltac:(lia) Hl k Hk) as [A B]; [rewrite Lk; lia|].
  rewrite Lk in A. split; [(refine (ble _ _ _ A _); lia) | exact B].
Qed.
Lemma add_el n k l : bounded 536870911 k -> bounded n l -> 0 <= n <= 4611686017353646080 ->
  bounded (536870911 + n) (ladd k l) /\ lval (ladd k l) = lval k + lval l.
Proof. intros Hk Hl Hn. apply ladd_ok; assumption || lia. Qed.
Lemma fq_p : fq p_mod = 0%fp. Proof. apply fq_0. apply Z_mod_same_full. Qed.
Lemma sub_el z x y : elem z -> elem x -> elem y -> subp z x y = true -> fq (lval z) = (fq (lval x) - fq (lval y))%fp.
Proof.
  intros [_ Hz] [_ Hx] [_ Hy] H. unfold subp in H.
  destruct (add_el 536870911 z y Hz Hy ltac:(lia)) as [A1 A2].
  destruct (add_el 536870911 x pl Hx (proj2 pl_elem) ltac:(lia)) as [B1 B2].
  assert (E : exists c, lval z = lval x - lval y + c * p_mod).
  { destruct (eqv (ladd z y) x) eqn:E.
    - apply eqv_ok in E; [|(refine (ble _ _ _ A1 _); bd) | (refine (ble _ _ _ Hx _); bd)].
      exists 0. lia.
    - apply eqv_ok in H; [|(refine (ble _ _ _ A1 _); bd) | (refine (ble _ _ _ B1 _); bd)].
      exists 1. rewrite pl_val in B2. lia. }
  destruct E as [c E]. rewrite E. rewrite fq_add, fq_mul, fq_sub, fq_p.
  ring.
Qed.
Lemma elem_top l : elem l -> bounded 536870911 l. Proof. intros [_ H]. exact H. Qed.

Lemma ltp_ok l : elem l -> ltp l = true -> lval l < p_mod.
Proof.
  intros [L H] E. unfold ltp in E. pose proof (llt_ok l pl ltac:(rewrite L; reflexivity) H (proj2 pl_elem)) as C.
  destruct (llt l pl); try discriminate. rewrite pl_val in C. exact C.
Qed.

Lemma line_ok x1 y1 x2 w s : elem x1 -> elem y1 -> elem x2 -> line_chk x1 y1 x2 w = true -> fq s = fq (lval (w_l w)) ->
  elem (w_l w) /\ good (w_r w) /\ line_pt s (lval x1) (lval y1) (lval x2) = topt (w_r w).
Proof.
  intros E1 E2 E3 H Hs. unfold line_chk in H. destruct (w_r w) as [x3 y3] eqn:ER.
  rewrite !andb_true_iff in H.
  destruct H as ((((((((((H1 & H2) & H3) & H4) & H5) & H6) & H7) & H8) & H9) & H10) & H11).
  apply elemb_ok in H1, H2, H3, H4, H5, H6. apply ltp_ok in H7; [|exact H5]. apply ltp_ok in H8; [|exact H6].
  split; [exact H1|]. split; [exact (conj H5 (conj H6 (conj H7 H8)))|].
  unfold topt, line_pt. cbn [fst snd]. cbv zeta.
  destruct (mul_el _ _ H1 H1) as [M1 V1]. destruct (mul_el _ _ H3 pl_elem) as [M2 V2].
  destruct (mul_el _ _ H1 H2) as [M3 V3]. destruct (mul_el _ _ H4 pl_elem) as [M4 V4].
  destruct (ladd_b _ _ _ _ M1 p1c_b ltac:(lia) ltac:(lia) ltac:(lia)) as [A1 W1].
  destruct (add_el _ _ _ (elem_top _ E3) (elem_top _ H5) ltac:(lia)) as [A2 W2].
  destruct (add_el _ _ _ (elem_top _ E1) A2 ltac:(lia)) as [A3 W3].
  destruct (ladd_b _ _ _ _ M2 A3 ltac:(lia) ltac:(lia) ltac:(lia)) as [A4 W4].
  apply eqv_ok in H9; [|(refine (ble _ _ _ A1 _); bd) | (refine (ble _ _ _ A4 _); bd)].
  destruct (ladd_b _ _ _ _ M3 p1c_b ltac:(lia) ltac:(lia) ltac:(lia)) as [A5 W5].
  destruct (add_el _ _ _ (elem_top _ E2) (elem_top _ H6) ltac:(lia)) as [A6 W6].
  destruct (ladd_b _ _ _ _ M4 A6 ltac:(lia) ltac:(lia) ltac:(lia)) as [A7 W7].
  apply eqv_ok in H11; [|(refine (ble _ _ _ A5 _); bd) | (refine (ble _ _ _ A7 _); bd)].
  apply sub_el in H10; try assumption.
  rewrite W1, W4, W3, W2, V1, V2, p1c_val, pl_val in H9. rewrite W5, W7, W6, V3, V4, p1c_val, pl_val in H11.
  pose proof (lval_nonneg x3). pose proof (lval_nonneg y3).
  apply (f_equal fq) in H9. rewrite !fq_add, !fq_mul, fq_p in H9.
  apply (f_equal fq) in H11. rewrite !fq_add, !fq_mul, fq_p, H10 in H11.
  assert (X : psub_mod (s * s) (lval x1 + lval x2) = lval x3).
  { apply fq_inj; [apply Z.mod_pos_bound; reflexivity | lia |]. rewrite fq_psub, fq_mul, fq_add, Hs.
    transitivity (fq (lval (w_l w)) * fq (lval (w_l w)) + fq 3 * 0 - (fq (lval x1) + fq (lval x2)))%fp; [ring|]. rewrite H9. ring. }
  rewrite X. f_equal.
  apply fq_inj; [apply Z.mod_pos_bound; reflexivity | lia |]. rewrite fq_psub, fq_mul, fq_sub, Hs.
  transitivity (fq (lval (w_l w)) * (fq (lval x1) - fq (lval x3)) + fq 3 * 0 - fq (lval y1))%fp; [ring|]. rewrite H11. ring.
Qed.

Lemma leqb_neq k l : elem k -> elem l -> leqb k l = false -> lval k <> lval l.
Proof.
  intros [Lk Hk] [Ll Hl] H E. assert (C : leqb k l = true); [|congruence]. clear H.
  rewrite <- Ll in Lk. clear Ll. revert l Lk Hl E. induction Hk as [|x k Hx Hk IH]; intros [|y l] L Hl E; try discriminate L; [reflexivity|].
  inversion Hl as [|? ? Hy Hl']; subst. cbn [leqb lval] in *. pose proof (to_Z_range x). pose proof (to_Z_range y).
  assert (EQ : to_Z x = to_Z y /\ lval k = lval l) by (unfold base in E; lia).
  destruct EQ as [E1 E2]. apply to_Z_inj in E1. subst y. rewrite eqb_refl. apply IH; auto.
Qed.
Lemma zeros_neq l : zeros l = false -> lval l <> 0.
Proof.
  intros H E. assert (C : zeros l = true); [|congruence]. clear H. induction l as [|x t IH]; [reflexivity|].
  cbn [zeros lval] in *. pose proof (to_Z_range x). pose proof (lval_nonneg t).
  assert (EQ : to_Z x = to_Z 0%uint63 /\ lval t = 0) by (rewrite to_Z_0; unfold base in E; lia).
  destruct EQ as [E1 E2]. apply to_Z_inj in E1. subst x. rewrite eqb_refl. apply IH, E2.
Qed.

Lemma fq_div_eq a b l : fq b <> 0%fp -> (fq l * fq b)%fp = fq a -> fq (pdiv_mod a b) = fq l.
Proof. intros Hb H. rewrite fq_div, <- H. field. exact Hb. Qed.

Lemma add_ok P Q w : good P -> good Q -> add_chk P Q w = true -> good (w_r w) /\ padd (topt P) (topt Q) = topt (w_r w).
Proof.
  destruct P as [x1 y1], Q as [x2 y2]. intros (G1 & G2 & G3 & G4) (K1 & K2 & K3 & K4) H. cbn [fst snd] in *.
  unfold add_chk in H. cbn [fst snd] in H. rewrite !andb_true_iff in H. destruct H as ((((((H1 & _) & H2) & H3) & H4) & H5) & H6).
  apply negb_true_iff in H1. apply leqb_neq in H1; try assumption. apply elemb_ok in H2, H3.
  apply sub_el in H4; try assumption.
  assert (N : fq (lval x2 - lval x1) <> 0%fp).
  { pose proof (lval_nonneg x1). pose proof (lval_nonneg x2). rewrite fq_sub. intros C.
    apply (fq_neq (lval x2) (lval x1)); try lia.
    transitivity (fq (lval x2) - fq (lval x1) + fq (lval x1))%fp; [ring | rewrite C; ring]. }
  assert (LL : elem (w_l w)).
  { unfold line_chk in H6. destruct (w_r w). rewrite !andb_true_iff in H6. apply elemb_ok. tauto. }
  assert (S : fq (pdiv_mod (lval y2 - lval y1) (lval x2 - lval x1)) = fq (lval (w_l w))).
  { apply fq_div_eq; [exact N|]. rewrite !fq_sub.
    destruct (mul_el _ _ LL H2) as [M1 V1]. destruct (mul_el _ _ H3 pl_elem) as [M2 V2].
    destruct (add_el _ _ _ (elem_top _ G2) p1c_b ltac:(lia)) as [A1 W1].
    destruct (ladd_b _ _ _ _ M1 A1 ltac:(lia) ltac:(lia) ltac:(lia)) as [A2 W2].
    destruct (ladd_b _ _ _ _ M2 (elem_top _ K2) ltac:(lia) ltac:(lia) ltac:(lia)) as [A3 W3].
    apply eqv_ok in H5; [|(refine (ble _ _ _ A2 _); bd) | (refine (ble _ _ _ A3 _); bd)].
    rewrite W2, W1, W3, V1, V2, p1c_val, pl_val in H5. apply (f_equal fq) in H5. rewrite !fq_add, !fq_mul, fq_p, H4 in H5.
    transitivity (fq (lval (w_l w)) * (fq (lval x2) - fq (lval x1)) + (fq (lval y1) + fq 3 * 0) - fq (lval y1))%fp; [ring|]. rewrite H5. ring. }
  destruct (line_ok x1 y1 x2 w _ G1 G2 K1 H6 S) as (_ & GR & E). split; [exact GR|].
  unfold topt at 1 2. cbn [fst snd padd]. destruct (Z.eqb_spec (lval x1) (lval x2)); [contradiction | exact E].
Qed.

Lemma p_odd2 : fq 2 <> 0%fp. Proof. apply fq_n0; [|lia]. split; [lia | vm_compute; reflexivity]. Qed.

Lemma dbl_ok P w : good P -> dbl_chk P w = true -> good (w_r w) /\ padd (topt P) (topt P) = topt (w_r w).
Proof.
  destruct P as [x1 y1]. intros (G1 & G2 & G3 & G4) H. cbn [fst snd] in *.
  unfold dbl_chk in H. cbn [fst snd] in H. rewrite !andb_true_iff in H. destruct H as (((H1 & H2) & H3) & H4).
  apply negb_true_iff in H1. apply zeros_neq in H1. apply elemb_ok in H2.
  assert (LL : elem (w_l w)).
  { unfold line_chk in H4. destruct (w_r w). rewrite !andb_true_iff in H4. apply elemb_ok. tauto. }
  assert (N : fq (2 * lval y1) <> 0%fp).
  { rewrite fq_mul. pose proof (lval_nonneg y1). intros C. destruct (Z.eqb_spec (lval y1) 0); [contradiction|].
    apply (fmul_eq0 p_mod p_gt1 prime_p) in C. destruct C as [C|C]; [exact (p_odd2 C)|]. revert C. apply fq_n0; lia. }
  assert (S : fq (pdiv_mod (3 * lval x1 * lval x1) (2 * lval y1)) = fq (lval (w_l w))).
  { apply fq_div_eq; [exact N|]. rewrite !fq_mul.
    destruct (add_el _ _ _ (elem_top _ G2) (elem_top _ G2) ltac:(lia)) as [A1 W1].
    destruct (lmul_ok 536870911 (536870911 + 536870911) _ ltac:(lia) ltac:(lia) A1 (w_l w) (elem_top _ LL)) as [A2 W2]; [rewrite (proj1 LL); lia|].
    rewrite (proj1 LL) in A2.
    destruct (ladd_b _ _ _ _ A2 p3_b ltac:(lia) ltac:(lia) ltac:(lia)) as [A3 W3].
    destruct (mul_el _ _ H2 pl_elem) as [M2 V2].
    destruct (mul_el _ _ G1 G1) as [M4 V4].
    assert (Z0 : to_Z 0%uint63 <= 34359738368) by (rewrite to_Z_0; lia).
    destruct (norm_ok _ _ Z0 (ble _ top _ M4 ltac:(bd))) as [N1 N2]. rewrite to_Z_0, V4 in N2.
    destruct (ladd_b _ _ _ _ N1 N1 ltac:(lia) ltac:(lia) ltac:(lia)) as [A4 W4].
    destruct (ladd_b _ _ _ _ N1 A4 ltac:(lia) ltac:(lia) ltac:(lia)) as [A5 W5].
    destruct (ladd_b _ _ _ _ M2 A5 ltac:(lia) ltac:(lia) ltac:(lia)) as [A6 W6].
    cbv zeta in H3.
    apply eqv_ok in H3; [|(refine (ble _ _ _ A3 _); bd) | (refine (ble _ _ _ A6 _); bd)].
    rewrite W3, W2, W1, W6, W5, W4, N2, V2, p3_val, pl_val in H3.
    apply (f_equal fq) in H3. repeat (rewrite fq_add in H3 || rewrite fq_mul in H3); rewrite fq_p in H3.
    change 2 with (1 + 1). change (3) with (1 + (1 + 1)). rewrite !fq_add. change (fq 1) with 1%fp.
    transitivity (fq (lval (w_l w)) * (fq (lval y1) + fq (lval y1)) + fq 3 * 0 * 0)%fp; [ring|]. rewrite H3. ring. }
  destruct (line_ok x1 y1 x1 w _ G1 G2 G1 H4 S) as (_ & GR & E). split; [exact GR|].
  unfold topt at 1 2. cbn [fst snd padd]. rewrite !Z.eqb_refl. destruct (Z.eqb_spec (lval y1) 0); [contradiction | exact E].
Qed.

(** ** Scalar multiples *)
Fixpoint mchk (k : positive) (P : lpt) (ws : list wit) : option (lpt * list wit) :=
  match k with
  | xH => Some (P, ws)
  | xO k' => match mchk k' P ws with
      | Some (Q, w :: t) => if dbl_chk Q w then Some (w_r w, t) else None
      | _ => None end
  | xI k' => match mchk k' P ws with
      | Some (Q, w :: w' :: t) => if dbl_chk Q w then if add_chk P (w_r w) w' then Some (w_r w', t) else None else None
      | _ => None end
  end.
Definition goodb (P : lpt) : bool := elemb (fst P) && elemb (snd P) && ltp (fst P) && ltp (snd P).
Lemma goodb_ok P : goodb P = true -> good P.
Proof.
  unfold goodb. rewrite !andb_true_iff. intros (((H1 & H2) & H3) & H4). apply elemb_ok in H1, H2.
  exact (conj H1 (conj H2 (conj (ltp_ok _ H1 H3) (ltp_ok _ H2 H4)))).
Qed.
Lemma mchk_ok k P : good P -> forall ws R t, mchk k P ws = Some (R, t) -> good R /\ pmul_pos k (topt P) = topt R.
Proof.
  intros G. induction k as [k IH|k IH|]; intros ws R t H; cbn [mchk pmul_pos] in *.
  - destruct (mchk k P ws) as [[Q [|w [|w' u]]]|] eqn:E; try discriminate H. destruct (IH _ _ _ E) as [GQ EQ].
    destruct (dbl_chk Q w) eqn:D; [|discriminate H]. destruct (dbl_ok Q w GQ D) as [GD ED].
    destruct (add_chk P (w_r w) w') eqn:A; [|discriminate H]. destruct (add_ok P _ w' G GD A) as [GA EA].
    injection H as H1 _. subst R. split; [exact GA|]. cbv zeta. rewrite EQ, ED. exact EA.
  - destruct (mchk k P ws) as [[Q [|w u]]|] eqn:E; try discriminate H. destruct (IH _ _ _ E) as [GQ EQ].
    destruct (dbl_chk Q w) eqn:D; [|discriminate H]. destruct (dbl_ok Q w GQ D) as [GD ED].
    injection H as H1 _. subst R. split; [exact GD|]. cbv zeta. rewrite EQ. exact ED.
  - injection H as H1 _. subst R. split; [exact G | reflexivity].
Qed.
Fixpoint samel (k l : list int) : bool :=
  match k, l with [], [] => true | x :: k', y :: l' => if eqb x y then samel k' l' else false | _, _ => false end.
Lemma samel_ok : forall k l, samel k l = true -> k = l.
Proof.
  induction k as [|x k IH]; intros [|y l] H; cbn [samel] in H; try discriminate; [reflexivity|].
  destruct (eqb x y) eqn:E; [|discriminate]. apply eqb_correct in E. subst y. rewrite (IH l H). reflexivity.
Qed.
Definition mulchk (k : positive) (P R : lpt) (ws : list wit) : bool :=
  if goodb P then match mchk k P ws with Some (Q, _) => samel (fst Q) (fst R) && samel (snd Q) (snd R) | None => false end
  else false.
Lemma mulchk_ok k P R ws : mulchk k P R ws = true -> Zpos k < r_mod -> good R /\ pmul (Zpos k) (topt P) = topt R.
Proof.
  unfold mulchk. intros H L. destruct (goodb P) eqn:G; [|discriminate]. apply goodb_ok in G.
  destruct (mchk k P ws) as [[Q t]|] eqn:E; [|discriminate]. apply andb_true_iff in H. destruct H as [H1 H2].
  apply samel_ok in H1, H2. assert (EQ : Q = R) by (destruct Q, R; cbn [fst snd] in *; congruence). subst R.
  destruct (mchk_ok k P G _ _ _ E) as [GQ EQ]. split; [exact GQ|].
  unfold pmul. rewrite Z.mod_small by lia. exact EQ.
Qed.

(** ** Generating the supplied values (nothing is proved about this part: the check decides) *)
Definition lim (z : Z) : list int := limbs 9 z.
Definition tol (P : Z * Z) : lpt := (lim (fst P), lim (snd P)).
Fixpoint trim (n : nat) (l : list int) : list int :=
  match n with O => [] | S m => match l with [] => 0%uint63 :: trim m [] | x :: t => x :: trim m t end end.
Fixpoint lsub (b : int) (k l : list int) : list int :=
  match k with
  | [] => []
  | x :: k' => let (y, l') := match l with [] => (0%uint63, []) | y :: l' => (y, l') end in
      let s := (x + 536870912 - y - b)%uint63 in (s land 536870911)%uint63 :: lsub (1 - (s >> 29)) k' l'
  end.
(** Barrett reduction of a list of 19 limbs: quotient and remainder *)
Definition mu : list int := Eval vm_compute in limbs 10 (2 ^ 522 / p_mod).
Definition fix1 (qr : list int * list int) : list int * list int :=
  let (q, r) := qr in match llt r pl with Lt => qr | _ => (norm 0 (ladd q [1%uint63]), lsub 0 r pl) end.
Definition dm (a : list int) : list int * list int :=
  let a := trim 19 (norm 0 a) in
  let q := skipn 10 (norm 0 (lmul (skipn 8 a) mu)) in
  let r := trim 9 (lsub 0 a (norm 0 (lmul q pl))) in
  let (q, r) := fix1 (fix1 (fix1 (q, r))) in (trim 9 (norm 0 q), r).
Definition md (a : list int) : list int := snd (dm a).
Definition ml (a b : list int) : list int := md (lmul a b).
Definition p5 : list int := Eval vm_compute in limbs 9 (5 * p_mod).
Definition sb (a b : list int) : list int := md (lsub 0 (norm 0 (ladd a p5)) b).
Definition ad (a b : list int) : list int := md (ladd a b).
Definition inv (a : list int) : list int := lim (inv_mod p_mod (lval a)).
Definition dbl2 (a : list int) : list int := ad a a.
(** inverses of all elements of a list with one inversion *)
Definition one : list int := lim 1.
Fixpoint prefs (a : list int) (l : list (list int)) : list (list int) := match l with [] => [] | x :: t => a :: prefs (ml a x) t end.
Fixpoint binv_back (i : list int) (pr l acc : list (list int)) : list (list int) :=
  match pr, l with a :: pr', x :: l' => binv_back (ml i x) pr' l' (ml i a :: acc) | _, _ => acc end.
Definition binv (l : list (list int)) : list (list int) :=
  binv_back (inv (fold_left ml l one)) (rev (prefs one l)) (rev l) [].
(** one operation, given the inverse of its denominator *)
Definition ex (a b : list int) : list int := fst (dm (lsub 0 (norm 0 a) (norm 0 b))).
Definition gline (l d q1 x1 y1 x2 : list int) : wit :=
  let x3 := sb (ml l l) (ad x1 x2) in let f := sb x1 x3 in let y3 := sb (ml l f) y1 in
  {| w_l := l; w_d := d; w_f := f; w_q1 := q1; w_q2 := ex (ladd (lmul l l) p1c) (ladd x1 (ladd x2 x3));
     w_q3 := ex (ladd (lmul l f) p1c) (ladd y1 y3); w_r := (x3, y3) |}.
Definition gadd (P Q : lpt) (i : list int) : wit :=
  let (x1, y1) := P in let (x2, y2) := Q in let d := sb x2 x1 in let l := ml (sb y2 y1) i in
  gline l d (ex (ladd (lmul l d) (ladd y1 p1c)) y2) x1 y1 x2.
Definition gdbl (P : lpt) (i : list int) : wit :=
  let (x1, y1) := P in let s := norm 0 (lmul x1 x1) in let s3 := norm 0 (ladd s (ladd s s)) in let l := ml (md s3) i in
  gline l [] (ex (ladd (lmul l (ladd y1 y1)) p3) s3) x1 y1 x1.
(** the operations of a scalar multiplication, most significant bit first; true: doubling *)
Fixpoint mops (k : positive) (acc : list bool) : list bool :=
  match k with xH => acc | xO k' => mops k' (true :: acc) | xI k' => mops k' (true :: false :: acc) end.
Definition jac := (list int * list int * list int)%type.
Definition jdbl (P : jac) : jac :=
  let '(X, Y, T) := P in let A := ml X X in let B := ml Y Y in let C := ml B B in
  let XB := ml X B in let D := dbl2 (dbl2 XB) in let E := ad A (ad A A) in let X3 := sb (ml E E) (dbl2 D) in
  (X3, sb (ml E (sb D X3)) (dbl2 (dbl2 (dbl2 C))), dbl2 (ml Y T)).
Definition jadd (P : lpt) (Q : jac) : jac :=
  let '(X, Y, T) := Q in let ZZ := ml T T in let H := sb (ml (fst P) ZZ) X in let HH := ml H H in
  let J := ml H HH in let R := sb (ml (snd P) (ml T ZZ)) Y in let V := ml X HH in
  let X3 := sb (sb (ml R R) J) (dbl2 V) in (X3, sb (ml R (sb V X3)) (ml Y J), ml T H).
Fixpoint jrun (P : lpt) (Q : jac) (ops : list bool) : list jac :=
  match ops with [] => [] | o :: t => let R := if o then jdbl Q else jadd P Q in R :: jrun P R t end.
Definition affs (l : list jac) : list lpt :=
  map (fun ji => let '((X, Y, _), i) := ji in let ii := ml i i in (ml X ii, ml Y (ml ii i)))
    (combine l (binv (map (fun j => snd j) l))).
Definition gmul (k : positive) (P : lpt) : list wit * lpt :=
  let ops := mops k [] in let pts := affs (jrun P (P, one) ops) in let steps := combine ops (P :: pts) in
  let ds := binv (map (fun s => if fst s : bool then dbl2 (snd (snd s)) else sb (fst (snd s)) (fst P)) steps) in
  (map (fun si => let '((o, Q), i) := si in if o : bool then gdbl Q i else gadd P Q i) (combine steps ds), last pts P).
Definition gpair (P Q : lpt) : wit := gadd P Q (inv (sb (fst Q) (fst P))).

(** ** Sums whose terms and partial sums stay below the scalar modulus *)
Definition rl : list int := Eval vm_compute in limbs 9 r_mod.
Lemma rl_elem : elem rl. Proof. apply elemb_ok. vm_compute. reflexivity. Qed.
Lemma rl_val : lval rl = r_mod. Proof. vm_compute. reflexivity. Qed.
Definition ltr (l : list int) : bool := match llt l rl with Lt => true | _ => false end.
Lemma ltr_ok l : elem l -> ltr l = true -> lval l < r_mod.
Proof.
  intros [L H] E. unfold ltr in E. pose proof (llt_ok l rl ltac:(rewrite L; reflexivity) H (proj2 rl_elem)) as C.
  destruct (llt l rl); try discriminate. rewrite rl_val in C. exact C.
Qed.
Definition fitb (P : lpt) : bool := goodb P && ltr (fst P) && ltr (snd P) && negb (zeros (snd P)).
Lemma fitb_ok P : fitb P = true -> good P /\ fits (topt P) /\ lval (snd P) <> 0.
Proof.
  unfold fitb. rewrite !andb_true_iff, negb_true_iff. intros (((H1 & H2) & H3) & H4). apply goodb_ok in H1.
  pose proof H1 as (G1 & G2 & _). split; [exact H1|]. split; [|exact (zeros_neq _ H4)].
  exists (lval (fst P)), (lval (snd P)). pose proof (ltr_ok _ G1 H2). pose proof (ltr_ok _ G2 H3).
  pose proof (lval_nonneg (fst P)). pose proof (lval_nonneg (snd P)). split; [reflexivity | lia].
Qed.
Definition pl0 : list int := Eval vm_compute in limbs 10 p_mod.
Lemma pl0_b : bounded 536870911 pl0. Proof. apply digits_ok. vm_compute. reflexivity. Qed.
Lemma pl0_val : lval pl0 = p_mod. Proof. vm_compute. reflexivity. Qed.
(** y1 + y2 is not p *)
Definition nopp (k l : list int) : bool :=
  let s := norm 0 (ladd k l) in
  Nat.eqb (length s) 10 && digits s && match llt s pl0 with Eq => false | _ => true end.
Lemma nopp_ok k l : elem k -> elem l -> nopp k l = true -> lval k + lval l <> p_mod.
Proof.
  intros Hk Hl H. unfold nopp in H. rewrite !andb_true_iff in H. destruct H as [[H1 H2] H3].
  destruct (ladd_b _ _ _ _ (elem_top _ Hk) (elem_top _ Hl) ltac:(lia) ltac:(lia) ltac:(lia)) as [A V].
  assert (Z0 : to_Z 0%uint63 <= 34359738368) by (rewrite to_Z_0; lia).
  destruct (norm_ok _ _ Z0 (ble _ top _ A ltac:(bd))) as [_ N]. rewrite to_Z_0, V in N.
  apply Nat.eqb_eq in H1. apply digits_ok in H2. pose proof (llt_ok _ pl0 H1 H2 pl0_b) as C.
  destruct (llt _ pl0); [discriminate| |]; rewrite pl0_val in C; lia.
Qed.
Fixpoint schk (acc : lpt) (l : list (lpt * wit)) : option lpt :=
  match l with
  | [] => Some acc
  | (Q, w) :: t => if fitb Q && nopp (snd acc) (snd Q) && add_chk acc Q w && fitb (w_r w) then schk (w_r w) t else None
  end.
Lemma schk_ok terms l : Forall2 (fun t q => pmul (snd t) (of_coords0 (fst t)) = topt (fst q)) terms l ->
  forall acc R, good acc -> schk acc l = Some R -> sums_fit (topt acc) terms /\ msm_from (topt acc) terms = topt R.
Proof.
  induction 1 as [|[P k] [Q w] ts ls H _ IH]; intros acc R G E; cbn [schk sums_fit msm_from fst snd] in *.
  - injection E as ->. split; [exact Logic.I | reflexivity].
  - destruct (fitb Q && nopp (snd acc) (snd Q) && add_chk acc Q w && fitb (w_r w)) eqn:C; [|discriminate E].
    rewrite !andb_true_iff in C. destruct C as (((C1 & C2) & C3) & C4).
    apply fitb_ok in C1. destruct C1 as (G1 & F1 & N1). apply fitb_ok in C4. destruct C4 as (G4 & F4 & _).
    apply nopp_ok in C2; [|exact (proj1 (proj2 G)) | exact (proj1 (proj2 G1))].
    destruct (add_ok _ _ _ G G1 C3) as [_ EA]. destruct (IH _ _ G4 E) as [I1 I2].
    cbv zeta. rewrite H, EA. split; [|exact I2]. split; [exact F1|]. split; [|split; [exact F4 | exact I1]].
    intros (x1 & y1 & x2 & y2 & E1 & E2 & _ & E3). injection E1 as _ <-. injection E2 as _ <-.
    pose proof (lval_nonneg (snd acc)). pose proof (lval_nonneg (snd Q)). destruct G as (_ & _ & _ & L1). destruct G1 as (_ & _ & _ & L2).
    apply Z.mod_divide in E3; [|intros C; discriminate C]. destruct E3 as [c E3]. assert (1 < p_mod) by exact p_gt1.
    assert (c = 1) by nia. subst c. lia.
Qed.
(** many products at once *)
Definition prods_chk (l : list (positive * lpt * (list wit * lpt))) : bool :=
  forallb (fun '(k, P, (ws, R)) => if Z.ltb (Zpos k) r_mod then mulchk k P R ws else false) l.
Lemma prods_ok l : prods_chk l = true -> forall k P ws R, In (k, P, (ws, R)) l -> good R /\ pmul (Zpos k) (topt P) = topt R.
Proof.
  unfold prods_chk. rewrite forallb_forall. intros H k P ws R Hi. specialize (H _ Hi). cbn in H.
  destruct (Z.ltb_spec (Zpos k) r_mod); [|discriminate]. exact (mulchk_ok k P R ws H H0).
Qed.
Definition term_of (m : positive * lpt * (list wit * lpt)) : (Z * Z) * Z :=
  let '(k, P, _) := m in ((lval (fst P), lval (snd P)), Zpos k).
Fixpoint same_pts (ms : list (positive * lpt * (list wit * lpt))) (l : list (lpt * wit)) : bool :=
  match ms, l with
  | [], [] => true
  | (_, P, (_, R)) :: ms', (Q, _) :: l' =>
      if negb (zeros (snd P)) && samel (fst R) (fst Q) && samel (snd R) (snd Q) then same_pts ms' l' else false
  | _, _ => false
  end.
Lemma of_topt P : lval (snd P) <> 0 -> of_coords0 (lval (fst P), lval (snd P)) = topt P.
Proof.
  intros H. unfold of_coords0, topt. cbn [fst snd]. destruct (Z.eqb_spec (lval (snd P)) 0); [contradiction|].
  rewrite andb_false_r. reflexivity.
Qed.
Lemma same_pts_ok ms : prods_chk ms = true -> forall l, same_pts ms l = true ->
  Forall2 (fun t q => pmul (snd t) (of_coords0 (fst t)) = topt (fst q)) (map term_of ms) l.
Proof.
  intros H. pose proof (prods_ok ms H) as HP. clear H. induction ms as [|[[k P] [ws R]] ms IH]; intros [|[Q w] l] E; try discriminate E; [constructor|].
  cbn [same_pts] in E. destruct (negb (zeros (snd P)) && samel (fst R) (fst Q) && samel (snd R) (snd Q)) eqn:C; [|discriminate E].
  rewrite !andb_true_iff, negb_true_iff in C. destruct C as ((C1 & C2) & C3). apply samel_ok in C2, C3.
  assert (EQ : Q = R) by (destruct Q, R; cbn [fst snd] in *; congruence). subst Q.
  constructor; [|apply IH; [|exact E]; intros k' P' ws' R' Hi; exact (HP k' P' ws' R' (or_intror Hi))].
  cbn [term_of fst snd]. rewrite of_topt by exact (zeros_neq _ C1). exact (proj2 (HP k P ws R (or_introl eq_refl))).
Qed.
Fixpoint gsum (acc : lpt) (l : list lpt) : list (lpt * wit) :=
  match l with [] => [] | Q :: t => let w := gpair acc Q in (Q, w) :: gsum (w_r w) t end.
