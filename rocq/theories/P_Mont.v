(** Montgomery arithmetic on machine integers (nine limbs of 29 bits), for either modulus.  Only used to
    exhibit concrete accepted runs. *)
From Coq Require Import ZArith Znumtheory Bool List Lia Uint63 Ring Field.
From Verif Require Import Params NumThy FField P_Limb.
Import ListNotations.
Open Scope Z_scope.

Notation "'D29'" := 536870911.
Definition RR : Z := 2 ^ 261.
Lemma RR_base : RR = base ^ 9. Proof. reflexivity. Qed.

(** t + a*b + q*p, limb by limb *)
Fixpoint fma (a q : int) (t b p : list int) : list int :=
  match b, p with
  | y :: b', z :: p' =>
      match t with
      | x :: t' => (x + a * y + q * z)%uint63 :: fma a q t' b' p'
      | [] => (a * y + q * z)%uint63 :: fma a q [] b' p'
      end
  | _, _ => t
  end.
Definition h0 (l : list int) : int := match l with x :: _ => x | [] => 0%uint63 end.
(** one round: (t + a*b + q*m) / 2^29 with q chosen to make the division exact *)
Definition round (ms : list int) (mi : int) (b t : list int) (a : int) : list int :=
  let q := (((h0 t + a * h0 b) * mi) land 536870911)%uint63 in
  match fma a q t b ms with
  | c :: d :: u => (d + (c >> 29))%uint63 :: u
  | u => u
  end.
Definition mm (ms : list int) (mi : int) (a b : list int) : list int := norm 0 (fold_left (round ms mi b) a []).
(** carries within the same number of limbs *)
Fixpoint nrm (c : int) (l : list int) : list int :=
  match l with
  | [] => []
  | x :: t => let s := (c + x)%uint63 in
      match t with [] => [s] | _ => (s land 536870911)%uint63 :: nrm (s >> 29)%uint63 t end
  end.
Definition lad (a b : list int) : list int := nrm 0 (ladd a b).
(** a + k - b *)
Fixpoint lsb (k a b : list int) : list int :=
  match k, a, b with
  | z :: k', x :: a', y :: b' => (z + x - y)%uint63 :: lsb k' a' b'
  | _, _, _ => []
  end.
Definition lsu (k a b : list int) : list int := nrm 0 (lsb k a b).

Lemma h0_b n l : 0 <= n -> bounded n l -> to_Z (h0 l) <= n.
Proof. intros Hn H. destruct H; cbn [h0]; [rewrite to_Z_0; exact Hn | assumption]. Qed.

Lemma mul29 a y : to_Z a <= D29 -> to_Z y <= D29 -> to_Z (a * y)%uint63 = to_Z a * to_Z y /\ to_Z a * to_Z y <= 288230375077969921.
Proof.
  intros Ha Hy. pose proof (to_Z_range a). pose proof (to_Z_range y).
  assert (to_Z a * to_Z y <= 288230375077969921) by nia.
  split; [|assumption]. rewrite mul_spec, wB63. apply Z.mod_small. nia.
Qed.
Lemma addw x y : to_Z x + to_Z y < W63 -> to_Z (x + y)%uint63 = to_Z x + to_Z y.
Proof. intros H. pose proof (to_Z_range x). pose proof (to_Z_range y). rewrite add_spec, wB63. apply Z.mod_small. lia. Qed.

Definition U : Z := 576460750155939842.
Lemma fma_ok a q T : to_Z a <= D29 -> to_Z q <= D29 -> 0 <= T -> T + U < W63 -> forall b p t,
  bounded D29 b -> bounded D29 p -> bounded T t -> length b = length p -> (length t <= length b)%nat ->
  bounded (T + U) (fma a q t b p) /\ lval (fma a q t b p) = lval t + to_Z a * lval b + to_Z q * lval p /\
  length (fma a q t b p) = length b.
Proof.
  intros Ha Hq HT HW. induction b as [|y b IH]; intros [|z p] t Hb Hp Ht L L2; try discriminate L.
  - destruct t; [|cbn in L2; lia]. cbn. split; [constructor | split; [lia | reflexivity]].
  - inversion Hb as [|? ? Hy Hb']; inversion Hp as [|? ? Hz Hp']; subst. injection L as L.
    destruct (mul29 a y Ha Hy) as [M1 B1]. destruct (mul29 q z Hq Hz) as [M2 B2].
    pose proof (to_Z_range a). pose proof (to_Z_range q). pose proof (to_Z_range y). pose proof (to_Z_range z).
    assert (P1 : 0 <= to_Z a * to_Z y) by nia. assert (P2 : 0 <= to_Z q * to_Z z) by nia.
    destruct t as [|x t]; cbn [fma lval length].
    + destruct (IH p [] Hb' Hp' ltac:(constructor) L ltac:(cbn; lia)) as (I1 & I2 & I3).
      assert (E : to_Z (a * y + q * z)%uint63 = to_Z a * to_Z y + to_Z q * to_Z z).
      { rewrite addw; rewrite M1, M2; [reflexivity | unfold U in *; lia]. }
      split; [constructor; [rewrite E; unfold U in *; lia | exact I1]|]. split; [|rewrite I3; reflexivity].
      rewrite E, I2. cbn [lval]. ring.
    + inversion Ht as [|? ? Hx Ht']; subst. cbn [length] in L2.
      destruct (IH p t Hb' Hp' Ht' L ltac:(lia)) as (I1 & I2 & I3).
      pose proof (to_Z_range x).
      assert (E1 : to_Z (x + a * y)%uint63 = to_Z x + to_Z a * to_Z y).
      { rewrite addw; rewrite M1; [reflexivity | unfold U in *; lia]. }
      assert (E : to_Z (x + a * y + q * z)%uint63 = to_Z x + to_Z a * to_Z y + to_Z q * to_Z z).
      { rewrite addw; rewrite E1, M2; [reflexivity | unfold U in *; lia]. }
      split; [constructor; [rewrite E; unfold U in *; lia | exact I1]|]. split; [|rewrite I3; reflexivity].
      rewrite E, I2. ring.
Qed.

Lemma fma_head a q t b p : to_Z (h0 (fma a q t b p)) mod base =
  to_Z (match b, p with y :: _, z :: _ => h0 t + a * y + q * z | _, _ => h0 t end)%uint63 mod base.
Proof.
  destruct b as [|y b], p as [|z p], t as [|x t]; cbn [fma h0]; try reflexivity.
  f_equal. f_equal. f_equal. apply to_Z_inj. rewrite add_spec, to_Z_0. rewrite Z.add_0_l.
  symmetry. apply Z.mod_small. rewrite wB63. apply to_Z_range.
Qed.
(** arithmetic of machine words modulo 2^29 *)
Lemma w_base z : (z mod wB) mod base = z mod base.
Proof.
  change wB with (base * 17179869184). unfold base. rewrite (Z.mod_eq z (536870912 * 17179869184)) by lia.
  replace (z - 536870912 * 17179869184 * (z / (536870912 * 17179869184)))
    with (z + (- (17179869184 * (z / (536870912 * 17179869184)))) * 536870912) by ring.
  apply Z_mod_plus_full.
Qed.
Lemma land29 s : to_Z (s land 536870911)%uint63 = to_Z s mod base.
Proof. rewrite land_spec'. change (to_Z 536870911) with (Z.ones 29). rewrite Z.land_ones by lia. reflexivity. Qed.
Lemma shr29 s : to_Z (s >> 29)%uint63 = to_Z s / base.
Proof. rewrite lsr_spec. reflexivity. Qed.
Lemma base_pos : 0 < base. Proof. reflexivity. Qed.

Lemma len_S {X} (l : list X) n : length l = S n -> exists x t, l = x :: t /\ length t = n.
Proof. destruct l as [|x t]; intros H; [discriminate|]. injection H as H. eauto. Qed.

Lemma bcons n x l : bounded n (x :: l) -> to_Z x <= n /\ bounded n l.
Proof. intros H. inversion H. split; assumption. Qed.

Section Mont.
  Variable m : Z.
  Hypothesis m_gt1 : 1 < m.
  Hypothesis m_prime : prime m.
  Variables (ms : list int) (mi : int).
  Hypothesis ms_elem : elem ms.
  Hypothesis ms_val : lval ms = m.
  Hypothesis mi_ok : (to_Z (h0 ms) * to_Z mi + 1) mod base = 0.
  Hypothesis m_small : 169 * m < RR.
  Hypothesis R_n0 : RR mod m <> 0.

  Lemma round_ok b t a T : elem b -> bounded T t -> 0 <= T -> T + U + 17179869184 < W63 -> (length t <= 9)%nat -> to_Z a <= D29 ->
    let t' := round ms mi b t a in
    length t' = 8%nat /\ bounded (T + U + 17179869184) t' /\
    exists q, 0 <= q < base /\ base * lval t' = lval t + to_Z a * lval b + q * m.
  Proof.
    intros [Lb Hb] Ht HT HW Lt Ha. cbv zeta. unfold round.
    set (q := (((h0 t + a * h0 b) * mi) land 536870911)%uint63).
    assert (Hq : to_Z q <= D29).
    { unfold q. rewrite land29. pose proof (Z.mod_pos_bound (to_Z ((h0 t + a * h0 b) * mi)) base base_pos). unfold base in *. lia. }
    destruct ms_elem as [Lm Hms].
    destruct (fma_ok a q T Ha Hq HT ltac:(lia) b ms t Hb Hms Ht ltac:(congruence) ltac:(lia)) as (F1 & F2 & F3).
    pose proof (fma_head a q t b ms) as FH.
    rewrite Lb in F3. destruct (len_S _ _ F3) as (c & u0 & E0 & L0). destruct (len_S _ _ L0) as (d & u & E1 & L1). subst u0.
    rewrite E0 in *. cbn [h0] in FH.
    destruct (bcons _ _ _ F1) as [Hc F1']. destruct (bcons _ _ _ F1') as [Hd F1''].
    destruct (len_S _ _ Lb) as (y & b' & Eb & _). destruct (len_S _ _ Lm) as (z & ms' & Em & _).
    assert (C0 : to_Z c mod base = 0).
    { rewrite FH. rewrite Eb, Em. unfold q. rewrite Eb. cbn [h0]. rewrite Em in mi_ok. cbn [h0] in mi_ok.
      set (s := (h0 t + a * y)%uint63). rewrite add_spec, w_base. rewrite mul_spec.
      rewrite Z.add_mod, w_base, <- Z.add_mod by discriminate. rewrite land29, mul_spec, w_base.
      rewrite Z.add_mod, Z.mul_mod_idemp_l, <- Z.add_mod by discriminate.
      replace (to_Z s + to_Z s * to_Z mi * to_Z z) with (to_Z s * (to_Z z * to_Z mi + 1)) by ring.
      rewrite Z.mul_mod, mi_ok, Z.mul_0_r by discriminate. reflexivity. }
    pose proof (to_Z_range c). pose proof (to_Z_range d).
    assert (Q : to_Z c / base <= 17179869184) by (apply Z.lt_le_incl, Z.div_lt_upper_bound; unfold base; lia).
    assert (Q0 : 0 <= to_Z c / base) by (apply Z.div_pos; [lia | reflexivity]).
    assert (E : to_Z (d + (c >> 29))%uint63 = to_Z d + to_Z c / base).
    { rewrite addw; rewrite shr29; [reflexivity | lia]. }
    split; [cbn [length] in *; lia|]. split.
    - constructor; [rewrite E; lia|]. refine (ble _ _ _ F1'' _). lia.
    - exists (to_Z q). split; [pose proof (to_Z_range q); unfold base; lia|].
      cbn [lval] in *. rewrite E.
      pose proof (Z.div_mod (to_Z c) base ltac:(discriminate)) as DM. rewrite C0 in DM.
      rewrite ms_val in F2. rewrite <- F2. rewrite DM at 2. ring.
  Qed.

  Lemma rounds_ok b : elem b -> forall a t T, bounded D29 a -> bounded T t -> 0 <= T -> (length t <= 9)%nat ->
    T + Z.of_nat (length a) * (U + 17179869184) < W63 ->
    let t' := fold_left (round ms mi b) a t in
    (a <> [] -> length t' = 8%nat) /\ bounded (T + Z.of_nat (length a) * (U + 17179869184)) t' /\
    exists q, 0 <= q < base ^ Z.of_nat (length a) /\ base ^ Z.of_nat (length a) * lval t' = lval t + lval a * lval b + q * m.
  Proof.
    intros Hb. induction a as [|x a IH]; intros t T Ha Ht HT Lt HW; cbv zeta; cbn [fold_left].
    - split; [intros C; exfalso; apply C; reflexivity|]. split; [refine (ble _ _ _ Ht _); cbn; lia|].
      exists 0. cbn [length lval]. change (base ^ Z.of_nat 0) with 1. split; lia.
    - destruct (bcons _ _ _ Ha) as [Hx Ha']. cbn [length] in *. rewrite Nat2Z.inj_succ in *.
      assert (N : 0 <= Z.of_nat (length a) * (U + 17179869184)) by (unfold U; lia).
      destruct (round_ok b t x T Hb Ht HT ltac:(lia) Lt Hx) as (L1 & B1 & q & Hq & V).
      assert (HT1 : 0 <= T + U + 17179869184) by (unfold U; lia).
      destruct (IH _ _ Ha' B1 HT1 ltac:(rewrite L1; lia) ltac:(lia)) as (L2 & B2 & q' & Hq' & V').
      set (t1 := round ms mi b t x) in *. set (t2 := fold_left (round ms mi b) a t1) in *.
      split; [|split].
      + intros _. destruct a; [exact L1 | apply L2; discriminate].
      + refine (ble _ _ _ B2 _). lia.
      + exists (q + base * q'). rewrite Z.pow_succ_r by lia. split; [nia|].
        cbn [lval]. replace (base * base ^ Z.of_nat (length a) * lval t2) with (base * (base ^ Z.of_nat (length a) * lval t2)) by ring.
        rewrite V'. replace (base * (lval t1 + lval a * lval b + q' * m)) with (base * lval t1 + base * lval a * lval b + base * q' * m) by ring.
        rewrite V. ring.
  Qed.

  (** digits after carrying *)
  Lemma norm_digits l : forall c, bounded top l -> to_Z c <= 34359738368 -> to_Z c + lval l < base ^ Z.of_nat (S (length l)) ->
    length (norm c l) = S (length l) /\ bounded D29 (norm c l).
  Proof.
    induction l as [|x l IH]; intros c Hl Hc HV; cbn [norm].
    - cbn [lval length] in HV. split; [reflexivity|]. constructor; [|constructor]. unfold base in HV. lia.
    - destruct (bcons _ _ _ Hl) as [Hx Hl']. cbn [length lval] in *.
      assert (E : to_Z (c + x)%uint63 = to_Z c + to_Z x).
      { apply addw. unfold top in Hx. lia. }
      set (s := (c + x)%uint63) in *. clearbody s. cbv zeta.
      pose proof (Z.div_mod (to_Z s) base ltac:(discriminate)) as DM.
      pose proof (Z.mod_pos_bound (to_Z s) base base_pos) as MB. pose proof (to_Z_range s).
      destruct (IH (s >> 29)%uint63 Hl') as [I1 I2].
      + rewrite shr29. apply Z.div_le_upper_bound; unfold base; lia.
      + rewrite shr29. rewrite Nat2Z.inj_succ, Z.pow_succ_r in HV by lia. set (B := base ^ Z.of_nat (S (length l))) in *.
        assert (base * (to_Z s / base + lval l) < base * B) by lia. unfold base in *. lia.
      + split; [cbn [length]; rewrite I1; reflexivity|]. constructor; [|exact I2]. rewrite land29. unfold base in *. lia.
  Qed.
  Lemma nrm_digits l : forall c, bounded top l -> to_Z c <= 34359738368 -> to_Z c + lval l < base ^ Z.of_nat (length l) ->
    length (nrm c l) = length l /\ bounded D29 (nrm c l) /\ (l <> [] -> lval (nrm c l) = to_Z c + lval l).
  Proof.
    induction l as [|x l IH]; intros c Hl Hc HV; cbn [nrm].
    - split; [reflexivity|]. split; [constructor|]. intros C. exfalso. apply C. reflexivity.
    - destruct (bcons _ _ _ Hl) as [Hx Hl']. cbn [length lval] in *.
      assert (E : to_Z (c + x)%uint63 = to_Z c + to_Z x).
      { apply addw. unfold top in Hx. lia. }
      set (s := (c + x)%uint63) in *. clearbody s. cbv zeta.
      destruct l as [|x' l].
      + cbn [length lval] in *. change (base ^ Z.of_nat 1) with base in HV. split; [reflexivity|]. split.
        * constructor; [unfold base in HV; lia | constructor].
        * intros _. lia.
      + pose proof (Z.div_mod (to_Z s) base ltac:(discriminate)) as DM.
        pose proof (Z.mod_pos_bound (to_Z s) base base_pos) as MB. pose proof (to_Z_range s).
        destruct (IH (s >> 29)%uint63 Hl') as (I1 & I2 & I3).
        * rewrite shr29. apply Z.div_le_upper_bound; unfold base; lia.
        * rewrite shr29. rewrite Nat2Z.inj_succ, Z.pow_succ_r in HV by lia. set (B := base ^ Z.of_nat (length (x' :: l))) in *.
          set (V := lval (x' :: l)) in *.
          assert (base * (to_Z s / base + V) < base * B) by lia. unfold base in *. lia.
        * split; [cbn [length] in *; rewrite I1; reflexivity|]. split.
          -- constructor; [rewrite land29; unfold base in *; lia | exact I2].
          -- intros _. cbn [lval] in *. rewrite I3 by discriminate. rewrite shr29, land29. lia.
  Qed.

  Notation fm := (fmul m m_gt1). Notation fa := (fadd m m_gt1). Notation fs := (fsub m m_gt1). Notation ph := (phi m m_gt1).
  Let Fth := F_field m m_gt1 m_prime.
  Add Field Fm : Fth.
  (** [l] is the Montgomery form of [f], below c*m *)
  Definition rep (c : Z) (l : list int) (f : F m) : Prop := elem l /\ lval l < c * m /\ ph (lval l) = fm (ph RR) f.

  Lemma ph_m k : ph (k * m) = ph 0.
  Proof. apply phi_eq_iff. rewrite Z.mod_mul by lia. reflexivity. Qed.
  Lemma R_f : ph RR <> fzero m m_gt1.
  Proof. intros C. apply R_n0. apply phi_eq_iff in C. rewrite C. apply Z.mod_0_l. lia. Qed.
  Lemma cancel_R a b : fm (ph RR) a = fm (ph RR) b -> a = b.
  Proof.
    intros H. pose proof R_f as N.
    transitivity (fm (finv m m_gt1 (ph RR)) (fm (ph RR) a)); [field; exact N|]. rewrite H. field. exact N.
  Qed.

  Lemma mm_ok a b c1 c2 x y : rep c1 a x -> rep c2 b y -> 0 <= c1 -> 0 <= c2 -> c1 * c2 <= 168 -> rep 2 (mm ms mi a b) (fm x y).
  Proof.
    intros (Ea & Va & Pa) (Eb & Vb & Pb) H1 H2 H3. pose proof Ea as [La Ha].
    destruct (rounds_ok b Eb a [] 0 Ha ltac:(constructor) ltac:(lia) ltac:(cbn; lia)) as (L & B & q & Hq & V); [rewrite La; unfold U; lia|].
    rewrite La in *. specialize (L ltac:(intros ->; discriminate La)).
    unfold mm. set (t := fold_left (round ms mi b) a []) in *. clearbody t.
    change (Z.of_nat 9) with 9 in *. rewrite <- RR_base in *. cbn [lval] in V.
    pose proof (lval_nonneg a). pose proof (lval_nonneg b). pose proof (lval_nonneg t).
    assert (VT : lval t < 2 * m).
    { assert (lval a * lval b <= (c1 * m) * (c2 * m)) by nia. assert ((c1 * m) * (c2 * m) <= 168 * m * m) by nia.
      assert (0 <= c1 * c2) by nia. assert (RR * lval t < RR * (2 * m)) by nia. assert (0 < RR) by reflexivity. nia. }
    assert (Z0 : to_Z 0%uint63 <= 34359738368) by (rewrite to_Z_0; lia).
    assert (BT : bounded top t) by (refine (ble _ _ _ B _); unfold U, top; lia).
    destruct (norm_ok t 0%uint63 Z0 BT) as [_ NV]. rewrite to_Z_0, Z.add_0_l in NV.
    destruct (norm_digits t 0%uint63 BT Z0) as [N1 N2].
    { rewrite L, to_Z_0. change (base ^ Z.of_nat 9) with RR. lia. }
    split; [split; [rewrite N1, L; reflexivity | exact N2]|]. rewrite NV. split; [exact VT|].
    apply cancel_R. rewrite <- phi_mul, V, Z.add_0_l. rewrite phi_add, phi_mul, Pa, Pb, ph_m. change (ph 0) with (fzero m m_gt1). ring.
  Qed.

  Lemma lad_ok a b c1 c2 x y : rep c1 a x -> rep c2 b y -> c1 + c2 <= 168 -> rep (c1 + c2) (lad a b) (fa x y).
  Proof.
    intros (Ea & Va & Pa) (Eb & Vb & Pb) H. pose proof Ea as [La Ha]. pose proof Eb as [Lb Hb].
    destruct (add_el D29 a b Ha Hb ltac:(lia)) as [B V].
    assert (LL : length (ladd a b) = 9%nat).
    { clear -La Lb. revert b Lb La. generalize 9%nat. induction a as [|x a IH]; intros n [|y b] Lb La; cbn [ladd length] in *; try congruence.
      destruct n; [discriminate|]. f_equal. apply IH; congruence. }
    unfold lad. assert (Z0 : to_Z 0%uint63 <= 34359738368) by (rewrite to_Z_0; lia).
    destruct (nrm_digits (ladd a b) 0%uint63) as (N1 & N2 & N3); [refine (ble _ _ _ B _); unfold top; lia | exact Z0 | |].
    { rewrite LL, to_Z_0, V. change (base ^ Z.of_nat 9) with RR. nia. }
    specialize (N3 ltac:(intros C; rewrite C in LL; discriminate LL)). rewrite to_Z_0, V in N3.
    split; [split; [rewrite N1; exact LL | exact N2]|]. rewrite N3. split; [lia|].
    rewrite Z.add_0_l, phi_add, Pa, Pb. ring.
  Qed.

  (** a multiple (c+1)*m of the modulus whose limbs dominate those of every b < c*m *)
  Definition dom (c : Z) (k : list int) : bool :=
    match k with
    | [k0; k1; k2; k3; k4; k5; k6; k7; k8] =>
        forallb (fun x => (leb 536870911 x && leb x 4294967296)%uint63) [k0; k1; k2; k3; k4; k5; k6; k7] &&
        leb k8 4294967296 && (lval k =? (c + 1) * m) && (c * m <=? (to_Z k8 + 1) * base ^ 8)
    | _ => false
    end.
  Definition geq (k : int) (y : int) : Prop := to_Z y <= to_Z k.
  Lemma lsb_ok k : forall a b, length a = length k -> length b = length k -> Forall2 geq k b -> bounded 4294967296 k -> bounded D29 a ->
    bounded 4831838207 (lsb k a b) /\ lval (lsb k a b) = lval k + lval a - lval b /\ length (lsb k a b) = length k.
  Proof.
    induction k as [|z k IH]; intros [|x a] [|y b] La Lb G Hk Ha; try discriminate La; try discriminate Lb; cbn [lsb].
    - split; [constructor | split; reflexivity].
    - assert (G1 : geq z y /\ Forall2 geq k b) by (inversion G; split; assumption). destruct G1 as [G1 G2].
      destruct (bcons _ _ _ Hk) as [K1 K2]. destruct (bcons _ _ _ Ha) as [A1 A2].
      destruct (IH a b ltac:(cbn in *; congruence) ltac:(cbn in *; congruence) G2 K2 A2) as (I1 & I2 & I3).
      unfold geq in G1. pose proof (to_Z_range x). pose proof (to_Z_range y). pose proof (to_Z_range z).
      assert (E : to_Z (z + x - y)%uint63 = to_Z z + to_Z x - to_Z y).
      { rewrite sub_spec, addw by lia. rewrite wB63. apply Z.mod_small. lia. }
      split; [constructor; [rewrite E; lia | exact I1]|]. cbn [lval length]. rewrite E, I2, I3. split; [ring | reflexivity].
  Qed.
  Lemma dom_geq c k b : dom c k = true -> elem b -> lval b < c * m ->
    Forall2 geq k b /\ bounded 4294967296 k /\ lval k = (c + 1) * m /\ length k = 9%nat.
  Proof.
    intros D [Lb Hb] Hv. unfold dom in D.
    do 9 (destruct k as [|? k]; [discriminate D|]). destruct k; [|discriminate D].
    rewrite !andb_true_iff in D. destruct D as (((D1 & D2) & D3) & D4). apply Z.eqb_eq in D3. apply Z.leb_le in D4. apply leb_spec in D2.
    cbn [forallb] in D1. rewrite !andb_true_iff in D1.
    do 9 (destruct b as [|? b]; [discriminate Lb|]). destruct b; [|discriminate Lb].
    repeat match goal with H : bounded _ (_ :: _) |- _ => apply bcons in H; destruct H end.
    repeat match goal with H : _ /\ _ |- _ => destruct H end.
    repeat match goal with H : leb _ _ = true |- _ => apply leb_spec in H end.
    change (to_Z 536870911) with 536870911 in *. change (to_Z 4294967296) with 4294967296 in *.
    split; [|split; [|split; [exact D3 | reflexivity]]].
    - do 8 (constructor; [unfold geq; lia|]). constructor; [|constructor]. unfold geq. cbn [lval] in Hv. unfold base in *.
      repeat match goal with x : int |- _ => match goal with H : 0 <= to_Z x < _ |- _ => fail 1 | _ => pose proof (to_Z_range x) end end. lia.
    - repeat (constructor; [assumption|]). constructor.
  Qed.
  Lemma lsu_ok k a b c1 c2 x y : rep c1 a x -> rep c2 b y -> dom c2 k = true -> c1 + c2 + 1 <= 168 -> rep (c1 + c2 + 1) (lsu k a b) (fs x y).
  Proof.
    intros (Ea & Va & Pa) (Eb & Vb & Pb) D H. pose proof Ea as [La Ha]. pose proof Eb as [Lb Hb].
    destruct (dom_geq c2 k b D Eb Vb) as (G & Bk & Vk & Lk).
    destruct (lsb_ok k a b ltac:(congruence) ltac:(congruence) G Bk Ha) as (B & V & L).
    pose proof (lval_nonneg a). pose proof (lval_nonneg b).
    unfold lsu. assert (Z0 : to_Z 0%uint63 <= 34359738368) by (rewrite to_Z_0; lia).
    destruct (nrm_digits (lsb k a b) 0%uint63) as (N1 & N2 & N3); [refine (ble _ _ _ B _); unfold top; lia | exact Z0 | |].
    { rewrite L, Lk, to_Z_0, V, Vk. change (base ^ Z.of_nat 9) with RR. nia. }
    specialize (N3 ltac:(intros C; rewrite C in L; rewrite Lk in L; discriminate L)). rewrite to_Z_0, V, Vk in N3.
    split; [split; [rewrite N1, L; exact Lk | exact N2]|]. rewrite N3. split; [lia|].
    replace (0 + ((c2 + 1) * m + lval a - lval b)) with ((c2 + 1) * m + (lval a - lval b)) by ring.
    rewrite phi_add, phi_sub, Pa, Pb, ph_m. change (ph 0) with (fzero m m_gt1). ring.
  Qed.

  (** equality modulo m of numbers below 2*m *)
  Definition eqmod (a b : list int) : bool :=
    if eqv a b then true else if eqv (ladd a ms) b then true else eqv a (ladd b ms).
  Lemma rep_el c l f : rep c l f -> bounded D29 l. Proof. intros ([_ H] & _). exact H. Qed.
  Lemma eqmod_ok c1 c2 a b x y : rep c1 a x -> rep c2 b y -> eqmod a b = true -> x = y.
  Proof.
    intros (Ea & _ & Pa) (Eb & _ & Pb) H. apply cancel_R. rewrite <- Pa, <- Pb. apply phi_eq_iff.
    destruct Ea as [_ Ha], Eb as [_ Hb], ms_elem as [_ Hm].
    destruct (add_el D29 a ms Ha Hm ltac:(lia)) as [A1 A2]. destruct (add_el D29 b ms Hb Hm ltac:(lia)) as [B1 B2].
    unfold eqmod in H. destruct (eqv a b) eqn:E1.
    { apply eqv_ok in E1; [|refine (ble _ _ _ Ha _); unfold top; lia|refine (ble _ _ _ Hb _); unfold top; lia]. rewrite E1. reflexivity. }
    destruct (eqv (ladd a ms) b) eqn:E2.
    { apply eqv_ok in E2; [|refine (ble _ _ _ A1 _); unfold top; lia|refine (ble _ _ _ Hb _); unfold top; lia].
      rewrite <- E2, A2, ms_val. rewrite <- (Z.mod_add (lval a) 1 m) by lia. f_equal. lia. }
    apply eqv_ok in H; [|refine (ble _ _ _ Ha _); unfold top; lia|refine (ble _ _ _ B1 _); unfold top; lia].
    rewrite H, B2, ms_val. rewrite <- (Z.mod_add (lval b) 1 m) by lia. f_equal. lia.
  Qed.
  (** a number below 2*m that is not a multiple of m *)
  Definition nonzero (a : list int) : bool := negb (zeros a) && negb (leqb a ms).
  Lemma nonzero_ok a x : rep 2 a x -> nonzero a = true -> x <> fzero m m_gt1.
  Proof.
    intros (Ea & Va & Pa) H C. subst x. unfold nonzero in H. rewrite andb_true_iff, !negb_true_iff in H. destruct H as [H1 H2].
    apply zeros_neq in H1. apply leqb_neq in H2; [|exact Ea | exact ms_elem]. rewrite ms_val in H2.
    assert (E : ph (lval a) = fzero m m_gt1) by (rewrite Pa; ring). apply phi_eq_iff in E. rewrite Z.mod_0_l in E by lia.
    pose proof (lval_nonneg a). apply Z.mod_divide in E; [|lia]. destruct E as [k E]. assert (k = 0 \/ k = 1) by nia. destruct H0; subst k; lia.
  Qed.
  (** conversion *)
  Lemma of_plain z l r2 : elem l -> lval l = z -> z < m -> elem r2 -> lval r2 = RR * RR mod m -> rep 2 (mm ms mi l r2) (ph z).
  Proof.
    intros El Vl Hz E2 V2. pose proof R_f as N.
    assert (H1 : rep 1 l (fm (ph z) (finv m m_gt1 (ph RR)))).
    { split; [exact El|]. split; [lia|]. rewrite Vl. field. exact N. }
    assert (H2 : rep 1 r2 (ph RR)).
    { split; [exact E2|]. split; [rewrite V2; pose proof (Z.mod_pos_bound (RR * RR) m); lia|]. rewrite V2, phi_mod, phi_mul. reflexivity. }
    pose proof (mm_ok l r2 1 1 _ _ H1 H2 ltac:(lia) ltac:(lia) ltac:(lia)) as H3.
    replace (ph z) with (fm (fm (ph z) (finv m m_gt1 (ph RR))) (ph RR)); [exact H3|]. field. exact N.
  Qed.
End Mont.
