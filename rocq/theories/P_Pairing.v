(** Checking a product of two Tate pairings on machine integers. *)
From Coq Require Import ZArith Znumtheory Bool List Lia Uint63 Ring Field.
From Verif Require Import Params Curve NumThy FField FpField P_Curve SpecCurve SpecMisc SpecVerify SpecPairing P_Limb P_Mont P_Jac P_Tower.
Import ListNotations.
Open Scope Z_scope.

(** ** Structure-preserving relations *)
Record hom {A B} (R : A -> B -> Prop) (o : ops A) (o' : ops B) : Prop := {
  h_0 : R (o0 o) (o0 o'); h_1 : R (o1 o) (o1 o');
  h_add : forall x y x' y', R x x' -> R y y' -> R (oadd o x y) (oadd o' x' y');
  h_sub : forall x y x' y', R x x' -> R y y' -> R (osub o x y) (osub o' x' y');
  h_mul : forall x y x' y', R x x' -> R y y' -> R (omul o x y) (omul o' x' y') }.
Definition Rq {A B} (R : A -> B -> Prop) (x : A * A) (y : B * B) : Prop := R (fst x) (fst y) /\ R (snd x) (snd y).
Definition Rc {A B} (R : A -> B -> Prop) (x : A * A * A) (y : B * B * B) : Prop :=
  R (fst (fst x)) (fst (fst y)) /\ R (snd (fst x)) (snd (fst y)) /\ R (snd x) (snd y).
Ltac hgo h := repeat first [assumption | apply (h_0 _ _ _ h) | apply (h_1 _ _ _ h) | apply (h_add _ _ _ h) | apply (h_sub _ _ _ h) | apply (h_mul _ _ _ h)].
Lemma quad_hom {A B} (R : A -> B -> Prop) o o' n n' : hom R o o' -> R n n' -> hom (Rq R) (quad o n) (quad o' n').
Proof.
  intros h N. constructor; unfold Rq; cbn [quad o0 o1 oadd osub omul fst snd].
  1,2: split; hgo h.
  all: intros [] [] [] [] [] []; cbn [fst snd] in *; split; hgo h.
Qed.
Lemma cubic_hom {A B} (R : A -> B -> Prop) o o' n n' : hom R o o' -> R n n' -> hom (Rc R) (cubic o n) (cubic o' n').
Proof.
  intros h N. constructor; unfold Rc; cbn [cubic o0 o1 oadd osub omul fst snd].
  1,2: split; [|split]; hgo h.
  all: intros [[? ?] ?] [[? ?] ?] [[? ?] ?] [[? ?] ?] (? & ? & ?) (? & ? & ?); cbn [fst snd] in *; split; [|split]; hgo h.
Qed.
Lemma opow_hom {A B} (R : A -> B -> Prop) o o' x x' k : hom R o o' -> R x x' -> R (opow o x k) (opow o' x' k).
Proof. intros h Hx. induction k; cbn [opow]; cbv zeta; hgo h. Qed.
Definition R12 {A B} (R : A -> B -> Prop) := Rq (Rc (Rq R)).
Lemma sloped_hom {A B} (R : A -> B -> Prop) o o' l x y Q l' x' y' Q' : hom R o o' -> R l l' -> R x x' -> R y y' -> Rq (Rq R) Q Q' ->
  R12 R (sloped o l x y Q) (sloped o' l' x' y' Q').
Proof.
  intros h Hl Hx Hy. destruct Q as [[] []], Q' as [[] []]. unfold R12, Rq, Rc, sloped. cbn [fst snd]. intros ((? & ?) & (? & ?)).
  repeat split; hgo h.
Qed.
Lemma vertical_hom {A B} (R : A -> B -> Prop) o o' x Q x' Q' : hom R o o' -> R x x' -> Rq (Rq R) Q Q' ->
  R12 R (vertical o x Q) (vertical o' x' Q').
Proof.
  intros h Hx. destruct Q as [[] []], Q' as [[] []]. unfold R12, Rq, Rc, vertical. cbn [fst snd]. intros ((? & ?) & (? & ?)).
  repeat split; hgo h.
Qed.

(** ** From integers to Z/p *)
Definition Rz (z : Z) (f : Fp) : Prop := fq z = f.
Lemma zp_hom : hom Rz zp fpo.
Proof.
  constructor; unfold Rz; cbn [zp fpo o0 o1 oadd osub omul]; try reflexivity; intros x y x' y' <- <-;
    unfold padd_mod, psub_mod, Curve.pmul_mod; rewrite fq_mod; [apply phi_add | apply phi_sub | apply phi_mul].
Qed.
Lemma zp12_hom : hom (R12 Rz) zp12 F12.
Proof. repeat first [apply quad_hom | apply cubic_hom | apply zp_hom]; repeat split; reflexivity. Qed.
Definition e2 (x : Z * Z) : Fp * Fp := (fq (fst x), fq (snd x)).
Definition e6 (x : (Z * Z) * (Z * Z) * (Z * Z)) := (e2 (fst (fst x)), e2 (snd (fst x)), e2 (snd x)).
Definition e12 (x : fp12) := (e6 (fst x), e6 (snd x)).
Lemma R12_e x y : R12 Rz x y <-> e12 x = y.
Proof.
  destruct x as [[[[] []] []] [[[] []] []]], y as [[[[] []] []] [[[] []] []]].
  unfold R12, Rq, Rc, Rz, e12, e6, e2. cbn [fst snd]. split.
  - intros. repeat match goal with H : _ /\ _ |- _ => destruct H end. subst. reflexivity.
  - intros E. injection E as -> -> -> -> -> -> -> -> -> -> -> ->. repeat split.
Qed.
Lemma R12_self x : R12 Rz x (e12 x). Proof. apply R12_e. reflexivity. Qed.
Lemma e12_mul x y : e12 (omul zp12 x y) = omul F12 (e12 x) (e12 y).
Proof. apply R12_e. apply (h_mul _ _ _ zp12_hom); apply R12_self. Qed.
Lemma e12_pow x k : e12 (opow zp12 x k) = opow F12 (e12 x) k.
Proof. apply R12_e. apply (opow_hom _ _ _ _ _ _ zp12_hom), R12_self. Qed.
Lemma e12_one : e12 (o1 zp12) = o1 F12. Proof. reflexivity. Qed.
Lemma e12_sloped l x y Q : e12 (sloped zp l x y Q) = sloped fpo (fq l) (fq x) (fq y) (e2 (fst Q), e2 (snd Q)).
Proof. apply R12_e. apply (sloped_hom _ _ _ _ _ _ _ _ _ _ _ zp_hom); repeat split. Qed.
Lemma e12_vertical x Q : e12 (vertical zp x Q) = vertical fpo (fq x) (e2 (fst Q), e2 (snd Q)).
Proof. apply R12_e. apply (vertical_hom _ _ _ _ _ _ _ zp_hom); repeat split. Qed.

(** canonical results *)
Definition can (z : Z) : Prop := 0 <= z < p_mod.
Definition can12 (x : fp12) : Prop := R12 (fun z (_ : unit) => can z) x (((tt, tt), (tt, tt), (tt, tt)), ((tt, tt), (tt, tt), (tt, tt))).
Lemma can12_mul x y : can12 (omul zp12 x y).
Proof.
  destruct x as [[[[] []] []] [[[] []] []]], y as [[[[] []] []] [[[] []] []]].
  unfold can12, R12, Rq, Rc, can. cbn [zp12 zp6 zp2 quad cubic omul oadd fst snd zp].
  repeat apply conj; try (apply Z.mod_pos_bound; reflexivity); apply (Z.mod_pos_bound _ p_mod eq_refl).
Qed.
Lemma can12_pow x k : can12 x -> can12 (opow zp12 x k).
Proof. intros C. destruct k; cbn [opow]; cbv zeta; [apply can12_mul | apply can12_mul | exact C]. Qed.
Lemma can12_inj x y : can12 x -> can12 y -> e12 x = e12 y -> x = y.
Proof.
  destruct x as [[[[] []] []] [[[] []] []]], y as [[[[] []] []] [[[] []] []]].
  unfold can12, R12, Rq, Rc, e12, e6, e2, can. cbn [fst snd]. intros Hx Hy E.
  repeat match goal with H : _ /\ _ |- _ => destruct H end.
  rewrite !pair_equal_spec in E. destruct E as [[[[E1 E2] [E3 E4]] [E5 E6]] [[[E7 E8] [E9 E10]] [E11 E12]]].
  apply fq_inj in E1, E2, E3, E4, E5, E6, E7, E8, E9, E10, E11, E12; try (split; assumption). subst. reflexivity.
Qed.

(** ** Montgomery forms below 2p *)
Fixpoint bsub (b : int) (x m : list int) : list int * int :=
  match x, m with
  | u :: x', v :: m' =>
      let s := (u + 536870912 - v - b)%uint63 in
      let (t, c) := bsub (1 - (s >> 29))%uint63 x' m' in ((s land 536870911)%uint63 :: t, c)
  | _, _ => ([], b)
  end.
Definition pp2 : list int := Eval vm_compute in limbs 9 (2 * p_mod).
Lemma pp2_el : elem pp2. Proof. apply elemb_ok. vm_compute. reflexivity. Qed.
Lemma pp2_val : lval pp2 = 2 * p_mod. Proof. vm_compute. reflexivity. Qed.

Lemma bsub_ok : forall x m b, length x = length m -> bounded D29 x -> bounded D29 m -> to_Z b <= 1 ->
  length (fst (bsub b x m)) = length x /\ bounded D29 (fst (bsub b x m)) /\ to_Z (snd (bsub b x m)) <= 1 /\
  lval (fst (bsub b x m)) = lval x - lval m - to_Z b + base ^ Z.of_nat (length x) * to_Z (snd (bsub b x m)).
Proof.
  induction x as [|u x IH]; intros [|v m] b L Hx Hm Hb; try discriminate L.
  - cbn [bsub fst snd length lval]. split; [reflexivity|]. split; [constructor|]. split; [exact Hb|].
    change (base ^ Z.of_nat 0) with 1. lia.
  - apply bcons in Hx. destruct Hx as [Hu Hx]. apply bcons in Hm. destruct Hm as [Hv Hm].
    injection L as L. cbn [bsub].
    set (s := (u + 536870912 - v - b)%uint63).
    pose proof (to_Z_range u) as Ru. pose proof (to_Z_range v) as Rv. pose proof (to_Z_range b) as Rb.
    assert (Es : to_Z s = to_Z u + base - to_Z v - to_Z b).
    { subst s. rewrite !sub_spec, add_spec. change (to_Z 536870912%uint63) with base.
      rewrite wB63. unfold base in *.
      rewrite (Z.mod_small (to_Z u + _)) by lia. rewrite (Z.mod_small (to_Z u + _ - to_Z v)) by lia. apply Z.mod_small. lia. }
    assert (Rs : 0 <= to_Z s < 2 * base) by (unfold base in *; lia).
    assert (Eq : to_Z (s >> 29)%uint63 = to_Z s / base) by apply shr29.
    assert (Rq' : 0 <= to_Z s / base <= 1).
    { split; [apply Z.div_pos; [lia | exact base_pos]|]. apply Z.lt_succ_r. apply Z.div_lt_upper_bound; [exact base_pos | lia]. }
    assert (Ec : to_Z (1 - (s >> 29))%uint63 = 1 - to_Z s / base).
    { rewrite sub_spec, Eq. change (to_Z 1%uint63) with 1. apply Z.mod_small. rewrite wB63. lia. }
    assert (Hc : to_Z (1 - (s >> 29))%uint63 <= 1) by (rewrite Ec; lia).
    destruct (IH m (1 - (s >> 29))%uint63 L Hx Hm Hc) as (A1 & A2 & A3 & A4).
    destruct (bsub (1 - (s >> 29))%uint63 x m) as [t c]. cbn [fst snd] in *.
    split; [cbn [length]; rewrite A1; reflexivity|].
    split; [constructor; [|exact A2]; cbv beta; rewrite land29; pose proof (Z.mod_pos_bound (to_Z s) base base_pos); unfold base in *; lia|].
    split; [exact A3|]. cbn [lval length]. rewrite A4, Ec, land29, Nat2Z.inj_succ, Z.pow_succ_r by apply Nat2Z.is_nonneg.
    pose proof (Z.div_mod (to_Z s) base ltac:(unfold base; lia)) as DM.
    set (q := to_Z s / base) in *. set (rr := to_Z s mod base) in *. set (B := base ^ Z.of_nat (length x)) in *. nia.
Qed.

Definition madd (a b : list int) : list int :=
  let s := lad a b in let (u, c) := bsub 0 s pp2 in if eqb c 0 then u else s.
Definition msub (a b : list int) : list int :=
  let (u, c) := bsub 0 a b in if eqb c 0 then u else fst (bsub 0 (lad a pp2) b).
Lemma zero_i : to_Z 0 <= 1. Proof. cbn. lia. Qed.
Lemma bit_i c : to_Z c <= 1 -> eqb c 0 = false -> to_Z c = 1.
Proof.
  intros H E. pose proof (to_Z_range c). destruct (Z.eq_dec (to_Z c) 0) as [C|]; [|lia].
  assert (c = 0%uint63) by (apply to_Z_inj; exact C). subst c. discriminate E.
Qed.
Lemma base9 : base ^ 9 = RR. Proof. reflexivity. Qed.
Lemma lval_lt n l : bounded D29 l -> length l = n -> lval l < base ^ Z.of_nat n.
Proof.
  revert n; induction l as [|x l IH]; intros n B <-; [reflexivity|].
  apply bcons in B. destruct B as [Bx B]. specialize (IH _ B eq_refl). cbn [lval length].
  rewrite Nat2Z.inj_succ, Z.pow_succ_r by apply Nat2Z.is_nonneg. unfold base in *. nia.
Qed.
(** the two outcomes of a subtraction of nine limbs *)
Lemma bsub9 a b u c : elem a -> elem b -> bsub 0 a b = (u, c) -> elem u /\
  (if eqb c 0 then lval u = lval a - lval b else lval a < lval b).
Proof.
  intros [La Ba] [Lb Bb] E. destruct (bsub_ok a b 0%uint63 (eq_trans La (eq_sym Lb)) Ba Bb zero_i) as (A1 & A2 & A3 & A4).
  rewrite E in *. cbn [fst snd] in *. split; [split; [rewrite A1; exact La | exact A2]|].
  change (to_Z 0%uint63) with 0 in A4.
  destruct (eqb c 0) eqn:Ec.
  - apply eqb_spec in Ec. subst c. change (to_Z 0%uint63) with 0 in A4. lia.
  - rewrite (bit_i c A3 Ec) in A4. pose proof (lval_lt 9 u A2 (eq_trans A1 La)) as Lt. rewrite La in A4. lia.
Qed.

Lemma lad_val a b : elem a -> elem b -> lval a + lval b < RR -> lval (lad a b) = lval a + lval b.
Proof.
  intros [La Ha] [Lb Hb] H. destruct (add_el D29 a b Ha Hb ltac:(lia)) as [B V].
  assert (LL : length (ladd a b) = 9%nat).
  { clear -La Lb. revert b Lb La. generalize 9%nat. induction a as [|x a IH]; intros n [|y b] Lb La; cbn [ladd length] in *; try congruence.
    destruct n; [discriminate|]. f_equal. apply IH; congruence. }
  destruct (nrm_digits (ladd a b) 0%uint63) as (_ & _ & N3); [refine (ble _ _ _ B _); unfold top; lia | rewrite to_Z_0; lia | |].
  { rewrite LL, to_Z_0, V. exact H. }
  unfold lad. rewrite N3, to_Z_0, V; [lia | intros C; rewrite C in LL; discriminate LL].
Qed.
Lemma rep2p c l x : rp c l x -> forall u, elem u -> lval u = lval l - 2 * p_mod -> lval u < 2 * p_mod -> rp 2 u x.
Proof.
  intros (_ & _ & H) u Eu Vu Lu. split; [exact Eu|]. split; [exact Lu|].
  rewrite <- H, Vu. apply phi_eq_iff. replace (lval l - 2 * p_mod) with (lval l + (-2) * p_mod) by ring. apply Z_mod_plus_full.
Qed.
Lemma madd_ok a b x y : rp 2 a x -> rp 2 b y -> rp 2 (madd a b) (x + y)%fp.
Proof.
  intros Ha Hb. pose proof (ap_ok _ _ _ _ _ _ Ha Hb ltac:(lia)) as Hs. unfold madd. cbv zeta.
  destruct (bsub 0 (lad a b) pp2) as [u c] eqn:E.
  pose proof Hs as (Es & Ls & Fs). destruct (bsub9 _ _ _ _ Es pp2_el E) as [Eu Vu]. rewrite pp2_val in Vu.
  destruct (eqb c 0).
  - apply (rep2p _ _ _ Hs u Eu Vu). lia.
  - split; [exact Es|]. split; [exact Vu|]. exact Fs.
Qed.
Lemma msub_ok a b x y : rp 2 a x -> rp 2 b y -> rp 2 (msub a b) (x - y)%fp.
Proof.
  intros Ha Hb. unfold msub. pose proof Ha as (Ea & La & Fa). pose proof Hb as (Eb & Lb & Fb).
  assert (D : forall z, fq z = (fq (lval a) - fq (lval b))%fp -> fq z = (fq RR * (x - y))%fp).
  { intros z ->. change (fq (lval a)) with (phi p_mod p_gt1 (lval a)). rewrite Fa, Fb. unfold fq. ring. }
  destruct (bsub 0 a b) as [u c] eqn:E. destruct (bsub9 _ _ _ _ Ea Eb E) as [Eu Vu]. pose proof (lval_nonneg b) as Nb. pose proof (lval_nonneg a) as Na.
  destruct (eqb c 0).
  - split; [exact Eu|]. split; [lia|]. apply D. rewrite Vu. apply fq_sub.
  - assert (Hp : rp 3 pp2 (fq 0)).
    { split; [exact pp2_el|]. rewrite pp2_val. split; [assert (0 < p_mod) by reflexivity; lia|].
      transitivity (fq 0); [apply fq_eq; rewrite Z_mod_mult; reflexivity|]. change (fq 0) with 0%fp. change (0 = fq RR * 0)%fp. ring. }
    pose proof (ap_ok _ _ _ _ _ _ Ha Hp ltac:(lia)) as (Es & Ls & Fs).
    assert (Vs : lval (lad a pp2) = lval a + 2 * p_mod).
    { rewrite lad_val; [rewrite pp2_val; reflexivity | exact Ea | exact pp2_el |].
      rewrite pp2_val. apply Z.lt_trans with (4 * p_mod); [lia | reflexivity]. }
    destruct (bsub 0 (lad a pp2) b) as [u' c'] eqn:E'. destruct (bsub9 _ _ _ _ Es Eb E') as [Eu' Vu']. cbn [fst].
    rewrite Vs in Vu'. destruct (eqb c' 0); [|lia].
    split; [exact Eu'|]. split; [lia|]. apply D. rewrite Vu'.
    replace (lval a + 2 * p_mod - lval b) with ((lval a - lval b) + 2 * p_mod) by ring.
    rewrite <- fq_sub. apply fq_eq. apply Z_mod_plus_full.
Qed.

Definition zero_m : list int := [0; 0; 0; 0; 0; 0; 0; 0; 0]%uint63.
Lemma zero_ok : rp 2 zero_m 0%fp.
Proof.
  split; [apply elemb_ok; vm_compute; reflexivity|]. split; [reflexivity|].
  change (fq (lval zero_m) = fq RR * 0)%fp. change (lval zero_m) with 0. change (fq 0) with 0%fp. ring.
Qed.
Definition mo : ops (list int) := {| o0 := zero_m; o1 := one_m; oadd := madd; osub := msub; omul := mp |}.
Lemma mp2 a b x y : rp 2 a x -> rp 2 b y -> rp 2 (mp a b) (x * y)%fp.
Proof. intros Ha Hb. exact (mp_ok _ _ _ _ _ _ Ha Hb ltac:(lia) ltac:(lia) ltac:(lia)). Qed.
Lemma mo_hom : hom (rp 2) mo fpo.
Proof.
  constructor; cbn [mo fpo o0 o1 oadd osub omul]; intros; [exact zero_ok | exact one_ok | apply madd_ok | apply msub_ok | apply mp2]; assumption.
Qed.

(** ** The tower on Montgomery forms, with Karatsuba's products *)
Definition mul2 (x y : list int * list int) : list int * list int :=
  let (a, b) := x in let (c, d) := y in
  let ac := mp a c in let bd := mp b d in
  (msub ac bd, msub (msub (mp (lad a b) (lad c d)) ac) bd).
Definition mo2 : ops (list int * list int) :=
  {| o0 := (zero_m, zero_m); o1 := (one_m, zero_m);
     oadd := fun x y => (madd (fst x) (fst y), madd (snd x) (snd y));
     osub := fun x y => (msub (fst x) (fst y), msub (snd x) (snd y)); omul := mul2 |}.
Lemma mo2_hom : hom (Rq (rp 2)) mo2 F2.
Proof.
  pose proof (quad_hom (rp 2) mo fpo) as _. pose proof mo_hom as h.
  constructor; unfold Rq; cbn [mo2 F2 quad o0 o1 oadd osub omul fst snd].
  1,2: split; [exact (h_0 _ _ _ h) || exact (h_1 _ _ _ h) | exact (h_0 _ _ _ h)].
  1,2: intros [] [] [] [] [] []; cbn [fst snd] in *; split; (apply (h_add _ _ _ h) || apply (h_sub _ _ _ h)); assumption.
  intros [a b] [c d] [a' b'] [c' d'] [Ha Hb] [Hc Hd]. cbn [fst snd mul2 fpo o0 o1 oadd osub omul] in *.
  pose proof (mp2 _ _ _ _ Ha Hc) as H1. pose proof (mp2 _ _ _ _ Hb Hd) as H2.
  pose proof (mp_ok _ _ _ _ _ _ (ap_ok _ _ _ _ _ _ Ha Hb ltac:(lia)) (ap_ok _ _ _ _ _ _ Hc Hd ltac:(lia)) ltac:(lia) ltac:(lia) ltac:(lia)) as H3.
  split.
  - replace (a' * c' + fq (p_mod - 1) * (b' * d'))%fp with (a' * c' - b' * d')%fp by (rewrite fq_m1; ring).
    apply msub_ok; assumption.
  - replace (a' * d' + b' * c')%fp with ((a' + b') * (c' + d') - a' * c' - b' * d')%fp by ring.
    apply msub_ok; [apply msub_ok|]; assumption.
Qed.

Section Kara.
  Context {A B : Type} (R : A -> B -> Prop) (o : ops A) (o' : ops B) (h : hom R o o') (H : rth o').
  Variable nm : A -> A.
  Variable n : B.
  Hypothesis nm_ok : forall x x', R x x' -> R (nm x) (omul o' n x').
  Let Hr : ring_theory (o0 o') (o1 o') (oadd o') (omul o') (osub o') (oopp o') eq := H.
  Add Ring Br : Hr.
  Definition kquad : ops (A * A) :=
    {| o0 := (o0 o, o0 o); o1 := (o1 o, o0 o);
       oadd := fun x y => (oadd o (fst x) (fst y), oadd o (snd x) (snd y));
       osub := fun x y => (osub o (fst x) (fst y), osub o (snd x) (snd y));
       omul := fun x y =>
         let (a, b) := x in let (c, d) := y in
         let ac := omul o a c in let bd := omul o b d in
         (oadd o ac (nm bd), osub o (osub o (omul o (oadd o a b) (oadd o c d)) ac) bd) |}.
  Definition kcubic : ops (A * A * A) :=
    {| o0 := (o0 o, o0 o, o0 o); o1 := (o1 o, o0 o, o0 o);
       oadd := fun '(a, b, c) '(d, e, f) => (oadd o a d, oadd o b e, oadd o c f);
       osub := fun '(a, b, c) '(d, e, f) => (osub o a d, osub o b e, osub o c f);
       omul := fun '(a, b, c) '(d, e, f) =>
         let v0 := omul o a d in let v1 := omul o b e in let v2 := omul o c f in
         (oadd o v0 (nm (osub o (osub o (omul o (oadd o b c) (oadd o e f)) v1) v2)),
          oadd o (osub o (osub o (omul o (oadd o a b) (oadd o d e)) v0) v1) (nm v2),
          oadd o (osub o (osub o (omul o (oadd o a c) (oadd o d f)) v0) v2) v1) |}.
  Ltac hg := repeat first [assumption | apply nm_ok | apply (h_0 _ _ _ h) | apply (h_1 _ _ _ h) | apply (h_add _ _ _ h) | apply (h_sub _ _ _ h) | apply (h_mul _ _ _ h)].
  Lemma kquad_hom : hom (Rq R) kquad (quad o' n).
  Proof.
    constructor; unfold Rq; cbn [kquad quad o0 o1 oadd osub omul fst snd].
    1,2: split; hg.
    1,2: intros [] [] [] [] [] []; cbn [fst snd] in *; split; hg.
    intros [a b] [c d] [a' b'] [c' d'] [Ha Hb] [Hc Hd]. cbv zeta. cbn [fst snd] in *. split; [hg|].
    replace (oadd o' (omul o' a' d') (omul o' b' c'))
      with (osub o' (osub o' (omul o' (oadd o' a' b') (oadd o' c' d')) (omul o' a' c')) (omul o' b' d')) by ring. hg.
  Qed.
  Lemma kcubic_hom : hom (Rc R) kcubic (cubic o' n).
  Proof.
    constructor; unfold Rc; cbn [kcubic cubic o0 o1 oadd osub omul fst snd].
    1,2: split; [|split]; hg.
    1,2: intros [[? ?] ?] [[? ?] ?] [[? ?] ?] [[? ?] ?] (? & ? & ?) (? & ? & ?); cbn [fst snd] in *; split; [|split]; hg.
    intros [[a b] c] [[d e] f] [[a' b'] c'] [[d' e'] f'] (Ha & Hb & Hc) (Hd & He & Hf). cbv zeta. cbn [fst snd] in *.
    split; [|split].
    - replace (oadd o' (omul o' b' f') (omul o' c' e'))
        with (osub o' (osub o' (omul o' (oadd o' b' c') (oadd o' e' f')) (omul o' b' e')) (omul o' c' f')) by ring. hg.
    - replace (oadd o' (omul o' a' e') (omul o' b' d'))
        with (osub o' (osub o' (omul o' (oadd o' a' b') (oadd o' d' e')) (omul o' a' d')) (omul o' b' e')) by ring. hg.
    - replace (oadd o' (oadd o' (omul o' a' f') (omul o' b' e')) (omul o' c' d'))
        with (oadd o' (osub o' (osub o' (omul o' (oadd o' a' c') (oadd o' d' f')) (omul o' a' d')) (omul o' c' f')) (omul o' b' e')) by ring. hg.
  Qed.
  Definition ksq (x : A * A) : A * A :=
    let (a, b) := x in let t := omul o a b in
    (osub o (osub o (omul o (oadd o a b) (oadd o a (nm b))) t) (nm t), oadd o t t).
  Lemma ksq_ok x x' : Rq R x x' -> Rq R (ksq x) (omul (quad o' n) x' x').
  Proof.
    destruct x as [a b], x' as [a' b']. unfold Rq, ksq. cbv zeta. cbn [quad omul fst snd]. intros [Ha Hb]. split.
    - replace (oadd o' (omul o' a' a') (omul o' n (omul o' b' b')))
        with (osub o' (osub o' (omul o' (oadd o' a' b') (oadd o' a' (omul o' n b'))) (omul o' a' b')) (omul o' n (omul o' a' b'))) by ring. hg.
    - replace (oadd o' (omul o' a' b') (omul o' b' a')) with (oadd o' (omul o' a' b') (omul o' a' b')) by ring. hg.
  Qed.
End Kara.

(** multiplication by 9 + u and by v *)
Definition xim (x : list int * list int) : list int * list int :=
  let (a, b) := x in
  let a2 := madd a a in let a4 := madd a2 a2 in let a8 := madd a4 a4 in
  let b2 := madd b b in let b4 := madd b2 b2 in let b8 := madd b4 b4 in
  (msub (madd a8 a) b, madd (madd b8 b) a).
Lemma xim_ok x x' : Rq (rp 2) x x' -> Rq (rp 2) (xim x) (omul F2 (fq 9, fq 1) x').
Proof.
  destruct x as [a b], x' as [a' b']. unfold Rq, xim, F2. cbv zeta. cbn [quad omul oadd fpo fst snd]. intros [Ha Hb].
  assert (E9 : fq 9 = (1 + 1 + 1 + 1 + 1 + 1 + 1 + 1 + 1)%fp).
  { change 9 with (1 + 1 + 1 + 1 + 1 + 1 + 1 + 1 + 1). rewrite !phi_add. reflexivity. }
  change (fq 1) with 1%fp. rewrite E9, fq_m1. split.
  - match goal with |- rp 2 _ ?e => replace e with (a' + a' + (a' + a') + (a' + a' + (a' + a')) + a' - b')%fp by ring end.
    repeat first [assumption | apply msub_ok | apply madd_ok].
  - match goal with |- rp 2 _ ?e => replace e with (b' + b' + (b' + b') + (b' + b' + (b' + b')) + b' + a')%fp by ring end.
    repeat first [assumption | apply msub_ok | apply madd_ok].
Qed.
Definition mo6 := kcubic mo2 xim.
Lemma mo6_hom : hom (Rc (Rq (rp 2))) mo6 F6.
Proof. exact (kcubic_hom _ _ _ mo2_hom F2_ring xim _ xim_ok). Qed.
Definition vm {X} (f : X -> X) (x : X * X * X) : X * X * X := let '(a, b, c) := x in (f c, a, b).
Lemma vm_ok x x' : Rc (Rq (rp 2)) x x' -> Rc (Rq (rp 2)) (vm xim x) (omul F6 ((fq 0, fq 0), (fq 1, fq 0), (fq 0, fq 0)) x').
Proof.
  destruct x as [[a b] c], x' as [[a' b'] c']. intros (Ha & Hb & Hc). cbn [fst snd] in *.
  assert (E : omul F6 ((fq 0, fq 0), (fq 1, fq 0), (fq 0, fq 0)) (a', b', c') = (omul F2 (fq 9, fq 1) c', a', b')).
  { unfold F6. cbn [cubic omul]. change (fq 0, fq 0) with (o0 F2). change (fq 1, fq 0) with (o1 F2).
    pose proof F2_ring as Hr. unfold rth in Hr. destruct Hr.
    assert (Z0 : forall t, omul F2 (o0 F2) t = o0 F2).
    { intros [t u]. unfold F2. cbn [quad omul oadd o0 fst snd fpo]. f_equal; ring. }
    assert (A0 : forall t, oadd F2 t (o0 F2) = t) by (intros; rewrite Radd_comm; apply Radd_0_l).
    rewrite !Z0, !Rmul_1_l, !Radd_0_l, !A0. reflexivity. }
  rewrite E. unfold Rc, vm. cbn [fst snd]. split; [apply xim_ok; exact Hc | split; assumption].
Qed.
Definition mo12 := kquad mo6 (vm xim).
Lemma mo12_hom : hom (R12 (rp 2)) mo12 F12.
Proof. exact (kquad_hom _ _ _ mo6_hom F6_ring (vm xim) _ vm_ok). Qed.
Definition sq12 := ksq mo6 (vm xim).
Lemma sq12_ok x x' : R12 (rp 2) x x' -> R12 (rp 2) (sq12 x) (omul F12 x' x').
Proof. exact (ksq_ok _ _ _ mo6_hom F6_ring (vm xim) _ vm_ok x x'). Qed.

(** ** The Miller loop for two pairs, the slopes given *)
Definition q2m := ((list int * list int) * (list int * list int))%type.
Definition m12t : Type := ((list int * list int) * (list int * list int) * (list int * list int)) *
  ((list int * list int) * (list int * list int) * (list int * list int)).
(** a limb list that is a Montgomery form of something *)
Definition sane (l : list int) : bool := elemb l && eqb (snd (bsub 0 l pp2)) 1.
Definition next (l x1 y1 x2 : list int) : list int * list int :=
  let x3 := msub (mp l l) (madd x1 x2) in (x3, msub (mp l (msub x1 x3)) y1).
Definition dbl_st (l : list int) (T : list int * list int) : bool * (list int * list int) :=
  let (x, y) := T in let xx := mp x x in
  (sane l && nonzero pl y && eqmod pl (mp l (madd y y)) (madd xx (madd xx xx)), next l x y x).
Definition add_st (l : list int) (P T : list int * list int) : bool * (list int * list int) :=
  let (x1, y1) := P in let (x2, y2) := T in let d := msub x2 x1 in
  (sane l && nonzero pl d && eqmod pl (mp l d) (msub y2 y1), next l x1 y1 x2).

Lemma sane_ok l : sane l = true -> exists f, rp 2 l f.
Proof.
  intros H. apply andb_true_iff in H. destruct H as [H1 H2]. apply elemb_ok in H1.
  destruct (bsub 0 l pp2) as [u c] eqn:E. cbn [snd] in H2. apply eqb_spec in H2. subst c.
  destruct (bsub9 _ _ _ _ H1 pp2_el E) as [_ V]. change (eqb 1 0) with false in V. cbv iota in V. rewrite pp2_val in V.
  assert (N : fq RR <> 0%fp) by (intros C; apply fq_0 in C; exact (Rp_n0 C)).
  exists (fq (lval l) / fq RR)%fp. split; [exact H1|]. split; [exact V|]. change (fq (lval l) = fq RR * (fq (lval l) / fq RR))%fp. field. exact N.
Qed.
Definition eqm a b x y (Ha : rp 2 a x) (Hb : rp 2 b y) (E : eqmod pl a b = true) : x = y :=
  eqmod_ok p_mod p_gt1 prime_p pl pl_elem pl_val Rp_n0 _ _ _ _ _ _ Ha Hb E.
Definition nzm a x (Ha : rp 2 a x) (E : nonzero pl a = true) : x <> 0%fp :=
  nonzero_ok p_mod p_gt1 prime_p pl pl_elem pl_val p_small a x Ha E.

(** [T] is the affine point [Q] *)
Definition isp (T : list int * list int) (Q : pt) : Prop :=
  exists x y, Q = Aff x y /\ 0 <= x < p_mod /\ 0 <= y < p_mod /\ rp 2 (fst T) (fq x) /\ rp 2 (snd T) (fq y).
Lemma next_ok l s x1 y1 x2 X1 Y1 X2 : rp 2 l (fq s) -> rp 2 X1 (fq x1) -> rp 2 Y1 (fq y1) -> rp 2 X2 (fq x2) ->
  isp (next l X1 Y1 X2) (line_pt s x1 y1 x2).
Proof.
  intros Hl H1 H2 H3. destruct (line_fq s x1 y1 x2) as (x & y & E & Rx & Ry & Fx & Fy).
  exists x, y. split; [exact E|]. split; [exact Rx|]. split; [exact Ry|]. unfold next. cbv zeta. cbn [fst snd].
  pose proof (msub_ok _ _ _ _ (mp2 _ _ _ _ Hl Hl) (madd_ok _ _ _ _ H1 H3)) as Hx. rewrite <- Fx in Hx. split; [exact Hx|].
  rewrite Fy. apply msub_ok; [|exact H2]. apply mp2; [exact Hl|]. apply msub_ok; assumption.
Qed.
Lemma fq23 : fq 2 = (1 + 1)%fp /\ fq 3 = (1 + (1 + 1))%fp.
Proof.
  split; [change 2 with (1 + 1) | change 3 with (1 + (1 + 1))]; rewrite !phi_add; reflexivity.
Qed.
Definition isq (q : q2m) (Q : g2) : Prop := Rq (Rq (rp 2)) q (e2 (fst Q), e2 (snd Q)).
Lemma dbl_st_ok l T P q Q : isp T P -> isq q Q -> fst (dbl_st l T) = true ->
  isp (snd (dbl_st l T)) (padd P P) /\ R12 (rp 2) (sloped mo l (fst T) (snd T) q) (e12 (line_at P P Q)).
Proof.
  destruct T as [X Y]. intros (x & y & -> & Rx & Ry & HX & HY) HQ H. unfold dbl_st in *. cbv zeta in *. cbn [fst snd] in *.
  apply andb_true_iff in H. destruct H as [H H3]. apply andb_true_iff in H. destruct H as [H1 H2].
  destruct (sane_ok l H1) as [f Hl]. pose proof (nzm _ _ HY H2) as Ny.
  pose proof (mp2 _ _ _ _ HX HX) as HXX.
  pose proof (eqm _ _ _ _ (mp2 _ _ _ _ Hl (madd_ok _ _ _ _ HY HY)) (madd_ok _ _ _ _ HXX (madd_ok _ _ _ _ HXX HXX)) H3) as E.
  assert (Ny0 : y <> 0) by (intros C; apply Ny; rewrite C; reflexivity).
  destruct fq23 as [T2 T3]. assert (N11 : (1 + 1)%fp <> 0%fp) by (rewrite <- T2; exact p_odd2).
  assert (F : f = fq (pdiv_mod (3 * x * x) (2 * y))).
  { rewrite fq_div, !fq_mul, T2, T3.
    transitivity ((f * (fq y + fq y)) / ((1 + 1) * fq y))%fp; [field; split; assumption|]. rewrite E. field. split; assumption. }
  rewrite F in Hl. cbn [padd line_at]. rewrite !Z.eqb_refl. destruct (Z.eqb_spec y 0) as [C|_]; [contradiction|]. cbn [negb andb].
  split; [apply next_ok; assumption|]. rewrite e12_sloped. apply (sloped_hom _ _ _ _ _ _ _ _ _ _ _ mo_hom); assumption.
Qed.
Lemma add_st_ok l T U P S q Q : isp T P -> isp U S -> isq q Q -> fst (add_st l T U) = true ->
  isp (snd (add_st l T U)) (padd P S) /\ R12 (rp 2) (sloped mo l (fst T) (snd T) q) (e12 (line_at P S Q)).
Proof.
  destruct T as [X1 Y1], U as [X2 Y2]. intros (x1 & y1 & -> & Rx1 & Ry1 & HX1 & HY1) (x2 & y2 & -> & Rx2 & Ry2 & HX2 & HY2) HQ H.
  unfold add_st in *. cbv zeta in *. cbn [fst snd] in *.
  apply andb_true_iff in H. destruct H as [H H3]. apply andb_true_iff in H. destruct H as [H1 H2].
  destruct (sane_ok l H1) as [f Hl]. pose proof (msub_ok _ _ _ _ HX2 HX1) as HD. pose proof (nzm _ _ HD H2) as Nd.
  pose proof (eqm _ _ _ _ (mp2 _ _ _ _ Hl HD) (msub_ok _ _ _ _ HY2 HY1) H3) as E.
  assert (F : f = fq (pdiv_mod (y2 - y1) (x2 - x1))).
  { rewrite fq_div, !fq_sub. transitivity ((f * (fq x2 - fq x1)) / (fq x2 - fq x1))%fp; [field; assumption|]. rewrite E. reflexivity. }
  rewrite F in Hl. cbn [padd line_at]. destruct (Z.eqb_spec x1 x2) as [C|_]; [exfalso; apply Nd; rewrite C; ring|].
  split; [apply next_ok; assumption|]. rewrite e12_sloped. apply (sloped_hom _ _ _ _ _ _ _ _ _ _ _ mo_hom); assumption.
Qed.

(** accumulator, multiples of the two points, slopes left, and whether all checks passed so far *)
Definition lst : Type := m12t * (list int * list int) * (list int * list int) * list (list int) * bool.
Definition take1 (l : list (list int)) : list int * list (list int) := match l with [] => ([], []) | x :: t => (x, t) end.
Definition dbl_step (q1 q2 : q2m) (s : lst) : lst :=
  let '(f, T1, T2, ls, ok) := s in
  let (l1, ls1) := take1 ls in let (l2, ls2) := take1 ls1 in
  let (b1, U1) := dbl_st l1 T1 in let (b2, U2) := dbl_st l2 T2 in
  (omul mo12 (omul mo12 (sq12 f) (sloped mo l1 (fst T1) (snd T1) q1)) (sloped mo l2 (fst T2) (snd T2) q2), U1, U2, ls2,
   if b1 then if b2 then ok else false else false).
Definition add_step (P1 P2 : list int * list int) (q1 q2 : q2m) (h : m12t) (s : lst) : lst :=
  let '(f, T1, T2, ls, ok) := s in
  let (l1, ls1) := take1 ls in let (l2, ls2) := take1 ls1 in
  let (b1, U1) := add_st l1 P1 T1 in let (b2, U2) := add_st l2 P2 T2 in
  (omul mo12 (omul mo12 (omul mo12 f h) (sloped mo l1 (fst P1) (snd P1) q1)) (sloped mo l2 (fst P2) (snd P2) q2), U1, U2, ls2,
   if b1 then if b2 then ok else false else false).
Fixpoint mloop (k : positive) (P1 P2 : list int * list int) (q1 q2 : q2m) (h : m12t) (ls : list (list int)) : lst :=
  match k with
  | xH => (h, P1, P2, ls, true)
  | xO k' => dbl_step q1 q2 (mloop k' P1 P2 q1 q2 h ls)
  | xI k' => add_step P1 P2 q1 q2 h (dbl_step q1 q2 (mloop k' P1 P2 q1 q2 h ls))
  end.

Section Loop.
  Variables (P1 P2 : list int * list int) (q1 q2 : q2m) (h : m12t) (A1 A2 : pt) (Q1 Q2 : g2) (hF : ((Fp * Fp) * (Fp * Fp) * (Fp * Fp)) * ((Fp * Fp) * (Fp * Fp) * (Fp * Fp))).
  Hypothesis HP1 : isp P1 A1. Hypothesis HP2 : isp P2 A2. Hypothesis HQ1 : isq q1 Q1. Hypothesis HQ2 : isq q2 Q2.
  Hypothesis Hh : R12 (rp 2) h hF.
  Let Fr : ring_theory (o0 F12) (o1 F12) (oadd F12) (omul F12) (osub F12) (oopp F12) eq := F12_ring.
  Add Ring F12r : Fr.
  (** the state stands for two values of Miller's algorithm *)
  Definition inv_ (s : lst) (m1 m2 : fp12 * pt) (k : nat) : Prop :=
    let '(f, T1, T2, ls, ok) := s in
    ok = true -> isp T1 (snd m1) /\ isp T2 (snd m2) /\
      R12 (rp 2) f (omul F12 (omul F12 (e12 (fst m1)) (e12 (fst m2))) (npow F12 hF k)).
  Lemma inv_dbl s f1 S1 f2 S2 k : inv_ s (f1, S1) (f2, S2) k ->
    inv_ (dbl_step q1 q2 s) (omul zp12 (omul zp12 f1 f1) (line_at S1 S1 Q1), padd S1 S1)
      (omul zp12 (omul zp12 f2 f2) (line_at S2 S2 Q2), padd S2 S2) (k + k).
  Proof.
    destruct s as [[[[f T1] T2] ls] ok]. unfold inv_. cbn [fst snd]. intros HI. unfold dbl_step.
    destruct (take1 ls) as [l1 ls1]. destruct (take1 ls1) as [l2 ls2].
    destruct (dbl_st l1 T1) as [b1 U1] eqn:E1. destruct (dbl_st l2 T2) as [b2 U2] eqn:E2. intros HO.
    destruct b1; [|discriminate HO]. destruct b2; [|discriminate HO]. destruct (HI HO) as (I1 & I2 & I3).
    destruct (dbl_st_ok l1 T1 S1 q1 Q1 I1 HQ1 ltac:(rewrite E1; reflexivity)) as [J1 L1].
    destruct (dbl_st_ok l2 T2 S2 q2 Q2 I2 HQ2 ltac:(rewrite E2; reflexivity)) as [J2 L2].
    rewrite E1 in J1. rewrite E2 in J2. cbn [snd] in *. split; [exact J1|]. split; [exact J2|].
    rewrite !e12_mul, (npow_add F12 F12_ring).
    match goal with |- R12 _ _ ?e => replace e with
      (omul F12 (omul F12 (omul F12 (omul F12 (omul F12 (e12 f1) (e12 f2)) (npow F12 hF k)) (omul F12 (omul F12 (e12 f1) (e12 f2)) (npow F12 hF k)))
        (e12 (line_at S1 S1 Q1))) (e12 (line_at S2 S2 Q2))) by ring end.
    apply (h_mul _ _ _ mo12_hom); [apply (h_mul _ _ _ mo12_hom)|]; [apply sq12_ok; exact I3 | exact L1 | exact L2].
  Qed.
  Lemma inv_add s f1 S1 f2 S2 k : inv_ s (f1, S1) (f2, S2) k ->
    inv_ (add_step P1 P2 q1 q2 h s) (omul zp12 f1 (line_at A1 S1 Q1), padd A1 S1) (omul zp12 f2 (line_at A2 S2 Q2), padd A2 S2) (S k).
  Proof.
    destruct s as [[[[f T1] T2] ls] ok]. unfold inv_. cbn [fst snd]. intros HI. unfold add_step.
    destruct (take1 ls) as [l1 ls1]. destruct (take1 ls1) as [l2 ls2].
    destruct (add_st l1 P1 T1) as [b1 U1] eqn:E1. destruct (add_st l2 P2 T2) as [b2 U2] eqn:E2. intros HO.
    destruct b1; [|discriminate HO]. destruct b2; [|discriminate HO]. destruct (HI HO) as (I1 & I2 & I3).
    destruct (add_st_ok l1 P1 T1 A1 S1 q1 Q1 HP1 I1 HQ1 ltac:(rewrite E1; reflexivity)) as [J1 L1].
    destruct (add_st_ok l2 P2 T2 A2 S2 q2 Q2 HP2 I2 HQ2 ltac:(rewrite E2; reflexivity)) as [J2 L2].
    rewrite E1 in J1. rewrite E2 in J2. cbn [snd] in *. split; [exact J1|]. split; [exact J2|].
    rewrite !e12_mul. cbn [npow].
    match goal with |- R12 _ _ ?e => replace e with
      (omul F12 (omul F12 (omul F12 (omul F12 (omul F12 (e12 f1) (e12 f2)) (npow F12 hF k)) hF)
        (e12 (line_at A1 S1 Q1))) (e12 (line_at A2 S2 Q2))) by ring end.
    apply (h_mul _ _ _ mo12_hom); [apply (h_mul _ _ _ mo12_hom); [apply (h_mul _ _ _ mo12_hom)|]|]; assumption.
  Qed.
  Lemma inv_loop ls k : inv_ (mloop k P1 P2 q1 q2 h ls) (miller k A1 Q1) (miller k A2 Q2) (Pos.to_nat k).
  Proof.
    induction k as [k IH|k IH|]; cbn [mloop miller].
    - destruct (miller k A1 Q1) as [f1 S1], (miller k A2 Q2) as [f2 S2]. cbv zeta.
      rewrite Pos2Nat.inj_xI. replace (S (2 * Pos.to_nat k)) with (S (Pos.to_nat k + Pos.to_nat k)) by lia.
      apply inv_add, inv_dbl, IH.
    - destruct (miller k A1 Q1) as [f1 S1], (miller k A2 Q2) as [f2 S2].
      rewrite Pos2Nat.inj_xO. replace (2 * Pos.to_nat k)%nat with (Pos.to_nat k + Pos.to_nat k)%nat by lia.
      apply inv_dbl, IH.
    - unfold inv_. cbn [fst snd]. intros _. split; [exact HP1|]. split; [exact HP2|].
      change (Pos.to_nat 1) with 1%nat. cbn [npow]. rewrite e12_one.
      match goal with |- R12 _ _ ?e => replace e with hF by ring end. exact Hh.
  Qed.
End Loop.

(** ** The check *)
Definition eq2 (x y : list int * list int) : bool := if eqmod pl (fst x) (fst y) then eqmod pl (snd x) (snd y) else false.
Definition eq6 (x y : (list int * list int) * (list int * list int) * (list int * list int)) : bool :=
  if eq2 (fst (fst x)) (fst (fst y)) then if eq2 (snd (fst x)) (snd (fst y)) then eq2 (snd x) (snd y) else false else false.
Definition eq12 (x y : m12t) : bool := if eq6 (fst x) (fst y) then eq6 (snd x) (snd y) else false.
Lemma eq2_ok x y x' y' : Rq (rp 2) x x' -> Rq (rp 2) y y' -> eq2 x y = true -> x' = y'.
Proof.
  destruct x', y'. intros [H1 H2] [H3 H4] E. unfold eq2 in E. cbn [fst snd] in *. destruct (eqmod pl (fst x) (fst y)) eqn:E1; [|discriminate E].
  rewrite (eqm _ _ _ _ H1 H3 E1), (eqm _ _ _ _ H2 H4 E). reflexivity.
Qed.
Lemma eq6_ok x y x' y' : Rc (Rq (rp 2)) x x' -> Rc (Rq (rp 2)) y y' -> eq6 x y = true -> x' = y'.
Proof.
  destruct x' as [[a b] c], y' as [[d e] f]. intros (H1 & H2 & H3) (K1 & K2 & K3) E. unfold eq6 in E. cbn [fst snd] in *.
  destruct (eq2 (fst (fst x)) (fst (fst y))) eqn:E1; [|discriminate E]. destruct (eq2 (snd (fst x)) (snd (fst y))) eqn:E2; [|discriminate E].
  rewrite (eq2_ok _ _ _ _ H1 K1 E1), (eq2_ok _ _ _ _ H2 K2 E2), (eq2_ok _ _ _ _ H3 K3 E). reflexivity.
Qed.
Lemma eq12_ok x y x' y' : R12 (rp 2) x x' -> R12 (rp 2) y y' -> eq12 x y = true -> x' = y'.
Proof.
  destruct x' as [a b], y' as [c d]. intros [H1 H2] [K1 K2] E. unfold eq12 in E. cbn [fst snd] in *.
  destruct (eq6 (fst x) (fst y)) eqn:E1; [|discriminate E]. rewrite (eq6_ok _ _ _ _ H1 K1 E1), (eq6_ok _ _ _ _ H2 K2 E). reflexivity.
Qed.

Definition r_half : positive := Eval vm_compute in Z.to_pos (r_mod / 2).
Definition monp (P : lpt) : list int * list int := (mont (fst P), mont (snd P)).
Definition tog (q : lpt * lpt) : g2 := ((lval (fst (fst q)), lval (snd (fst q))), (lval (fst (snd q)), lval (snd (snd q)))).
Definition sane2 (x : list int * list int) : bool := sane (fst x) && sane (snd x).
Definition sane6 (x : (list int * list int) * (list int * list int) * (list int * list int)) : bool :=
  sane2 (fst (fst x)) && sane2 (snd (fst x)) && sane2 (snd x).
Definition sane12 (x : m12t) : bool := sane6 (fst x) && sane6 (snd x).
(** the last step: the multiple is the negative of the point *)
Definition last_ok (P T : list int * list int) : bool :=
  if eqmod pl (fst P) (fst T) then nonzero pl (msub (snd P) (snd T)) else false.
Definition pair_fin (P1 P2 : list int * list int) (q1 q2 : q2m) (h z : m12t) (s : lst) : bool :=
  let '(f, T1, T2, ls, ok) := s in
  if ok then if last_ok P1 T1 then if last_ok P2 T2 then
    eq12 (omul mo12 (omul mo12 (omul mo12 f h) (vertical mo (fst P1) q1)) (vertical mo (fst P2) q2)) z
  else false else false else false.
(** the Miller values of the two pairs and the r-th power of [h] multiply to [z] *)
Definition pair_chk (P1 P2 : lpt) (q1 q2 : lpt * lpt) (h z : m12t) (ls : list (list int)) : bool :=
  if goodb P1 then if goodb P2 then if goodb (fst q1) then if goodb (snd q1) then if goodb (fst q2) then if goodb (snd q2) then if sane12 h then
    let m1 := monp P1 in let m2 := monp P2 in let n1 := (monp (fst q1), monp (snd q1)) in let n2 := (monp (fst q2), monp (snd q2)) in
    pair_fin m1 m2 n1 n2 h z (dbl_step n1 n2 (mloop r_half m1 m2 n1 n2 h ls))
  else false else false else false else false else false else false else false.

Lemma sane2_ok x : sane2 x = true -> exists y, Rq (rp 2) x y.
Proof.
  intros H. apply andb_true_iff in H. destruct H as [H1 H2]. destruct (sane_ok _ H1) as [a Ha], (sane_ok _ H2) as [b Hb].
  exists (a, b). split; assumption.
Qed.
Lemma sane6_ok x : sane6 x = true -> exists y, Rc (Rq (rp 2)) x y.
Proof.
  intros H. apply andb_true_iff in H. destruct H as [H H3]. apply andb_true_iff in H. destruct H as [H1 H2].
  destruct (sane2_ok _ H1) as [a Ha], (sane2_ok _ H2) as [b Hb], (sane2_ok _ H3) as [c Hc]. exists (a, b, c). split; [|split]; assumption.
Qed.
Lemma sane12_ok x : sane12 x = true -> exists y, R12 (rp 2) x y.
Proof.
  intros H. apply andb_true_iff in H. destruct H as [H1 H2]. destruct (sane6_ok _ H1) as [a Ha], (sane6_ok _ H2) as [b Hb].
  exists (a, b). split; assumption.
Qed.
Lemma monp_isp P : good P -> isp (monp P) (topt P).
Proof.
  intros (E1 & E2 & L1 & L2). exists (lval (fst P)), (lval (snd P)). pose proof (lval_nonneg (fst P)). pose proof (lval_nonneg (snd P)).
  split; [reflexivity|]. split; [lia|]. split; [lia|]. split; apply mont_ok; assumption.
Qed.
Lemma monp_isq q : good (fst q) -> good (snd q) -> isq (monp (fst q), monp (snd q)) (tog q).
Proof.
  intros (E1 & E2 & L1 & L2) (E3 & E4 & L3 & L4). unfold isq, Rq, tog, e2, monp. cbn [fst snd].
  repeat split; apply mont_ok; assumption.
Qed.
Lemma last_line P T A S q Q : isp P A -> isp T S -> isq q Q -> last_ok P T = true ->
  R12 (rp 2) (vertical mo (fst P) q) (e12 (line_at A S Q)).
Proof.
  destruct P as [X1 Y1], T as [X2 Y2]. intros (x1 & y1 & -> & Rx1 & Ry1 & HX1 & HY1) (x2 & y2 & -> & Rx2 & Ry2 & HX2 & HY2) HQ H.
  unfold last_ok in H. cbn [fst snd] in *. destruct (eqmod pl X1 X2) eqn:E; [|discriminate H].
  pose proof (eqm _ _ _ _ HX1 HX2 E) as Ex. apply fq_inj in Ex; [|assumption|assumption]. subst x2.
  pose proof (nzm _ _ (msub_ok _ _ _ _ HY1 HY2) H) as Ny. cbn [line_at]. rewrite Z.eqb_refl.
  destruct (Z.eqb_spec y1 y2) as [C|_]; [exfalso; apply Ny; rewrite C; ring|]. cbn [andb].
  rewrite e12_vertical. apply (vertical_hom _ _ _ _ _ _ _ mo_hom); assumption.
Qed.
Lemma m12_ac a b c d e f : omul F12 (omul F12 (omul F12 a c) (omul F12 b d)) (omul F12 f e) =
  omul F12 (omul F12 (omul F12 (omul F12 (omul F12 a b) e) f) c) d.
Proof.
  pose proof F12_ring as Hr. unfold rth in Hr. destruct Hr as [_ _ _ _ C A _ _ _].
  assert (S : forall x y z, omul F12 (omul F12 x y) z = omul F12 (omul F12 x z) y).
  { intros. rewrite <- !A. f_equal. apply C. }
  rewrite (A (omul F12 (omul F12 a c) (omul F12 b d)) f e), (A (omul F12 a c) b d), (S a c b).
  rewrite (S _ f e), (S _ d e), (S _ c e), (S _ d f), (S _ c f). reflexivity.
Qed.
Lemma npow_xI x k : npow F12 x (Pos.to_nat (xI k)) = omul F12 x (npow F12 x (Pos.to_nat k + Pos.to_nat k)).
Proof. rewrite Pos2Nat.inj_xI. replace (S (2 * Pos.to_nat k)) with (S (Pos.to_nat k + Pos.to_nat k)) by lia. reflexivity. Qed.
Section Core.
  Variables (m1 m2 : list int * list int) (n1 n2 : q2m) (h : m12t) (A1 A2 : pt) (Q1 Q2 : g2) (hF : ((Fp * Fp) * (Fp * Fp) * (Fp * Fp)) * ((Fp * Fp) * (Fp * Fp) * (Fp * Fp))).
  Hypothesis HP1 : isp m1 A1. Hypothesis HP2 : isp m2 A2. Hypothesis HQ1 : isq n1 Q1. Hypothesis HQ2 : isq n2 Q2.
  Hypothesis Hh : R12 (rp 2) h hF.
  Lemma pair_core z zF k ls : R12 (rp 2) z zF -> pair_fin m1 m2 n1 n2 h z (dbl_step n1 n2 (mloop k m1 m2 n1 n2 h ls)) = true ->
    omul F12 (e12 (omul zp12 (fst (miller (xI k) A1 Q1)) (omul zp12 (fst (miller (xI k) A2 Q2)) (o1 zp12)))) (npow F12 hF (Pos.to_nat (xI k))) = zF.
  Proof.
    intros Hz H. pose proof (inv_loop m1 m2 n1 n2 h A1 A2 Q1 Q2 hF HP1 HP2 HQ1 HQ2 Hh ls k) as HL.
    cbn [miller]. destruct (miller k A1 Q1) as [f1 S1], (miller k A2 Q2) as [f2 S2]. cbv zeta. cbn [fst].
    pose proof (inv_dbl n1 n2 Q1 Q2 hF HQ1 HQ2 _ _ _ _ _ _ HL) as HD.
    destruct (dbl_step n1 n2 (mloop k m1 m2 n1 n2 h ls)) as [[[[f T1] T2] ls'] ok]. unfold pair_fin in H.
    destruct ok; [|discriminate H]. destruct (last_ok m1 T1) eqn:E1; [|discriminate H]. destruct (last_ok m2 T2) eqn:E2; [|discriminate H].
    destruct (HD eq_refl) as (I1 & I2 & I3). cbn [fst snd] in *.
    pose proof (last_line m1 T1 _ _ n1 Q1 HP1 I1 HQ1 E1) as L1. pose proof (last_line m2 T2 _ _ n2 Q2 HP2 I2 HQ2 E2) as L2.
    pose proof (eq12_ok _ _ _ _ (h_mul _ _ _ mo12_hom _ _ _ _ (h_mul _ _ _ mo12_hom _ _ _ _ (h_mul _ _ _ mo12_hom _ _ _ _ I3 Hh) L1) L2) Hz H) as E.
    refine (eq_trans _ E). rewrite npow_xI, !e12_mul, e12_one.
    pose proof F12_ring as Fr. unfold rth in Fr.
    assert (M1 : forall x, omul F12 x (o1 F12) = x) by (intros; rewrite (Rmul_comm Fr); apply (Rmul_1_l Fr)).
    rewrite M1. apply m12_ac.
  Qed.
End Core.
Definition Kexp : positive := Z.to_pos ((p_mod ^ 12 - 1) / r_mod).
Lemma one_can : can12 (o1 zp12).
Proof. unfold can12, R12, Rq, Rc, can. cbn [fst snd zp12 zp6 zp2 quad cubic o1 o0 zp]. repeat split; discriminate. Qed.
Section Fin.
  Variables (k K : positive).
  Hypothesis KV : p_mod ^ 12 = 1 + Zpos k * Zpos K.
  Lemma nat_KV : exists q, Z.of_nat q = p_mod /\ (q ^ 12 = 1 + Pos.to_nat k * Pos.to_nat K)%nat.
  Proof.
    exists (Z.to_nat p_mod). assert (Q : Z.of_nat (Z.to_nat p_mod) = p_mod) by (apply Z2Nat.id; discriminate). split; [exact Q|].
    revert Q. generalize (Z.to_nat p_mod). intros q Q.
    apply Nat2Z.inj. rewrite Nat2Z.inj_pow, Nat2Z.inj_add, Nat2Z.inj_mul, !positive_nat_Z, Q. exact KV.
  Qed.
  Lemma fin_core x hF : can12 x -> omul F12 (e12 x) (npow F12 hF (Pos.to_nat k)) = o1 F12 -> opow zp12 x K = o1 zp12.
  Proof.
    intros C E. apply can12_inj; [apply can12_pow, C | exact one_can|].
    rewrite e12_pow, e12_one, (opow_npow F12 F12_ring). destruct nat_KV as (q & Q & NK).
    exact (residue q Q _ hF _ _ NK (Pos2Nat.is_pos _) E).
  Qed.
  Lemma fin_not x hF zF a b : Zpos a * Zpos k = 1 + Zpos b * Zpos K ->
    omul F12 (e12 x) (npow F12 hF (Pos.to_nat k)) = zF -> opow F12 zF k = o1 F12 -> zF <> o1 F12 -> opow zp12 x K <> o1 zp12.
  Proof.
    intros AB E ZR ZN C. apply ZN. pose proof F12_ring as R. unfold rth in R.
    assert (XK : npow F12 (e12 x) (Pos.to_nat K) = o1 F12).
    { rewrite <- (opow_npow F12 F12_ring), <- e12_pow, C. apply e12_one. }
    rewrite (opow_npow F12 F12_ring) in ZR.
    (* h is invertible, so h^(rK) = 1 *)
    destruct nat_KV as (q & Q & NK).
    assert (HK : npow F12 hF (Pos.to_nat k * Pos.to_nat K) = o1 F12).
    { destruct (Pos2Nat.is_succ k) as [m Em].
      assert (HI : exists y, omul F12 hF y = o1 F12).
      { exists (omul F12 (omul F12 (e12 x) (npow F12 hF m)) (npow F12 zF m)). rewrite Em in E, ZR. cbn [npow] in E, ZR.
        rewrite !(Rmul_assoc R), (Rmul_comm R hF (e12 x)), <- (Rmul_assoc R (e12 x)), E. exact ZR. }
      destruct HI as [y Y]. pose proof (fixes12 q Q hF) as F. rewrite NK in F. cbn [npow Nat.add] in F.
      transitivity (omul F12 (omul F12 hF y) (npow F12 hF (Pos.to_nat k * Pos.to_nat K))); [rewrite Y; symmetry; apply (Rmul_1_l R)|].
      rewrite (Rmul_comm R hF y), <- (Rmul_assoc R), F, (Rmul_comm R). exact Y. }
    assert (ZK : npow F12 zF (Pos.to_nat K) = o1 F12).
    { rewrite <- E, (npow_dist F12 F12_ring), XK, <- (npow_mul F12 F12_ring), HK. apply (Rmul_1_l R). }
    assert (N : (Pos.to_nat k * Pos.to_nat a = 1 + Pos.to_nat K * Pos.to_nat b)%nat).
    { apply Nat2Z.inj. rewrite Nat2Z.inj_add, !Nat2Z.inj_mul, !positive_nat_Z. rewrite Z.mul_comm, AB. ring. }
    pose proof (npow_mul F12 F12_ring zF (Pos.to_nat k) (Pos.to_nat a)) as M. rewrite N, ZR, (npow_1 F12 F12_ring) in M.
    cbn [npow Nat.add] in M. rewrite (npow_mul F12 F12_ring), ZK, (npow_1 F12 F12_ring), (Rmul_comm R), (Rmul_1_l R) in M. exact M.
  Qed.
End Fin.
Lemma tate_two A1 A2 Q1 Q2 k : A1 <> Inf -> A2 <> Inf -> Zpos k = Zpos (Z.to_pos r_mod) ->
  tate_product [(A1, Q1); (A2, Q2)] = opow zp12 (omul zp12 (fst (miller k A1 Q1)) (omul zp12 (fst (miller k A2 Q2)) (o1 zp12))) Kexp.
Proof.
  intros N1 N2 E. injection E as ->. unfold tate_product, final_exp, tate_f, Kexp. cbn [fold_right fst snd].
  destruct A1; [|destruct A2]; [contradiction N1; reflexivity | contradiction N2; reflexivity | reflexivity].
Qed.
Lemma r_half_ok : Zpos (xI r_half) = Zpos (Z.to_pos r_mod). Proof. vm_compute. reflexivity. Qed.
Lemma pair_mid P1 P2 q1 q2 h z ls : pair_chk P1 P2 q1 q2 h z ls = true -> forall zF, R12 (rp 2) z zF ->
  exists x hF, can12 x /\ omul F12 (e12 x) (npow F12 hF (Pos.to_nat (xI r_half))) = zF /\
    tate_product [(topt P1, tog q1); (topt P2, tog q2)] = opow zp12 x Kexp.
Proof.
  unfold pair_chk. intros H zF Hz.
  destruct (goodb P1) eqn:G1; [|discriminate H]. destruct (goodb P2) eqn:G2; [|discriminate H].
  destruct (goodb (fst q1)) eqn:G3; [|discriminate H]. destruct (goodb (snd q1)) eqn:G4; [|discriminate H].
  destruct (goodb (fst q2)) eqn:G5; [|discriminate H]. destruct (goodb (snd q2)) eqn:G6; [|discriminate H].
  destruct (sane12 h) eqn:G7; [|discriminate H]. cbv zeta in H. apply goodb_ok in G1, G2, G3, G4, G5, G6.
  destruct (sane12_ok h G7) as [hF Hh]. revert H. pose proof r_half_ok as RH. revert RH. generalize r_half. intros k RH H.
  pose proof (pair_core _ _ _ _ h _ _ _ _ hF (monp_isp P1 G1) (monp_isp P2 G2) (monp_isq q1 G3 G4) (monp_isq q2 G5 G6) Hh z zF k ls Hz H) as E.
  exists (omul zp12 (fst (miller (xI k) (topt P1) (tog q1))) (omul zp12 (fst (miller (xI k) (topt P2) (tog q2))) (o1 zp12))), hF.
  split; [apply can12_mul|]. split; [exact E|].
  refine (tate_two (topt P1) (topt P2) (tog q1) (tog q2) (xI k) _ _ RH); discriminate.
Qed.
Lemma K_half : p_mod ^ 12 = 1 + Zpos (xI r_half) * Zpos Kexp. Proof. vm_compute. reflexivity. Qed.
Lemma pair_ok P1 P2 q1 q2 h ls : pair_chk P1 P2 q1 q2 h (o1 mo12) ls = true ->
  tate_product [(topt P1, tog q1); (topt P2, tog q2)] = o1 zp12.
Proof.
  intros H. destruct (pair_mid _ _ _ _ _ _ _ H _ (h_1 _ _ _ mo12_hom)) as (x & hF & C & E & ->).
  exact (fin_core (xI r_half) Kexp K_half x hF C E).
Qed.

(** a product that is not one: [z] has order r *)
Definition order_r (z : m12t) : bool :=
  if sane12 z then if nonzero pl (fst (fst (fst (snd z)))) then eq12 (opow mo12 z (xI r_half)) (o1 mo12) else false else false.
Definition bz : positive := Eval vm_compute in Z.to_pos ((- inv_mod r_mod (Zpos Kexp mod r_mod)) mod r_mod).
Definition az : positive := Eval vm_compute in Z.to_pos ((1 + Zpos bz * Zpos Kexp) / r_mod).
Lemma ab_ok : Zpos az * Zpos (xI r_half) = 1 + Zpos bz * Zpos Kexp. Proof. vm_compute. reflexivity. Qed.
Lemma pair_not P1 P2 q1 q2 h z ls : pair_chk P1 P2 q1 q2 h z ls = true -> order_r z = true ->
  tate_product [(topt P1, tog q1); (topt P2, tog q2)] <> o1 zp12.
Proof.
  intros H O. unfold order_r in O. destruct (sane12 z) eqn:S; [|discriminate O]. destruct (sane12_ok z S) as [zF Hz].
  destruct (nonzero pl (fst (fst (fst (snd z))))) eqn:N; [|discriminate O].
  pose proof (eq12_ok _ _ _ _ (opow_hom _ _ _ _ _ (xI r_half) mo12_hom Hz) (h_1 _ _ _ mo12_hom) O) as ZR.
  destruct (pair_mid _ _ _ _ _ _ _ H _ Hz) as (x & hF & C & E & ->).
  refine (fin_not (xI r_half) Kexp K_half x hF zF az bz ab_ok E ZR _).
  intros Z1. apply (nzm _ (fst (fst (fst (snd zF))))) in N; [apply N; rewrite Z1; reflexivity|].
  destruct Hz as (_ & ((Hz & _) & _)). exact Hz.
Qed.
