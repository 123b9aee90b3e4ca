(** Computing multiples on secp256k1 with Montgomery limbs and supplied inverses.  Only used to run the
    signature check on concrete data. *)
From Coq Require Import ZArith Bool List Lia Uint63.
From Verif Require Import P_Limb P_Mont P_Jac SpecKeys SpecEcdsa.
Import ListNotations.
Open Scope Z_scope.

Definition sms : list int := Eval vm_compute in limbs 9 secp_p.
Definition smi : int := Eval vm_compute in of_Z (Z.modulo (- (let fix go n y := match n with O => y | S n => go n (y * (2 - secp_p * y) mod base) end in go 6%nat 1)) base).
Lemma sms_elem : elem sms. Proof. apply elemb_ok. vm_compute. reflexivity. Qed.
Lemma sms_val : lval sms = secp_p. Proof. vm_compute. reflexivity. Qed.
Lemma smi_ok : (to_Z (h0 sms) * to_Z smi + 1) mod base = 0. Proof. vm_compute. reflexivity. Qed.
Definition Rinv : Z := Eval vm_compute in
  (let fix pw (b : Z) (e : positive) := match e with xH => b | xO e => let s := pw b e in s * s mod secp_p | xI e => let s := pw b e in s * s * b mod secp_p end
   in pw (RR mod secp_p) (Z.to_pos (secp_p - 2))).
Lemma Rinv_ok : (RR * Rinv) mod secp_p = 1. Proof. vm_compute. reflexivity. Qed.
Lemma p_small : 31 * secp_p < RR. Proof. reflexivity. Qed.
Lemma p_pos : 1 < secp_p. Proof. reflexivity. Qed.
Local Opaque RR.
Definition pp : Z := secp_p.
Lemma pp_pos : 1 < pp. Proof. exact p_pos. Qed.
Lemma pp_small : 31 * pp < RR. Proof. exact p_small. Qed.
Lemma pp_eq : pp = secp_p. Proof. reflexivity. Qed.
Local Opaque pp.

Definition cg (a b : Z) : Prop := exists k, a = b + k * pp.
Lemma cg_refl a : cg a a. Proof. exists 0. ring. Qed.
Lemma cg_sym a b : cg a b -> cg b a. Proof. intros [k H]. exists (- k). rewrite H. ring. Qed.
Lemma cg_trans a b c : cg a b -> cg b c -> cg a c. Proof. intros [k H] [l K]. exists (k + l). rewrite H, K. ring. Qed.
Lemma cg_add a b c d : cg a b -> cg c d -> cg (a + c) (b + d). Proof. intros [k H] [l K]. exists (k + l). rewrite H, K. ring. Qed.
Lemma cg_sub a b c d : cg a b -> cg c d -> cg (a - c) (b - d). Proof. intros [k H] [l K]. exists (k - l). rewrite H, K. ring. Qed.
Lemma cg_mul a b c d : cg a b -> cg c d -> cg (a * c) (b * d).
Proof. intros [k H] [l K]. exists (k * d + b * l + k * l * pp). rewrite H, K. ring. Qed.
Lemma cg_mod a : cg (a mod pp) a.
Proof. exists (- (a / pp)). rewrite (Z.mod_eq a pp) by (pose proof pp_pos; lia). ring. Qed.
Lemma cg_iff a b : cg a b <-> a mod pp = b mod pp.
Proof.
  pose proof pp_pos. split.
  - intros [k ->]. apply Z.mod_add. lia.
  - intros E. exact (cg_trans _ _ _ (cg_sym _ _ (cg_mod a)) (eq_ind_r (fun z => cg z b) (cg_mod b) E)).
Qed.
Lemma cg_small a b : 0 <= a < pp -> 0 <= b < pp -> cg a b -> a = b.
Proof. intros Ha Hb H. apply cg_iff in H. rewrite !Z.mod_small in H by assumption. exact H. Qed.
Lemma cg_Rinv : cg (RR * Rinv) 1.
Proof. apply cg_iff. rewrite pp_eq, Rinv_ok. reflexivity. Qed.
Lemma cg_cancel a b : cg (RR * a) (RR * b) -> cg a b.
Proof.
  intros H. pose proof (cg_mul _ _ _ _ (cg_refl Rinv) H) as H1.
  assert (E : forall z, cg (Rinv * (RR * z)) z).
  { intros z. replace (Rinv * (RR * z)) with (RR * Rinv * z) by ring.
    pose proof (cg_mul _ _ _ _ cg_Rinv (cg_refl z)) as C. rewrite Z.mul_1_l in C. exact C. }
  exact (cg_trans _ _ _ (cg_sym _ _ (E a)) (cg_trans _ _ _ H1 (E b))).
Qed.

(** [l] is the Montgomery form of a number congruent to [x], below c*p *)
Definition rp (c : Z) (l : list int) (x : Z) : Prop := elem l /\ lval l < c * pp /\ cg (lval l) (RR * x).
Lemma rp_cg c l x y : rp c l x -> cg x y -> rp c l y.
Proof. intros (E & V & H) K. split; [exact E | split; [exact V|]]. exact (cg_trans _ _ _ H (cg_mul _ _ _ _ (cg_refl RR) K)). Qed.
Lemma rp_fun c1 c2 l x y : rp c1 l x -> rp c2 l y -> cg x y.
Proof. intros (_ & _ & H) (_ & _ & K). apply cg_cancel. exact (cg_trans _ _ _ (cg_sym _ _ H) K). Qed.

Definition sm (a b : list int) : list int := mm sms smi a b.
Lemma sm_ok a b c1 c2 x y : rp c1 a x -> rp c2 b y -> 0 <= c1 -> 0 <= c2 -> c1 * c2 <= 31 -> rp 2 (sm a b) (x * y).
Proof.
  intros (Ea & Va & Pa) (Eb & Vb & Pb) H1 H2 H3. pose proof Ea as [La Ha].
  assert (V0 : lval sms = pp) by exact sms_val. pose proof pp_pos as PP. pose proof pp_small as PS.
  destruct (rounds_ok pp sms smi sms_elem V0 smi_ok b Eb a [] 0 Ha ltac:(constructor) ltac:(lia) ltac:(cbn; lia)) as (L & B & q & Hq & V); [rewrite La; unfold U; lia|].
  rewrite La in *. specialize (L ltac:(intros ->; discriminate La)).
  unfold sm, mm. set (t := fold_left (round sms smi b) a []) in *. clearbody t.
  change (Z.of_nat 9) with 9 in *. rewrite <- RR_base in *. cbn [lval] in V.
  pose proof (lval_nonneg a). pose proof (lval_nonneg b). pose proof (lval_nonneg t).
  assert (VT : lval t < 2 * pp).
  { assert (lval a * lval b <= (c1 * pp) * (c2 * pp)) by nia. assert ((c1 * pp) * (c2 * pp) <= 31 * pp * pp) by nia.
    assert (0 <= c1 * c2) by nia. assert (RR * lval t < RR * (2 * pp)) by nia. nia. }
  assert (Z0 : to_Z 0%uint63 <= 34359738368) by (rewrite to_Z_0; lia).
  assert (BT : bounded top t) by (refine (ble _ _ _ B _); unfold U, top; lia).
  destruct (norm_ok t 0%uint63 Z0 BT) as [_ NV]. rewrite to_Z_0, Z.add_0_l in NV.
  destruct (norm_digits t 0%uint63 BT Z0) as [N1 N2].
  { rewrite L, to_Z_0. change (Z.of_nat 9) with 9. rewrite <- RR_base. lia. }
  split; [split; [rewrite N1, L; reflexivity | exact N2]|]. rewrite NV. split; [exact VT|].
  apply cg_cancel. rewrite V, Z.add_0_l.
  apply cg_trans with (lval a * lval b); [exists q; ring|].
  replace (RR * (RR * (x * y))) with (RR * x * (RR * y)) by ring. apply cg_mul; assumption.
Qed.
Lemma sadd_ok a b c1 c2 x y : rp c1 a x -> rp c2 b y -> c1 + c2 <= 31 -> rp (c1 + c2) (lad a b) (x + y).
Proof.
  intros (Ea & Va & Pa) (Eb & Vb & Pb) H. pose proof Ea as [La Ha]. pose proof Eb as [Lb Hb].
  destruct (add_el D29 a b Ha Hb ltac:(lia)) as [B V]. pose proof pp_pos as PP. pose proof pp_small as PS.
  assert (LL : length (ladd a b) = 9%nat).
  { clear -La Lb. revert b Lb La. generalize 9%nat. induction a as [|x a IH]; intros n [|y b] Lb La; cbn [ladd length] in *; try congruence.
    destruct n; [discriminate|]. f_equal. apply IH; congruence. }
  unfold lad. assert (Z0 : to_Z 0%uint63 <= 34359738368) by (rewrite to_Z_0; lia).
  destruct (nrm_digits (ladd a b) 0%uint63) as (N1 & N2 & N3); [refine (ble _ _ _ B _); unfold top; lia | exact Z0 | |].
  { rewrite LL, to_Z_0, V. change (Z.of_nat 9) with 9. rewrite <- RR_base. nia. }
  specialize (N3 ltac:(intros C; rewrite C in LL; discriminate LL)). rewrite to_Z_0, V in N3.
  split; [split; [rewrite N1; exact LL | exact N2]|]. rewrite N3. split; [lia|].
  rewrite Z.add_0_l. replace (RR * (x + y)) with (RR * x + RR * y) by ring. apply cg_add; assumption.
Qed.
Lemma ssub_ok k a b c1 c2 x y : rp c1 a x -> rp c2 b y -> dom pp c2 k = true -> c1 + c2 + 1 <= 31 -> rp (c1 + c2 + 1) (lsu k a b) (x - y).
Proof.
  intros (Ea & Va & Pa) (Eb & Vb & Pb) D H. pose proof Ea as [La Ha]. pose proof Eb as [Lb Hb]. pose proof pp_pos as PP. pose proof pp_small as PS.
  destruct (dom_geq pp smi c2 k b D Eb Vb) as (G & Bk & Vk & Lk).
  destruct (lsb_ok k a b ltac:(congruence) ltac:(congruence) G Bk Ha) as (B & V & L).
  pose proof (lval_nonneg a). pose proof (lval_nonneg b).
  unfold lsu. assert (Z0 : to_Z 0%uint63 <= 34359738368) by (rewrite to_Z_0; lia).
  destruct (nrm_digits (lsb k a b) 0%uint63) as (N1 & N2 & N3); [refine (ble _ _ _ B _); unfold top; lia | exact Z0 | |].
  { rewrite L, Lk, to_Z_0, V, Vk. change (Z.of_nat 9) with 9. rewrite <- RR_base. nia. }
  specialize (N3 ltac:(intros C; rewrite C in L; rewrite Lk in L; discriminate L)). rewrite to_Z_0, V, Vk in N3.
  split; [split; [rewrite N1, L; exact Lk | exact N2]|]. rewrite N3. split; [lia|].
  apply cg_trans with (lval a - lval b); [exists (c2 + 1); ring|].
  replace (RR * (x - y)) with (RR * x - RR * y) by ring. apply cg_sub; assumption.
Qed.
Lemma seq_ok c1 c2 a b x y : rp c1 a x -> rp c2 b y -> eqmod sms a b = true -> cg x y.
Proof.
  intros (Ea & _ & Pa) (Eb & _ & Pb) H. apply cg_cancel. refine (cg_trans _ _ _ (cg_sym _ _ Pa) (cg_trans _ _ _ _ Pb)).
  assert (V0 : lval sms = pp) by exact sms_val.
  destruct Ea as [_ Ha], Eb as [_ Hb], sms_elem as [_ Hm].
  destruct (add_el D29 a sms Ha Hm ltac:(lia)) as [A1 A2]. destruct (add_el D29 b sms Hb Hm ltac:(lia)) as [B1 B2].
  unfold eqmod in H. destruct (eqv a b) eqn:E1.
  { apply eqv_ok in E1; [|refine (ble _ _ _ Ha _); unfold top; lia|refine (ble _ _ _ Hb _); unfold top; lia]. rewrite E1. apply cg_refl. }
  destruct (eqv (ladd a sms) b) eqn:E2.
  { apply eqv_ok in E2; [|refine (ble _ _ _ A1 _); unfold top; lia|refine (ble _ _ _ Hb _); unfold top; lia].
    rewrite <- E2, A2, V0. exists (-1). ring. }
  apply eqv_ok in H; [|refine (ble _ _ _ Ha _); unfold top; lia|refine (ble _ _ _ B1 _); unfold top; lia].
  rewrite H, B2, V0. exists 1. ring.
Qed.

(** ** Points *)
Definition k2 : list int := Eval vm_compute in fatten (limbs 9 (3 * secp_p)).
Definition k4 : list int := Eval vm_compute in fatten (limbs 9 (5 * secp_p)).
Definition sone : list int := Eval vm_compute in limbs 9 (RR mod secp_p).
Lemma k2_dom : dom pp 2 k2 = true. Proof. rewrite pp_eq. vm_compute. reflexivity. Qed.
Lemma k4_dom : dom pp 4 k4 = true. Proof. rewrite pp_eq. vm_compute. reflexivity. Qed.
Lemma sone_ok : rp 1 sone 1.
Proof.
  split; [apply elemb_ok; vm_compute; reflexivity|]. split; [rewrite pp_eq; vm_compute; reflexivity|].
  rewrite Z.mul_1_r. apply cg_iff. rewrite pp_eq. vm_compute. reflexivity.
Qed.
(** a supplied inverse: nine limbs, below p *)
Definition below (e : list int) : bool := elemb e && match llt e sms with Lt => true | _ => false end.
Lemma below_ok e : below e = true -> rp 1 e (lval e * Rinv).
Proof.
  intros H. apply andb_true_iff in H. destruct H as [H1 H2]. apply elemb_ok in H1. pose proof H1 as [L1 B1]. destruct sms_elem as [L2 B2].
  pose proof (llt_ok e sms ltac:(congruence) B1 B2) as K. destruct (llt e sms); try discriminate H2.
  assert (V0 : lval sms = pp) by exact sms_val.
  split; [exact H1|]. split; [lia|]. replace (RR * (lval e * Rinv)) with (RR * Rinv * lval e) by ring.
  pose proof (cg_mul _ _ _ _ cg_Rinv (cg_refl (lval e))) as C. rewrite Z.mul_1_l in C. apply cg_sym. exact C.
Qed.
Definition lpt : Type := (list int * list int)%type.
(** the third point on the line of slope t through P and Q, mirrored *)
Definition third (P : lpt) (x2 t : list int) : lpt :=
  let x3 := sm (lsu k4 (sm t t) (lad (fst P) x2)) sone in
  let y3 := sm (lsu k2 (sm t (lsu k2 (fst P) x3)) (snd P)) sone in
  (x3, y3).
Definition sadd (P Q : lpt) (e : list int) : option lpt :=
  let d := lsu k2 (fst Q) (fst P) in
  if below e && eqmod sms (sm d e) sone then Some (third P (fst Q) (sm (lsu k2 (snd Q) (snd P)) e)) else None.
Definition sdbl (P : lpt) (e : list int) : option lpt :=
  let d := lad (snd P) (snd P) in
  if below e && eqmod sms (sm d e) sone then
    let xx := sm (fst P) (fst P) in Some (third P (fst P) (sm (lad (lad xx xx) xx) e))
  else None.

Definition canon (z : Z) : Prop := 0 <= z < pp.
Definition prp (P : lpt) (x y : Z) : Prop := rp 2 (fst P) x /\ rp 2 (snd P) y /\ canon x /\ canon y.
Lemma mod_canon z : canon (z mod pp). Proof. apply Z.mod_pos_bound. pose proof pp_pos. lia. Qed.

Lemma third_ok P x y X2 x2 T t : prp P x y -> rp 2 X2 x2 -> rp 2 T t ->
  prp (third P X2 T) ((t * t - x - x2) mod pp) ((t * (x - (t * t - x - x2) mod pp) - y) mod pp).
Proof.
  intros (RX & RY & CX & CY) R2 RT. unfold third. cbn zeta.
  pose proof (sm_ok _ _ 2 2 _ _ RT RT ltac:(lia) ltac:(lia) ltac:(lia)) as TT.
  pose proof (sadd_ok _ _ 2 2 _ _ RX R2 ltac:(lia)) as S1.
  pose proof (ssub_ok k4 _ _ 2 (2 + 2) _ _ TT S1 k4_dom ltac:(lia)) as S2.
  pose proof (sm_ok _ _ _ 1 _ _ S2 sone_ok ltac:(lia) ltac:(lia) ltac:(lia)) as X3.
  set (X3l := sm (lsu k4 (sm T T) (lad (fst P) X2)) sone) in *.
  assert (X3' : rp 2 X3l ((t * t - x - x2) mod pp)).
  { refine (rp_cg _ _ _ _ X3 _). replace ((t * t - (x + x2)) * 1) with (t * t - x - x2) by ring. apply cg_sym, cg_mod. }
  set (x3 := (t * t - x - x2) mod pp) in *.
  pose proof (ssub_ok k2 _ _ 2 2 _ _ RX X3' k2_dom ltac:(lia)) as S3.
  pose proof (sm_ok _ _ 2 _ _ _ RT S3 ltac:(lia) ltac:(lia) ltac:(lia)) as S4.
  pose proof (ssub_ok k2 _ _ 2 2 _ _ S4 RY k2_dom ltac:(lia)) as S5.
  pose proof (sm_ok _ _ _ 1 _ _ S5 sone_ok ltac:(lia) ltac:(lia) ltac:(lia)) as Y3.
  split; [exact X3'|]. split; [|split; apply mod_canon]. cbn [snd].
  refine (rp_cg _ _ _ _ Y3 _). rewrite Z.mul_1_r. apply cg_sym, cg_mod.
Qed.

(** an invertible denominator determines the slope *)
Lemma slope_unique d e n t : cg (d * e) 1 -> cg (t * d) n -> cg t (n * e).
Proof.
  intros H K. apply cg_trans with (t * (d * e)).
  - apply cg_sym. pose proof (cg_mul _ _ _ _ (cg_refl t) H) as C. rewrite Z.mul_1_r in C. exact C.
  - replace (t * (d * e)) with (t * d * e) by ring. apply cg_mul; [exact K | apply cg_refl].
Qed.
Lemma slope_exists d e n : cg (d * e) 1 -> cg (n * e * d) n.
Proof. intros H. replace (n * e * d) with (n * (d * e)) by ring. pose proof (cg_mul _ _ _ _ (cg_refl n) H) as C. rewrite Z.mul_1_r in C. exact C. Qed.
Lemma eqp_cg a b : eqp a b <-> cg a b.
Proof. symmetry. exact (cg_iff a b). Qed.
Lemma not_1_0 : ~ cg 1 0.
Proof. intros H. apply cg_iff in H. pose proof pp_pos. rewrite Z.mod_1_l, Z.mod_0_l in H by lia. discriminate. Qed.
Lemma third_cg t t' x y x2 : cg t t' ->
  (t * t - x - x2) mod pp = (t' * t' - x - x2) mod pp /\
  (t * (x - (t * t - x - x2) mod pp) - y) mod pp = (t' * (x - (t' * t' - x - x2) mod pp) - y) mod pp.
Proof.
  intros H. assert (E : (t * t - x - x2) mod pp = (t' * t' - x - x2) mod pp).
  { apply cg_iff. apply cg_sub; [apply cg_sub; [apply cg_mul; exact H|]|]; apply cg_refl. }
  split; [exact E|]. rewrite E. apply cg_iff. apply cg_sub; [apply cg_mul; [exact H|]|]; apply cg_refl.
Qed.

Lemma sadd_sound P Q e R x1 y1 x2 y2 : prp P x1 y1 -> prp Q x2 y2 -> sadd P Q e = Some R ->
  exists x3 y3, prp R x3 y3 /\ forall S, ssum (SAff x1 y1) (SAff x2 y2) S <-> S = SAff x3 y3.
Proof.
  intros HP HQ H. unfold sadd in H. cbn zeta in H.
  destruct (below e) eqn:B; [|discriminate H]. cbn [andb] in H.
  destruct (eqmod sms (sm (lsu k2 (fst Q) (fst P)) e) sone) eqn:D; [|discriminate H].
  assert (ER : R = third P (fst Q) (sm (lsu k2 (snd Q) (snd P)) e)) by congruence. clear H.
  pose proof HP as (RX & RY & CX & CY). pose proof HQ as (RX2 & RY2 & CX2 & CY2).
  apply below_ok in B. set (ev := lval e * Rinv) in *.
  pose proof (ssub_ok k2 _ _ 2 2 _ _ RX2 RX k2_dom ltac:(lia)) as S1.
  pose proof (sm_ok _ _ _ 1 _ _ S1 B ltac:(lia) ltac:(lia) ltac:(lia)) as S2.
  pose proof (seq_ok _ _ _ _ _ _ S2 sone_ok D) as INV.
  pose proof (ssub_ok k2 _ _ 2 2 _ _ RY2 RY k2_dom ltac:(lia)) as S3.
  pose proof (sm_ok _ _ _ 1 _ _ S3 B ltac:(lia) ltac:(lia) ltac:(lia)) as S4.
  set (t0 := (y2 - y1) * ev) in *.
  pose proof (third_ok P x1 y1 (fst Q) x2 _ t0 HP RX2 S4) as T. rewrite <- ER in T.
  eexists _, _. split; [exact T|].
  assert (NE : x1 <> x2).
  { intros C. subst x2. apply not_1_0. refine (cg_trans _ _ _ (cg_sym _ _ INV) _). rewrite Z.sub_diag, Z.mul_0_l. apply cg_refl. }
  intros S. split.
  - intros HS. inversion HS; subst; try (exfalso; apply NE; reflexivity).
    match goal with E : eqp _ _ |- _ => apply eqp_cg in E; pose proof (slope_unique _ _ _ _ INV E) as U end.
    fold t0 in U. destruct (third_cg _ _ x1 y1 x2 U) as [E1 E2]. rewrite <- pp_eq. rewrite E1 in *. rewrite E2. reflexivity.
  - intros ->. apply ss_chord with t0; [exact NE | | reflexivity | reflexivity].
    apply eqp_cg. apply slope_exists. exact INV.
Qed.
Lemma sdbl_sound P e R x1 y1 : prp P x1 y1 -> sdbl P e = Some R ->
  exists x3 y3, prp R x3 y3 /\ forall S, ssum (SAff x1 y1) (SAff x1 y1) S <-> S = SAff x3 y3.
Proof.
  intros HP H. unfold sdbl in H. cbn zeta in H.
  destruct (below e) eqn:B; [|discriminate H]. cbn [andb] in H.
  destruct (eqmod sms (sm (lad (snd P) (snd P)) e) sone) eqn:D; [|discriminate H].
  set (xx := sm (fst P) (fst P)) in *.
  assert (ER : R = third P (fst P) (sm (lad (lad xx xx) xx) e)) by congruence. clear H.
  pose proof HP as (RX & RY & CX & CY).
  apply below_ok in B. set (ev := lval e * Rinv) in *.
  pose proof (sadd_ok _ _ 2 2 _ _ RY RY ltac:(lia)) as S1.
  pose proof (sm_ok _ _ _ 1 _ _ S1 B ltac:(lia) ltac:(lia) ltac:(lia)) as S2.
  pose proof (seq_ok _ _ _ _ _ _ S2 sone_ok D) as INV.
  replace (y1 + y1) with (2 * y1) in INV by ring.
  pose proof (sm_ok _ _ 2 2 _ _ RX RX ltac:(lia) ltac:(lia) ltac:(lia)) as XX. fold xx in XX.
  pose proof (sadd_ok _ _ 2 2 _ _ XX XX ltac:(lia)) as X2.
  pose proof (sadd_ok _ _ _ 2 _ _ X2 XX ltac:(lia)) as X3.
  pose proof (sm_ok _ _ _ 1 _ _ X3 B ltac:(lia) ltac:(lia) ltac:(lia)) as S4.
  replace ((x1 * x1 + x1 * x1 + x1 * x1) * ev) with (3 * (x1 * x1) * ev) in S4 by ring.
  set (t0 := 3 * (x1 * x1) * ev) in *.
  pose proof (third_ok P x1 y1 (fst P) x1 _ t0 HP RX S4) as T. rewrite <- ER in T.
  eexists _, _. split; [exact T|].
  assert (NE : ~ eqp (2 * y1) 0).
  { intros C. apply eqp_cg in C. apply not_1_0. refine (cg_trans _ _ _ (cg_sym _ _ INV) _).
    pose proof (cg_mul _ _ _ _ C (cg_refl ev)) as K. rewrite Z.mul_0_l in K. exact K. }
  intros S. split.
  - intros HS. inversion HS; subst.
    + exfalso. apply NE. replace (2 * y1) with (y1 + y1) by ring. assumption.
    + exfalso. match goal with N : x1 <> x1 |- _ => apply N; reflexivity end.
    + match goal with E : eqp (_ * _) _ |- _ => apply eqp_cg in E; pose proof (slope_unique _ _ _ _ INV E) as U end.
      fold t0 in U. destruct (third_cg _ _ x1 y1 x1 U) as [E1 E2]. rewrite <- pp_eq. rewrite E1 in *. rewrite E2. reflexivity.
  - intros ->. apply ss_tangent with t0; [exact NE | | reflexivity | reflexivity].
    apply eqp_cg. apply slope_exists. exact INV.
Qed.

(** ** Multiples: one inverse per step *)
Fixpoint srun (k : positive) (P : lpt) (c : list (list int)) : option (lpt * list (list int)) :=
  match k with
  | xH => Some (P, c)
  | xO k' => match srun k' P c with
             | Some (Q, e :: c') => match sdbl Q e with Some R => Some (R, c') | None => None end
             | _ => None
             end
  | xI k' => match srun k' P c with
             | Some (Q, e :: e' :: c') =>
                 match sdbl Q e with
                 | Some D => match sadd D P e' with Some R => Some (R, c') | None => None end
                 | None => None
                 end
             | _ => None
             end
  end.
Lemma srun_sound P x y : prp P x y -> forall k c R c', srun k P c = Some (R, c') ->
  exists x' y', prp R x' y' /\ forall S, smult k (SAff x y) S <-> S = SAff x' y'.
Proof.
  intros HP. induction k as [k IH|k IH|]; intros c R c' H; cbn [srun smult] in *.
  - destruct (srun k P c) as [[Q [|e [|e' c1]]]|] eqn:E; try discriminate H.
    destruct (IH _ _ _ E) as (xq & yq & HQ & UQ).
    destruct (sdbl Q e) as [D|] eqn:ED; [|discriminate H]. destruct (sadd D P e') as [R'|] eqn:EA; [|discriminate H].
    assert (R' = R) by congruence. subst R'.
    destruct (sdbl_sound _ _ _ _ _ HQ ED) as (xd & yd & HD & UD).
    destruct (sadd_sound _ _ _ _ _ _ _ _ HD HP EA) as (xr & yr & HR & UR).
    exists xr, yr. split; [exact HR|]. intros S. split.
    + intros (q & d & H1 & H2 & H3). apply UQ in H1. subst q. apply UD in H2. subst d. apply UR. exact H3.
    + intros ->. exists (SAff xq yq), (SAff xd yd). split; [apply UQ | split; [apply UD | apply UR]]; reflexivity.
  - destruct (srun k P c) as [[Q [|e c1]]|] eqn:E; try discriminate H.
    destruct (IH _ _ _ E) as (xq & yq & HQ & UQ).
    destruct (sdbl Q e) as [D|] eqn:ED; [|discriminate H].
    assert (D = R) by congruence. subst D.
    destruct (sdbl_sound _ _ _ _ _ HQ ED) as (xd & yd & HD & UD).
    exists xd, yd. split; [exact HD|]. intros S. split.
    + intros (q & H1 & H2). apply UQ in H1. subst q. apply UD. exact H2.
    + intros ->. exists (SAff xq yq). split; [apply UQ | apply UD]; reflexivity.
  - assert (P = R) by congruence. subst R. exists x, y. split; [exact HP|]. intros S. reflexivity.
Qed.
(** entering and leaving Montgomery form *)
Definition sr2 : list int := Eval vm_compute in limbs 9 (RR * RR mod secp_p).
Lemma sr2_ok : rp 1 sr2 RR.
Proof.
  split; [apply elemb_ok; vm_compute; reflexivity|]. split; [rewrite pp_eq; vm_compute; reflexivity|].
  apply cg_iff. rewrite pp_eq. vm_compute. reflexivity.
Qed.
Definition enter (x : list int) : list int := sm x sr2.
Lemma enter_ok x z : below x = true -> lval x = z -> rp 2 (enter x) z.
Proof.
  intros B V. apply below_ok in B. rewrite V in B.
  pose proof (sm_ok _ _ 1 1 _ _ B sr2_ok ltac:(lia) ltac:(lia) ltac:(lia)) as H. refine (rp_cg _ _ _ _ H _).
  replace (z * Rinv * RR) with (RR * Rinv * z) by ring. pose proof (cg_mul _ _ _ _ cg_Rinv (cg_refl z)) as C. rewrite Z.mul_1_l in C. exact C.
Qed.
Lemma leave_ok X x l z : rp 2 X x -> canon x -> below l = true -> lval l = z -> eqmod sms X (enter l) = true -> x = z.
Proof.
  intros HX CX B V E. pose proof (enter_ok l z B V) as HL. pose proof (seq_ok _ _ _ _ _ _ HX HL E) as C.
  apply cg_small; [exact CX | | exact C]. apply andb_true_iff in B. destruct B as [B1 B2]. apply elemb_ok in B1.
  pose proof B1 as [L1 D1]. destruct sms_elem as [L2 D2]. pose proof (llt_ok l sms ltac:(congruence) D1 D2) as K. destruct (llt l sms); try discriminate B2.
  pose proof (lval_nonneg l). assert (V0 : lval sms = pp) by exact sms_val. rewrite <- V. lia.
Qed.
