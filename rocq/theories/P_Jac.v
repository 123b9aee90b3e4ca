(** Scalar multiples in Jacobian coordinates on machine integers, and evaluation of closed expressions
    over Z/r.  Only used to exhibit concrete accepted runs. *)
From Coq Require Import ZArith Znumtheory Bool List Lia Uint63 Ring Field.
From Verif Require Import Params Curve NumThy FField FpField P_Curve SpecCurve SpecMisc SpecVerify P_Limb P_Mont.
Import ListNotations.
Open Scope Z_scope.

(** ** Z/p *)
Fixpoint fatten (l : list int) : list int :=
  match l with
  | [] => [] | [x] => [x]
  | x :: t => (x + 536870912)%uint63 :: match fatten t with y :: u => (y - 1)%uint63 :: u | [] => [] end
  end.
Definition kp (c : Z) : list int := fatten (limbs 9 ((c + 1) * p_mod)).
Definition k2 : list int := Eval vm_compute in kp 2.
Definition k4 : list int := Eval vm_compute in kp 4.
Definition k5 : list int := Eval vm_compute in kp 5.
Definition k6 : list int := Eval vm_compute in kp 6.
Definition k9 : list int := Eval vm_compute in kp 9.
Lemma k2_ok : dom p_mod 2 k2 = true. Proof. vm_compute. reflexivity. Qed.
Lemma k4_ok : dom p_mod 4 k4 = true. Proof. vm_compute. reflexivity. Qed.
Lemma k5_ok : dom p_mod 5 k5 = true. Proof. vm_compute. reflexivity. Qed.
Lemma k6_ok : dom p_mod 6 k6 = true. Proof. vm_compute. reflexivity. Qed.
Lemma k9_ok : dom p_mod 9 k9 = true. Proof. vm_compute. reflexivity. Qed.
Definition pi_ : int := Eval vm_compute in of_Z ((- inv_mod base (p_mod mod base)) mod base).
Lemma pi_ok : (to_Z (h0 pl) * to_Z pi_ + 1) mod base = 0. Proof. vm_compute. reflexivity. Qed.
Lemma p_small : 169 * p_mod < RR. Proof. reflexivity. Qed.
Lemma Rp_n0 : RR mod p_mod <> 0. Proof. vm_compute. discriminate. Qed.
Definition r2p : list int := Eval vm_compute in limbs 9 (RR * RR mod p_mod).
Lemma r2p_ok : elem r2p /\ lval r2p = RR * RR mod p_mod.
Proof. split; [apply elemb_ok; vm_compute; reflexivity | vm_compute; reflexivity]. Qed.

Definition mp : list int -> list int -> list int := mm pl pi_.
Definition rp : Z -> list int -> Fp -> Prop := rep p_mod p_gt1.
Lemma mp_ok c1 c2 a b x y : rp c1 a x -> rp c2 b y -> 0 <= c1 -> 0 <= c2 -> c1 * c2 <= 168 -> rp 2 (mp a b) (x * y)%fp.
Proof. exact (mm_ok p_mod p_gt1 prime_p pl pi_ pl_elem pl_val pi_ok p_small Rp_n0 a b c1 c2 x y). Qed.
Lemma ap_ok c1 c2 a b x y : rp c1 a x -> rp c2 b y -> c1 + c2 <= 168 -> rp (c1 + c2) (lad a b) (x + y)%fp.
Proof. exact (lad_ok p_mod p_gt1 prime_p p_small a b c1 c2 x y). Qed.
Lemma sp_ok k c1 c2 a b x y : rp c1 a x -> rp c2 b y -> dom p_mod c2 k = true -> c1 + c2 + 1 <= 168 -> rp (c1 + c2 + 1) (lsu k a b) (x - y)%fp.
Proof. exact (lsu_ok p_mod p_gt1 prime_p pi_ p_small k a b c1 c2 x y). Qed.

Definition jac3 := (list int * list int * list int)%type.
Definition jdb (P : jac3) : jac3 :=
  let '(X, Y, T) := P in
  let A := mp X X in let B2 := (let B := mp Y Y in lad B B) in let B4 := lad B2 B2 in
  let D := mp X B4 in let E := lad A (lad A A) in let C8 := mp B4 B2 in
  let X3 := lsu k4 (mp E E) (lad D D) in
  (X3, lsu k2 (mp E (lsu k9 D X3)) C8, mp (lad Y Y) T).
Definition jad (P : list int * list int) (Q : jac3) : jac3 :=
  let '(X, Y, T) := Q in
  let ZZ := mp T T in let H := lsu k9 (mp (fst P) ZZ) X in let HH := mp H H in let J := mp H HH in
  let R := lsu k5 (mp (snd P) (mp T ZZ)) Y in let V := mp X HH in
  let X3 := lsu k6 (mp R R) (lad J (lad V V)) in
  (X3, lsu k2 (mp R (lsu k9 V X3)) (mp Y J), mp T H).
Fixpoint jmul (k : positive) (P : list int * list int) (one : list int) : jac3 :=
  match k with
  | xH => (fst P, snd P, one)
  | xO k' => jdb (jmul k' P one)
  | xI k' => jad P (jdb (jmul k' P one))
  end.

(** what the triple stands for, unless its last component is zero *)
Definition stands (J : jac3) (P : pt) : Prop :=
  exists a b c, rp 9 (fst (fst J)) a /\ rp 5 (snd (fst J)) b /\ rp 2 (snd J) c /\
    (c <> 0%fp -> exists x y, P = Aff x y /\ 0 <= x < p_mod /\ 0 <= y < p_mod /\ a = (fq x * (c * c))%fp /\ b = (fq y * (c * c * c))%fp).

Lemma rp_mono c d l x : c <= d -> rp c l x -> rp d l x.
Proof. intros H (A & B & C). split; [exact A|]. split; [|exact C]. assert (0 < p_mod) by reflexivity. nia. Qed.

Lemma line_fq s x1 y1 x2 : let P := line_pt s x1 y1 x2 in exists x y, P = Aff x y /\ 0 <= x < p_mod /\ 0 <= y < p_mod /\
  fq x = (fq s * fq s - (fq x1 + fq x2))%fp /\ fq y = (fq s * (fq x1 - fq x) - fq y1)%fp.
Proof.
  cbv zeta. unfold line_pt. eexists. eexists. split; [reflexivity|].
  split; [apply Z.mod_pos_bound; reflexivity|]. split; [apply Z.mod_pos_bound; reflexivity|].
  split; [rewrite fq_psub, fq_mul, fq_add; reflexivity|]. rewrite fq_psub, fq_mul, fq_sub. reflexivity.
Qed.
Lemma fqz x : 0 <= x < p_mod -> fq x = 0%fp -> x = 0.
Proof. intros H E. apply phi_eq_iff in E. rewrite Z.mod_small in E by exact H. rewrite E. reflexivity. Qed.

Lemma jdb_ok J P : stands J P -> stands (jdb J) (padd P P).
Proof.
  destruct J as [[X Y] T]. intros (a & b & c & HX & HY & HT & HP). cbn [fst snd] in *. unfold jdb. cbv zeta.
  pose proof (mp_ok _ _ _ _ _ _ HX HX ltac:(lia) ltac:(lia) ltac:(lia)) as HA.
  pose proof (mp_ok _ _ _ _ _ _ HY HY ltac:(lia) ltac:(lia) ltac:(lia)) as HB.
  set (A := mp X X) in *. set (B := mp Y Y) in *.
  pose proof (ap_ok _ _ _ _ _ _ HB HB ltac:(lia)) as HB2. set (B2 := lad B B) in *.
  pose proof (ap_ok _ _ _ _ _ _ HB2 HB2 ltac:(lia)) as HB4. set (B4 := lad B2 B2) in *.
  pose proof (mp_ok _ _ _ _ _ _ HX HB4 ltac:(lia) ltac:(lia) ltac:(lia)) as HD. set (D := mp X B4) in *.
  pose proof (ap_ok _ _ _ _ _ _ HA (ap_ok _ _ _ _ _ _ HA HA ltac:(lia)) ltac:(lia)) as HE. set (E := lad A (lad A A)) in *.
  pose proof (mp_ok _ _ _ _ _ _ HB4 HB2 ltac:(lia) ltac:(lia) ltac:(lia)) as HC. set (C8 := mp B4 B2) in *.
  pose proof (mp_ok _ _ _ _ _ _ HE HE ltac:(lia) ltac:(lia) ltac:(lia)) as HF.
  pose proof (sp_ok k4 _ _ _ _ _ _ HF (ap_ok _ _ _ _ _ _ HD HD ltac:(lia)) k4_ok ltac:(lia)) as HX3.
  set (X3 := lsu k4 (mp E E) (lad D D)) in *.
  apply (rp_mono _ 9) in HX3; [|lia].
  pose proof (sp_ok k9 _ _ _ _ _ _ HD HX3 k9_ok ltac:(lia)) as HG.
  pose proof (mp_ok _ _ _ _ _ _ HE HG ltac:(lia) ltac:(lia) ltac:(lia)) as HH.
  pose proof (sp_ok k2 _ _ _ _ _ _ HH HC k2_ok ltac:(lia)) as HY3.
  pose proof (mp_ok _ _ _ _ _ _ (ap_ok _ _ _ _ _ _ HY HY ltac:(lia)) HT ltac:(lia) ltac:(lia) ltac:(lia)) as HZ.
  eexists. eexists. eexists. split; [exact HX3|]. split; [exact HY3|]. split; [exact HZ|].
  clear - HP. intros Nz.
  assert (Nb : b <> 0%fp) by (intros C; apply Nz; rewrite C; ring).
  assert (Nc : c <> 0%fp) by (intros C; apply Nz; rewrite C; ring).
  destruct (HP Nc) as (x & y & EP & Rx & Ry & Ea & Eb). subst P.
  assert (Ny : y <> 0).
  { intros C. apply Nb. rewrite Eb, C. change (fq 0) with 0%fp. ring. }
  assert (N2y : fq (2 * y) <> 0%fp).
  { rewrite fq_mul. intros C. apply (fmul_eq0 p_mod p_gt1 prime_p) in C. destruct C as [C|C]; [exact (p_odd2 C)|]. apply Ny, fqz; assumption. }
  cbn [padd]. rewrite !Z.eqb_refl. destruct (Z.eqb_spec y 0) as [|_]; [contradiction|]. cbn [negb].
  destruct (line_fq (pdiv_mod (3 * x * x) (2 * y)) x y x) as (x3 & y3 & E3 & R3 & R4 & F3 & F4).
  exists x3, y3. split; [exact E3|]. split; [exact R3|]. split; [exact R4|].
  rewrite fq_div in F3, F4. rewrite !fq_mul in *.
  assert (N2 : (fq y + fq y)%fp <> 0%fp). { intros C. apply N2y. change 2 with (1 + 1). rewrite phi_add. change (fq 1) with 1%fp. rewrite <- C. ring. }
  assert (T2 : fq 2 = (1 + 1)%fp) by (change 2 with (1 + 1); rewrite phi_add; reflexivity).
  assert (T3 : fq 3 = (1 + (1 + 1))%fp) by (change 3 with (1 + (1 + 1)); rewrite !phi_add; reflexivity).
  rewrite T2, T3 in *.
  assert (Ny' : fq y <> 0%fp) by (intros C; apply Ny, fqz; assumption).
  assert (N11 : (1 + 1)%fp <> 0%fp) by (rewrite <- T2; exact p_odd2).
  split.
  - rewrite F3, Ea, Eb. field. split; assumption.
  - rewrite F4, F3, Ea, Eb. field. split; assumption.
Qed.

Lemma jad_ok P Q J : stands J Q -> forall x2 y2, 0 <= x2 < p_mod -> 0 <= y2 < p_mod -> rp 2 (fst P) (fq x2) -> rp 2 (snd P) (fq y2) ->
  stands (jad P J) (padd (Aff x2 y2) Q).
Proof.
  destruct J as [[X Y] T], P as [p1 p2]. intros (a & b & c & HX & HY & HT & HP) x2 y2 R1 R2 H1 H2. cbn [fst snd] in *. unfold jad. cbn [fst snd]. cbv zeta.
  pose proof (mp_ok _ _ _ _ _ _ HT HT ltac:(lia) ltac:(lia) ltac:(lia)) as HZZ. set (ZZ := mp T T) in *.
  pose proof (sp_ok k9 _ _ _ _ _ _ (mp_ok _ _ _ _ _ _ H1 HZZ ltac:(lia) ltac:(lia) ltac:(lia)) HX k9_ok ltac:(lia)) as HH. set (H := lsu k9 (mp p1 ZZ) X) in *.
  pose proof (mp_ok _ _ _ _ _ _ HH HH ltac:(lia) ltac:(lia) ltac:(lia)) as HHH. set (HH_ := mp H H) in *.
  pose proof (mp_ok _ _ _ _ _ _ HH HHH ltac:(lia) ltac:(lia) ltac:(lia)) as HJ. set (J := mp H HH_) in *.
  pose proof (mp_ok _ _ _ _ _ _ HT HZZ ltac:(lia) ltac:(lia) ltac:(lia)) as HZ3.
  pose proof (sp_ok k5 _ _ _ _ _ _ (mp_ok _ _ _ _ _ _ H2 HZ3 ltac:(lia) ltac:(lia) ltac:(lia)) HY k5_ok ltac:(lia)) as HR. set (R := lsu k5 (mp p2 (mp T ZZ)) Y) in *.
  pose proof (mp_ok _ _ _ _ _ _ HX HHH ltac:(lia) ltac:(lia) ltac:(lia)) as HV. set (V := mp X HH_) in *.
  pose proof (ap_ok _ _ _ _ _ _ HJ (ap_ok _ _ _ _ _ _ HV HV ltac:(lia)) ltac:(lia)) as HS.
  pose proof (mp_ok _ _ _ _ _ _ HR HR ltac:(lia) ltac:(lia) ltac:(lia)) as HRR.
  pose proof (sp_ok k6 _ _ _ _ _ _ HRR HS k6_ok ltac:(lia)) as HX3. set (X3 := lsu k6 (mp R R) (lad J (lad V V))) in *.
  pose proof (sp_ok k9 _ _ _ _ _ _ HV HX3 k9_ok ltac:(lia)) as HG.
  pose proof (mp_ok _ _ _ _ _ _ HR HG ltac:(lia) ltac:(lia) ltac:(lia)) as HM.
  pose proof (mp_ok _ _ _ _ _ _ HY HJ ltac:(lia) ltac:(lia) ltac:(lia)) as HN.
  pose proof (sp_ok k2 _ _ _ _ _ _ HM HN k2_ok ltac:(lia)) as HY3.
  pose proof (mp_ok _ _ _ _ _ _ HT HH ltac:(lia) ltac:(lia) ltac:(lia)) as HZ.
  eexists. eexists. eexists. split; [exact HX3|]. split; [exact HY3|]. split; [exact HZ|].
  clear - HP R1 R2. intros Nz.
  assert (Nc : c <> 0%fp) by (intros C; apply Nz; rewrite C; ring).
  destruct (HP Nc) as (x & y & EP & Rx & Ry & Ea & Eb). subst Q.
  assert (Nh : (fq x2 - fq x)%fp <> 0%fp).
  { intros C. apply Nz. rewrite Ea. transitivity (c * (c * c) * (fq x2 - fq x))%fp; [ring | rewrite C; ring]. }
  cbn [padd]. destruct (Z.eqb_spec x2 x) as [C|_]; [exfalso; apply Nh; rewrite C; ring|].
  destruct (line_fq (pdiv_mod (y - y2) (x - x2)) x2 y2 x) as (x3 & y3 & E3 & R3 & R4 & F3 & F4).
  exists x3, y3. split; [exact E3|]. split; [exact R3|]. split; [exact R4|].
  rewrite fq_div in F3, F4. rewrite !fq_sub in *.
  assert (Nh' : (fq x - fq x2)%fp <> 0%fp).
  { intros C. apply Nh. transitivity (- (fq x - fq x2))%fp; [ring | rewrite C; ring]. }
  split.
  - rewrite F3, Ea, Eb. field. exact Nh'.
  - rewrite F4, F3, Ea, Eb. field. exact Nh'.
Qed.

Definition one_m : list int := Eval vm_compute in limbs 9 (RR mod p_mod).
Lemma one_ok : rp 2 one_m 1%fp.
Proof.
  split; [apply elemb_ok; vm_compute; reflexivity|]. split; [vm_compute; reflexivity|].
  assert (E : lval one_m = RR mod p_mod) by (vm_compute; reflexivity). rewrite E, phi_mod. ring.
Qed.
Lemma jmul_ok k P x y : 0 <= x < p_mod -> 0 <= y < p_mod -> rp 2 (fst P) (fq x) -> rp 2 (snd P) (fq y) ->
  stands (jmul k P one_m) (pmul_pos k (Aff x y)).
Proof.
  intros Rx Ry Hx Hy. induction k as [k IH|k IH|]; cbn [jmul pmul_pos].
  - cbv zeta. apply jad_ok; try assumption. apply jdb_ok, IH.
  - cbv zeta. apply jdb_ok, IH.
  - exists (fq x), (fq y), 1%fp. cbn [fst snd]. split; [exact (rp_mono 2 9 _ _ ltac:(lia) Hx)|]. split; [exact (rp_mono 2 5 _ _ ltac:(lia) Hy)|].
    split; [exact one_ok|]. intros _. exists x, y. split; [reflexivity|]. split; [exact Rx|]. split; [exact Ry|]. split; ring.
Qed.

Definition mont (l : list int) : list int := mp l r2p.
Lemma mont_ok l : elem l -> lval l < p_mod -> rp 2 (mont l) (fq (lval l)).
Proof.
  intros E L. destruct r2p_ok as [E2 V2].
  exact (of_plain p_mod p_gt1 prime_p pl pi_ pl_elem pl_val pi_ok p_small Rp_n0 (lval l) l r2p E eq_refl L E2 V2).
Qed.
(** R is k times P *)
Definition jchk (k : positive) (P R : lpt) : bool :=
  if goodb P && goodb R then
    let '(X, Y, T) := jmul k (mont (fst P), mont (snd P)) one_m in
    let TT := mp T T in
    nonzero pl T && eqmod pl (mp X one_m) (mp (mont (fst R)) TT) && eqmod pl (mp Y one_m) (mp (mont (snd R)) (mp TT T))
  else false.
Lemma jchk_ok k P R : jchk k P R = true -> good R /\ pmul_pos k (topt P) = topt R.
Proof.
  unfold jchk. intros H. destruct (goodb P && goodb R) eqn:G; [|discriminate]. apply andb_true_iff in G. destruct G as [G1 G2].
  apply goodb_ok in G1, G2. split; [exact G2|].
  destruct P as [p1 p2], R as [q1 q2]. destruct G1 as (E1 & E2 & L1 & L2), G2 as (E3 & E4 & L3 & L4). cbn [fst snd] in *.
  pose proof (lval_nonneg p1). pose proof (lval_nonneg p2). pose proof (lval_nonneg q1). pose proof (lval_nonneg q2).
  pose proof (jmul_ok k (mont p1, mont p2) (lval p1) (lval p2) ltac:(lia) ltac:(lia) (mont_ok _ E1 L1) (mont_ok _ E2 L2)) as S.
  destruct (jmul k (mont p1, mont p2) one_m) as [[X Y] T]. destruct S as (a & b & c & HX & HY & HT & HP). cbn [fst snd] in *.
  rewrite !andb_true_iff in H. destruct H as ((K1 & K2) & K3).
  assert (Nc : c <> 0%fp) by exact (nonzero_ok p_mod p_gt1 prime_p pl pl_elem pl_val p_small T c HT K1).
  destruct (HP Nc) as (x & y & EP & Rx & Ry & Ea & Eb). unfold topt at 1. cbn [fst snd]. rewrite EP. unfold topt. cbn [fst snd].
  pose proof (mp_ok _ _ _ _ _ _ HT HT ltac:(lia) ltac:(lia) ltac:(lia)) as HTT.
  pose proof (eqmod_ok p_mod p_gt1 prime_p pl pl_elem pl_val Rp_n0 _ _ _ _ _ _
    (mp_ok _ _ _ _ _ _ HX one_ok ltac:(lia) ltac:(lia) ltac:(lia)) (mp_ok _ _ _ _ _ _ (mont_ok _ E3 L3) HTT ltac:(lia) ltac:(lia) ltac:(lia)) K2) as Q1.
  pose proof (eqmod_ok p_mod p_gt1 prime_p pl pl_elem pl_val Rp_n0 _ _ _ _ _ _
    (mp_ok _ _ _ _ _ _ HY one_ok ltac:(lia) ltac:(lia) ltac:(lia))
    (mp_ok _ _ _ _ _ _ (mont_ok _ E4 L4) (mp_ok _ _ _ _ _ _ HTT HT ltac:(lia) ltac:(lia) ltac:(lia)) ltac:(lia) ltac:(lia) ltac:(lia)) K3) as Q2.
  assert (X1 : fq x = fq (lval q1)).
  { transitivity ((a * 1) / (c * c))%fp; [rewrite Ea; field; exact Nc | rewrite Q1; field; exact Nc]. }
  assert (X2 : fq y = fq (lval q2)).
  { transitivity ((b * 1) / (c * c * c))%fp; [rewrite Eb; field; exact Nc | rewrite Q2; field; exact Nc]. }
  apply fq_inj in X1; [|lia|lia]. apply fq_inj in X2; [|lia|lia]. rewrite X1, X2. reflexivity.
Qed.
