(** Ring facts for the tower of extensions used by the pairing: the extensions are commutative rings, raising
    to the characteristic is additive, and every element of Fp12 is its own (p^12)-th power. *)
From Coq Require Import ZArith Znumtheory Bool List Lia Arith Ring Field.
From Verif Require Import Params Curve NumThy FField FpField P_Curve SpecPairing.
Import ListNotations.

Definition oopp {A} (o : ops A) (x : A) : A := osub o (o0 o) x.
Definition rth {A} (o : ops A) : Prop :=
  ring_theory (o0 o) (o1 o) (oadd o) (omul o) (osub o) (oopp o) eq.

Lemma triple_eq {X Y T} (a a' : X) (b b' : Y) (c c' : T) : a = a' -> b = b' -> c = c' -> (a, b, c) = (a', b', c').
Proof. intros; subst; reflexivity. Qed.

Section Ring.
  Context {A : Type} (o : ops A) (H : rth o).
  Let Hr : ring_theory (o0 o) (o1 o) (oadd o) (omul o) (osub o) (oopp o) eq := H.
  Add Ring Ar : Hr.
  Notation "0" := (o0 o). Notation "1" := (o1 o).
  Infix "+" := (oadd o). Infix "*" := (omul o). Infix "-" := (osub o).

  Lemma quad_ring n : rth (quad o n).
  Proof.
    constructor; unfold oopp; cbn [quad o0 o1 oadd osub omul fst snd]; intros.
    all: repeat match goal with x : (_ * _)%type |- _ => destruct x end; cbn [fst snd]; f_equal; ring.
  Qed.
  Lemma cubic_ring n : rth (cubic o n).
  Proof.
    constructor; unfold oopp; cbn [cubic o0 o1 oadd osub omul]; intros.
    all: repeat match goal with x : (_ * _)%type |- _ => destruct x end; apply triple_eq; ring.
  Qed.

  Fixpoint npow (x : A) (n : nat) : A := match n with O => 1 | S m => x * npow x m end.
  Lemma npow_add x a b : npow x (a + b) = npow x a * npow x b.
  Proof. induction a as [|a IH]; cbn [npow Nat.add]; [ring | rewrite IH; ring]. Qed.
  Lemma npow_mul x a b : npow x (a * b) = npow (npow x a) b.
  Proof. induction b as [|b IH]; [rewrite Nat.mul_0_r; reflexivity|]. rewrite Nat.mul_succ_r, Nat.add_comm, npow_add, IH. reflexivity. Qed.
  Lemma npow_dist x y n : npow (x * y) n = npow x n * npow y n.
  Proof. induction n as [|n IH]; cbn [npow]; [ring | rewrite IH; ring]. Qed.
  Lemma npow_1 n : npow 1 n = 1.
  Proof. induction n as [|n IH]; cbn [npow]; [reflexivity | rewrite IH; ring]. Qed.
  Lemma opow_npow x k : opow o x k = npow x (Pos.to_nat k).
  Proof.
    induction k as [k IH|k IH|]; cbn [opow]; cbv zeta.
    - rewrite IH, Pos2Nat.inj_xI. cbn [npow]. replace (2 * Pos.to_nat k)%nat with (Pos.to_nat k + Pos.to_nat k)%nat by lia. rewrite npow_add. ring.
    - rewrite IH, Pos2Nat.inj_xO. replace (2 * Pos.to_nat k)%nat with (Pos.to_nat k + Pos.to_nat k)%nat by lia. rewrite npow_add. reflexivity.
    - change (Pos.to_nat 1) with 1%nat. cbn [npow]. ring.
  Qed.

  (** ** multiples and sums *)
  Fixpoint nsm (n : nat) (x : A) : A := match n with O => 0 | S m => x + nsm m x end.
  Lemma nsm_add a b x : nsm (a + b) x = nsm a x + nsm b x.
  Proof. induction a as [|a IH]; cbn [nsm Nat.add]; [ring | rewrite IH; ring]. Qed.
  Lemma nsm_mul a b x : nsm (a * b) x = nsm a (nsm b x).
  Proof. induction a as [|a IH]; cbn [nsm Nat.mul]; [reflexivity | rewrite nsm_add, IH; reflexivity]. Qed.
  Lemma nsm_l n x y : nsm n x * y = nsm n (x * y).
  Proof. induction n as [|n IH]; cbn [nsm]; [ring | rewrite <- IH; ring]. Qed.
  Lemma nsm_one n x : nsm n x = nsm n 1 * x.
  Proof. rewrite nsm_l. f_equal. ring. Qed.
  Fixpoint sum (f : nat -> A) (n : nat) : A := match n with O => 0 | S m => sum f m + f m end.
  Lemma sum_ext f g n : (forall k, (k < n)%nat -> f k = g k) -> sum f n = sum g n.
  Proof. induction n as [|n IH]; intros E; cbn [sum]; [reflexivity|]. rewrite IH by (intros; apply E; lia). rewrite E by lia. reflexivity. Qed.
  Lemma sum_add f g n : sum (fun k => f k + g k) n = sum f n + sum g n.
  Proof. induction n as [|n IH]; cbn [sum]; [ring | rewrite IH; ring]. Qed.
  Lemma sum_mul c f n : c * sum f n = sum (fun k => c * f k) n.
  Proof. induction n as [|n IH]; cbn [sum]; [ring | rewrite <- IH; ring]. Qed.
  Lemma sum_shift f n : sum f (S n) = f O + sum (fun k => f (S k)) n.
  Proof. induction n as [|n IH]; [cbn [sum]; ring|]. cbn [sum] in *. rewrite IH. ring. Qed.
  Lemma sum_zero f n : (forall k, (k < n)%nat -> f k = 0) -> sum f n = 0.
  Proof. intros E. induction n as [|n IH]; cbn [sum]; [reflexivity|]. rewrite IH by (intros; apply E; lia). rewrite E by lia. ring. Qed.
End Ring.

(** ** Binomial coefficients *)
Fixpoint bin (n k : nat) : nat :=
  match n, k with
  | _, O => 1
  | O, S _ => 0
  | S m, S j => bin m j + bin m (S j)
  end.
Lemma bin_O n : bin n 0 = 1%nat. Proof. destruct n; reflexivity. Qed.
Lemma bin_S n k : bin (S n) (S k) = (bin n k + bin n (S k))%nat. Proof. reflexivity. Qed.
Lemma bin_big n : forall k, (n < k)%nat -> bin n k = 0%nat.
Proof. induction n as [|n IH]; intros [|k] L; try lia; [reflexivity|]. rewrite bin_S, !IH by lia. reflexivity. Qed.
Lemma bin_nn n : bin n n = 1%nat.
Proof. induction n as [|n IH]; [reflexivity|]. rewrite bin_S, IH, bin_big by lia. reflexivity. Qed.
Lemma bin_absorb n : forall k, (S k * bin (S n) (S k) = S n * bin n k)%nat.
Proof.
  induction n as [|n IH]; intros k.
  - destruct k as [|k]; [reflexivity|]. rewrite bin_S. change (bin 0 (S k)) with 0%nat. change (bin 0 (S (S k))) with 0%nat. lia.
  - destruct k as [|k].
    + rewrite bin_S, !bin_O. specialize (IH 0%nat). rewrite bin_O in IH. lia.
    + rewrite (bin_S (S n)). pose proof (IH k) as I1. pose proof (IH (S k)) as I2. rewrite (bin_S n k). rewrite bin_S in *. nia.
Qed.
Lemma bin_prime q k : prime (Z.of_nat q) -> (0 < k < q)%nat -> exists c, bin q k = (c * q)%nat.
Proof.
  intros P L. destruct q as [|q]; [lia|]. destruct k as [|k]; [lia|]. pose proof (bin_absorb q k) as E.
  assert (D : (Z.of_nat (S q) | Z.of_nat (S k) * Z.of_nat (bin (S q) (S k)))%Z).
  { exists (Z.of_nat (bin q k)). rewrite <- !Nat2Z.inj_mul. f_equal. rewrite E. lia. }
  apply prime_mult in D; [|exact P]. destruct D as [D|D].
  - apply Z.divide_pos_le in D; lia.
  - destruct D as [c D]. exists (Z.to_nat c). apply Nat2Z.inj. rewrite Nat2Z.inj_mul, Z2Nat.id; [exact D|]. nia.
Qed.

Section Frob.
  Context {A : Type} (o : ops A) (H : rth o).
  Let Hr : ring_theory (o0 o) (o1 o) (oadd o) (omul o) (osub o) (oopp o) eq := H.
  Add Ring Ar2 : Hr.
  Notation "0" := (o0 o). Notation "1" := (o1 o).
  Infix "+" := (oadd o). Infix "*" := (omul o). Infix "-" := (osub o).
  Notation npow := (npow o). Notation nsm := (nsm o). Notation sum := (sum o).

  Lemma binomial x y n : npow (x + y) n = sum (fun k => nsm (bin n k) (npow x k * npow y (n - k))) (S n).
  Proof.
    induction n as [|n IH].
    - cbn. ring.
    - set (g := fun k => nsm (bin n k) (npow x k * npow y (n - k))) in *.
      assert (E : sum (fun k => nsm (bin (S n) k) (npow x k * npow y (S n - k))) (S (S n)) = x * sum g (S n) + y * sum g (S n)).
      { rewrite (sum_shift o H). rewrite (sum_mul o H x). 
        rewrite (sum_ext o (fun k => nsm (bin (S n) (S k)) (npow x (S k) * npow y (S n - S k)))
          (fun k => x * g k + (fun k => nsm (bin n (S k)) (npow x (S k) * npow y (n - k))) k)).
        2:{ intros k L. rewrite bin_S, (nsm_add o H). unfold g. cbn [P_Tower.npow Nat.sub].
            f_equal. rewrite (nsm_one o H (bin n k) (x * npow x k * npow y (n - k))), (nsm_one o H (bin n k) (npow x k * npow y (n - k))). ring. }
        rewrite (sum_add o H). rewrite bin_O. rewrite (sum_mul o H y).
        rewrite (sum_shift o H (fun k => y * g k)).
        assert (E2 : sum (fun k => nsm (bin n (S k)) (npow x (S k) * npow y (n - k))) (S n) = sum (fun k => y * g (S k)) n).
        { cbn [P_Tower.sum]. rewrite (bin_big n (S n)) by lia. cbn [P_Tower.nsm].
          rewrite (sum_ext o _ (fun k => y * g (S k))); [ring|]. intros k L. unfold g.
          replace (n - k)%nat with (S (n - S k)) by lia. cbn [P_Tower.npow].
          rewrite (nsm_one o H _ (_ * (y * _))), (nsm_one o H _ (_ * npow y (n - S k))). ring. }
        rewrite E2. assert (G0 : g O = npow y n) by (unfold g; rewrite bin_O, Nat.sub_0_r; cbn [P_Tower.npow P_Tower.nsm]; ring).
        rewrite G0, Nat.sub_0_r. cbn [P_Tower.npow P_Tower.nsm]. ring. }
      rewrite E. cbn [P_Tower.npow]. rewrite IH. ring.
  Qed.

  Variable q : nat.
  Hypothesis q_prime : prime (Z.of_nat q).
  Hypothesis q_char : nsm q 1 = 0.
  Lemma frob_add x y : npow (x + y) q = npow x q + npow y q.
  Proof.
    assert (Q : (1 < q)%nat) by (destruct q_prime; lia).
    rewrite binomial. cbn [P_Tower.sum]. rewrite bin_nn, Nat.sub_diag.
    destruct q as [|m] eqn:Em; [lia|]. rewrite (sum_shift o H). rewrite bin_O, Nat.sub_0_r.
    rewrite (sum_zero o H); [cbn [P_Tower.npow P_Tower.nsm]; ring|].
    intros k L. destruct (bin_prime (S m) (S k) q_prime ltac:(lia)) as [c E]. rewrite E.
    rewrite (nsm_one o H). rewrite Nat.mul_comm, (nsm_mul o H), (nsm_one o H (S m)), q_char. ring.
  Qed.
  Lemma frob_add_k k x y : npow (x + y) (q ^ k) = npow x (q ^ k) + npow y (q ^ k).
  Proof.
    induction k as [|k IH]; [cbn; ring|]. rewrite Nat.pow_succ_r', Nat.mul_comm, !(npow_mul o H), IH. apply frob_add.
  Qed.
End Frob.

(** ** Elements fixed by a power *)
Definition fixes {A} (o : ops A) (n : nat) : Prop := forall x, npow o x n = x.
Lemma fixes_pow {A} (o : ops A) (H : rth o) n k : fixes o n -> fixes o (n ^ k).
Proof.
  intros F. induction k as [|k IH]; intros x; [cbn [Nat.pow npow]; destruct H; rewrite Rmul_comm; apply Rmul_1_l|].
  rewrite Nat.pow_succ_r', (npow_mul o H), F. apply IH.
Qed.

Section QuadFix.
  Context {A : Type} (o : ops A) (H : rth o) (n : A).
  Let Hr : ring_theory (o0 o) (o1 o) (oadd o) (omul o) (osub o) (oopp o) eq := H.
  Add Ring Ar3 : Hr.
  Let o2 := quad o n.
  Let H2 : rth o2 := quad_ring o H n.
  Definition qin (x : A) : A * A := (x, o0 o).
  Definition qt : A * A := (o0 o, o1 o).
  Lemma qin_pow x k : npow o2 (qin x) k = qin (npow o x k).
  Proof. induction k as [|k IH]; cbn [npow]; [reflexivity|]. rewrite IH. unfold o2, qin. cbn [quad omul fst snd]. f_equal; ring. Qed.
  Lemma quad_char k x : nsm o2 k (qin x) = qin (nsm o k x).
  Proof. induction k as [|k IH]; cbn [nsm]; [reflexivity|]. rewrite IH. unfold o2, qin. cbn [quad oadd fst snd]. f_equal; ring. Qed.
  Lemma quad_fixes q k e : prime (Z.of_nat q) -> nsm o q (o1 o) = o0 o -> fixes o (q ^ k) -> (q ^ k = 1 + 2 * e)%nat ->
    npow o n e = o1 o -> fixes o2 (q ^ k).
  Proof.
    intros P C F E N [a b].
    assert (Ex : (a, b) = oadd o2 (qin a) (omul o2 (qin b) qt)).
    { unfold o2, qin, qt. cbn [quad oadd omul fst snd]. f_equal; ring. }
    rewrite Ex at 1. rewrite (frob_add_k o2 H2 q P).
    2:{ change (o1 o2) with (qin (o1 o)). rewrite quad_char, C. reflexivity. }
    rewrite (npow_dist o2 H2), !qin_pow, !F. rewrite E, (npow_add o2 H2), (npow_mul o2 H2).
    assert (T2 : npow o2 qt 2 = qin n). { unfold o2, qin, qt. cbn [npow quad omul fst snd o1]. f_equal; ring. }
    rewrite T2, qin_pow, N. rewrite Ex. f_equal. f_equal. unfold o2, qin, qt. cbn [npow quad omul fst snd o1]. f_equal; ring.
  Qed.
End QuadFix.

Section CubicFix.
  Context {A : Type} (o : ops A) (H : rth o) (n : A).
  Let Hr : ring_theory (o0 o) (o1 o) (oadd o) (omul o) (osub o) (oopp o) eq := H.
  Add Ring Ar4 : Hr.
  Let o3 := cubic o n.
  Let H3 : rth o3 := cubic_ring o H n.
  Definition cin (x : A) : A * A * A := (x, o0 o, o0 o).
  Definition ct : A * A * A := (o0 o, o1 o, o0 o).
  Lemma cin_pow x k : npow o3 (cin x) k = cin (npow o x k).
  Proof. induction k as [|k IH]; cbn [npow]; [reflexivity|]. rewrite IH. unfold o3, cin. cbn [cubic omul]. apply triple_eq; ring. Qed.
  Lemma cubic_char k x : nsm o3 k (cin x) = cin (nsm o k x).
  Proof. induction k as [|k IH]; cbn [nsm]; [reflexivity|]. rewrite IH. unfold o3, cin. cbn [cubic oadd]. apply triple_eq; ring. Qed.
  Lemma ct3 : npow o3 ct 3 = cin n.
  Proof. unfold o3, cin, ct. cbn [npow cubic omul o1]. apply triple_eq; ring. Qed.
  Lemma cubic_fixes q k e : prime (Z.of_nat q) -> nsm o q (o1 o) = o0 o -> fixes o (q ^ k) -> (q ^ k = 1 + 3 * e)%nat ->
    npow o n e = o1 o -> fixes o3 (q ^ k).
  Proof.
    intros P C F E N [[a b] c].
    assert (Ex : (a, b, c) = oadd o3 (cin a) (oadd o3 (omul o3 (cin b) ct) (omul o3 (cin c) (omul o3 ct ct)))).
    { unfold o3, cin, ct. cbn [cubic oadd omul]. apply triple_eq; ring. }
    assert (C3 : nsm o3 q (o1 o3) = o0 o3). { change (o1 o3) with (cin (o1 o)). rewrite cubic_char, C. reflexivity. }
    rewrite Ex at 1. rewrite !(frob_add_k o3 H3 q P C3).
    rewrite !(npow_dist o3 H3), !cin_pow, !F.
    assert (T : npow o3 ct (q ^ k) = ct).
    { rewrite E, (npow_add o3 H3), (npow_mul o3 H3), ct3, cin_pow, N. unfold o3, cin, ct. cbn [npow cubic omul o1]. apply triple_eq; ring. }
    rewrite T, Ex. reflexivity.
  Qed.
End CubicFix.

(** ** The tower over Z/p *)
Definition fpo : ops Fp := {| o0 := 0%fp; o1 := 1%fp; oadd := fadd p_mod p_gt1; osub := fsub p_mod p_gt1; omul := fmul p_mod p_gt1 |}.
Lemma fpo_ring : rth fpo.
Proof. constructor; unfold oopp; cbn [fpo o0 o1 oadd osub omul]; intros; ring. Qed.
Definition F2 := quad fpo (fq (p_mod - 1)).
Definition F6 := cubic F2 (fq 9, fq 1).
Definition F12 := quad F6 ((fq 0, fq 0), (fq 1, fq 0), (fq 0, fq 0)).
Lemma F2_ring : rth F2. Proof. exact (quad_ring fpo fpo_ring _). Qed.
Lemma F6_ring : rth F6. Proof. exact (cubic_ring F2 F2_ring _). Qed.
Lemma F12_ring : rth F12. Proof. exact (quad_ring F6 F6_ring _). Qed.

Lemma npow_fq z k : npow fpo (fq z) k = fq (z ^ Z.of_nat k).
Proof.
  induction k as [|k IH]; [reflexivity|]. cbn [npow]. rewrite IH, Nat2Z.inj_succ, Z.pow_succ_r by lia. symmetry. apply phi_mul.
Qed.
Lemma nsm_fq k : nsm fpo k (o1 fpo) = fq (Z.of_nat k).
Proof.
  induction k as [|k IH]; [reflexivity|]. cbn [nsm]. rewrite IH, Nat2Z.inj_succ. replace (Z.succ (Z.of_nat k)) with (1 + Z.of_nat k)%Z by lia.
  symmetry. apply phi_add.
Qed.

Lemma fq_m1 : fq (p_mod - 1) = (fopp p_mod p_gt1 1)%fp.
Proof.
  rewrite phi_sub. assert (P0 : fq p_mod = 0%fp) by (apply phi_eq_iff; rewrite Z.mod_same by discriminate; reflexivity).
  rewrite P0. change (fq 1) with 1%fp. ring.
Qed.

Section Tower.
  (** [q] is p as a natural number, kept abstract *)
  Variable q : nat.
  Hypothesis Q : Z.of_nat q = p_mod.
  Lemma q_pr : prime (Z.of_nat q). Proof. rewrite Q. exact prime_p. Qed.
  Lemma char1 : nsm fpo q (o1 fpo) = o0 fpo.
  Proof. rewrite nsm_fq, Q. apply phi_eq_iff. rewrite Z.mod_same by discriminate. reflexivity. Qed.
  Lemma fixes1 : fixes fpo q.
  Proof.
    intros x. rewrite <- (phi_val p_mod p_gt1 x). rewrite npow_fq, Q. apply phi_eq_iff.
    set (z := val x). pose proof (val_range x) as Rz. fold z in Rz.
    destruct (Z.eq_dec z 0) as [->|Nz]; [reflexivity|].
    assert (D : ~ (p_mod | z)%Z). { intros D. apply Z.divide_pos_le in D; lia. }
    pose proof (fermat_little p_mod z prime_p D) as FL.
    replace (z ^ p_mod)%Z with (z ^ (p_mod - 1) * z)%Z.
    2:{ replace p_mod with (Z.succ (p_mod - 1)) at 2 by lia. rewrite Z.pow_succ_r by (pose proof p_gt1; lia). ring. }
    rewrite Z.mul_mod, FL by discriminate. rewrite Z.mul_1_l, Z.mod_mod by discriminate. reflexivity.
  Qed.

  Definition dd : nat := Z.to_nat ((p_mod * p_mod - 1) / 12).
  Lemma q2 : (q ^ 2 = 1 + 2 * (2 * (3 * dd)))%nat.
  Proof.
    apply Nat2Z.inj. rewrite Nat2Z.inj_pow, Nat2Z.inj_add, !Nat2Z.inj_mul, Q. unfold dd. rewrite Z2Nat.id by (vm_compute; discriminate).
    vm_compute. reflexivity.
  Qed.
  Definition tt_ : nat := (let c := 2 * dd in 1 + 15 * c + 120 * c ^ 2 + 540 * c ^ 3 + 1296 * c ^ 4 + 1296 * c ^ 5)%nat.
  Lemma q12 : (q ^ 12 = 1 + 12 * dd * (6 * tt_))%nat.
  Proof.
    replace 12%nat with (2 * 6)%nat at 1 by reflexivity. rewrite Nat.pow_mul_r, q2. unfold tt_. generalize dd. intros d.
    cbv zeta. cbn [Nat.pow]. apply Nat2Z.inj. rewrite !Nat2Z.inj_add, !Nat2Z.inj_mul, !Nat2Z.inj_add, !Nat2Z.inj_mul, ?Nat2Z.inj_add, ?Nat2Z.inj_mul.
    cbn [Z.of_nat]. ring.
  Qed.

  Lemma neg1 e : npow fpo (fq (p_mod - 1)) (2 * e) = o1 fpo.
  Proof.
    rewrite (npow_mul fpo fpo_ring).
    assert (E : npow fpo (fq (p_mod - 1)) 2 = o1 fpo).
    { cbn [npow fpo omul o1]. rewrite fq_m1. ring. }
    rewrite E. apply (npow_1 fpo fpo_ring).
  Qed.
  Lemma char2 : nsm F2 q (o1 F2) = o0 F2.
  Proof. change (o1 F2) with (qin fpo (o1 fpo)). unfold F2. rewrite (quad_char fpo fpo_ring), char1. reflexivity. Qed.
  Lemma fixes2 : fixes F2 (q ^ 2).
  Proof.
    apply (quad_fixes fpo fpo_ring _ q 2 (2 * (3 * dd)) q_pr char1 (fixes_pow fpo fpo_ring q 2 fixes1) q2). apply neg1.
  Qed.
  (** 9 + u is invertible *)
  Lemma xi_inv : exists y, omul F2 (fq 9, fq 1) y = o1 F2.
  Proof.
    exists (fq 9 / fq 82, - (fq 1 / fq 82))%fp.
    assert (N : fq 82 <> 0%fp) by (apply (fq_n0 82); [vm_compute; split; [discriminate | reflexivity] | discriminate]).
    assert (E : fq 82 = (fq 9 * fq 9 + fq 1 * fq 1)%fp) by (rewrite <- !phi_mul, <- phi_add; reflexivity).
    unfold F2. cbn [quad omul oadd fst snd fpo o1 o0]. rewrite fq_m1. f_equal.
    - transitivity ((fq 9 * fq 9 + fq 1 * fq 1) / fq 82)%fp; [field; exact N | rewrite <- E; field; exact N].
    - field. exact N.
  Qed.
  Lemma xi_pow k : npow F2 (fq 9, fq 1) (12 * dd * k) = o1 F2.
  Proof.
    rewrite (npow_mul F2 F2_ring).
    assert (E : npow F2 (fq 9, fq 1) (12 * dd) = o1 F2).
    { pose proof (fixes2 (fq 9, fq 1)) as F. rewrite q2 in F. replace (1 + 2 * (2 * (3 * dd)))%nat with (S (12 * dd)) in F by lia. cbn [npow] in F.
      destruct xi_inv as [y Y]. pose proof F2_ring as R. destruct R.
      transitivity (omul F2 (omul F2 (fq 9, fq 1) y) (npow F2 (fq 9, fq 1) (12 * dd))); [rewrite Y; symmetry; apply Rmul_1_l|].
      rewrite (Rmul_comm (fq 9, fq 1) y), <- Rmul_assoc, F, Rmul_comm. exact Y. }
    rewrite E. apply (npow_1 F2 F2_ring).
  Qed.
  Lemma fixes2_12 : fixes F2 (q ^ 12).
  Proof. replace 12%nat with (2 * 6)%nat by reflexivity. rewrite Nat.pow_mul_r. apply (fixes_pow F2 F2_ring), fixes2. Qed.
  Lemma fixes6 : fixes F6 (q ^ 12).
  Proof.
    apply (cubic_fixes F2 F2_ring _ q 12 (12 * dd * (2 * tt_)) q_pr char2 fixes2_12); [rewrite q12; lia | apply xi_pow].
  Qed.
  Lemma char6 : nsm F6 q (o1 F6) = o0 F6.
  Proof. change (o1 F6) with (cin F2 (o1 F2)). unfold F6. rewrite (cubic_char F2 F2_ring), char2. reflexivity. Qed.
  Lemma fixes12 : fixes F12 (q ^ 12).
  Proof.
    apply (quad_fixes F6 F6_ring _ q 12 (3 * (12 * dd * tt_)) q_pr char6 fixes6); [rewrite q12; lia|].
    rewrite (npow_mul F6 F6_ring). change ((fq 0, fq 0), (fq 1, fq 0), (fq 0, fq 0)) with (ct F2).
    unfold F6 at 2. rewrite (ct3 F2 F2_ring). unfold F6. rewrite (cin_pow F2 F2_ring), xi_pow. reflexivity.
  Qed.

  (** if x * h^r = 1 then x^((p^12-1)/r) = 1 *)
  Lemma residue x h k n : (q ^ 12 = 1 + n * k)%nat -> (0 < n)%nat -> omul F12 x (npow F12 h n) = o1 F12 -> npow F12 x k = o1 F12.
  Proof.
    intros E N0 X. pose proof F12_ring as R. destruct R.
    assert (HI : exists y, omul F12 h y = o1 F12).
    { destruct n as [|m]; [lia|]. cbn [npow] in X. exists (omul F12 x (npow F12 h m)). rewrite <- X.
      rewrite !Rmul_assoc. f_equal. apply Rmul_comm. }
    destruct HI as [y Y].
    assert (H1 : npow F12 h (n * k) = o1 F12).
    { pose proof (fixes12 h) as F. rewrite E in F. change (1 + n * k)%nat with (S (n * k)) in F. cbn [npow] in F.
      transitivity (omul F12 (omul F12 h y) (npow F12 h (n * k))); [rewrite Y; symmetry; apply Rmul_1_l|].
      rewrite (Rmul_comm h y), <- Rmul_assoc, F, Rmul_comm. exact Y. }
    pose proof (f_equal (fun z => npow F12 z k) X) as XK. cbn beta in XK.
    rewrite (npow_dist F12 F12_ring), <- (npow_mul F12 F12_ring), H1, (npow_1 F12 F12_ring) in XK.
    rewrite Rmul_comm, Rmul_1_l in XK. exact XK.
  Qed.
End Tower.
