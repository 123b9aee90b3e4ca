(** Proofs about fr.go (C01-C09). *)
From Coq Require Import ZArith Znumtheory Lia String Ascii Bool List.
From Verif Require Import Params Go Curve Api FrOps FField.
Import ListNotations.
Open Scope Z_scope.

Lemma r_pos : 0 < r_mod. Proof. reflexivity. Qed.
Lemma r_nz : r_mod <> 0. Proof. discriminate. Qed.
Lemma p_pos : 0 < p_mod. Proof. reflexivity. Qed.
Lemma p_nz : p_mod <> 0. Proof. discriminate. Qed.
Global Opaque r_mod p_mod.
#[global] Hint Resolve r_pos r_nz p_pos p_nz : core.

Lemma modr_range a : 0 <= a mod r_mod < r_mod.
Proof. apply Z.mod_pos_bound. exact r_pos. Qed.
Lemma modp_range a : 0 <= a mod p_mod < p_mod.
Proof. apply Z.mod_pos_bound. exact p_pos. Qed.
Lemma modr_small a : 0 <= a < r_mod -> a mod r_mod = a.
Proof. intros. apply Z.mod_small. assumption. Qed.
Lemma modp_small a : 0 <= a < p_mod -> a mod p_mod = a.
Proof. intros. apply Z.mod_small. assumption. Qed.
Lemma modr_idem a : (a mod r_mod) mod r_mod = a mod r_mod.
Proof. apply Z.mod_mod. exact r_nz. Qed.
Lemma modp_idem a : (a mod p_mod) mod p_mod = a mod p_mod.
Proof. apply Z.mod_mod. exact p_nz. Qed.
Lemma modr_eq_range a : a mod r_mod = a -> 0 <= a < r_mod.
Proof. intros <-. apply modr_range. Qed.
Lemma mul_r_mod a : (a * r_mod) mod r_mod = 0.
Proof. apply Z.mod_mul. exact r_nz. Qed.

Ltac mred := cbn [bind ret lift obind get put set_nth nth_error option_map mapM repeat to_big to_expr
  new_hint hf_run hf_id fst snd as_big map app].

(** ** [mod] *)
Lemma mod_test_gen v a s : to_big v = Done a ->
  mod_ Test v s = if a mod r_mod =? a then Done (VBig a, s) else Panicked "[assertIsEqual]".
Proof.
  intros Hv. unfold mod_, bind at 1, new_hint, mapM, bind, lift. rewrite Hv.
  cbn -[Z.modulo Z.div Z.mul Z.add r_mod].
  rewrite Hv, mul_r_mod, Z.add_0_r, !modr_idem. unfold bind, lift.
  destruct (a mod r_mod =? a) eqn:E; [|reflexivity].
  apply Z.eqb_eq in E. rewrite E. reflexivity.
Qed.

Lemma mod_test a s :
  mod_ Test (VBig a) s = if a mod r_mod =? a then Done (VBig a, s) else Panicked "[assertIsEqual]".
Proof. apply mod_test_gen. reflexivity. Qed.

Lemma mod_test_ok a s : 0 <= a < r_mod -> mod_ Test (VBig a) s = Done (VBig a, s).
Proof. intros H. rewrite mod_test, modr_small by assumption. rewrite Z.eqb_refl. reflexivity. Qed.

Lemma mod_test_mod a s : mod_ Test (VBig (a mod r_mod)) s = Done (VBig (a mod r_mod), s).
Proof. apply mod_test_ok, modr_range. Qed.

Lemma mod_test_bad a s : ~ (0 <= a < r_mod) -> mod_ Test (VBig a) s = Panicked "[assertIsEqual]".
Proof.
  intros H. rewrite mod_test. destruct (a mod r_mod =? a) eqn:E; [|reflexivity].
  apply Z.eqb_eq in E. apply modr_eq_range in E. contradiction.
Qed.

Definition mod_cs (e : expr) (s : cs) : cs :=
  mk_cs (cs_next s + 2)
        (CEq (EAdd (EWire (S (cs_next s))) (EMul (EWire (cs_next s)) (EConst r_mod))) e :: cs_cons s)
        ((HMod, [e], [cs_next s; S (cs_next s)]) :: cs_hints s).

Lemma mod_build v e s : to_expr v = Done e ->
  mod_ Build v s = Done (VExpr (EWire (S (cs_next s))), mod_cs e s).
Proof.
  intros Hv. unfold mod_, bind at 1, new_hint, mapM, bind, lift. rewrite Hv.
  cbn -[Z.modulo Z.div Z.mul Z.add r_mod]. rewrite Hv. reflexivity.
Qed.

Lemma eval_range w e : 0 <= eval w e < r_mod.
Proof. destruct e; cbn [eval]; apply modr_range. Qed.
Lemma eval_mod w e : eval w e mod r_mod = eval w e.
Proof. apply modr_small, eval_range. Qed.

Lemma mod_constr_eval w n :
  eval w (EAdd (EWire (S n)) (EMul (EWire n) (EConst r_mod))) = eval w (EWire (S n)).
Proof.
  cbn [eval]. rewrite Z.mod_same by auto. rewrite Z.mul_0_r, Z.mod_0_l, Z.add_0_r by auto.
  apply modr_idem.
Qed.

Lemma sat_cons O w c n l h : sat O w (mk_cs n (c :: l) h) <-> sat1 O w c /\ sat O w (mk_cs n l h).
Proof. unfold sat. cbn. split; [intros H; inversion H; auto | intros [? ?]; constructor; auto]. Qed.

Lemma sat_mod_cs O w e s :
  sat O w (mod_cs e s) <-> eval w (EWire (S (cs_next s))) = eval w e /\ sat O w s.
Proof.
  unfold mod_cs, sat. cbn [cs_cons]. split.
  - intros H. inversion H as [|? ? H1 H2]; subst. unfold sat1 in H1. rewrite mod_constr_eval in H1.
    split; assumption.
  - intros [H1 H2]. constructor; [|assumption]. unfold sat1. rewrite mod_constr_eval. assumption.
Qed.

(** ** Wires below a bound *)
Fixpoint wires_lt (n : nat) (e : expr) : Prop :=
  match e with
  | EConst _ => True
  | EWire i => (i < n)%nat
  | EAdd a b | ESub a b | EMul a b => wires_lt n a /\ wires_lt n b
  end.

Definition upd (w : asg) (i : nat) (z : Z) : asg :=
  {| aw := fun j => if Nat.eqb j i then z else aw w j; ae := ae w |}.

Lemma eval_upd_lt w e n i z : wires_lt n e -> (n <= i)%nat -> eval (upd w i z) e = eval w e.
Proof.
  induction e; cbn [wires_lt eval]; intros H Hi; auto.
  - unfold upd; cbn. destruct (Nat.eqb_spec i0 i); [lia | reflexivity].
  - destruct H. rewrite IHe1, IHe2 by assumption. reflexivity.
  - destruct H. rewrite IHe1, IHe2 by assumption. reflexivity.
  - destruct H. rewrite IHe1, IHe2 by assumption. reflexivity.
Qed.

Lemma c01_ok a s : 0 <= a < r_mod -> mod_ Test (VBig a) s = Done (VBig a, s).
Proof. apply mod_test_ok. Qed.
Lemma c01_bad a s : ~ (0 <= a < r_mod) -> exists why, mod_ Test (VBig a) s = Panicked why.
Proof. intros H. eexists. apply mod_test_bad. exact H. Qed.

Lemma c02 v e s : to_expr v = Done e ->
  exists out s' new, mod_ Build v s = Done (VExpr out, s') /\ cs_cons s' = new ++ cs_cons s /\
    (forall O w, Forall (sat1 O w) new -> eval w out = eval w e) /\
    (wires_lt (cs_next s) e ->
     exists q, In q (seq (cs_next s) (cs_next s' - cs_next s)) /\
       (forall O w z, Forall (sat1 O w) new ->
          Forall (sat1 O (upd w q z)) new /\ eval (upd w q z) out = eval w out)).
Proof.
  intros Hv. exists (EWire (S (cs_next s))), (mod_cs e s),
    [CEq (EAdd (EWire (S (cs_next s))) (EMul (EWire (cs_next s)) (EConst r_mod))) e].
  repeat split.
  - apply mod_build; assumption.
  - intros O w H. inversion H as [|? ? H1 _]; subst. unfold sat1 in H1.
    rewrite mod_constr_eval in H1. exact H1.
  - intros Hw. exists (cs_next s). split.
    + apply in_seq. cbn. lia.
    + intros O w z H. inversion H as [|? ? H1 _]; subst. unfold sat1 in H1.
      rewrite mod_constr_eval in H1.
      assert (E : eval (upd w (cs_next s) z) (EWire (S (cs_next s))) = eval w (EWire (S (cs_next s)))).
      { cbn [eval upd aw]. replace (Nat.eqb (S (cs_next s)) (cs_next s)) with false; [reflexivity|].
        symmetry. apply Nat.eqb_neq. lia. }
      split; [|exact E]. constructor; [|constructor]. unfold sat1.
      rewrite mod_constr_eval. rewrite E, H1. symmetry. apply eval_upd_lt with (n := cs_next s); auto.
Qed.

(** ** fr_add, fr_sub, fr_mul, fr_neg *)
Lemma api_bin_test f g va vb a b s : to_big va = Done a -> to_big vb = Done b ->
  api_bin Test f g va vb s = Done (VBig (f a b mod r_mod), s).
Proof. intros Ha Hb. unfold api_bin, bind, lift, ret. rewrite Ha, Hb. reflexivity. Qed.

Lemma api_bin_build f g va vb a b s : to_expr va = Done a -> to_expr vb = Done b ->
  api_bin Build f g va vb s = Done (VExpr (g a b), s).
Proof. intros Ha Hb. unfold api_bin, bind, lift, ret. rewrite Ha, Hb. reflexivity. Qed.

Lemma fr_mul_test va vb a b s : to_big va = Done a -> to_big vb = Done b ->
  fr_mul Test va vb s = Done (VBig ((a * b) mod r_mod), s).
Proof.
  intros Ha Hb. unfold fr_mul, bind at 1, api_mul. rewrite (api_bin_test _ _ _ _ a b) by assumption.
  apply mod_test_mod.
Qed.
Lemma fr_add_test va vb a b s : to_big va = Done a -> to_big vb = Done b ->
  fr_add Test va vb s = Done (VBig ((a + b) mod r_mod), s).
Proof.
  intros Ha Hb. unfold fr_add, bind at 1, api_add. rewrite (api_bin_test _ _ _ _ a b) by assumption.
  apply mod_test_mod.
Qed.
Lemma fr_sub_test va vb a b s : to_big va = Done a -> to_big vb = Done b ->
  fr_sub Test va vb s = Done (VBig ((a - b) mod r_mod), s).
Proof.
  intros Ha Hb. unfold fr_sub, bind at 1, api_sub. rewrite (api_bin_test _ _ _ _ a b) by assumption.
  apply mod_test_mod.
Qed.
Lemma fr_neg_test va a s : to_big va = Done a ->
  fr_neg Test va s = Done (VBig ((- a) mod r_mod), s).
Proof.
  intros Ha. unfold fr_neg, api_sub. rewrite (api_bin_test _ _ _ _ r_mod a) by (assumption || reflexivity).
  f_equal. f_equal. f_equal. replace (r_mod - a) with (- a + 1 * r_mod) by ring. apply Z.mod_add. auto.
Qed.

Lemma c03 va vb a b s : to_big va = Done a -> to_big vb = Done b ->
  fr_add Test va vb s = Done (VBig ((a + b) mod r_mod), s) /\
  fr_sub Test va vb s = Done (VBig ((a - b) mod r_mod), s) /\
  fr_mul Test va vb s = Done (VBig ((a * b) mod r_mod), s) /\
  fr_neg Test va s = Done (VBig ((- a) mod r_mod), s).
Proof.
  intros. repeat split; [apply fr_add_test | apply fr_sub_test | apply fr_mul_test | apply fr_neg_test]; auto.
Qed.

Lemma c03_canonical a : 0 <= a mod r_mod < r_mod. Proof. apply modr_range. Qed.

Lemma bin_mod_build f g va vb a b s : to_expr va = Done a -> to_expr vb = Done b ->
  bind (api_bin Build f g va vb) (mod_ Build) s =
  Done (VExpr (EWire (S (cs_next s))), mod_cs (g a b) s).
Proof.
  intros Ha Hb. unfold bind. rewrite (api_bin_build _ _ _ _ a b) by assumption. apply mod_build. reflexivity.
Qed.

Lemma c04_gen (f : Z -> Z -> Z) (g : expr -> expr -> expr) va vb a b s :
  (forall w, eval w (g a b) = f (eval w a) (eval w b) mod r_mod) ->
  to_expr va = Done a -> to_expr vb = Done b ->
  exists out s', bind (api_bin Build f g va vb) (mod_ Build) s = Done (VExpr out, s') /\
    forall O w, sat O w s' -> sat O w s /\ eval w out = f (eval w a) (eval w b) mod r_mod.
Proof.
  intros Hg Ha Hb. eexists. eexists. split; [apply bin_mod_build; eassumption|].
  intros O w H. apply sat_mod_cs in H. destruct H as [H1 H2]. split; [assumption|]. rewrite H1. apply Hg.
Qed.

Lemma c04 va vb a b s : to_expr va = Done a -> to_expr vb = Done b ->
  (exists out s', fr_add Build va vb s = Done (VExpr out, s') /\
     forall O w, sat O w s' -> sat O w s /\ eval w out = (eval w a + eval w b) mod r_mod) /\
  (exists out s', fr_sub Build va vb s = Done (VExpr out, s') /\
     forall O w, sat O w s' -> sat O w s /\ eval w out = (eval w a - eval w b) mod r_mod) /\
  (exists out s', fr_mul Build va vb s = Done (VExpr out, s') /\
     forall O w, sat O w s' -> sat O w s /\ eval w out = (eval w a * eval w b) mod r_mod) /\
  (exists out s', fr_neg Build va s = Done (VExpr out, s') /\
     forall O w, sat O w s' -> sat O w s /\ eval w out = (- eval w a) mod r_mod).
Proof.
  intros Ha Hb. repeat split.
  - apply (c04_gen Z.add EAdd va vb a b s); auto.
  - apply (c04_gen Z.sub ESub va vb a b s); auto.
  - apply (c04_gen Z.mul EMul va vb a b s); auto.
  - unfold fr_neg, api_sub. rewrite (api_bin_build _ _ _ _ (EConst r_mod) a) by (assumption || reflexivity).
    eexists. eexists. split; [reflexivity|]. intros O w H. split; [assumption|]. cbn [eval].
    rewrite Z.mod_same by auto. reflexivity.
Qed.

(** ** fr_pow *)
Lemma pos_iter_mul_test va a s (n : positive) : to_big va = Done a ->
  Pos.iter (fun m => bind m (fun r => api_mul Test r va)) (ret va) n s =
  Done (VBig (a ^ (Z.pos n + 1) mod r_mod), s).
Proof.
  intros Ha. induction n as [|n IH] using Pos.peano_ind.
  - cbn [Pos.iter]. unfold bind, ret, api_mul. rewrite (api_bin_test _ _ _ _ a a) by assumption.
    do 3 f_equal. change (1 + 1) with 2. f_equal. rewrite Z.pow_2_r. reflexivity.
  - rewrite Pos.iter_succ. unfold bind at 1. rewrite IH. unfold api_mul.
    rewrite (api_bin_test _ _ _ _ (a ^ (Z.pos n + 1) mod r_mod) a) by (assumption || reflexivity).
    do 3 f_equal. rewrite Z.mul_mod_idemp_l by auto. f_equal.
    replace (Z.pos (Pos.succ n) + 1) with (Z.succ (Z.pos n + 1)) by lia.
    rewrite Z.pow_succ_r by lia. ring.
Qed.

Lemma fr_pow_test va a k s : to_big va = Done a -> 2 <= k ->
  fr_pow Test va (VBig k) s = Done (VBig (a ^ k mod r_mod), s).
Proof.
  intros Ha Hk. unfold fr_pow, bind at 1. cbn [lift as_big]. unfold bind at 1.
  destruct (k - 1) as [|n|n] eqn:E; try lia. cbn [Z.iter].
  rewrite (pos_iter_mul_test va a s n Ha).
  rewrite mod_test_mod. do 3 f_equal. replace k with (Z.pos n + 1) by lia. reflexivity.
Qed.

Lemma fr_pow_small en va k s : k <= 1 -> fr_pow en va (VBig k) s = mod_ en va s.
Proof.
  intros Hk. unfold fr_pow, bind at 1. cbn [lift as_big].
  destruct (k - 1) as [|n|n] eqn:E; [reflexivity | lia | reflexivity].
Qed.

Lemma c05_test a k s : (2 <= k \/ k = 1 /\ 0 <= a < r_mod) ->
  fr_pow Test (VBig a) (VBig k) s = Done (VBig (a ^ k mod r_mod), s).
Proof.
  intros [Hk|[-> Ha]]; [apply fr_pow_test; auto|].
  rewrite fr_pow_small, mod_test_ok by (lia || assumption).
  rewrite Z.pow_1_r, modr_small by assumption. reflexivity.
Qed.

Lemma c05_nonpos a k s : k <= 0 -> 0 <= a < r_mod ->
  fr_pow Test (VBig a) (VBig k) s = Done (VBig a, s).
Proof. intros Hk Ha. rewrite fr_pow_small by lia. apply mod_test_ok. assumption. Qed.

Lemma c05_refuted : ~ (forall a k s, 0 <= k -> 0 <= a < r_mod ->
  fr_pow Test (VBig a) (VBig k) s = Done (VBig (a ^ k mod r_mod), s)).
Proof.
  intros H. specialize (H 5 0 (mk_cs 0 [] []) ltac:(lia)).
  assert (B : 0 <= 5 < r_mod) by (split; [lia | reflexivity]).
  specialize (H B). rewrite c05_nonpos in H by (lia || assumption).
  rewrite Z.pow_0_r, modr_small in H by (split; [lia | reflexivity]). discriminate H.
Qed.

Fixpoint epow (e : expr) (n : nat) : expr :=
  match n with O => e | S m => EMul (epow e m) e end.

Lemma pos_iter_mul_build va e s (n : positive) : to_expr va = Done e ->
  Pos.iter (fun m => bind m (fun r => api_mul Build r va)) (ret va) n s =
  Done (VExpr (epow e (Pos.to_nat n)), s).
Proof.
  intros Ha. induction n as [|n IH] using Pos.peano_ind.
  - cbn [Pos.iter]. unfold bind, ret, api_mul. rewrite (api_bin_build _ _ _ _ e e) by assumption. reflexivity.
  - rewrite Pos.iter_succ. unfold bind at 1. rewrite IH. unfold api_mul.
    rewrite (api_bin_build _ _ _ _ (epow e (Pos.to_nat n)) e) by (assumption || reflexivity).
    rewrite Pos2Nat.inj_succ. reflexivity.
Qed.

Lemma eval_epow w e n : eval w (epow e n) = eval w e ^ (Z.of_nat n + 1) mod r_mod.
Proof.
  induction n as [|n IH]; cbn [epow].
  - change (Z.of_nat 0 + 1) with 1. rewrite Z.pow_1_r, eval_mod. reflexivity.
  - cbn [eval]. rewrite IH, Z.mul_mod_idemp_l by auto. f_equal.
    replace (Z.of_nat (S n) + 1) with (Z.succ (Z.of_nat n + 1)) by lia. rewrite Z.pow_succ_r by lia. ring.
Qed.

Lemma c05_build va e k s : to_expr va = Done e -> 1 <= k ->
  exists out s', fr_pow Build va (VBig k) s = Done (VExpr out, s') /\
    forall O w, sat O w s' -> sat O w s /\ eval w out = eval w e ^ k mod r_mod.
Proof.
  intros Ha Hk. unfold fr_pow, bind at 1. cbn [lift as_big]. unfold bind at 1.
  destruct (k - 1) as [|n|n] eqn:E; try lia; cbn [Z.iter ret].
  - rewrite (mod_build va e) by assumption. eexists. eexists. split; [reflexivity|].
    intros O w H. apply sat_mod_cs in H. destruct H as [-> H]. split; [assumption|].
    replace k with 1 by lia. rewrite Z.pow_1_r, eval_mod. reflexivity.
  - rewrite (pos_iter_mul_build va e s n Ha). rewrite (mod_build _ (epow e (Pos.to_nat n))) by reflexivity.
    eexists. eexists. split; [reflexivity|].
    intros O w H. apply sat_mod_cs in H. destruct H as [-> H]. split; [assumption|].
    rewrite eval_epow. replace (Z.of_nat (Pos.to_nat n) + 1) with k by lia. reflexivity.
Qed.

(** ** fr_div *)
Lemma api_assert_eq_test va vb a b s : to_big va = Done a -> to_big vb = Done b ->
  api_assert_eq Test va vb s = if a =? b then Done (tt, s) else Panicked "[assertIsEqual]".
Proof.
  intros Ha Hb. unfold api_assert_eq, bind, lift. rewrite Ha, Hb. destruct (a =? b); reflexivity.
Qed.

Lemma api_assert_eq_build va vb a b s : to_expr va = Done a -> to_expr vb = Done b ->
  api_assert_eq Build va vb s = Done (tt, mk_cs (cs_next s) (CEq a b :: cs_cons s) (cs_hints s)).
Proof. intros Ha Hb. unfold api_assert_eq, bind, lift. rewrite Ha, Hb. reflexivity. Qed.

Lemma fr_div_test va vb vc a b c s : to_big va = Done a -> to_big vb = Done b -> to_big vc = Done c ->
  fr_div Test va vb vc s =
    if ((b * c) mod r_mod =? a) && (c mod r_mod =? c) then Done (VBig c, s) else Panicked "[assertIsEqual]".
Proof.
  intros Ha Hb Hc. unfold fr_div, bind at 1. rewrite (fr_mul_test vb vc b c) by assumption.
  unfold bind. rewrite (api_assert_eq_test _ va ((b * c) mod r_mod) a) by (assumption || reflexivity).
  destruct ((b * c) mod r_mod =? a); [|reflexivity]. rewrite (mod_test_gen vc c) by assumption. reflexivity.
Qed.

Lemma c06_test a b c s :
  (0 <= c < r_mod -> (b * c) mod r_mod = a -> fr_div Test (VBig a) (VBig b) (VBig c) s = Done (VBig c, s)) /\
  (forall v s', fr_div Test (VBig a) (VBig b) (VBig c) s = Done (v, s') ->
     0 <= c < r_mod /\ (b * c) mod r_mod = a /\ v = VBig c).
Proof.
  rewrite (fr_div_test _ _ _ a b c) by reflexivity. split.
  - intros Hc ->. rewrite modr_small by assumption. rewrite !Z.eqb_refl. reflexivity.
  - intros v s'. destruct ((b * c) mod r_mod =? a) eqn:E1; [|discriminate].
    destruct (c mod r_mod =? c) eqn:E2; [|discriminate]. cbn [andb]. intros H. injection H as <- <-.
    apply Z.eqb_eq in E1, E2. apply modr_eq_range in E2. auto.
Qed.

Lemma prime_cancel b c c' : b mod r_mod <> 0 -> (b * c) mod r_mod = (b * c') mod r_mod ->
  c mod r_mod = c' mod r_mod.
Proof.
  intros Hb H.
  assert (D : (r_mod | b * (c - c'))).
  { apply Z.mod_divide; [auto|]. rewrite Z.mul_sub_distr_l, Zminus_mod, H, Z.sub_diag. reflexivity. }
  apply prime_mult in D; [|exact prime_r]. destruct D as [D|D].
  - exfalso. apply Hb. apply Z.mod_divide; auto.
  - destruct D as [q Hq]. replace c with (c' + q * r_mod) by lia. apply Z.mod_add. auto.
Qed.

Lemma c06_unique a b c c' s v v' s1 s2 : b mod r_mod <> 0 ->
  fr_div Test (VBig a) (VBig b) (VBig c) s = Done (v, s1) ->
  fr_div Test (VBig a) (VBig b) (VBig c') s = Done (v', s2) -> c = c' /\ v = v'.
Proof.
  intros Hb H1 H2. apply c06_test in H1, H2. destruct H1 as (R1 & E1 & ->), H2 as (R2 & E2 & ->).
  assert (c = c'); [|subst; auto]. rewrite <- (modr_small c), <- (modr_small c') by assumption.
  apply prime_cancel with b; congruence.
Qed.

Lemma c06_by_zero a b c s : b mod r_mod = 0 -> a <> 0 ->
  exists why, fr_div Test (VBig a) (VBig b) (VBig c) s = Panicked why.
Proof.
  intros Hb Ha. rewrite (fr_div_test _ _ _ a b c) by reflexivity.
  rewrite <- Z.mul_mod_idemp_l, Hb by auto. rewrite Z.mul_0_l, Z.mod_0_l by auto.
  replace (0 =? a) with false by (symmetry; apply Z.eqb_neq; lia). eexists. reflexivity.
Qed.

Lemma c06_zero_zero c s : 0 <= c < r_mod ->
  fr_div Test (VBig 0) (VBig 0) (VBig c) s = Done (VBig c, s).
Proof. intros Hc. apply c06_test; [assumption | reflexivity]. Qed.

Definition agree_below (n : nat) (w w' : asg) : Prop :=
  (forall i, (i < n)%nat -> aw w' i = aw w i) /\ ae w' = ae w.

Lemma eval_agree n w w' e : agree_below n w w' -> wires_lt n e -> eval w' e = eval w e.
Proof.
  intros [H _]. induction e; cbn [wires_lt eval]; intros L; auto.
  - rewrite H by assumption. reflexivity.
  - destruct L. rewrite IHe1, IHe2 by assumption. reflexivity.
  - destruct L. rewrite IHe1, IHe2 by assumption. reflexivity.
  - destruct L. rewrite IHe1, IHe2 by assumption. reflexivity.
Qed.

Lemma fr_div_build va vb vc a b c s : to_expr va = Done a -> to_expr vb = Done b -> to_expr vc = Done c ->
  exists s1, fr_div Build va vb vc s =
     Done (VExpr (EWire (S (cs_next s1))), mod_cs c s1) /\
     s1 = (let s0 := mod_cs (EMul b c) s in
           mk_cs (cs_next s0) (CEq (EWire (S (cs_next s))) a :: cs_cons s0) (cs_hints s0)).
Proof.
  intros Ha Hb Hc. eexists. split; [|reflexivity].
  unfold fr_div, bind at 1, fr_mul, api_mul. rewrite (bin_mod_build _ _ vb vc b c) by assumption.
  unfold bind. rewrite (api_assert_eq_build _ va (EWire (S (cs_next s))) a) by (assumption || reflexivity).
  apply mod_build. assumption.
Qed.

Lemma c06_build va vb vc a b c s : to_expr va = Done a -> to_expr vb = Done b -> to_expr vc = Done c ->
  exists out s' new, fr_div Build va vb vc s = Done (VExpr out, s') /\ cs_cons s' = new ++ cs_cons s /\
    (forall O w, Forall (sat1 O w) new ->
       (eval w b * eval w c) mod r_mod = eval w a /\ eval w out = eval w c) /\
    (wires_lt (cs_next s) a -> wires_lt (cs_next s) b -> wires_lt (cs_next s) c ->
     forall O w, (eval w b * eval w c) mod r_mod = eval w a ->
       exists w', agree_below (cs_next s) w w' /\ Forall (sat1 O w') new).
Proof.
  intros Ha Hb Hc. destruct (fr_div_build va vb vc a b c s Ha Hb Hc) as [s1 [E ->]].
  eexists. eexists. eexists. split; [exact E|]. clear E. split; [|split].
  - cbn. match goal with |- ?a :: ?b :: ?c :: _ = _ => instantiate (1 := [a; b; c]) end. reflexivity.
  - intros O w H. inversion H as [|? ? H1 H']; subst. inversion H' as [|? ? H2 H'']; subst.
    inversion H'' as [|? ? H3 _]; subst. clear H H' H''. unfold sat1 in *.
    cbn [cs_next mod_cs] in *. rewrite mod_constr_eval in H1. rewrite mod_constr_eval in H3.
    rewrite H1. rewrite H2 in H3. cbn [eval] in H3. split; [symmetry; exact H3 | reflexivity].
  - intros La Lb Lc O w E.
    pose (n := cs_next s).
    exists (upd (upd w (S n) (eval w a)) (n + 3) (eval w c)). split.
    + split; [|reflexivity]. intros i Hi. unfold upd; cbn [aw].
      destruct (Nat.eqb_spec i (n + 3)); [subst n; lia|]. destruct (Nat.eqb_spec i (S n)); [subst n; lia|]. reflexivity.
    + assert (Ev : forall e, wires_lt n e ->
        eval (upd (upd w (S n) (eval w a)) (n + 3) (eval w c)) e = eval w e).
      { intros e L. rewrite (eval_upd_lt _ e n) by (auto; lia). apply (eval_upd_lt _ e n); auto. }
      assert (W1 : eval (upd (upd w (S n) (eval w a)) (n + 3) (eval w c)) (EWire (S n)) = eval w a).
      { cbn [eval upd aw]. replace (Nat.eqb (S n) (n + 3)) with false by (symmetry; apply Nat.eqb_neq; lia).
        rewrite Nat.eqb_refl. apply eval_mod. }
      assert (W3 : eval (upd (upd w (S n) (eval w a)) (n + 3) (eval w c)) (EWire (n + 3)) = eval w c).
      { cbn [eval upd aw]. rewrite Nat.eqb_refl. apply eval_mod. }
      constructor; [|constructor; [|constructor; [|constructor]]]; unfold sat1; cbn [cs_next mod_cs];
        fold n; rewrite ?mod_constr_eval.
      * replace (S (n + 2)) with (n + 3)%nat by lia. rewrite W3, Ev by assumption. reflexivity.
      * rewrite W1, Ev by assumption. reflexivity.
      * rewrite W1. cbn [eval]. rewrite !Ev by assumption. symmetry. exact E.
Qed.

(** ** fr_mul_neg *)
Lemma fr_mul_neg_test va vb a b s : to_big va = Done a -> to_big vb = Done b ->
  fr_mul_neg Test va vb s = Done (VBig (r_mod - (a * b) mod r_mod), s).
Proof.
  intros Ha Hb. unfold fr_mul_neg, bind at 1. rewrite (fr_mul_test va vb a b) by assumption. reflexivity.
Qed.

Lemma c07_test a b s : exists z,
  fr_mul_neg Test (VBig a) (VBig b) s = Done (VBig z, s) /\
  0 < z <= r_mod /\ z mod r_mod = (- (a * b)) mod r_mod /\
  (z = (- (a * b)) mod r_mod <-> (a * b) mod r_mod <> 0).
Proof.
  exists (r_mod - (a * b) mod r_mod). rewrite (fr_mul_neg_test _ _ a b) by reflexivity.
  pose proof (modr_range (a * b)) as B.
  assert (E : (r_mod - (a * b) mod r_mod) mod r_mod = (- (a * b)) mod r_mod).
  { rewrite Zminus_mod_idemp_r. replace (r_mod - a * b) with (- (a * b) + 1 * r_mod) by ring.
    apply Z.mod_add. auto. }
  split; [reflexivity|]. split; [lia|]. split; [exact E|]. split.
  - intros H. pose proof (modr_range (- (a * b))). lia.
  - intros H. rewrite <- E. symmetry. apply modr_small. lia.
Qed.

Lemma c07_refuted : ~ (forall a b s,
  fr_mul_neg Test (VBig a) (VBig b) s = Done (VBig ((- (a * b)) mod r_mod), s)).
Proof.
  intros H. specialize (H 0 0 (mk_cs 0 [] [])). rewrite (fr_mul_neg_test _ _ 0 0) in H by reflexivity.
  rewrite Z.mul_0_l, Z.opp_0, Z.mod_0_l, Z.sub_0_r in H by auto. discriminate H.
Qed.

Lemma bind_panic_or {A B} (m : M A) (k : A -> M B) s :
  (exists w, m s = Panicked w) -> exists w, bind m k s = Panicked w.
Proof. intros [w H]. exists w. unfold bind. rewrite H. reflexivity. Qed.

Lemma c07_build va vb s : exists why, fr_mul_neg Build va vb s = Panicked why.
Proof.
  destruct (to_expr va) as [a|w] eqn:Ea;
    [|unfold fr_mul_neg, fr_mul, api_mul, api_bin, bind, lift; rewrite Ea; eauto].
  destruct (to_expr vb) as [b|w] eqn:Eb;
    [|unfold fr_mul_neg, fr_mul, api_mul, api_bin, bind, lift; rewrite Ea, Eb; eauto].
  pose proof (bin_mod_build Z.mul EMul va vb a b s Ea Eb) as H.
  change (fr_mul Build va vb s = Done (VExpr (EWire (S (cs_next s))), mod_cs (EMul a b) s)) in H.
  unfold fr_mul_neg, bind at 1. rewrite H.
  unfold bind. cbn [lift as_big]. eauto.
Qed.

(** ** modHint *)
Lemma c08 a x y : exists d r, mod_hint_run [a] [x; y] = Done (None, [Some d; Some r]) /\
  a = d * r_mod + r /\ 0 <= r < r_mod.
Proof.
  exists (a / r_mod), (a mod r_mod). split; [reflexivity|]. split; [|apply modr_range].
  rewrite Z.mul_comm. apply Z.div_mod. auto.
Qed.
