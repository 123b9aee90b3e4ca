(** Surplus proof and helper words are ignored, missing ones are rejected: proofs for C74. *)
From Coq Require Import ZArith String Bool List Lia.
From Verif Require Import Params Go Curve Api FrOps Lib Steps Agg FField FpField SpecCurve SpecHash SpecMisc SpecVerify SpecExact SpecAll P_Misc P_Flow P_All.
Import ListNotations.
Open Scope Z_scope.

Definition agree {A} (n : nat) (l l' : list A) : Prop := forall i, (i < n)%nat -> nth_error l i = nth_error l' i.
Lemma agree_firstn {A} n (l l' : list A) : firstn n l = firstn n l' -> agree n l l'.
Proof.
  revert l l'. induction n as [|n IH]; intros l l' E i Hi; [lia|].
  destruct l as [|a l], l' as [|a' l']; cbn in E; try discriminate; [reflexivity|].
  injection E as -> E. destruct i; [reflexivity|]. cbn. apply IH; [exact E|lia].
Qed.
Lemma get_agree {A} n (l l' : list A) i : agree n l l' -> (i < n)%nat -> get l i = get l' i.
Proof. intros H Hi. unfold get. rewrite (H i Hi). reflexivity. Qed.

Lemma bind_post {A B} (m m' : M A) (k k' : A -> M B) s :
  m s = m' s -> (forall a s', m' s = Done (a, s') -> k a s' = k' a s') -> bind m k s = bind m' k' s.
Proof. intros E K. unfold bind. rewrite E. destruct (m' s) as [[a s']|w]; [apply K; reflexivity|reflexivity]. Qed.
Lemma bind_same {A B} (m m' : M A) (k k' : A -> M B) s :
  m s = m' s -> (forall a s', k a s' = k' a s') -> bind m k s = bind m' k' s.
Proof. intros E K. apply bind_post; auto. Qed.

(** ** the three steps *)
Fixpoint expr_below (n m : nat) (e : fexpr) : bool :=
  match e with
  | FTr i => Nat.ltb i n | FAux i => Nat.ltb i m
  | FBuf _ | FStr _ | FInt _ => true
  | FMul a b | FAdd a b | FPow a b => expr_below n m a && expr_below n m b
  | FNeg a => expr_below n m a
  | FDiv a b c => expr_below n m a && expr_below n m b && expr_below n m c
  end.
Definition stmt_below (n m : nat) (st : stmt) : bool :=
  match st with
  | SSet _ e => expr_below n m e
  | SSet2 _ _ a b => expr_below n m a && expr_below n m b
  | SEccMul _ | SEccMulAdd _ => true
  end.

Section Steps.
  Variables (O : oracles) (en : engine) (n m : nat) (tr tr' aux aux' : list var).
  Hypotheses (Ht : agree n tr tr') (Ha : agree m aux aux').
  Lemma run_expr_agree buf e : expr_below n m e = true -> forall s, run_expr en tr aux buf e s = run_expr en tr' aux' buf e s.
  Proof.
    induction e; cbn [expr_below run_expr]; rewrite ?andb_true_iff, ?Nat.ltb_lt; intros H s; try reflexivity.
    - rewrite (get_agree n tr tr' _ Ht H). reflexivity.
    - rewrite (get_agree m aux aux' _ Ha H). reflexivity.
    - apply bind_same; [apply IHe1; tauto|]. intros. apply bind_same; [apply IHe2; tauto|reflexivity].
    - apply bind_same; [apply IHe1; tauto|]. intros. apply bind_same; [apply IHe2; tauto|reflexivity].
    - apply bind_same; [apply IHe; tauto|reflexivity].
    - apply bind_same; [apply IHe1; tauto|]. intros. apply bind_same; [apply IHe2; tauto|]. intros. apply bind_same; [apply IHe3; tauto|reflexivity].
    - apply bind_same; [apply IHe1; tauto|]. intros. apply bind_same; [apply IHe2; tauto|reflexivity].
  Qed.
  Lemma run_stmt_agree buf st : stmt_below n m st = true -> forall s, run_stmt O en tr aux buf st s = run_stmt O en tr' aux' buf st s.
  Proof.
    destruct st; cbn [stmt_below run_stmt]; rewrite ?andb_true_iff; intros H s; try reflexivity.
    - apply bind_same; [apply run_expr_agree; exact H|reflexivity].
    - apply bind_same; [apply run_expr_agree; tauto|]. intros. apply bind_same; [apply run_expr_agree; tauto|reflexivity].
  Qed.
  Lemma run_prog_agree p : forallb (stmt_below n m) p = true -> forall buf s, run_prog O en tr aux buf p s = run_prog O en tr' aux' buf p s.
  Proof.
    induction p as [|st p IH]; intros H buf s; [reflexivity|]. cbn [forallb] in H. apply andb_true_iff in H. destruct H as [H1 H2].
    cbn [run_prog]. apply bind_same; [apply run_stmt_agree; exact H1|]. intros [b [e|]] s'; [reflexivity|]. apply IH. exact H2.
  Qed.
End Steps.

(** ** the transcript *)
Lemma absorb_points_pos en tr : forall k a p t s a' p' t' s', absorb_points en tr k (a, p, t) s = Done (((a', p', t'), None), s') -> t' = (t + 2 * k)%nat.
Proof.
  induction k as [|k IH]; intros a p t s a' p' t' s' H.
  - cbn in H. injection H as _ _ -> _. lia.
  - cbn [absorb_points] in H. unfold bind, lift, try_, ret in H.
    destruct (get tr t) as [x|]; [|discriminate H]. destruct (get tr (t + 1)) as [y|]; [|discriminate H].
    unfold bind in H. destruct (VerifyCheckOnCurve en x y s) as [[[e|] s1]|]; [discriminate H| |discriminate H].
    destruct (put a p x) as [a1|]; [|discriminate H]. destruct (put a1 (p + 1) y) as [a2|]; [|discriminate H].
    apply IH in H. lia.
Qed.
Lemma absorb_points_agree en n tr tr' : agree n tr tr' -> forall k a p t s, (t + 2 * k <= n)%nat ->
  absorb_points en tr k (a, p, t) s = absorb_points en tr' k (a, p, t) s.
Proof.
  intros H. induction k as [|k IH]; intros a p t s L; [reflexivity|]. cbn [absorb_points].
  rewrite (get_agree n tr tr' t H), (get_agree n tr tr' (t + 1) H) by lia.
  apply bind_same; [reflexivity|]. intros x s1. apply bind_same; [reflexivity|]. intros y s2. unfold try_.
  apply bind_same; [reflexivity|]. intros [e|] s3; [reflexivity|].
  apply bind_same; [reflexivity|]. intros a1 s4. apply bind_same; [reflexivity|]. intros a2 s5. apply IH. lia.
Qed.
Lemma absorb_scalars_agree n tr tr' : agree n tr tr' -> forall k a p t, (t + k <= n)%nat ->
  absorb_scalars tr k (a, p, t) = absorb_scalars tr' k (a, p, t).
Proof.
  intros H. induction k as [|k IH]; intros a p t L; [reflexivity|]. cbn [absorb_scalars].
  rewrite (get_agree n tr tr' t H) by lia. destruct (get tr' t); [|reflexivity]. cbn [obind]. destruct (put a p a0); [|reflexivity].
  cbn [obind]. apply IH. lia.
Qed.
Lemma absorb_scalars_pos tr : forall k a p t a' p' t', absorb_scalars tr k (a, p, t) = Done (a', p', t') -> t' = (t + k)%nat.
Proof.
  induction k as [|k IH]; intros a p t a' p' t' H.
  - cbn in H. injection H as _ _ ->. lia.
  - cbn [absorb_scalars] in H. destruct (get tr t); [|discriminate H]. cbn [obind] in H. destruct (put a p a0); [|discriminate H].
    cbn [obind] in H. apply IH in H. lia.
Qed.
Lemma squeeze_same {A} O en buf i ab pos (f : list var -> goerr -> A) (k k' : list var -> list var -> M A) s :
  (forall b a s', k b a s' = k' b a s') -> squeeze_into O en buf i ab pos f k s = squeeze_into O en buf i ab pos f k' s.
Proof.
  intros K. unfold squeeze_into. apply bind_same; [reflexivity|]. intros [[c a] e] s1. apply bind_same; [reflexivity|].
  intros b s2. destruct e; [reflexivity|apply K].
Qed.
Lemma lift_done {A} (o : outcome A) s a s' : lift o s = Done (a, s') -> o = Done a.
Proof. unfold lift. destruct o; [|discriminate]. intros H. injection H as -> _. reflexivity. Qed.

Lemma challenges_agree O en buf tr tr' s : agree 104 tr tr' ->
  GetChallengesShPlonkCircuit O en buf tr s = GetChallengesShPlonkCircuit O en buf tr' s.
Proof.
  intros H. unfold GetChallengesShPlonkCircuit.
  apply bind_same; [reflexivity|]. intros a0 s0. apply bind_same; [reflexivity|]. intros b0 s1.
  apply bind_same; [reflexivity|]. intros a1 s2. apply bind_same; [reflexivity|]. intros b1 s3.
  apply bind_same; [reflexivity|]. intros a2 s4.
  apply bind_post; [apply (absorb_points_agree en 104 tr tr' H); lia|]. intros [[[a3 p3] t3] [e3|]] s5 E3; [reflexivity|].
  apply absorb_points_pos in E3. cbn in E3. subst t3. apply squeeze_same. intros bf a4 s6.
  apply bind_post; [apply (absorb_points_agree en 104 tr tr' H); lia|]. intros [[[a5 p5] t5] [e5|]] s7 E5; [reflexivity|].
  apply absorb_points_pos in E5. cbn in E5. subst t5. apply squeeze_same. intros bf1 a6 s8. apply squeeze_same. intros bf2 a7 s9.
  apply bind_post; [apply (absorb_points_agree en 104 tr tr' H); lia|]. intros [[[a8 p8] t8] [e8|]] s10 E8; [reflexivity|].
  apply absorb_points_pos in E8. cbn in E8. subst t8. apply squeeze_same. intros bf3 a9 s11.
  apply bind_post; [apply (absorb_points_agree en 104 tr tr' H); lia|]. intros [[[a10 p10] t10] [e10|]] s12 E10; [reflexivity|].
  apply absorb_points_pos in E10. cbn in E10. subst t10. apply squeeze_same. intros bf4 a11 s13.
  apply bind_post; [rewrite (absorb_scalars_agree 104 tr tr' H) by lia; reflexivity|]. intros [[a12 p12] t12] s14 E12.
  apply lift_done, absorb_scalars_pos in E12. cbn in E12. subst t12. apply squeeze_same. intros bf5 a13 s15. apply squeeze_same. intros bf6 a14 s16.
  apply bind_post; [apply (absorb_points_agree en 104 tr tr' H); lia|]. intros [[[a15 p15] t15] [e15|]] s17 E15; [reflexivity|].
  apply absorb_points_pos in E15. cbn in E15. subst t15. apply squeeze_same. intros bf7 a16 s18.
  rewrite (get_agree 104 tr tr' 102 H), (get_agree 104 tr tr' (102 + 1) H) by lia. reflexivity.
Qed.

(** ** the circuit *)
Lemma below1 : forallb (stmt_below 104 21) prog1 = true. Proof. vm_compute. reflexivity. Qed.
Lemma below2 : forallb (stmt_below 104 21) prog2 = true. Proof. vm_compute. reflexivity. Qed.
Lemma below3 : forallb (stmt_below 104 21) prog3 = true. Proof. vm_compute. reflexivity. Qed.

Lemma c74_tails O en ti vi pr pr' ax ax' s : firstn 104 pr = firstn 104 pr' -> firstn 21 ax = firstn 21 ax' ->
  Define O en {| Proof_ := pr; VerifyInst := vi; Aux := ax; TargetInst := ti |} s =
  Define O en {| Proof_ := pr'; VerifyInst := vi; Aux := ax'; TargetInst := ti |} s.
Proof.
  intros Ep Ea. apply agree_firstn in Ep. apply agree_firstn in Ea. unfold Define. cbn [Proof_ VerifyInst Aux TargetInst].
  apply bind_same; [reflexivity|]. intros [b1 l1] s1. apply bind_same; [reflexivity|]. intros [b2 l2] s2.
  apply bind_same; [reflexivity|]. intros [h [e|]] s3; [reflexivity|].
  apply bind_same; [reflexivity|]. intros hm s4. apply bind_same; [reflexivity|]. intros b3 s5.
  apply bind_same; [reflexivity|]. intros [b4 [e4|]] s6; [reflexivity|].
  apply bind_same; [apply challenges_agree; exact Ep|]. intros [b5 [e5|]] s7; [reflexivity|].
  apply bind_same; [exact (run_prog_agree O en 104 21 pr pr' ax ax' Ep Ea prog1 below1 b5 s7)|]. intros [b6 [e6|]] s8; [reflexivity|].
  apply bind_same; [exact (run_prog_agree O en 104 21 pr pr' ax ax' Ep Ea prog2 below2 b6 s8)|]. intros [b7 [e7|]] s9; [reflexivity|].
  apply bind_same; [exact (run_prog_agree O en 104 21 pr pr' ax ax' Ep Ea prog3 below3 b7 s9)|]. intros [b8 [e8|]] s10; reflexivity.
Qed.
Lemma c74_surplus O en c c' s : TargetInst c ++ VerifyInst c = TargetInst c' ++ VerifyInst c' ->
  firstn 104 (Proof_ c) = firstn 104 (Proof_ c') -> firstn 21 (Aux c) = firstn 21 (Aux c') -> Define O en c s = Define O en c' s.
Proof.
  intros Ei Ep Ea. destruct c as [pr vi ax ti], c' as [pr' vi' ax' ti']. cbn [Proof_ VerifyInst Aux TargetInst] in Ei, Ep, Ea.
  rewrite (c74_tails O en ti vi pr pr' ax ax' s Ep Ea). apply c40_boundary; [exact Ei|reflexivity|reflexivity].
Qed.
Lemma c74_missing O c zs T A s s' : TargetInst c ++ VerifyInst c = map VBig zs -> Proof_ c = map VBig T -> Aux c = map VBig A -> degen_sane O ->
  (length T < 104 \/ length A < 21)%nat -> Define O Test c s <> Done (None, s').
Proof.
  intros E1 E2 E3 Hd L D. apply (c72_fwd O c zs T A s s' E1 E2 E3 Hd) in D. destruct D as (_ & L1 & L2 & _). lia.
Qed.
