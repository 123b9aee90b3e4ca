(** Data flow through the register file [buf]: which slots the verifier steps read before writing them
    and which they never write.  Used for C32 and C40. *)
From Coq Require Import ZArith String Bool List Lia.
From Verif Require Import Params Go Curve Api FrOps Lib Steps Agg NumThy SpecCurve SpecHash SpecMisc
  P_Fr P_Hash P_Trans P_Misc.
Import ListNotations.
Open Scope Z_scope.

(** ** Related runs *)
Definition sim {A B} (R : A -> B -> Prop) (m : M A) (m' : M B) : Prop :=
  forall s, match m s, m' s with
            | Done (a, s1), Done (b, s2) => R a b /\ s1 = s2
            | Panicked w, Panicked w' => w = w'
            | _, _ => False
            end.

Lemma sim_refl {A} (m : M A) : sim eq m m.
Proof. intros s. destruct (m s) as [[a s1]|w]; auto. Qed.
Lemma sim_ret {A B} (R : A -> B -> Prop) a b : R a b -> sim R (ret a) (ret b).
Proof. intros H s. cbn. auto. Qed.
Lemma sim_bind {A B C D} (R : A -> B -> Prop) (R' : C -> D -> Prop) m m' k k' :
  sim R m m' -> (forall a b, R a b -> sim R' (k a) (k' b)) -> sim R' (bind m k) (bind m' k').
Proof.
  intros H1 H2 s. unfold bind. specialize (H1 s). destruct (m s) as [[a s1]|w], (m' s) as [[b s2]|w']; try contradiction; auto.
  destruct H1 as [H1 ->]. apply H2. exact H1.
Qed.
Lemma sim_weaken {A B} (R R' : A -> B -> Prop) m m' : (forall a b, R a b -> R' a b) -> sim R m m' -> sim R' m m'.
Proof.
  intros H H1 s. specialize (H1 s). destruct (m s) as [[a s1]|w], (m' s) as [[b s2]|w']; try contradiction; auto.
  destruct H1 as [H1 ->]. auto.
Qed.
Lemma sim_eq {A} (m m' : M A) s : sim eq m m' -> m s = m' s.
Proof.
  intros H. specialize (H s). destruct (m s) as [[a s1]|w], (m' s) as [[b s2]|w']; try contradiction; try congruence.
  destruct H as [-> ->]. reflexivity.
Qed.

(** ** Buffers agreeing on a set of slots *)
Definition agr (D : list nat) (b b' : list var) : Prop :=
  length b = length b' /\ forall i, In i D -> nth_error b i = nth_error b' i.

Lemma agr_refl D b : agr D b b. Proof. split; auto. Qed.
Lemma agr_incl D D' b b' : incl D' D -> agr D b b' -> agr D' b b'.
Proof. intros I [L H]. split; auto. Qed.
Lemma sim_get D b b' i : agr D b b' -> In i D -> sim eq (lift (get b i)) (lift (get b' i)).
Proof.
  intros [_ H] I s. unfold lift, get. rewrite (H i I). destruct (nth_error b' i); auto.
Qed.
Lemma sim_put D b b' i v : agr D b b' -> sim (agr (i :: D)) (lift (put b i v)) (lift (put b' i v)).
Proof.
  intros [L H] s. unfold lift, put. destruct (Nat.lt_ge_cases i (length b)) as [Hi|Hi].
  - destruct (set_nth_some b i v Hi) as (l & A1 & A2 & A3).
    destruct (set_nth_some b' i v ltac:(lia)) as (l' & B1 & B2 & B3). rewrite A1, B1. split; [|reflexivity].
    split; [lia|]. intros j Hj. rewrite A3, B3. destruct (Nat.eqb_spec j i); [reflexivity|].
    apply H. destruct Hj; [congruence | assumption].
  - rewrite (set_nth_none b i v Hi), (set_nth_none b' i v ltac:(lia)). reflexivity.
Qed.

(** results of a step: same error, and agreement if there is none *)
Definition RB (D : list nat) (x y : list var * option goerr) : Prop :=
  snd x = snd y /\ (snd x = None -> agr D (fst x) (fst y)).

(** ** Slots read by an expression *)
Fixpoint reads (e : fexpr) : list nat :=
  match e with
  | FBuf i => [i]
  | FTr _ | FAux _ | FStr _ | FInt _ => []
  | FMul a b | FAdd a b | FPow a b => reads a ++ reads b
  | FNeg a => reads a
  | FDiv a b c => reads a ++ reads b ++ reads c
  end.

Lemma sim_expr en tr aux D b b' e : agr D b b' -> incl (reads e) D ->
  sim eq (run_expr en tr aux b e) (run_expr en tr aux b' e).
Proof.
  intros A. induction e; cbn [reads run_expr]; intros I; try (apply sim_refl).
  - apply (sim_get D); auto. apply I. left. reflexivity.
  - apply incl_app_inv in I. destruct I. eapply sim_bind; [eauto|]. intros x ? <-.
    eapply sim_bind; [eauto|]. intros y ? <-. apply sim_refl.
  - apply incl_app_inv in I. destruct I. eapply sim_bind; [eauto|]. intros x ? <-.
    eapply sim_bind; [eauto|]. intros y ? <-. apply sim_refl.
  - eapply sim_bind; [eauto|]. intros x ? <-. apply sim_refl.
  - apply incl_app_inv in I. destruct I as [I1 I2]. apply incl_app_inv in I2. destruct I2.
    eapply sim_bind; [eauto|]. intros x ? <-. eapply sim_bind; [eauto|]. intros y ? <-.
    eapply sim_bind; [eauto|]. intros z ? <-. apply sim_refl.
  - apply incl_app_inv in I. destruct I. eapply sim_bind; [eauto|]. intros x ? <-.
    eapply sim_bind; [eauto|]. intros y ? <-. apply sim_refl.
Qed.

Definition subset (l D : list nat) : bool := forallb (fun i => existsb (Nat.eqb i) D) l.
Lemma subset_incl l D : subset l D = true -> incl l D.
Proof.
  unfold subset. rewrite forallb_forall. intros H i Hi. specialize (H i Hi). apply existsb_exists in H.
  destruct H as (j & Hj & E). apply Nat.eqb_eq in E. subst. exact Hj.
Qed.

(** defined slots after a statement; [None] if it reads an undefined slot *)
Definition flow_stmt (D : list nat) (st : stmt) : option (list nat) :=
  match st with
  | SSet i e => if subset (reads e) D then Some (i :: D) else None
  | SSet2 i j e1 e2 => if subset (reads e1 ++ reads e2) D then Some (j :: i :: D) else None
  | SEccMul off => if subset [off; off + 1; off + 2]%nat D then Some D else None
  | SEccMulAdd off => if subset [off; off + 1; off + 2; off + 3; off + 4]%nat D then Some D else None
  end.
Fixpoint flow (D : list nat) (p : list stmt) : option (list nat) :=
  match p with
  | [] => Some D
  | st :: t => match flow_stmt D st with Some D' => flow D' t | None => None end
  end.

Lemma sim_ecc_mul O en D b b' off : agr D b b' -> incl [off; off + 1; off + 2]%nat D ->
  sim (RB D) (ecc_mul O en b off) (ecc_mul O en b' off).
Proof.
  intros A I. unfold ecc_mul.
  eapply sim_bind; [apply (sim_get D); [exact A | apply I; cbn; auto]|]. intros x ? <-.
  eapply sim_bind; [apply (sim_get D); [exact A | apply I; cbn; auto]|]. intros y ? <-.
  eapply sim_bind; [apply (sim_get D); [exact A | apply I; cbn; auto]|]. intros k ? <-.
  eapply sim_bind; [apply sim_refl|]. intros [[rx ry] [e|]] ? <-.
  - apply sim_ret. split; [reflexivity|]. cbn. discriminate.
  - eapply sim_bind; [apply sim_put, A|]. intros b1 b1' A1.
    eapply sim_bind; [apply sim_put, A1|]. intros b2 b2' A2.
    apply sim_ret. split; [reflexivity|]. intros _. cbn [fst]. eapply agr_incl; [|exact A2].
    intros i Hi. right. right. exact Hi.
Qed.

Lemma sim_stmt O en tr aux D D' b b' st : agr D b b' -> flow_stmt D st = Some D' ->
  sim (RB D') (run_stmt O en tr aux b st) (run_stmt O en tr aux b' st).
Proof.
  intros A. destruct st as [i e|i j e1 e2|off|off]; cbn [flow_stmt run_stmt];
    (destruct (subset _ D) eqn:E; [|discriminate]); apply subset_incl in E; intros H; injection H as <-.
  - eapply sim_bind; [apply (sim_expr _ _ _ D); eassumption|]. intros v ? <-.
    eapply sim_bind; [apply sim_put, A|]. intros b1 b1' A1. apply sim_ret. split; auto.
  - apply incl_app_inv in E. destruct E as [E1 E2].
    eapply sim_bind; [apply (sim_expr _ _ _ D); eassumption|]. intros v ? <-.
    eapply sim_bind; [apply (sim_expr _ _ _ D); eassumption|]. intros v' ? <-.
    eapply sim_bind; [apply sim_put, A|]. intros b1 b1' A1.
    eapply sim_bind; [apply sim_put, A1|]. intros b2 b2' A2. apply sim_ret. split; auto.
  - apply sim_ecc_mul; assumption.
  - unfold ecc_mul_add. eapply sim_bind; [apply (sim_ecc_mul O en D); [exact A|]|].
    { intros k Hk. apply E. cbn in Hk |- *. destruct Hk as [<-|[<-|[<-|[]]]]; [tauto | |]; rewrite <- Nat.add_assoc; cbn; tauto. }
    intros [b1 e1] [b1' e1'] [He Hb]. cbn [fst snd] in He, Hb. subst e1'. destruct e1 as [e1|].
    { apply sim_ret. split; [reflexivity | discriminate]. }
    specialize (Hb eq_refl).
    eapply sim_bind; [apply (sim_get D); [exact Hb | apply E; cbn; auto]|]. intros x ? <-.
    eapply sim_bind; [apply (sim_get D); [exact Hb | apply E; cbn; auto]|]. intros y ? <-.
    eapply sim_bind; [apply (sim_get D); [exact Hb | apply E; cbn; auto]|]. intros z ? <-.
    eapply sim_bind; [apply (sim_get D); [exact Hb | apply E; cbn; auto]|]. intros t ? <-.
    eapply sim_bind; [apply sim_refl|]. intros [[rx ry] e] ? <-.
    eapply sim_bind; [apply sim_put, Hb|]. intros b2 b2' A2.
    eapply sim_bind; [apply sim_put, A2|]. intros b3 b3' A3.
    apply sim_ret. split; [reflexivity|]. intros _. cbn [fst]. eapply agr_incl; [|exact A3].
    intros i Hi. right. right. exact Hi.
Qed.

Lemma sim_prog O en tr aux : forall p D D' b b', agr D b b' -> flow D p = Some D' ->
  sim (RB D') (run_prog O en tr aux b p) (run_prog O en tr aux b' p).
Proof.
  induction p as [|st p IH]; intros D D' b b' A F; cbn [flow run_prog] in *.
  - injection F as <-. apply sim_ret. split; auto.
  - destruct (flow_stmt D st) as [D1|] eqn:E; [|discriminate].
    eapply sim_bind; [eapply sim_stmt; eassumption|]. intros [b1 e1] [b1' e1'] [He Hb]. cbn [fst snd] in He, Hb.
    subst e1'. destruct e1 as [e1|].
    + apply sim_ret. split; [reflexivity | discriminate].
    + eapply IH; [apply Hb; reflexivity | exact F].
Qed.

(** The three steps read only slots 0..9, the transcript, the auxiliary values and slots they wrote. *)
Definition slots10 : list nat := [0; 1; 2; 3; 4; 5; 6; 7; 8; 9]%nat.
Lemma flow_steps : exists D1 D2 D3, flow slots10 prog1 = Some D1 /\ flow D1 prog2 = Some D2 /\
  flow D2 prog3 = Some D3 /\ incl [10; 11; 12; 13]%nat D3.
Proof.
  destruct (flow slots10 prog1) as [D1|] eqn:E1; [|vm_compute in E1; discriminate E1].
  destruct (flow D1 prog2) as [D2|] eqn:E2;
    [|vm_compute in E1; injection E1 as <-; vm_compute in E2; discriminate E2].
  destruct (flow D2 prog3) as [D3|] eqn:E3;
    [|vm_compute in E1; injection E1 as <-; vm_compute in E2; injection E2 as <-; vm_compute in E3; discriminate E3].
  exists D1, D2, D3. repeat (split; [reflexivity || assumption|]).
  apply subset_incl. vm_compute in E1. injection E1 as <-. vm_compute in E2. injection E2 as <-.
  vm_compute in E3. injection E3 as <-. reflexivity.
Qed.

(** ** Slots written *)
Definition writes (st : stmt) : list nat :=
  match st with
  | SSet i _ => [i]
  | SSet2 i j _ _ => [i; j]
  | SEccMul off => [off; off + 1]%nat
  | SEccMulAdd off => [off; off + 1; off + 2; off + 3]%nat
  end.

Lemma put_inv {A} (l : list A) i a l' : put l i a = Done l' ->
  length l' = length l /\ forall j, j <> i -> nth_error l' j = nth_error l j.
Proof.
  unfold put. destruct (Nat.lt_ge_cases i (length l)) as [H|H].
  - destruct (set_nth_some l i a H) as (l1 & A1 & A2 & A3). rewrite A1. intros E. injection E as <-.
    split; [exact A2|]. intros j N. rewrite A3. destruct (Nat.eqb_spec j i); [contradiction | reflexivity].
  - rewrite (set_nth_none l i a H). discriminate.
Qed.

Lemma ecc_mul_frame O en b off s b' e s' : ecc_mul O en b off s = Done ((b', e), s') ->
  length b' = length b /\ forall j, j <> off -> j <> (off + 1)%nat -> nth_error b' j = nth_error b j.
Proof.
  unfold ecc_mul, bind, lift. destruct (get b off) as [x|]; [|discriminate]. destruct (get b (off + 1)) as [y|]; [|discriminate].
  destruct (get b (off + 2)) as [k|]; [|discriminate].
  destruct (CalcVerifyBN256Msm O en x y k s) as [[[[rx ry] [e1|]] s1]|]; [| |discriminate].
  - intros H. injection H as <- <- <-. auto.
  - destruct (put b off rx) as [b1|] eqn:E1; [|discriminate]. destruct (put b1 (off + 1) ry) as [b2|] eqn:E2; [|discriminate].
    intros H. injection H as <- <- <-. apply put_inv in E1, E2. destruct E1 as [L1 N1], E2 as [L2 N2].
    split; [lia|]. intros j J1 J2. rewrite N2, N1; auto.
Qed.

Lemma stmt_frame O en tr aux b st s b' s' : run_stmt O en tr aux b st s = Done ((b', None), s') ->
  length b' = length b /\ forall j, ~ In j (writes st) -> nth_error b' j = nth_error b j.
Proof.
  destruct st as [i e|i j e1 e2|off|off]; cbn [run_stmt writes]; unfold bind, lift.
  - destruct (run_expr en tr aux b e s) as [[v s1]|]; [|discriminate].
    destruct (put b i v) as [b1|] eqn:E; [|discriminate]. intros H. injection H as <- <-. apply put_inv in E.
    destruct E as [L N]. split; [exact L|]. intros j Hj. apply N. cbn in Hj. intros ->. auto.
  - destruct (run_expr en tr aux b e1 s) as [[v1 s1]|]; [|discriminate].
    destruct (run_expr en tr aux b e2 s1) as [[v2 s2]|]; [|discriminate].
    destruct (put b i v1) as [b1|] eqn:E1; [|discriminate]. destruct (put b1 j v2) as [b2|] eqn:E2; [|discriminate].
    intros H. injection H as <- <-. apply put_inv in E1, E2. destruct E1 as [L1 N1], E2 as [L2 N2].
    split; [lia|]. intros k Hk. cbn in Hk. rewrite N2, N1; auto.
  - intros H. apply ecc_mul_frame in H. destruct H as [L N]. split; [exact L|]. intros k Hk. cbn in Hk. apply N; auto.
  - unfold ecc_mul_add, bind at 1. destruct (ecc_mul O en b (off + 2) s) as [[[b1 e1] s1]|] eqn:E; [|discriminate].
    apply ecc_mul_frame in E. destruct E as [L N]. destruct e1 as [e1|]; [discriminate|].
    unfold bind, lift. destruct (get b1 off) as [x|]; [|discriminate]. destruct (get b1 (off + 1)) as [y|]; [|discriminate].
    destruct (get b1 (off + 2)) as [z|]; [|discriminate]. destruct (get b1 (off + 3)) as [t|]; [|discriminate].
    destruct (CalcVerifyBN256Add en x y z t s1) as [[[[rx ry] e2] s2]|]; [|discriminate].
    destruct (put b1 off rx) as [b2|] eqn:E1; [|discriminate]. destruct (put b2 (off + 1) ry) as [b3|] eqn:E2; [|discriminate].
    intros H. injection H as <- <-. apply put_inv in E1, E2. destruct E1 as [L1 N1], E2 as [L2 N2].
    split; [lia|]. intros k Hk. cbn in Hk. rewrite N2, N1, N; auto; rewrite <- ?Nat.add_assoc; cbn; intuition.
Qed.

Lemma prog_frame O en tr aux : forall p b s b' s', run_prog O en tr aux b p s = Done ((b', None), s') ->
  length b' = length b /\ forall j, ~ In j (flat_map writes p) -> nth_error b' j = nth_error b j.
Proof.
  induction p as [|st p IH]; intros b s b' s'; cbn [run_prog flat_map].
  - intros H. unfold ret in H. injection H as <- <-. auto.
  - unfold bind. destruct (run_stmt O en tr aux b st s) as [[[b1 [e1|]] s1]|] eqn:E; [discriminate | | discriminate].
    intros H. apply IH in H. apply stmt_frame in E. destruct E as [L N], H as [L' N'].
    split; [lia|]. intros j Hj. rewrite in_app_iff in Hj. rewrite N', N; auto.
Qed.

Lemma prog_error O en tr aux : forall p b s b' e s', run_prog O en tr aux b p s = Done ((b', Some e), s') ->
  b' = repeat VNil 43.
Proof.
  induction p as [|st p IH]; intros b s b' e s'; cbn [run_prog].
  - unfold ret. discriminate.
  - unfold bind. destruct (run_stmt O en tr aux b st s) as [[[b1 [e1|]] s1]|]; [| |discriminate].
    + unfold ret. intros H. injection H as <- <- <-. reflexivity.
    + apply IH.
Qed.

Lemma writes_above : forall p, forallb (fun i => Nat.leb 10 i) (flat_map writes p) = true ->
  forall j, (j < 10)%nat -> ~ In j (flat_map writes p).
Proof.
  intros p H j Hj I. rewrite forallb_forall in H. specialize (H j I). apply Nat.leb_le in H. lia.
Qed.

Lemma c32_gen O en tr aux p b s b' e s' : forallb (fun i => Nat.leb 10 i) (flat_map writes p) = true ->
  run_prog O en tr aux b p s = Done ((b', e), s') ->
  (e = None -> length b' = length b /\ forall j, (j < 10)%nat -> nth_error b' j = nth_error b j) /\
  (e <> None -> b' = repeat VNil 43).
Proof.
  intros W H. split; intros E.
  - subst e. apply prog_frame in H. destruct H as [L N]. split; [exact L|]. intros j Hj. apply N.
    apply writes_above; assumption.
  - destruct e as [e|]; [|congruence]. eapply prog_error. exact H.
Qed.

Lemma c32_1 : step_frame VerifyProof1.
Proof. intros O en tr aux b s b' e s'. apply c32_gen. reflexivity. Qed.
Lemma c32_2 : step_frame VerifyProof2.
Proof. intros O en tr aux b s b' e s'. apply c32_gen. reflexivity. Qed.
Lemma c32_3 : step_frame VerifyProof3.
Proof. intros O en tr aux b s b' e s'. apply c32_gen. reflexivity. Qed.

(** ** C40 *)
Lemma copy_app vs : forall vs' b n,
  copy_into b n (vs ++ vs') = obind (copy_into b n vs) (fun '(b', n') => copy_into b' n' vs').
Proof.
  induction vs as [|v vs IH]; intros vs' b n; cbn [copy_into app]; [reflexivity|].
  destruct (put b n v) as [b1|]; cbn [obind]; [apply IH | reflexivity].
Qed.

(** the two copy loops of Define as one *)
Definition copied (c : AggregatorCircuit) : outcome (list var * nat) :=
  copy_into (repeat (VBig 0) 43) 0 (TargetInst c ++ VerifyInst c).
Definition rest_of (O : oracles) (en : engine) (c : AggregatorCircuit) (x : list var * nat) : M (option goerr) :=
  let '(buf, bufLen) := x in
  '(hashValBig, err) <- VerifyInstanceHash O en (firstn bufLen buf) ;;
  match err with Some e => ret (Some e) | None =>
  hashMod <- mod_ en hashValBig ;;
  buf <- lift (put buf 2 hashMod) ;;
  '(buf, err) <- CalcVerifyCircuitLagrange O en buf ;;
  match err with Some e => ret (Some e) | None =>
  '(buf, err) <- GetChallengesShPlonkCircuit O en buf (Proof_ c) ;;
  match err with Some e => ret (Some e) | None =>
  '(buf, err) <- VerifyProof1 O en (Proof_ c) (Aux c) buf ;;
  match err with Some e => ret (Some e) | None =>
  '(buf, err) <- VerifyProof2 O en (Proof_ c) (Aux c) buf ;;
  match err with Some e => ret (Some e) | None =>
  '(buf, err) <- VerifyProof3 O en (Proof_ c) (Aux c) buf ;;
  match err with Some e => ret (Some e) | None =>
  b10 <- lift (get buf 10) ;; try_ (VerifyNotZero en b10) Some (
  b11 <- lift (get buf 11) ;; try_ (VerifyNotZero en b11) Some (
  b12 <- lift (get buf 12) ;; try_ (VerifyNotZero en b12) Some (
  b13 <- lift (get buf 13) ;; try_ (VerifyNotZero en b13) Some (
  g1s <- FillVerifyCircuitsG1 b10 b11 b12 b13 ;;
  g2s <- FillVerifyCircuitsG2 ;;
  VerifyBN256Pairing O en g1s g2s))))
  end end end end end end.

Lemma define_copied O en c s : Define O en c s = bind (lift (copied c)) (rest_of O en c) s.
Proof.
  unfold Define, copied. rewrite copy_app. unfold bind at 1, lift at 1.
  destruct (copy_into (repeat (VBig 0) 43) 0 (TargetInst c)) as [[b1 n1]|]; [|reflexivity]. cbn [obind].
  unfold bind at 1, lift at 1.   destruct (copy_into b1 n1 (VerifyInst c)) as [[b2 n2]|]; reflexivity.
Qed.

Lemma c40_boundary O en c c' s : TargetInst c ++ VerifyInst c = TargetInst c' ++ VerifyInst c' ->
  Proof_ c = Proof_ c' -> Aux c = Aux c' -> Define O en c s = Define O en c' s.
Proof.
  intros H1 H2 H3. rewrite !define_copied. unfold copied, rest_of. rewrite H1, H2, H3. reflexivity.
Qed.

Lemma copy_too_many : forall vs (b : list var) n, (length b < n + length vs)%nat -> (n <= length b)%nat ->
  exists w, copy_into b n vs = Panicked w.
Proof.
  induction vs as [|v vs IH]; intros b n H L; cbn [copy_into length] in *; [lia|].
  unfold put. destruct (Nat.lt_ge_cases n (length b)) as [Hn|Hn].
  - destruct (set_nth_some b n v Hn) as (l & -> & L1 & _). cbn [obind]. apply IH; lia.
  - rewrite (set_nth_none b n v Hn). eexists. reflexivity.
Qed.
Lemma c40_too_many O en c s : (43 < length (TargetInst c) + length (VerifyInst c))%nat ->
  exists w, Define O en c s = Panicked w.
Proof.
  intros H. rewrite define_copied. unfold bind, lift, copied.
  destruct (copy_too_many (TargetInst c ++ VerifyInst c) (repeat (VBig 0) 43) 0) as [w ->].
  - rewrite repeat_length, app_length. lia.
  - lia.
  - eexists. reflexivity.
Qed.

Lemma copy_ok : forall vs (b : list var) n, (n + length vs <= length b)%nat ->
  copy_into b n vs = Done (firstn n b ++ vs ++ skipn (n + length vs) b, (n + length vs)%nat).
Proof.
  induction vs as [|v vs IH]; intros b n L; cbn [copy_into length app] in *.
  - rewrite Nat.add_0_r, firstn_skipn. reflexivity.
  - unfold put. destruct (set_nth_some b n v ltac:(lia)) as (l & E & L1 & N). rewrite E. cbn [obind].
    rewrite IH by lia. replace (n + S (length vs))%nat with (S n + length vs)%nat by lia. f_equal. f_equal.
    assert (F : firstn (S n) l = firstn n b ++ [v]).
    { clear IH. revert b l E L L1 N. induction n as [|n IHn]; intros b l E L L1 N.
      - destruct b; [cbn in L; lia|]. cbn in E. injection E as <-. reflexivity.
      - destruct b as [|b0 b]; [cbn in L; lia|]. cbn in E. destruct (set_nth b n v) as [l0|] eqn:E0; [|discriminate].
        cbn in E. injection E as <-. cbn [firstn app]. f_equal. apply IHn; auto; try (cbn in *; lia).
        intros j. specialize (N (S j)). cbn in N. exact N. }
    rewrite F. rewrite <- app_assoc. cbn [app]. f_equal. f_equal. f_equal.
    clear - N L1. assert (G : forall k (x y : list var), length x = length y -> (forall j, (k <= j)%nat -> nth_error x j = nth_error y j) -> skipn k x = skipn k y).
    { induction k as [|k IHk]; intros x y LL H.
      - cbn. revert y LL H. induction x as [|a x IHx]; intros [|b' y] LL H; cbn in LL; try lia; auto.
        pose proof (H 0%nat ltac:(lia)) as H0. cbn in H0. injection H0 as ->. f_equal. apply IHx; [lia|].
        intros j _. apply (H (S j)). lia.
      - destruct x, y; cbn in *; try lia; auto. apply IHk; [lia|]. intros j Hj. apply (H (S j)). lia. }
    apply G; [exact L1|]. intros j Hj. rewrite N. destruct (Nat.eqb_spec j n); [lia | reflexivity].
Qed.

Lemma copied_VBig c zs : TargetInst c ++ VerifyInst c = map VBig zs -> (length zs <= 43)%nat ->
  copied c = Done (map VBig zs ++ repeat (VBig 0) (43 - length zs), length zs).
Proof.
  intros E L. unfold copied. rewrite E, copy_ok by (rewrite repeat_length, map_length; exact L).
  cbn [firstn app Nat.add]. rewrite map_length. f_equal. f_equal. f_equal.
  assert (G : forall n k, skipn k (repeat (VBig 0) n) = repeat (VBig 0) (n - k)).
  { induction n; intros [|k]; cbn; auto. }
  apply G.
Qed.

Lemma sim_lagrange O en D b b' : agr D b b' -> In 2%nat D ->
  sim (RB (1%nat :: 0%nat :: D)) (CalcVerifyCircuitLagrange O en b) (CalcVerifyCircuitLagrange O en b').
Proof.
  intros A I. unfold CalcVerifyCircuitLagrange.
  eapply sim_bind; [apply (sim_get D); [exact A | exact I]|]. intros k ? <-.
  eapply sim_bind; [apply sim_refl|]. intros [[rx ry] e] ? <-.
  eapply sim_bind; [apply sim_put, A|]. intros b1 b1' A1.
  eapply sim_bind; [apply sim_put, A1|]. intros b2 b2' A2. apply sim_ret. split; auto.
Qed.

Lemma sim_stages O en tr : forall l D b b' ab pos tpos, agr D b b' ->
  sim (RB (rev (map snd l) ++ D)) (run_stages O en tr l b ab pos tpos (last_check en tr))
                                  (run_stages O en tr l b' ab pos tpos (last_check en tr)).
Proof.
  induction l as [|[[pts n] i] l IH]; intros D b b' ab pos tpos A; cbn [run_stages map rev app snd].
  - unfold last_check, try_.
    eapply sim_bind; [apply sim_refl|]. intros x ? <-. eapply sim_bind; [apply sim_refl|]. intros y ? <-.
    eapply sim_bind; [apply sim_refl|]. intros [e|] ? <-; apply sim_ret; split; auto; discriminate.
  - eapply sim_bind; [apply sim_refl|]. intros [[[ab1 pos1] tpos1] [e|]] ? <-.
    { apply sim_ret. split; [reflexivity | discriminate]. }
    unfold squeeze_into. eapply sim_bind; [apply sim_refl|]. intros [[c ab2] e] ? <-.
    eapply sim_bind; [apply sim_put, A|]. intros b1 b1' A1. destruct e as [e|].
    { apply sim_ret. split; [reflexivity | discriminate]. }
    rewrite <- app_assoc. cbn [app]. apply IH. exact A1.
Qed.

Lemma sim_challenges O en tr D b b' : agr D b b' -> In 0%nat D -> In 1%nat D ->
  sim (RB (rev (map snd stages) ++ D)) (GetChallengesShPlonkCircuit O en b tr) (GetChallengesShPlonkCircuit O en b' tr).
Proof.
  intros A I0 I1 s.
  destruct (nth_error b 0) as [b0|] eqn:E0.
  - destruct (nth_error b 1) as [b1|] eqn:E1.
    + assert (E0' := proj2 A 0%nat I0). assert (E1' := proj2 A 1%nat I1). rewrite E0 in E0'. rewrite E1 in E1'.
      rewrite (challenges_stages O en b b0 b1 tr s E0 E1), (challenges_stages O en b' b0 b1 tr s (eq_sym E0') (eq_sym E1')).
      apply sim_stages. exact A.
    + assert (E0' := proj2 A 0%nat I0). assert (E1' := proj2 A 1%nat I1). rewrite E0 in E0'. rewrite E1 in E1'.
      unfold GetChallengesShPlonkCircuit, bind, lift, get. rewrite E0, <- E0', E1, <- E1'. reflexivity.
  - assert (E0' := proj2 A 0%nat I0). rewrite E0 in E0'.
    unfold GetChallengesShPlonkCircuit, bind, lift, get. rewrite E0, <- E0'. reflexivity.
Qed.

(** the part of Define after the instance hash *)
Definition tail_of (O : oracles) (en : engine) (c : AggregatorCircuit) (hv : var) (buf : list var) : M (option goerr) :=
  hashMod <- mod_ en hv ;;
  buf <- lift (put buf 2 hashMod) ;;
  '(buf, err) <- CalcVerifyCircuitLagrange O en buf ;;
  match err with Some e => ret (Some e) | None =>
  '(buf, err) <- GetChallengesShPlonkCircuit O en buf (Proof_ c) ;;
  match err with Some e => ret (Some e) | None =>
  '(buf, err) <- VerifyProof1 O en (Proof_ c) (Aux c) buf ;;
  match err with Some e => ret (Some e) | None =>
  '(buf, err) <- VerifyProof2 O en (Proof_ c) (Aux c) buf ;;
  match err with Some e => ret (Some e) | None =>
  '(buf, err) <- VerifyProof3 O en (Proof_ c) (Aux c) buf ;;
  match err with Some e => ret (Some e) | None =>
  b10 <- lift (get buf 10) ;; try_ (VerifyNotZero en b10) Some (
  b11 <- lift (get buf 11) ;; try_ (VerifyNotZero en b11) Some (
  b12 <- lift (get buf 12) ;; try_ (VerifyNotZero en b12) Some (
  b13 <- lift (get buf 13) ;; try_ (VerifyNotZero en b13) Some (
  g1s <- FillVerifyCircuitsG1 b10 b11 b12 b13 ;;
  g2s <- FillVerifyCircuitsG2 ;;
  VerifyBN256Pairing O en g1s g2s))))
  end end end end end.

(** the whole run depends on the buffer only through the hash *)
Lemma sim_tail O en c hv b b' : length b = length b' -> sim eq (tail_of O en c hv b) (tail_of O en c hv b').
Proof.
  intros L. destruct flow_steps as (D1 & D2 & D3 & F1 & F2 & F3 & I3).
  assert (A : agr [] b b') by (split; [exact L | contradiction]). unfold tail_of.
  eapply sim_bind; [apply sim_refl|]. intros hm ? <-.
  eapply sim_bind; [apply sim_put, A|]. intros x1 y1 A1.
  eapply sim_bind; [apply sim_lagrange; [exact A1 | left; reflexivity]|].
  intros [x2 e2] [y2 e2'] [He A2]. cbn [fst snd] in He, A2. subst e2'. destruct e2; [apply sim_ret; reflexivity|].
  specialize (A2 eq_refl).
  eapply sim_bind; [apply sim_challenges; [exact A2 | right; left; reflexivity | left; reflexivity]|].
  intros [x3 e3] [y3 e3'] [He A3]. cbn [fst snd] in He, A3. subst e3'. destruct e3; [apply sim_ret; reflexivity|].
  specialize (A3 eq_refl).
  assert (A4 : agr slots10 x3 y3) by (eapply agr_incl; [|exact A3]; apply subset_incl; reflexivity).
  eapply sim_bind; [eapply sim_prog; [exact A4 | exact F1]|].
  intros [x5 e5] [y5 e5'] [He A5]. cbn [fst snd] in He, A5. subst e5'. destruct e5; [apply sim_ret; reflexivity|].
  specialize (A5 eq_refl).
  eapply sim_bind; [eapply sim_prog; [exact A5 | exact F2]|].
  intros [x6 e6] [y6 e6'] [He A6]. cbn [fst snd] in He, A6. subst e6'. destruct e6; [apply sim_ret; reflexivity|].
  specialize (A6 eq_refl).
  eapply sim_bind; [eapply sim_prog; [exact A6 | exact F3]|].
  intros [x7 e7] [y7 e7'] [He A7]. cbn [fst snd] in He, A7. subst e7'. destruct e7; [apply sim_ret; reflexivity|].
  specialize (A7 eq_refl). unfold try_.
  eapply sim_bind; [apply (sim_get D3); [exact A7 | apply I3; cbn; auto]|]. intros v1 ? <-.
  eapply sim_bind; [apply sim_refl|]. intros [e|] ? <-; [apply sim_ret; reflexivity|].
  eapply sim_bind; [apply (sim_get D3); [exact A7 | apply I3; cbn; auto]|]. intros v2 ? <-.
  eapply sim_bind; [apply sim_refl|]. intros [e|] ? <-; [apply sim_ret; reflexivity|].
  eapply sim_bind; [apply (sim_get D3); [exact A7 | apply I3; cbn; auto]|]. intros v3 ? <-.
  eapply sim_bind; [apply sim_refl|]. intros [e|] ? <-; [apply sim_ret; reflexivity|].
  eapply sim_bind; [apply (sim_get D3); [exact A7 | apply I3; cbn; auto]|]. intros v4 ? <-.
  eapply sim_bind; [apply sim_refl|]. intros [e|] ? <-; [apply sim_ret; reflexivity|].
  apply sim_refl.
Qed.

(** what Define computes, given the instance values *)
Lemma define_test O c zs s : TargetInst c ++ VerifyInst c = map VBig zs -> (length zs <= 43)%nat ->
  Define O Test c s =
  tail_of O Test c (VBig ((o_keccak O (encoding (map (fun z => z mod p_mod) zs)) mod 2 ^ 256) mod r_mod))
    (map VBig zs ++ repeat (VBig 0) (43 - length zs)) s.
Proof.
  intros E L. rewrite define_copied. unfold bind at 1, lift at 1. rewrite (copied_VBig c zs E L).
  unfold rest_of. unfold bind at 1. rewrite (c22 O _ zs s).
  - reflexivity.
  - rewrite firstn_app, map_length, Nat.sub_diag, firstn_O, app_nil_r.
    rewrite (firstn_all2 (map VBig zs)) by (rewrite map_length; lia). apply bigs_VBig.
Qed.

Lemma c40_mod_p O c c' zs zs' s : TargetInst c ++ VerifyInst c = map VBig zs ->
  TargetInst c' ++ VerifyInst c' = map VBig zs' ->
  map (fun z => z mod p_mod) zs = map (fun z => z mod p_mod) zs' ->
  Proof_ c = Proof_ c' -> Aux c = Aux c' -> Define O Test c s = Define O Test c' s.
Proof.
  intros E E' EM H2 H3. assert (L : length zs = length zs').
  { apply (f_equal (@length _)) in EM. rewrite !map_length in EM. exact EM. }
  destruct (Nat.le_gt_cases (length zs) 43) as [Lz|Lz].
  - rewrite (define_test O c zs s E Lz), (define_test O c' zs' s E' ltac:(lia)), EM.
    replace (tail_of O Test c') with (tail_of O Test c) by (unfold tail_of; rewrite H2, H3; reflexivity).
    apply sim_eq. apply sim_tail. rewrite !app_length, !map_length, !repeat_length. lia.
  - rewrite !define_copied. unfold bind, lift, copied.
    assert (G : forall vs (b b' : list var) n vs', length b = length b' -> length vs = length vs' ->
      (length b < n + length vs)%nat -> copy_into b n vs = Panicked "runtime error: index out of range" /\
        copy_into b' n vs' = Panicked "runtime error: index out of range" \/ (length b < n)%nat).
    { induction vs as [|v vs IH]; intros b b' n vs' Lb Lv H.
      - right. cbn in H. lia.
      - destruct vs' as [|v' vs']; [cbn in Lv; lia|]. left. cbn [copy_into]. unfold put.
        destruct (Nat.lt_ge_cases n (length b)) as [Hn|Hn].
        + destruct (set_nth_some b n v Hn) as (l & -> & L1 & _).
          destruct (set_nth_some b' n v' ltac:(lia)) as (l' & -> & L1' & _). cbn [obind].
          destruct (IH l l' (S n) vs' ltac:(lia) ltac:(cbn in Lv; lia) ltac:(cbn in H; lia)) as [?|?]; [assumption | lia].
        + rewrite (set_nth_none b n v Hn), (set_nth_none b' n v' ltac:(lia)). split; reflexivity. }
    destruct (G (TargetInst c ++ VerifyInst c) (repeat (VBig 0) 43) (repeat (VBig 0) 43) 0%nat (TargetInst c' ++ VerifyInst c') eq_refl) as [[-> ->]|C].
    + rewrite E, E', !map_length. exact L.
    + rewrite E, repeat_length, map_length. lia.
    + reflexivity.
    + lia.
Qed.
