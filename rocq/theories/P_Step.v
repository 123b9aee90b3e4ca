(** From runs of the verifier steps under the test engine to a trace over the field Z/r and the curve. *)
From Coq Require Import ZArith Zpow_facts String Bool List Lia Arith.
From Verif Require Import Params Go Curve Api FrOps Lib Steps NumThy FField FpField P_Fr P_Str SpecCurve SpecVerify
  P_Msm P_Flow P_Misc.
Import ListNotations.
Open Scope Z_scope.

Lemma done_inj {X} (a b : X) : Done a = Done b -> a = b.
Proof. intros H. injection H. auto. Qed.

(** ** Integer semantics of expressions *)
Definition zn (l : list Z) (i : nat) : Z := nth i l 0.
Section Expr.
  Variables (T A : list Z).

  Fixpoint ze (B : list Z) (e : fexpr) : Z :=
    match e with
    | FBuf i => zn B i
    | FTr i => zn T i
    | FAux i => zn A i
    | FStr z => z
    | FInt z => z mod r_mod
    | FMul a b => (ze B a * ze B b) mod r_mod
    | FAdd a b => (ze B a + ze B b) mod r_mod
    | FNeg a => (- ze B a) mod r_mod
    | FDiv _ _ c => ze B c
    | FPow a k => ze B a ^ ze B k mod r_mod
    end.
  Fixpoint zok (B : list Z) (e : fexpr) : Prop :=
    match e with
    | FBuf _ | FTr _ | FAux _ | FStr _ | FInt _ => True
    | FMul a b | FAdd a b | FPow a b => zok B a /\ zok B b
    | FNeg a => zok B a
    | FDiv a b c => zok B a /\ zok B b /\ zok B c /\ (ze B b * ze B c) mod r_mod = ze B a /\ 0 <= ze B c < r_mod
    end.

  (** exponents are literals >= 2 *)
  Fixpoint wf (e : fexpr) : bool :=
    match e with
    | FBuf _ | FTr _ | FAux _ | FInt _ | FStr _ => true
    | FMul a b | FAdd a b => wf a && wf b
    | FNeg a => wf a
    | FDiv a b c => wf a && wf b && wf c
    | FPow a k => wf a && match k with FStr z => 2 <=? z | _ => false end
    end.

  Lemma get_map (l : list Z) i v : get (map VBig l) i = Done v -> v = VBig (zn l i).
  Proof.
    unfold get. rewrite nth_error_map. unfold zn. destruct (nth_error l i) as [z|] eqn:E; [|discriminate].
    cbn. intros H. injection H as <-. erewrite nth_error_nth by exact E. reflexivity.
  Qed.

  (** the value of an expression: [VBig] unless it is a bare Go constant *)
  Lemma run_expr_ok e : forall B s v s', wf e = true ->
    run_expr Test (map VBig T) (map VBig A) (map VBig B) e s = Done (v, s') ->
    s' = s /\ zok B e /\ to_big v = Done (ze B e) /\ (match e with FInt _ => True | _ => v = VBig (ze B e) end).
  Proof.
    induction e as [i|i|i|z|z|a IHa b IHb|a IHa b IHb|a IHa|a IHa b IHb c IHc|a IHa k IHk];
      intros B s v s' W; cbn [run_expr wf zok ze] in *.
    - unfold lift. destruct (get (map VBig B) i) as [x|] eqn:E; [|discriminate].
      apply get_map in E. subst x. intros H. injection H as <- <-. auto.
    - unfold lift. destruct (get (map VBig T) i) as [x|] eqn:E; [|discriminate].
      apply get_map in E. subst x. intros H. injection H as <- <-. auto.
    - unfold lift. destruct (get (map VBig A) i) as [x|] eqn:E; [|discriminate].
      apply get_map in E. subst x. intros H. injection H as <- <-. auto.
    - rewrite c09_roundtrip. intros H. apply done_inj in H. apply pair_equal_spec in H.
      destruct H as [<- <-]. auto.
    - intros H. apply done_inj in H. apply pair_equal_spec in H. destruct H as [<- <-]. auto.
    - apply andb_true_iff in W. destruct W as [Wa Wb]. unfold bind.
      destruct (run_expr _ _ _ _ a s) as [[x s1]|] eqn:Ea; [|discriminate].
      destruct (run_expr _ _ _ _ b s1) as [[y s2]|] eqn:Eb; [|discriminate].
      apply IHa in Ea; [|exact Wa]. apply IHb in Eb; [|exact Wb]. destruct Ea as (-> & Oa & Ba & _), Eb as (-> & Ob & Bb & _).
      rewrite (fr_mul_test x y _ _ s Ba Bb). intros H. apply done_inj in H. apply pair_equal_spec in H.
      destruct H as [<- <-]. auto.
    - apply andb_true_iff in W. destruct W as [Wa Wb]. unfold bind.
      destruct (run_expr _ _ _ _ a s) as [[x s1]|] eqn:Ea; [|discriminate].
      destruct (run_expr _ _ _ _ b s1) as [[y s2]|] eqn:Eb; [|discriminate].
      apply IHa in Ea; [|exact Wa]. apply IHb in Eb; [|exact Wb]. destruct Ea as (-> & Oa & Ba & _), Eb as (-> & Ob & Bb & _).
      rewrite (fr_add_test x y _ _ s Ba Bb). intros H. apply done_inj in H. apply pair_equal_spec in H.
      destruct H as [<- <-]. auto.
    - unfold bind. destruct (run_expr _ _ _ _ a s) as [[x s1]|] eqn:Ea; [|discriminate].
      apply IHa in Ea; [|exact W]. destruct Ea as (-> & Oa & Ba & _).
      rewrite (fr_neg_test x _ s Ba). intros H. apply done_inj in H. apply pair_equal_spec in H.
      destruct H as [<- <-]. auto.
    - apply andb_true_iff in W. destruct W as [W Wc]. apply andb_true_iff in W. destruct W as [Wa Wb]. unfold bind.
      destruct (run_expr _ _ _ _ a s) as [[x s1]|] eqn:Ea; [|discriminate].
      destruct (run_expr _ _ _ _ b s1) as [[y s2]|] eqn:Eb; [|discriminate].
      destruct (run_expr _ _ _ _ c s2) as [[z s3]|] eqn:Ec; [|discriminate].
      apply IHa in Ea; [|exact Wa]. apply IHb in Eb; [|exact Wb]. apply IHc in Ec; [|exact Wc].
      destruct Ea as (-> & Oa & Ba & _), Eb as (-> & Ob & Bb & _), Ec as (-> & Oc & Bc & _).
      rewrite (fr_div_test x y z _ _ _ s Ba Bb Bc).
      destruct ((ze B b * ze B c) mod r_mod =? ze B a) eqn:E1; [|discriminate].
      destruct (ze B c mod r_mod =? ze B c) eqn:E2; [|discriminate]. cbn [andb].
      apply Z.eqb_eq in E1, E2. apply modr_eq_range in E2.
      intros H. apply done_inj in H. apply pair_equal_spec in H. destruct H as [<- <-]. auto 10.
    - apply andb_true_iff in W. destruct W as [Wa Wk]. unfold bind.
      destruct (run_expr _ _ _ _ a s) as [[x s1]|] eqn:Ea; [|discriminate].
      apply IHa in Ea; [|exact Wa]. destruct Ea as (-> & Oa & Ba & _).
      destruct k as [| | |z| | | | | |]; try discriminate Wk. cbn [run_expr ze zok]. unfold ret.
      apply Z.leb_le in Wk. rewrite c09_roundtrip.
      rewrite (fr_pow_test x _ z s Ba Wk). intros H. apply done_inj in H. apply pair_equal_spec in H.
      destruct H as [<- <-]. auto.
  Qed.

  (** ** Field semantics *)
  Definition fw (l : list Z) (i : nat) : Fr := fc (nth i l 0).
  Definition en (env : list Fr) (i : nat) : Fr := nth i env 0%fr.
  Fixpoint fe (env : list Fr) (e : fexpr) : Fr :=
    match e with
    | FBuf i => en env i
    | FTr i => fw T i
    | FAux i => fw A i
    | FStr z | FInt z => fc z
    | FMul a b => (fe env a * fe env b)%fr
    | FAdd a b => (fe env a + fe env b)%fr
    | FNeg a => (- fe env a)%fr
    | FDiv _ _ c => fe env c
    | FPow a (FStr k) => fexp (fe env a) k
    | FPow a _ => 0%fr
    end.
  Fixpoint fok (env : list Fr) (e : fexpr) : Prop :=
    match e with
    | FBuf _ | FTr _ | FAux _ | FStr _ | FInt _ => True
    | FMul a b | FAdd a b => fok env a /\ fok env b
    | FPow a _ => fok env a
    | FNeg a => fok env a
    | FDiv a b (FAux i) => fok env a /\ fok env b /\ (fe env b * fw A i = fe env a)%fr /\ 0 <= nth i A 0 < r_mod
    | FDiv _ _ _ => True
    end.

  (** slots 10..16 hold points and the scalar of the moment *)
  Definition scratch (j : nat) : bool := (10 <=? j)%nat && (j <=? 16)%nat.
  Definition fine (e : fexpr) : bool := wf e && forallb (fun j => negb (scratch j)) (reads e).
  Definition agree (B : list Z) (env : list Fr) : Prop :=
    forall j, scratch j = false -> fc (nth j B 0) = en env j.

  Lemma fexp_phi a k : 0 <= k -> fc (a ^ k) = fexp (fc a) k.
  Proof.
    intros Hk. unfold fexp. apply phi_eq_iff. rewrite val_phi. apply Zpow_facts.Zpower_mod. reflexivity.
  Qed.

  Lemma fe_ok e : forall B env, fine e = true -> agree B env -> zok B e ->
    fc (ze B e) = fe env e /\ fok env e.
  Proof.
    unfold fine.
    induction e as [i|i|i|z|z|a IHa b IHb|a IHa b IHb|a IHa|a IHa b IHb c IHc|a IHa k IHk];
      intros B env W Ag Ok; cbn [ze zok fe fok wf reads] in *; try (split; [reflexivity | exact I]).
    - split; [|exact I]. cbn [forallb andb] in W. rewrite andb_true_r in W. apply Ag. apply negb_true_iff, W.
    - split; [apply phi_mod | exact I].
    - rewrite forallb_app in W. destruct Ok as [Oa Ob].
      destruct (IHa B env) as [Ea Fa]; [|assumption..|].
      + destruct (wf a), (wf b), (forallb (fun j => negb (scratch j)) (reads a)); cbn in *; try discriminate; reflexivity.
      + destruct (IHb B env) as [Eb Fb]; [|assumption..|].
        * destruct (wf a), (wf b), (forallb (fun j => negb (scratch j)) (reads a)); cbn in *; try discriminate; assumption.
        * rewrite phi_mod, phi_mul, Ea, Eb. auto.
    - rewrite forallb_app in W. destruct Ok as [Oa Ob].
      destruct (IHa B env) as [Ea Fa]; [|assumption..|].
      + destruct (wf a), (wf b), (forallb (fun j => negb (scratch j)) (reads a)); cbn in *; try discriminate; reflexivity.
      + destruct (IHb B env) as [Eb Fb]; [|assumption..|].
        * destruct (wf a), (wf b), (forallb (fun j => negb (scratch j)) (reads a)); cbn in *; try discriminate; assumption.
        * rewrite phi_mod, phi_add, Ea, Eb. auto.
    - destruct (IHa B env W Ag Ok) as [Ea Fa]. rewrite phi_mod, phi_opp, Ea. auto.
    - rewrite !forallb_app in W. destruct Ok as (Oa & Ob & Oc & E & Rc).
      destruct (IHa B env) as [Ea Fa]; [|assumption..|].
      + destruct (wf a), (wf b), (wf c), (forallb (fun j => negb (scratch j)) (reads a)); cbn in *; try discriminate; reflexivity.
      + destruct (IHb B env) as [Eb Fb]; [|assumption..|].
        * destruct (wf a), (wf b), (wf c), (forallb (fun j => negb (scratch j)) (reads a)), (forallb (fun j => negb (scratch j)) (reads b)); cbn in *; try discriminate; reflexivity.
        * destruct (IHc B env) as [Ec Fc]; [|assumption..|].
          { destruct (wf a), (wf b), (wf c), (forallb (fun j => negb (scratch j)) (reads a)), (forallb (fun j => negb (scratch j)) (reads b)); cbn in *; try discriminate; assumption. }
          split; [exact Ec|]. destruct c; try exact I. cbn [ze fe] in *. unfold zn in *.
          repeat split; try assumption; try lia. unfold fw. rewrite <- Eb, <- Ea, <- phi_mul, <- E, phi_mod. reflexivity.
    - rewrite forallb_app in W. destruct k as [| | |z| | | | | |]; try (rewrite andb_false_r in W; discriminate W).
      cbn [reads forallb ze] in *. rewrite andb_true_r in W.
      destruct (IHa B env) as [Ea Fa]; [|assumption|tauto|].
      + destruct (wf a); cbn in *; [|discriminate]. destruct (2 <=? z); [exact W | discriminate W].
      + destruct (2 <=? z) eqn:Z2; [|rewrite andb_false_r in W; discriminate W]. apply Z.leb_le in Z2.
        rewrite phi_mod, fexp_phi by lia. rewrite Ea. auto.
  Qed.
End Expr.

(** ** Updating lists *)
Fixpoint lset {X} (l : list X) (i : nat) (a : X) : list X :=
  match l, i with
  | [], _ => []
  | _ :: t, 0%nat => a :: t
  | h :: t, S j => h :: lset t j a
  end.
Lemma lset_length {X} (l : list X) : forall i a, length (lset l i a) = length l.
Proof. induction l as [|h t IH]; intros [|i] a; cbn; auto. Qed.
Lemma lset_nth {X} (l : list X) d : forall i a j, (i < length l)%nat ->
  nth j (lset l i a) d = if Nat.eqb j i then a else nth j l d.
Proof.
  induction l as [|h t IH]; intros [|i] a [|j] H; cbn [lset nth length Nat.eqb] in *; try lia; try reflexivity.
  apply IH. lia.
Qed.
Lemma put_map (B : list Z) : forall i z b, put (map VBig B) i (VBig z) = Done b ->
  (i < length B)%nat /\ b = map VBig (lset B i z).
Proof.
  unfold put. induction B as [|h t IH]; intros [|i] z b; cbn [map set_nth option_map]; try discriminate.
  - intros H. injection H as <-. cbn. split; [lia | reflexivity].
  - specialize (IH i z). destruct (set_nth (map VBig t) i (VBig z)) as [l|]; [|discriminate].
    cbn [option_map]. intros H. injection H as <-. destruct (IH l eq_refl) as [L ->]. cbn. split; [lia | reflexivity].
Qed.

(** ** Point operations seen from an accepted run *)
Definition smul (O : oracles) (x y k : Z) (R : Z * Z) : Prop :=
  exists P, encodes (Z.abs x) (Z.abs y) P /\ R = pr (pmul k P) /\
    emul_scalar_mul O (x mod p_mod) (y mod p_mod) ((k mod p_mod) mod r_mod) = Some R.
Definition sadd (a b R : Z * Z) : Prop :=
  exists P Q, encodes (Z.abs (fst a)) (Z.abs (snd a)) P /\ encodes (Z.abs (fst b)) (Z.abs (snd b)) Q /\
    R = pr (padd P Q) /\
    add_unified (fst a mod p_mod, snd a mod p_mod) (fst b mod p_mod, snd b mod p_mod) = R.

Lemma msm_inv O x y k s vx vy e s' :
  CalcVerifyBN256Msm O Test (VBig x) (VBig y) (VBig k) s = Done (((vx, vy), e), s') ->
  s' = s /\ e = None /\ exists R, vx = VBig (fst R) /\ vy = VBig (snd R) /\ smul O x y k R.
Proof.
  intros H. destruct (encodes_dec (Z.abs x) (Z.abs y) ltac:(lia) ltac:(lia)) as [[P HP]|N].
  2:{ destruct (msm_run_fail O x y k s N) as [w E]. congruence. }
  rewrite (msm_run O x y k P s HP) in H.
  destruct (emul_scalar_mul O (x mod p_mod) (y mod p_mod) ((k mod p_mod) mod r_mod)) as [res|] eqn:E; [|discriminate].
  destruct (pair_eqb res (pr (pmul k P))) eqn:E2; [|discriminate]. apply pair_eqb_eq in E2. subst res.
  injection H as <- <- <- <-. split; [reflexivity|]. split; [reflexivity|].
  exists (pr (pmul k P)). split; [reflexivity|]. split; [reflexivity|]. exists P. auto.
Qed.

Lemma add_inv x1 y1 x2 y2 s vx vy e s' :
  CalcVerifyBN256Add Test (VBig x1) (VBig y1) (VBig x2) (VBig y2) s = Done (((vx, vy), e), s') ->
  s' = s /\ e = None /\ exists R, vx = VBig (fst R) /\ vy = VBig (snd R) /\ sadd (x1, y1) (x2, y2) R.
Proof.
  intros H. destruct (encodes_dec (Z.abs x1) (Z.abs y1) ltac:(lia) ltac:(lia)) as [[P HP]|N].
  2:{ destruct (add_run_fail x1 y1 x2 y2 s) as [w E]; [tauto | congruence]. }
  destruct (encodes_dec (Z.abs x2) (Z.abs y2) ltac:(lia) ltac:(lia)) as [[Q HQ]|N].
  2:{ destruct (add_run_fail x1 y1 x2 y2 s) as [w E]; [tauto | congruence]. }
  unfold CalcVerifyBN256Add, bind at 1 in H. rewrite (add_hint_test x1 y1 x2 y2 P Q s HP HQ) in H.
  destruct (pr_range (padd P Q)) as [B1 B2]. unfold bind at 1 in H. cbn [get nth_error lift] in H.
  unfold bind at 1 in H. rewrite mod_test_ok in H by assumption.
  unfold bind at 1 in H. cbn [get nth_error lift] in H. unfold bind at 1 in H. rewrite mod_test_ok in H by assumption.
  unfold VerifyBN254Add, with_fp in H. cbn [fst snd fp_set_interface] in H. cbv zeta in H.
  rewrite (smod_p (fst (pr (padd P Q)))), (smod_p (snd (pr (padd P Q)))) in H by assumption.
  unfold emul_assert, bind in H.
  destruct (pair_eqb (add_unified (x1 mod p_mod, y1 mod p_mod) (x2 mod p_mod, y2 mod p_mod))
    (fst (pr (padd P Q)), snd (pr (padd P Q)))) eqn:E; [|discriminate].
  apply pair_eqb_eq in E. unfold ret in H. injection H as <- <- <- <-.
  split; [reflexivity|]. split; [reflexivity|]. exists (pr (padd P Q)). split; [reflexivity|]. split; [reflexivity|].
  exists P, Q. cbn [fst snd]. rewrite <- surjective_pairing in E. auto.
Qed.

(** ** Statements *)
Section Stmts.
  Variables (O : oracles) (T A : list Z).
  Notation run_s := (run_stmt O Test (map VBig T) (map VBig A)).

  Definition not_int (e : fexpr) : bool := match e with FInt _ => false | _ => true end.

  Lemma set_inv i e B s b e' s' : wf e = true -> not_int e = true ->
    run_s (map VBig B) (SSet i e) s = Done ((b, e'), s') ->
    s' = s /\ e' = None /\ zok T A B e /\ (i < length B)%nat /\ b = map VBig (lset B i (ze T A B e)).
  Proof.
    intros W N. cbn [run_stmt]. unfold bind, lift.
    destruct (run_expr Test (map VBig T) (map VBig A) (map VBig B) e s) as [[v s1]|] eqn:E; [|discriminate].
    apply run_expr_ok in E; [|exact W]. destruct E as (-> & Ok & _ & V).
    assert (v = VBig (ze T A B e)) as -> by (destruct e; try exact V; discriminate N).
    destruct (put (map VBig B) i (VBig (ze T A B e))) as [b1|] eqn:E; [|discriminate].
    apply put_map in E. destruct E as [L ->]. intros H. apply done_inj in H. unfold ret in H.
    apply pair_equal_spec in H. destruct H as [H <-]. apply pair_equal_spec in H. destruct H as [<- <-]. auto.
  Qed.

  Lemma set2_inv i j e1 e2 B s b e' s' : wf e1 = true -> not_int e1 = true -> wf e2 = true -> not_int e2 = true ->
    run_s (map VBig B) (SSet2 i j e1 e2) s = Done ((b, e'), s') ->
    s' = s /\ e' = None /\ (i < length B)%nat /\ (j < length B)%nat /\
      b = map VBig (lset (lset B i (ze T A B e1)) j (ze T A B e2)).
  Proof.
    intros W N W2 N2. cbn [run_stmt]. unfold bind, lift.
    destruct (run_expr Test (map VBig T) (map VBig A) (map VBig B) e1 s) as [[v s1]|] eqn:E; [|discriminate].
    apply run_expr_ok in E; [|exact W]. destruct E as (-> & Ok & _ & V).
    assert (v = VBig (ze T A B e1)) as -> by (destruct e1; try exact V; discriminate N).
    destruct (run_expr Test (map VBig T) (map VBig A) (map VBig B) e2 s) as [[v2 s2]|] eqn:E; [|discriminate].
    apply run_expr_ok in E; [|exact W2]. destruct E as (-> & Ok2 & _ & V2).
    assert (v2 = VBig (ze T A B e2)) as -> by (destruct e2; try exact V2; discriminate N2).
    destruct (put (map VBig B) i (VBig (ze T A B e1))) as [b1|] eqn:E; [|discriminate].
    apply put_map in E. destruct E as [L ->].
    destruct (put (map VBig (lset B i (ze T A B e1))) j (VBig (ze T A B e2))) as [b1|] eqn:E; [|discriminate].
    apply put_map in E. destruct E as [L2 ->]. rewrite lset_length in L2. intros H. apply done_inj in H.
    apply pair_equal_spec in H. destruct H as [H <-]. apply pair_equal_spec in H. destruct H as [<- <-]. auto.
  Qed.

  Lemma mul_inv off B s b e' s' : ecc_mul O Test (map VBig B) off s = Done ((b, e'), s') ->
    s' = s /\ e' = None /\ (off + 1 < length B)%nat /\ exists R,
      smul O (nth off B 0) (nth (off + 1) B 0) (nth (off + 2) B 0) R /\
      b = map VBig (lset (lset B off (fst R)) (off + 1) (snd R)).
  Proof.
    unfold ecc_mul, bind, lift. destruct (get (map VBig B) off) as [x|] eqn:Ex; [|discriminate].
    destruct (get (map VBig B) (off + 1)) as [y|] eqn:Ey; [|discriminate].
    destruct (get (map VBig B) (off + 2)) as [k|] eqn:Ek; [|discriminate].
    apply get_map in Ex, Ey, Ek. subst x y k.
    destruct (CalcVerifyBN256Msm O Test _ _ _ s) as [[[[rx ry] e1] s1]|] eqn:E; [|discriminate].
    apply msm_inv in E. destruct E as (-> & -> & R & -> & -> & S).
    destruct (put (map VBig B) off (VBig (fst R))) as [b1|] eqn:E; [|discriminate].
    apply put_map in E. destruct E as [L ->].
    destruct (put (map VBig (lset B off (fst R))) (off + 1) (VBig (snd R))) as [b1|] eqn:E; [|discriminate].
    apply put_map in E. destruct E as [L2 ->]. rewrite lset_length in L2. intros H. apply done_inj in H.
    apply pair_equal_spec in H. destruct H as [H <-]. apply pair_equal_spec in H. destruct H as [<- <-].
    repeat split; auto. exists R. auto.
  Qed.

  Lemma mul_add_inv off B s b e' s' : ecc_mul_add O Test (map VBig B) off s = Done ((b, e'), s') ->
    s' = s /\ e' = None /\ (off + 3 < length B)%nat /\ exists R Q,
      smul O (nth (off + 2) B 0) (nth (off + 3) B 0) (nth (off + 4) B 0) R /\
      sadd (nth off B 0, nth (off + 1) B 0) R Q /\
      b = map VBig (lset (lset (lset (lset B (off + 2) (fst R)) (off + 3) (snd R)) off (fst Q)) (off + 1) (snd Q)).
  Proof.
    unfold ecc_mul_add, bind at 1. destruct (ecc_mul O Test (map VBig B) (off + 2) s) as [[[b1 e1] s1]|] eqn:E; [|discriminate].
    apply mul_inv in E. destruct E as (-> & -> & L & R & S & ->).
    replace (off + 2 + 1)%nat with (off + 3)%nat in * by lia. replace (off + 2 + 2)%nat with (off + 4)%nat in * by lia.
    set (B1 := lset (lset B (off + 2) (fst R)) (off + 3) (snd R)) in *.
    assert (L1 : length B1 = length B) by (unfold B1; rewrite !lset_length; reflexivity).
    unfold bind, lift. destruct (get (map VBig B1) off) as [a|] eqn:Ea; [|discriminate].
    destruct (get (map VBig B1) (off + 1)) as [b2|] eqn:Eb; [|discriminate].
    destruct (get (map VBig B1) (off + 2)) as [c|] eqn:Ec; [|discriminate].
    destruct (get (map VBig B1) (off + 3)) as [d|] eqn:Ed; [|discriminate].
    apply get_map in Ea, Eb, Ec, Ed. subst a b2 c d. unfold zn.
    assert (N : forall j, nth j B1 0 = if Nat.eqb j (off + 3) then snd R else if Nat.eqb j (off + 2) then fst R else nth j B 0).
    { intros j. unfold B1. rewrite lset_nth by (rewrite lset_length; lia). rewrite lset_nth by lia. reflexivity. }
    rewrite !N. replace (off =? off + 3)%nat with false by (symmetry; apply Nat.eqb_neq; lia).
    replace (off =? off + 2)%nat with false by (symmetry; apply Nat.eqb_neq; lia).
    replace (off + 1 =? off + 3)%nat with false by (symmetry; apply Nat.eqb_neq; lia).
    replace (off + 1 =? off + 2)%nat with false by (symmetry; apply Nat.eqb_neq; lia).
    replace (off + 2 =? off + 3)%nat with false by (symmetry; apply Nat.eqb_neq; lia). rewrite !Nat.eqb_refl.
    destruct (CalcVerifyBN256Add Test _ _ _ _ s) as [[[[rx ry] e1] s1]|] eqn:E; [|discriminate].
    apply add_inv in E. destruct E as (-> & -> & Q & -> & -> & SA).
    destruct (put (map VBig B1) off (VBig (fst Q))) as [b1|] eqn:E; [|discriminate].
    apply put_map in E. destruct E as [_ ->].
    destruct (put (map VBig (lset B1 off (fst Q))) (off + 1) (VBig (snd Q))) as [b1|] eqn:E; [|discriminate].
    apply put_map in E. destruct E as [_ ->]. intros H. apply done_inj in H.
    apply pair_equal_spec in H. destruct H as [H <-]. apply pair_equal_spec in H. destruct H as [<- <-].
    repeat split; auto; try lia. exists R, Q. rewrite <- surjective_pairing in SA. auto.
  Qed.

  Lemma prog_cons st p b s b' s' : run_prog O Test (map VBig T) (map VBig A) b (st :: p) s = Done ((b', None), s') ->
    exists b1 s1, run_s b st s = Done ((b1, None), s1) /\
      run_prog O Test (map VBig T) (map VBig A) b1 p s1 = Done ((b', None), s').
  Proof.
    cbn [run_prog]. unfold bind at 1. destruct (run_s b st s) as [[[b1 [e1|]] s1]|]; [discriminate | | discriminate].
    intros H. exists b1, s1. auto.
  Qed.

  (** ** Groups of statements *)
  Inductive mop :=
  | MSet (i : nat) (e : fexpr)          (* a scalar register *)
  | MMul (i : nat) (a b e : fexpr)      (* slots i, i+1 := e * (a,b) *)
  | MAdd (a b e : fexpr).               (* slots 12, 13 += e * (a,b) *)
  Definition ungroup (m : mop) : list stmt :=
    match m with
    | MSet i e => [SSet i e]
    | MMul i a b e => [SSet2 i (i + 1) a b; SSet (i + 2) e; SEccMul i]
    | MAdd a b e => [SSet2 14 15 a b; SSet 16 e; SEccMulAdd 12]
    end.
  Fixpoint group (p : list stmt) : list mop :=
    match p with
    | SSet2 i j a b :: SSet _ e :: SEccMul _ :: t => MMul i a b e :: group t
    | SSet2 i j a b :: SSet _ e :: SEccMulAdd _ :: t => MAdd a b e :: group t
    | SSet i e :: t => MSet i e :: group t
    | _ => []
    end.

  (** raw operands of point operations *)
  Definition raw (b01 : Z * Z) (e : fexpr) : Z :=
    match e with
    | FTr i => nth i T 0 | FStr z => z | FBuf 0 => fst b01 | FBuf 1 => snd b01 | _ => 0
    end.
  Definition rawok (e : fexpr) : bool :=
    match e with FTr _ | FStr _ | FBuf 0 | FBuf 1 => true | _ => false end.
  (** results of field operations are canonical *)
  Definition comp (e : fexpr) : bool :=
    match e with FMul _ _ | FAdd _ _ | FNeg _ | FPow _ _ | FDiv _ _ _ => true | _ => false end.
  Definition scal (D : list nat) (e : fexpr) : bool :=
    comp e || match e with
              | FBuf j => existsb (Nat.eqb j) D
              | FStr z => (0 <=? z) && (z <? r_mod)
              | _ => false end.
  Definition chk (D : list nat) (m : mop) : option (list nat) :=
    match m with
    | MSet i e => if fine e && comp e && negb (scratch i) && (2 <=? i)%nat then Some (i :: D) else None
    | MMul i a b e => if rawok a && rawok b && fine e && scal D e && (Nat.eqb i 10 || Nat.eqb i 12) then Some D else None
    | MAdd a b e => if rawok a && rawok b && fine e && scal D e then Some D else None
    end.
  Fixpoint chks (D : list nat) (ms : list mop) : option (list nat) :=
    match ms with [] => Some D | m :: t => match chk D m with Some D' => chks D' t | None => None end end.

  Definition canonical (D : list nat) (B : list Z) : Prop :=
    forall j, In j D -> scratch j = false /\ 0 <= nth j B 0 < r_mod.

  (** ** The trace of an accepted run *)
  Fixpoint trace (b01 : Z * Z) (ms : list mop) (env : list Fr) (q10 q12 : Z * Z)
      (K : list Fr -> Z * Z -> Z * Z -> Prop) : Prop :=
    match ms with
    | [] => K env q10 q12
    | MSet i e :: t => fok T A env e /\ exists v, v = fe T A env e /\ trace b01 t (lset env i v) q10 q12 K
    | MMul i a b e :: t => exists q R, smul O (raw b01 a) (raw b01 b) (val (fe T A env e)) R /\
        trace b01 t env (if Nat.eqb i 10 then R else q10) (if Nat.eqb i 12 then R else q) K
    | MAdd a b e :: t => exists R Q, smul O (raw b01 a) (raw b01 b) (val (fe T A env e)) R /\ sadd q12 R Q /\
        trace b01 t env q10 Q K
    end.

  Definition b01_of (B : list Z) : Z * Z := (nth 0 B 0, nth 1 B 0).
  Definition q_of (i : nat) (B : list Z) : Z * Z := (nth i B 0, nth (i + 1) B 0).

  Lemma raw_ok B e : rawok e = true -> ze T A B e = raw (b01_of B) e /\ wf e = true /\ not_int e = true.
  Proof. destruct e as [[|[|i]]| | | | | | | | |]; cbn; try discriminate; auto. Qed.

  Lemma comp_canon B e : comp e = true -> zok T A B e -> 0 <= ze T A B e < r_mod.
  Proof. destruct e; cbn [comp zok ze]; try discriminate; intros _ H; try apply modr_range. tauto. Qed.

  Lemma val_canon z : 0 <= z < r_mod -> val (fc z) = z.
  Proof. intros H. rewrite val_phi. apply modr_small, H. Qed.

  Lemma scal_ok D B env e : scal D e = true -> fine e = true -> canonical D B -> agree B env -> zok T A B e ->
    ze T A B e = val (fe T A env e).
  Proof.
    intros Hs Hf C Ag Ok. destruct (fe_ok T A e B env Hf Ag Ok) as [E _]. rewrite <- E. symmetry. apply val_canon.
    unfold scal in Hs. apply orb_true_iff in Hs. destruct Hs as [Hs|Hs]; [apply comp_canon; assumption|].
    destruct e; try discriminate Hs; cbn [ze] in *.
    - apply existsb_exists in Hs. destruct Hs as (j & Hj & En). apply Nat.eqb_eq in En. subst j. apply (C i Hj).
    - apply andb_true_iff in Hs. rewrite Z.leb_le, Z.ltb_lt in Hs. exact Hs.
  Qed.

  Lemma comp_not_int e : comp e = true -> not_int e = true. Proof. destruct e; auto. Qed.
  Lemma scal_not_int D e : scal D e = true -> not_int e = true. Proof. destruct e; auto. Qed.
  Lemma fine_wf e : fine e = true -> wf e = true. Proof. unfold fine. rewrite andb_true_iff. tauto. Qed.

  (** reading an expression is not disturbed by writes to scratch slots *)
  Lemma ze_frame B B' e : (forall j, scratch j = false -> nth j B' 0 = nth j B 0) -> fine e = true ->
    ze T A B' e = ze T A B e /\ (zok T A B' e -> zok T A B e).
  Proof.
    intros F. unfold fine. rewrite andb_true_iff. intros [_ Hr].
    induction e as [i|i|i|z|z|a IHa b IHb|a IHa b IHb|a IHa|a IHa b IHb c IHc|a IHa k IHk]; cbn [ze zok reads] in *;
      rewrite ?forallb_app, ?andb_true_iff in Hr; try (split; [reflexivity | auto]).
    - cbn in Hr. rewrite andb_true_r in Hr. apply negb_true_iff in Hr. unfold zn. rewrite F by exact Hr. auto.
    - destruct Hr as [Ha Hb]. destruct (IHa Ha) as [-> ?], (IHb Hb) as [-> ?]. tauto.
    - destruct Hr as [Ha Hb]. destruct (IHa Ha) as [-> ?], (IHb Hb) as [-> ?]. tauto.
    - destruct (IHa Hr) as [-> ?]. tauto.
    - destruct Hr as [Ha [Hb Hc]]. destruct (IHa Ha) as [-> ?], (IHb Hb) as [-> ?], (IHc Hc) as [-> ?]. tauto.
    - destruct Hr as [Ha Hb]. destruct (IHa Ha) as [-> ?], (IHk Hb) as [-> ?]. tauto.
  Qed.

  Lemma en_lset env i v j : (i < length env)%nat -> en (lset env i v) j = if Nat.eqb j i then v else en env j.
  Proof. intros H. unfold en. apply lset_nth, H. Qed.

  Definition post (B' : list Z) (env : list Fr) (q10 q12 : Z * Z) : Prop :=
    agree B' env /\ length env = 43%nat /\ q10 = q_of 10 B' /\ q12 = q_of 12 B'.

  Lemma agree_frame B B' env : (forall j, scratch j = false -> nth j B' 0 = nth j B 0) -> agree B env -> agree B' env.
  Proof. intros F Ag j Hj. rewrite F by exact Hj. apply Ag, Hj. Qed.
  Lemma canonical_frame D B B' : (forall j, scratch j = false -> nth j B' 0 = nth j B 0) -> canonical D B -> canonical D B'.
  Proof. intros F C j Hj. destruct (C j Hj) as [Sj R]. rewrite F by exact Sj. auto. Qed.

  (** the writes of a point operation *)
  Lemma point_operands B i a b e s b3 s3 : length B = 43%nat -> (i = 10 \/ i = 12 \/ i = 14)%nat ->
    rawok a = true -> rawok b = true -> fine e = true -> not_int e = true ->
    forall p, run_prog O Test (map VBig T) (map VBig A) (map VBig B) (SSet2 i (i + 1) a b :: SSet (i + 2) e :: p) s = Done ((b3, None), s3) ->
    exists B2, run_prog O Test (map VBig T) (map VBig A) (map VBig B2) p s = Done ((b3, None), s3) /\
      length B2 = 43%nat /\ zok T A B e /\
      forall j, nth j B2 0 = if Nat.eqb j (i + 2) then ze T A B e else if Nat.eqb j (i + 1) then raw (b01_of B) b
                             else if Nat.eqb j i then raw (b01_of B) a else nth j B 0.
  Proof.
    intros L Hi Ra Rb Fe Ne p H.
    destruct (raw_ok B a Ra) as (Ea & Wa & Na). destruct (raw_ok B b Rb) as (Eb & Wb & Nb).
    apply prog_cons in H. destruct H as (b1 & s1 & H1 & H). apply set2_inv in H1; try assumption.
    destruct H1 as (-> & _ & L1 & L2 & ->). rewrite Ea, Eb in H.
    set (B1 := lset (lset B i (raw (b01_of B) a)) (i + 1) (raw (b01_of B) b)) in *.
    assert (N1 : forall j, nth j B1 0 = if Nat.eqb j (i + 1) then raw (b01_of B) b
                             else if Nat.eqb j i then raw (b01_of B) a else nth j B 0).
    { intros j. unfold B1. rewrite lset_nth by (rewrite lset_length; lia). rewrite lset_nth by lia. reflexivity. }
    assert (F1 : forall j, scratch j = false -> nth j B1 0 = nth j B 0).
    { intros j Hj. rewrite N1. unfold scratch in Hj. apply andb_false_iff in Hj. rewrite !Nat.leb_gt in Hj.
      destruct (Nat.eqb_spec j (i + 1)); [lia|]. destruct (Nat.eqb_spec j i); [lia|]. reflexivity. }
    apply prog_cons in H. destruct H as (b2 & s2 & H2 & H).
    apply set_inv in H2; [|apply fine_wf, Fe | exact Ne]. destruct H2 as (-> & _ & Ok & L3 & ->).
    destruct (ze_frame B B1 e F1 Fe) as [Ez Oz]. rewrite Ez in H.
    exists (lset B1 (i + 2) (ze T A B e)). split; [exact H|].
    split; [rewrite lset_length; unfold B1; rewrite !lset_length; exact L|]. split; [apply Oz, Ok|].
    intros j. rewrite lset_nth by exact L3. rewrite N1. reflexivity.
  Qed.

  Lemma run_trace ms : forall B env D D' s b' s', length B = 43%nat -> length env = 43%nat ->
    chks D ms = Some D' -> canonical D B -> agree B env ->
    run_prog O Test (map VBig T) (map VBig A) (map VBig B) (flat_map ungroup ms) s = Done ((b', None), s') ->
    s' = s /\ exists B', b' = map VBig B' /\ length B' = 43%nat /\ canonical D' B' /\ b01_of B' = b01_of B /\
      trace (b01_of B) ms env (q_of 10 B) (q_of 12 B) (post B').
  Proof.
    induction ms as [|m t IH]; intros B env D D' s b' s' L Le Ch C Ag H.
    - cbn in Ch, H. injection Ch as <-. unfold ret in H. apply done_inj in H.
      apply pair_equal_spec in H. destruct H as [H <-]. apply pair_equal_spec in H. destruct H as [<- _].
      split; [reflexivity|]. exists B. unfold post. cbn [trace]. auto 10.
    - cbn [chks] in Ch. destruct (chk D m) as [D1|] eqn:E1; [|discriminate]. cbn [flat_map] in H.
      destruct m as [i e|i a b e|a b e]; cbn [chk ungroup app trace] in *.
      + destruct (fine e && comp e && negb (scratch i) && (2 <=? i)%nat) eqn:G; [|discriminate]. injection E1 as <-.
        rewrite !andb_true_iff in G. destruct G as [[[Fe Ce] Si] I2]. apply negb_true_iff in Si. apply Nat.leb_le in I2.
        apply prog_cons in H. destruct H as (b1 & s1 & H1 & H).
        apply set_inv in H1; [|apply fine_wf, Fe | apply comp_not_int, Ce]. destruct H1 as (-> & _ & Ok & Li & ->).
        destruct (fe_ok T A e B env Fe Ag Ok) as [Ee Fk].
        pose proof (comp_canon B e Ce Ok) as Rc.
        assert (N : forall j, nth j (lset B i (ze T A B e)) 0 = if Nat.eqb j i then ze T A B e else nth j B 0)
          by (intros j; apply lset_nth, Li).
        destruct (IH (lset B i (ze T A B e)) (lset env i (fe T A env e)) (i :: D) D' s b' s') as (-> & B' & R1 & R2 & R3 & R4 & R5);
          [rewrite lset_length; exact L | rewrite lset_length; exact Le | exact Ch | | | exact H |].
        * intros j [<-|Hj].
          -- split; [exact Si|]. rewrite N, Nat.eqb_refl. exact Rc.
          -- destruct (C j Hj) as [Sj Rj]. split; [exact Sj|]. rewrite N. destruct (Nat.eqb j i); assumption.
        * intros j Hj. rewrite N, en_lset by lia. destruct (Nat.eqb j i); [exact Ee | apply Ag, Hj].
        * split; [reflexivity|]. exists B'. split; [exact R1|]. split; [exact R2|]. split; [exact R3|].
          unfold b01_of, q_of in *. rewrite !N in *.
          assert (Q : forall j, scratch j = true -> Nat.eqb j i = false) by (intros j Hj; apply Nat.eqb_neq; congruence).
          cbn [Nat.add] in *.
          rewrite !(Q 10%nat), !(Q 11%nat), !(Q 12%nat), !(Q 13%nat) in R5 by reflexivity.
          replace (Nat.eqb 0 i) with false in * by (symmetry; apply Nat.eqb_neq; lia).
          replace (Nat.eqb 1 i) with false in * by (symmetry; apply Nat.eqb_neq; lia).
          split; [exact R4|]. split; [exact Fk|]. eexists. split; [reflexivity|]. exact R5.
      + destruct (rawok a && rawok b && fine e && scal D e && (Nat.eqb i 10 || Nat.eqb i 12)) eqn:G; [|discriminate].
        injection E1 as <-. rewrite !andb_true_iff, orb_true_iff, !Nat.eqb_eq in G. destruct G as [[[[Ra Rb] Fe] Se] Hi].
        apply point_operands in H; try assumption; [|lia | eapply scal_not_int, Se].
        destruct H as (B2 & H & L2 & Ok & N2).
        apply prog_cons in H. destruct H as (b1 & s1 & H1 & H). cbn [run_stmt] in H1.
        apply mul_inv in H1. destruct H1 as (-> & _ & _ & R & S & ->).
        set (B3 := lset (lset B2 i (fst R)) (i + 1) (snd R)) in *.
        assert (N3 : forall j, nth j B3 0 = if Nat.eqb j (i + 1) then snd R else if Nat.eqb j i then fst R else nth j B2 0).
        { intros j. unfold B3. rewrite lset_nth by (rewrite lset_length; lia). rewrite lset_nth by lia. reflexivity. }
        assert (F3 : forall j, scratch j = false -> nth j B3 0 = nth j B 0).
        { intros j Hj. rewrite N3, N2. unfold scratch in Hj. apply andb_false_iff in Hj. rewrite !Nat.leb_gt in Hj.
          repeat match goal with |- context [Nat.eqb ?x ?y] => destruct (Nat.eqb_spec x y); [lia|] end. reflexivity. }
        rewrite !N2 in S.
        replace (Nat.eqb i (i + 2)) with false in S by (symmetry; apply Nat.eqb_neq; lia).
        replace (Nat.eqb i (i + 1)) with false in S by (symmetry; apply Nat.eqb_neq; lia).
        replace (Nat.eqb (i + 1) (i + 2)) with false in S by (symmetry; apply Nat.eqb_neq; lia).
        rewrite !Nat.eqb_refl in S. rewrite (scal_ok D B env e Se Fe C Ag Ok) in S.
        destruct (IH B3 env D D' s b' s') as (-> & B' & R1 & R2 & R3 & R4 & R5);
          [unfold B3; rewrite !lset_length; exact L2 | exact Le | exact Ch | eapply canonical_frame; eassumption
          | eapply agree_frame; eassumption | exact H |].
        split; [reflexivity|]. exists B'. split; [exact R1|]. split; [exact R2|]. split; [exact R3|].
        assert (E01 : b01_of B3 = b01_of B) by (unfold b01_of; rewrite !F3 by reflexivity; reflexivity).
        rewrite E01 in *. split; [exact R4|].
        exists (q_of 12 B3), R. split; [exact S|].
        replace (if Nat.eqb i 10 then R else q_of 10 B) with (q_of 10 B3).
        2:{ unfold q_of. rewrite !N3, !N2. cbn [Nat.add]. destruct Hi as [->| ->]; cbn [Nat.eqb Nat.add]; [|reflexivity].
            symmetry. apply surjective_pairing. }
        replace (if Nat.eqb i 12 then R else q_of 12 B3) with (q_of 12 B3); [exact R5|].
        unfold q_of. rewrite !N3. destruct Hi as [->| ->]; cbn [Nat.eqb Nat.add]; [reflexivity|]. symmetry. apply surjective_pairing.
      + destruct (rawok a && rawok b && fine e && scal D e) eqn:G; [|discriminate].
        injection E1 as <-. rewrite !andb_true_iff in G. destruct G as [[[Ra Rb] Fe] Se].
        change 15%nat with (14 + 1)%nat in H. change 16%nat with (14 + 2)%nat in H.
        apply point_operands in H; try assumption; [|lia | eapply scal_not_int, Se].
        destruct H as (B2 & H & L2 & Ok & N2).
        apply prog_cons in H. destruct H as (b1 & s1 & H1 & H). cbn [run_stmt] in H1.
        apply mul_add_inv in H1. destruct H1 as (-> & _ & _ & R & Q & S & SA & ->). cbn [Nat.add] in *.
        set (B3 := lset (lset (lset (lset B2 14 (fst R)) 15 (snd R)) 12 (fst Q)) 13 (snd Q)) in *.
        assert (N3 : forall j, nth j B3 0 = if Nat.eqb j 13 then snd Q else if Nat.eqb j 12 then fst Q
                       else if Nat.eqb j 15 then snd R else if Nat.eqb j 14 then fst R else nth j B2 0).
        { intros j. unfold B3. rewrite !lset_nth by (rewrite ?lset_length; lia). reflexivity. }
        assert (F3 : forall j, scratch j = false -> nth j B3 0 = nth j B 0).
        { intros j Hj. rewrite N3, N2. unfold scratch in Hj. apply andb_false_iff in Hj. rewrite !Nat.leb_gt in Hj.
          repeat match goal with |- context [Nat.eqb ?x ?y] => destruct (Nat.eqb_spec x y); [lia|] end. reflexivity. }
        rewrite (N2 14%nat), (N2 15%nat), (N2 16%nat) in S. rewrite (N2 12%nat), (N2 13%nat) in SA. cbn [Nat.eqb] in S, SA. rewrite (scal_ok D B env e Se Fe C Ag Ok) in S.
        destruct (IH B3 env D D' s b' s') as (-> & B' & R1 & R2 & R3 & R4 & R5);
          [unfold B3; rewrite !lset_length; exact L2 | exact Le | exact Ch | eapply canonical_frame; eassumption
          | eapply agree_frame; eassumption | exact H |].
        split; [reflexivity|]. exists B'. split; [exact R1|]. split; [exact R2|]. split; [exact R3|].
        assert (E01 : b01_of B3 = b01_of B) by (unfold b01_of; rewrite !F3 by reflexivity; reflexivity).
        rewrite E01 in *. split; [exact R4|]. exists R, Q. split; [exact S|]. split; [exact SA|].
        unfold q_of in *. cbn [Nat.add] in *. rewrite !N3, !N2 in R5. cbn [Nat.eqb] in R5.
        rewrite <- surjective_pairing in R5. exact R5.
  Qed.
End Stmts.

(** ** The three programs *)
Lemma grouped : prog1 = flat_map ungroup (group prog1) /\ prog2 = flat_map ungroup (group prog2) /\
  prog3 = flat_map ungroup (group prog3).
Proof. repeat split; reflexivity. Qed.
Lemma checked : exists D1 D2 D3, chks [2; 3; 4; 5; 6; 7; 8; 9]%nat (group prog1) = Some D1 /\
  chks D1 (group prog2) = Some D2 /\ chks D2 (group prog3) = Some D3 /\ In 18%nat D2.
Proof.
  eexists. eexists. eexists. split; [vm_compute; reflexivity|]. split; [vm_compute; reflexivity|].
  split; [vm_compute; reflexivity|]. cbn. tauto.
Qed.

Lemma agree_map B : agree B (map fc B).
Proof. intros j _. unfold en. change (0%fr) with (fc 0). symmetry. apply map_nth. Qed.

Lemma map_VBig_inj a b : map VBig a = map VBig b -> a = b.
Proof.
  revert b. induction a as [|x a IH]; intros [|y b] H; try discriminate; [reflexivity|].
  cbn in H. injection H as -> H. f_equal. apply IH, H.
Qed.

Lemma trace_mono O T A b01 ms : forall env q10 q12 (K K' : list Fr -> Z * Z -> Z * Z -> Prop),
  (forall e a b, K e a b -> K' e a b) -> trace O T A b01 ms env q10 q12 K -> trace O T A b01 ms env q10 q12 K'.
Proof.
  induction ms as [|[i e|i a b e|a b e] t IH]; intros env q10 q12 K K' HK; cbn [trace].
  - apply HK.
  - intros (F & v & E & H). split; [exact F|]. exists v. split; [exact E|]. eapply IH; eassumption.
  - intros (q & R & S & H). exists q, R. split; [exact S|]. eapply IH; eassumption.
  - intros (R & Q & S & SA & H). exists R, Q. split; [exact S|]. split; [exact SA|]. eapply IH; eassumption.
Qed.

(** the trace of accepted runs *)
Lemma steps12_trace O T A B s b1 s1 b2 s2 : length B = 43%nat ->
  (forall j, (2 <= j < 10)%nat -> 0 <= nth j B 0 < r_mod) ->
  VerifyProof1 O Test (map VBig T) (map VBig A) (map VBig B) s = Done ((b1, None), s1) ->
  VerifyProof2 O Test (map VBig T) (map VBig A) b1 s1 = Done ((b2, None), s2) ->
  s1 = s /\ s2 = s /\ exists B2 D2, b2 = map VBig B2 /\ length B2 = 43%nat /\ b01_of B2 = b01_of B /\
    canonical D2 B2 /\ In 18%nat D2 /\ (exists D3, chks D2 (group prog3) = Some D3) /\
    trace O T A (b01_of B) (group prog1) (map fc B) (q_of 10 B) (q_of 12 B) (fun env q10 q12 =>
      trace O T A (b01_of B) (group prog2) env q10 q12 (post B2)).
Proof.
  intros L C H1 H2. unfold VerifyProof1 in H1. unfold VerifyProof2 in H2.
  destruct grouped as (G1 & G2 & _). rewrite G1 in H1. rewrite G2 in H2.
  destruct checked as (D1 & D2 & D3 & C1 & C2 & C3 & I18).
  destruct (run_trace O T A (group prog1) B (map fc B) [2;3;4;5;6;7;8;9]%nat D1 s b1 s1 L) as (-> & B1 & -> & L1 & K1 & E1 & T1);
    [rewrite map_length; exact L | exact C1 | | apply agree_map | exact H1 |].
  { intros j Hj. cbn in Hj. split; [|apply C; lia]. unfold scratch. apply andb_false_iff. left. apply Nat.leb_gt. lia. }
  destruct (run_trace O T A (group prog2) B1 (map fc B1) D1 D2 s b2 s2 L1) as (-> & B2 & -> & L2 & K2 & E2 & T2);
    [rewrite map_length; exact L1 | exact C2 | exact K1 | apply agree_map | exact H2 |].
  split; [reflexivity|]. split; [reflexivity|]. exists B2, D2. split; [reflexivity|]. split; [exact L2|].
  split; [congruence|]. split; [exact K2|]. split; [exact I18|]. split; [exists D3; exact C3|].
  eapply trace_mono; [|exact T1]. intros env q10 q12 (Ag & Le & -> & ->).
  destruct (run_trace O T A (group prog2) B1 env D1 D2 s _ _ L1 Le C2 K1 Ag H2) as (_ & B2' & Eb & _ & _ & _ & T2').
  apply map_VBig_inj in Eb. subst B2'. rewrite <- E1. exact T2'.
Qed.

Lemma steps_trace O T A B s b1 s1 b2 s2 b3 s3 : length B = 43%nat ->
  (forall j, (2 <= j < 10)%nat -> 0 <= nth j B 0 < r_mod) ->
  VerifyProof1 O Test (map VBig T) (map VBig A) (map VBig B) s = Done ((b1, None), s1) ->
  VerifyProof2 O Test (map VBig T) (map VBig A) b1 s1 = Done ((b2, None), s2) ->
  VerifyProof3 O Test (map VBig T) (map VBig A) b2 s2 = Done ((b3, None), s3) ->
  s3 = s /\ exists B3, b3 = map VBig B3 /\ length B3 = 43%nat /\
    trace O T A (b01_of B) (group prog1) (map fc B) (q_of 10 B) (q_of 12 B) (fun env q10 q12 =>
      trace O T A (b01_of B) (group prog2) env q10 q12 (fun env q10 q12 =>
        trace O T A (b01_of B) (group prog3) env q10 q12 (post B3))).
Proof.
  intros L C H1 H2 H3. destruct (steps12_trace O T A B s b1 s1 b2 s2 L C H1 H2)
    as (-> & -> & B2 & D2 & -> & L2 & E2 & K2 & _ & [D3 C3] & T2).
  unfold VerifyProof3 in H3. destruct grouped as (_ & _ & G3). rewrite G3 in H3.
  destruct (run_trace O T A (group prog3) B2 (map fc B2) D2 D3 s b3 s3 L2) as (-> & B3 & -> & L3 & _ & _ & _);
    [rewrite map_length; exact L2 | exact C3 | exact K2 | apply agree_map | exact H3 |].
  split; [reflexivity|]. exists B3. split; [reflexivity|]. split; [exact L3|].
  eapply trace_mono; [|exact T2]. cbv beta. intros env q10 q12. apply trace_mono. intros env' q10' q12' (Ag & Le & -> & ->).
  destruct (run_trace O T A (group prog3) B2 env' D2 D3 s _ _ L2 Le C3 K2 Ag H3) as (_ & B3' & Eb & _ & _ & _ & T3).
  apply map_VBig_inj in Eb. subst B3'. rewrite <- E2. exact T3.
Qed.
