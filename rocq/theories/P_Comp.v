(** Completeness of the verification statements: when every division is exact and every point operation is
    in the domain of its gadget, the run is accepted. *)
From Coq Require Import ZArith Zpow_facts String Bool List Lia Arith.
From Verif Require Import Params Go Curve Api FrOps Lib Steps NumThy FField FpField P_Fr P_Str SpecCurve SpecVerify
  P_Msm P_Flow P_Misc P_Step P_Exec.
Import ListNotations.
Open Scope Z_scope.

(** ** Expressions *)
Section Expr.
  Variables (T A : list Z).

  (** indices are in range; the numerator of a division is canonical, its quotient an auxiliary word *)
  Fixpoint inb (nb : nat) (e : fexpr) : bool :=
    match e with
    | FBuf i => (i <? nb)%nat
    | FTr i => (i <? length T)%nat
    | FAux i => (i <? length A)%nat
    | FStr _ | FInt _ => true
    | FMul a b | FAdd a b | FPow a b => inb nb a && inb nb b
    | FNeg a => inb nb a
    | FDiv a b c => inb nb a && inb nb b && inb nb c &&
        match c with FAux _ => true | _ => false end &&
        (comp a || match a with FStr z | FInt z => (0 <=? z) && (z <? r_mod) | _ => false end)
    end.

  Lemma get_in (l : list Z) i : (i <? length l)%nat = true -> get (map VBig l) i = Done (VBig (zn l i)).
  Proof.
    intros H. apply Nat.ltb_lt in H. unfold get, zn. rewrite nth_error_map, (nth_error_nth' l 0) by exact H. reflexivity.
  Qed.

  Lemma expr_run e : forall B s, wf e = true -> inb (length B) e = true -> zok T A B e ->
    exists v, run_expr Test (map VBig T) (map VBig A) (map VBig B) e s = Done (v, s) /\ to_big v = Done (ze T A B e) /\
      (not_int e = true -> v = VBig (ze T A B e)).
  Proof.
    induction e as [i|i|i|z|z|a IHa b IHb|a IHa b IHb|a IHa|a IHa b IHb c IHc|a IHa k IHk];
      intros B s W I Ok; cbn [run_expr wf inb zok ze] in *.
    - unfold lift. rewrite get_in by exact I. eexists. repeat split.
    - unfold lift. rewrite get_in by exact I. eexists. repeat split.
    - unfold lift. rewrite get_in by exact I. eexists. repeat split.
    - rewrite c09_roundtrip. eexists. repeat split.
    - eexists. split; [reflexivity|]. split; [reflexivity|]. discriminate.
    - apply andb_true_iff in W, I. destruct W as [Wa Wb], I as [Ia Ib], Ok as [Oa Ob].
      destruct (IHa B s Wa Ia Oa) as (x & Ex & Bx & _). destruct (IHb B s Wb Ib Ob) as (y & Ey & By & _).
      unfold bind. rewrite Ex, Ey, (fr_mul_test x y _ _ s Bx By). eexists. repeat split.
    - apply andb_true_iff in W, I. destruct W as [Wa Wb], I as [Ia Ib], Ok as [Oa Ob].
      destruct (IHa B s Wa Ia Oa) as (x & Ex & Bx & _). destruct (IHb B s Wb Ib Ob) as (y & Ey & By & _).
      unfold bind. rewrite Ex, Ey, (fr_add_test x y _ _ s Bx By). eexists. repeat split.
    - destruct (IHa B s W I Ok) as (x & Ex & Bx & _). unfold bind. rewrite Ex, (fr_neg_test x _ s Bx). eexists. repeat split.
    - rewrite !andb_true_iff in W. rewrite !andb_true_iff in I. destruct W as [[Wa Wb] Wc], I as [[[[Ia Ib] Ic] _] _], Ok as (Oa & Ob & Oc & E & Rc).
      destruct (IHa B s Wa Ia Oa) as (x & Ex & Bx & _). destruct (IHb B s Wb Ib Ob) as (y & Ey & By & _).
      destruct (IHc B s Wc Ic Oc) as (z & Ez & Bz & _).
      unfold bind. rewrite Ex, Ey, Ez, (fr_div_test x y z _ _ _ s Bx By Bz).
      rewrite (proj2 (Z.eqb_eq _ _) E), (modr_small _ Rc), Z.eqb_refl. eexists. repeat split.
    - apply andb_true_iff in W, I. destruct W as [Wa Wk], I as [Ia _], Ok as [Oa _].
      destruct (IHa B s Wa Ia Oa) as (x & Ex & Bx & _). destruct k as [| | |z| | | | | |]; try discriminate Wk.
      apply Z.leb_le in Wk. unfold bind. rewrite Ex. cbn [run_expr ze]. unfold ret. rewrite c09_roundtrip.
      rewrite (fr_pow_test x _ z s Bx Wk). eexists. repeat split.
  Qed.

  Definition agreef (B : list Z) (g : nat -> Fr) : Prop := forall j, scratch j = false -> fc (nth j B 0) = g j.

  Lemma fine_parts e : fine e = true -> match e with
    | FMul a b | FAdd a b => fine a = true /\ fine b = true
    | FPow a b => fine a = true
    | FNeg a => fine a = true
    | FDiv a b c => fine a = true /\ fine b = true /\ fine c = true
    | _ => True end.
  Proof.
    unfold fine. destruct e; cbn [wf reads]; auto; rewrite ?forallb_app, ?andb_true_iff; tauto.
  Qed.

  Lemma ef_zok e : forall B g, fine e = true -> inb (length B) e = true -> agreef B g -> efok T A g e ->
    zok T A B e /\ fc (ze T A B e) = ef T A g e.
  Proof.
    induction e as [i|i|i|z|z|a IHa b IHb|a IHa b IHb|a IHa|a IHa b IHb c IHc|a IHa k IHk];
      intros B g F I Ag Ok; pose proof (fine_parts _ F) as FP; cbn [inb zok ze efok ef] in *;
      try (split; [exact Logic.I | reflexivity]).
    - split; [exact Logic.I|]. apply Ag. unfold fine in F. cbn in F. rewrite andb_true_r in F. apply negb_true_iff, F.
    - split; [exact Logic.I | apply phi_mod].
    - apply andb_true_iff in I. destruct I as [Ia Ib], FP as [Fa Fb], Ok as [Oa Ob].
      destruct (IHa B g Fa Ia Ag Oa) as [Za Ea], (IHb B g Fb Ib Ag Ob) as [Zb Eb].
      rewrite phi_mod, phi_mul, Ea, Eb. auto.
    - apply andb_true_iff in I. destruct I as [Ia Ib], FP as [Fa Fb], Ok as [Oa Ob].
      destruct (IHa B g Fa Ia Ag Oa) as [Za Ea], (IHb B g Fb Ib Ag Ob) as [Zb Eb].
      rewrite phi_mod, phi_add, Ea, Eb. auto.
    - destruct (IHa B g FP I Ag Ok) as [Za Ea]. rewrite phi_mod, phi_opp, Ea. auto.
    - rewrite !andb_true_iff in I. destruct I as [[[[Ia Ib] Ic] Hc] Ha], FP as (Fa & Fb & Fc).
      destruct c as [| |i| | | | | | |]; try discriminate Hc. destruct Ok as (Oa & Ob & E & Rc).
      destruct (IHa B g Fa Ia Ag Oa) as [Za Ea], (IHb B g Fb Ib Ag Ob) as [Zb Eb].
      cbn [ze zok]. split; [|reflexivity]. unfold zn. repeat (split; [assumption || exact Logic.I|]). split; [|exact Rc].
      assert (Ra : 0 <= ze T A B a < r_mod).
      { apply orb_true_iff in Ha. destruct Ha as [Ha|Ha]; [apply comp_canon; assumption|].
        destruct a; try discriminate Ha; cbn [ze]; rewrite andb_true_iff, Z.leb_le, Z.ltb_lt in Ha; rewrite ?Z.mod_small by exact Ha; exact Ha. }
      unfold fw in E. rewrite <- Ea, <- Eb, <- phi_mul in E. apply (f_equal val) in E. rewrite !val_phi in E.
      rewrite (Z.mod_small _ _ Ra) in E. exact E.
    - apply andb_true_iff in I. destruct I as [Ia _].
      destruct (IHa B g FP Ia Ag Ok) as [Za Ea]. unfold fine in F. cbn [wf] in F.
      destruct k as [| | |z| | | | | |]; try (rewrite andb_false_r in F; discriminate F).
      assert (Z2 : 2 <= z) by (rewrite !andb_true_iff in F; destruct F as [[_ F] _]; apply Z.leb_le, F).
      cbn [ze zok]. rewrite phi_mod, fexp_phi by lia. rewrite Ea. auto.
  Qed.
End Expr.

(** ** Point operations *)
Lemma pair_eqb_refl p : pair_eqb p p = true.
Proof. unfold pair_eqb. rewrite !Z.eqb_refl. reflexivity. Qed.

Lemma smul_run O x y k R s : smul O x y k R ->
  CalcVerifyBN256Msm O Test (VBig x) (VBig y) (VBig k) s = Done (((VBig (fst R), VBig (snd R)), None), s).
Proof.
  intros (P & HP & -> & HE). rewrite (msm_run O x y k P s HP), HE, pair_eqb_refl. reflexivity.
Qed.
Lemma sadd_run a b R s : sadd a b R ->
  CalcVerifyBN256Add Test (VBig (fst a)) (VBig (snd a)) (VBig (fst b)) (VBig (snd b)) s = Done (((VBig (fst R), VBig (snd R)), None), s).
Proof.
  intros (P & Q & HP & HQ & -> & HE).
  unfold CalcVerifyBN256Add, bind at 1. rewrite (add_hint_test _ _ _ _ P Q s HP HQ).
  destruct (pr_range (padd P Q)) as [B1 B2]. unfold bind at 1. cbn [get nth_error lift].
  unfold bind at 1. rewrite mod_test_ok by assumption.
  unfold bind at 1. cbn [get nth_error lift]. unfold bind at 1. rewrite mod_test_ok by assumption.
  unfold VerifyBN254Add, with_fp. cbn [fst snd fp_set_interface]. cbv zeta.
  rewrite (smod_p (fst (pr (padd P Q)))), (smod_p (snd (pr (padd P Q)))) by assumption.
  rewrite HE, <- surjective_pairing, pair_eqb_refl. reflexivity.
Qed.

Lemma put_in (B : list Z) i z : (i < length B)%nat -> put (map VBig B) i (VBig z) = Done (map VBig (lset B i z)).
Proof.
  revert i. unfold put. induction B as [|h t IH]; intros [|i] H; cbn [map set_nth option_map length lset] in *; try lia; [reflexivity|].
  specialize (IH i ltac:(lia)). destruct (set_nth (map VBig t) i (VBig z)) as [l|]; [|discriminate].
  apply done_inj in IH. subst l. reflexivity.
Qed.

Section Stmts.
  Variables (O : oracles) (T A : list Z).
  Notation run_s := (run_stmt O Test (map VBig T) (map VBig A)).
  Notation run_p := (run_prog O Test (map VBig T) (map VBig A)).

  Lemma set_run i e B s : wf e = true -> not_int e = true -> inb T A (length B) e = true -> zok T A B e -> (i < length B)%nat ->
    run_s (map VBig B) (SSet i e) s = Done ((map VBig (lset B i (ze T A B e)), None), s).
  Proof.
    intros W N I Z L. destruct (expr_run T A e B s W I Z) as (v & E & _ & V). rewrite (V N) in E.
    cbn [run_stmt]. unfold bind, lift. rewrite E, put_in by exact L. reflexivity.
  Qed.
  Lemma set2_run i j e1 e2 B s : wf e1 = true -> not_int e1 = true -> wf e2 = true -> not_int e2 = true ->
    inb T A (length B) e1 = true -> inb T A (length B) e2 = true -> zok T A B e1 -> zok T A B e2 ->
    (i < length B)%nat -> (j < length B)%nat ->
    run_s (map VBig B) (SSet2 i j e1 e2) s = Done ((map VBig (lset (lset B i (ze T A B e1)) j (ze T A B e2)), None), s).
  Proof.
    intros W1 N1 W2 N2 I1 I2 Z1 Z2 L1 L2. destruct (expr_run T A e1 B s W1 I1 Z1) as (v1 & E1 & _ & V1).
    destruct (expr_run T A e2 B s W2 I2 Z2) as (v2 & E2 & _ & V2). rewrite (V1 N1) in E1. rewrite (V2 N2) in E2.
    cbn [run_stmt]. unfold bind, lift. rewrite E1, E2, put_in by exact L1. rewrite put_in by (rewrite lset_length; exact L2). reflexivity.
  Qed.
  Lemma mul_run off B s R : (off + 2 < length B)%nat ->
    smul O (nth off B 0) (nth (off + 1) B 0) (nth (off + 2) B 0) R ->
    ecc_mul O Test (map VBig B) off s = Done ((map VBig (lset (lset B off (fst R)) (off + 1) (snd R)), None), s).
  Proof.
    intros L S. unfold ecc_mul, bind, lift. rewrite !get_in by (apply Nat.ltb_lt; lia). unfold zn.
    rewrite (smul_run O _ _ _ R s S). rewrite put_in by lia. rewrite put_in by (rewrite lset_length; lia). reflexivity.
  Qed.
  Lemma mul_add_run off B s R Q : (off + 4 < length B)%nat ->
    smul O (nth (off + 2) B 0) (nth (off + 3) B 0) (nth (off + 4) B 0) R ->
    sadd (nth off B 0, nth (off + 1) B 0) R Q ->
    ecc_mul_add O Test (map VBig B) off s =
      Done ((map VBig (lset (lset (lset (lset B (off + 2) (fst R)) (off + 3) (snd R)) off (fst Q)) (off + 1) (snd Q)), None), s).
  Proof.
    intros L S SA. unfold ecc_mul_add, bind at 1. rewrite (mul_run (off + 2) B s R).
    2: lia. 2:{ replace (off + 2 + 1)%nat with (off + 3)%nat by lia. replace (off + 2 + 2)%nat with (off + 4)%nat by lia. exact S. }
    replace (off + 2 + 1)%nat with (off + 3)%nat by lia.
    set (B1 := lset (lset B (off + 2) (fst R)) (off + 3) (snd R)) in *.
    assert (L1 : length B1 = length B) by (unfold B1; rewrite !lset_length; reflexivity).
    unfold bind, lift. rewrite !get_in by (apply Nat.ltb_lt; lia). unfold zn.
    assert (N : forall j, nth j B1 0 = if Nat.eqb j (off + 3) then snd R else if Nat.eqb j (off + 2) then fst R else nth j B 0).
    { intros j. unfold B1. rewrite lset_nth by (rewrite lset_length; lia). rewrite lset_nth by lia. reflexivity. }
    rewrite !N. replace (off =? off + 3)%nat with false by (symmetry; apply Nat.eqb_neq; lia).
    replace (off =? off + 2)%nat with false by (symmetry; apply Nat.eqb_neq; lia).
    replace (off + 1 =? off + 3)%nat with false by (symmetry; apply Nat.eqb_neq; lia).
    replace (off + 1 =? off + 2)%nat with false by (symmetry; apply Nat.eqb_neq; lia).
    replace (off + 2 =? off + 3)%nat with false by (symmetry; apply Nat.eqb_neq; lia). rewrite !Nat.eqb_refl.
    pose proof (sadd_run _ _ _ s SA) as E. cbn [fst snd] in E. rewrite E.
    rewrite put_in by lia. rewrite put_in by (rewrite lset_length; lia). reflexivity.
  Qed.

  Lemma prog_run st p b s b1 : run_s b st s = Done ((b1, None), s) -> run_p b (st :: p) s = run_p b1 p s.
  Proof. intros E. cbn [run_prog]. unfold bind. rewrite E. reflexivity. Qed.

  (** every point operation is in the domain of its gadget; the value of slots 12/13 after the
      multiplication of slots 10/11 is not constrained *)
  Fixpoint chain_ok (l : list pop) (q10 q12 : Z * Z) (K : Z * Z -> Z * Z -> Prop) : Prop :=
    match l with
    | [] => K q10 q12
    | PMul i P s :: t => exists R, smul O (fst P) (snd P) (val s) R /\
        forall q, chain_ok t (if Nat.eqb i 10 then R else q10) (if Nat.eqb i 12 then R else q) K
    | PAdd P s :: t => exists R Q, smul O (fst P) (snd P) (val s) R /\ sadd q12 R Q /\ chain_ok t q10 Q K
    end.

  Lemma chain_ok_app a b : forall q10 q12 K, chain_ok (a ++ b) q10 q12 K <->
    chain_ok a q10 q12 (fun x y => chain_ok b x y K).
  Proof.
    induction a as [|[i P s|P s] t IH]; intros q10 q12 K; cbn [chain_ok app]; [tauto| |].
    - split; intros (R & S & H); exists R; (split; [exact S|]); intros q; apply IH, H.
    - split; intros (R & Q & S & SA & H); exists R, Q; (split; [exact S|]); (split; [exact SA|]); apply IH, H.
  Qed.

  Definition inbm (m : mop) : bool :=
    match m with
    | MSet i e => (i <? 43)%nat && inb T A 43 e
    | MMul _ a b e | MAdd a b e => inb T A 43 a && inb T A 43 b && inb T A 43 e
    end.

  Lemma raw_zok B e : rawok e = true -> zok T A B e.
  Proof. destruct e as [[|[|i]]| | | | | | | | |]; cbn; try discriminate; auto. Qed.

  Lemma scal_okf D B g e : scal D e = true -> fine e = true -> inb T A (length B) e = true -> canonical D B -> agreef B g -> efok T A g e ->
    zok T A B e /\ ze T A B e = val (ef T A g e).
  Proof.
    intros Hs Hf Hi C Ag Ok. destruct (ef_zok T A e B g Hf Hi Ag Ok) as [Zk E]. split; [exact Zk|]. rewrite <- E. symmetry. apply val_canon.
    unfold scal in Hs. apply orb_true_iff in Hs. destruct Hs as [Hs|Hs]; [apply comp_canon; assumption|].
    destruct e; try discriminate Hs; cbn [ze] in *.
    - apply existsb_exists in Hs. destruct Hs as (j & Hj & En). apply Nat.eqb_eq in En. subst j. apply (C i Hj).
    - apply andb_true_iff in Hs. rewrite Z.leb_le, Z.ltb_lt in Hs. exact Hs.
  Qed.

  (** scalars of point operations contain no division *)
  Fixpoint nodiv (e : fexpr) : bool :=
    match e with
    | FMul a b | FAdd a b => nodiv a && nodiv b
    | FNeg a | FPow a _ => nodiv a
    | FDiv _ _ _ => false
    | _ => true
    end.
  Lemma nodiv_ok g e : nodiv e = true -> efok T A g e.
  Proof.
    induction e as [i|i|i|z|z|a IHa b IHb|a IHa b IHb|a IHa|a IHa b IHb c IHc|a IHa k IHk]; cbn [nodiv efok]; intros H; auto; try discriminate.
    - apply andb_true_iff in H. tauto.
    - apply andb_true_iff in H. tauto.
  Qed.
  Definition nodivm (m : mop) : bool := match m with MSet _ _ => true | MMul _ _ _ e | MAdd _ _ e => nodiv e end.

  Lemma operands_run B i a b e s p g D : length B = 43%nat -> (i = 10 \/ i = 12 \/ i = 14)%nat ->
    rawok a = true -> rawok b = true -> fine e = true -> scal D e = true ->
    inb T A 43 a = true -> inb T A 43 b = true -> inb T A 43 e = true -> nodiv e = true -> canonical D B -> agreef B g ->
    exists B2, run_p (map VBig B) (SSet2 i (i + 1) a b :: SSet (i + 2) e :: p) s = run_p (map VBig B2) p s /\
      length B2 = 43%nat /\
      forall j, nth j B2 0 = if Nat.eqb j (i + 2) then val (ef T A g e) else if Nat.eqb j (i + 1) then raw T (b01_of B) b
                             else if Nat.eqb j i then raw T (b01_of B) a else nth j B 0.
  Proof.
    intros L Hi Ra Rb Fe Se Ia Ib Ie Nd C Ag. rewrite <- L in Ia, Ib.
    destruct (raw_ok T A B a Ra) as (Ea & Wa & Na). destruct (raw_ok T A B b Rb) as (Eb & Wb & Nb).
    erewrite prog_run.
    2:{ apply (set2_run i (i + 1) a b B s); try assumption; try (apply raw_zok; assumption); lia. }
    rewrite Ea, Eb.
    set (B1 := lset (lset B i (raw T (b01_of B) a)) (i + 1) (raw T (b01_of B) b)).
    assert (L1 : length B1 = 43%nat) by (unfold B1; rewrite !lset_length; exact L).
    assert (N1 : forall j, nth j B1 0 = if Nat.eqb j (i + 1) then raw T (b01_of B) b
                             else if Nat.eqb j i then raw T (b01_of B) a else nth j B 0).
    { intros j. unfold B1. rewrite lset_nth by (rewrite lset_length; lia). rewrite lset_nth by lia. reflexivity. }
    assert (F1 : forall j, scratch j = false -> nth j B1 0 = nth j B 0).
    { intros j Hj. rewrite N1. unfold scratch in Hj. apply andb_false_iff in Hj. rewrite !Nat.leb_gt in Hj.
      destruct (Nat.eqb_spec j (i + 1)); [lia|]. destruct (Nat.eqb_spec j i); [lia|]. reflexivity. }
    assert (C1 : canonical D B1) by (eapply canonical_frame; eassumption).
    assert (A1 : agreef B1 g) by (intros j Hj; rewrite F1 by exact Hj; apply Ag, Hj).
    rewrite <- L1 in Ie. destruct (scal_okf D B1 g e Se Fe Ie C1 A1 (nodiv_ok g e Nd)) as [Zk Ez].
    erewrite prog_run.
    2:{ apply (set_run (i + 2) e B1 s); [apply fine_wf, Fe | eapply scal_not_int, Se | exact Ie | exact Zk | lia]. }
    rewrite Ez. eexists. split; [reflexivity|]. split; [rewrite lset_length; exact L1|].
    intros j. rewrite lset_nth by lia. rewrite N1. reflexivity.
  Qed.

  Lemma run_complete ms : forall B g D D' s K, length B = 43%nat ->
    chks D ms = Some D' -> forallb inbm ms = true -> forallb nodivm ms = true -> canonical D B -> agreef B g ->
    oks T A ms g -> chain_ok (ops T A (b01_of B) ms g) (q_of 10 B) (q_of 12 B) K ->
    exists B', run_p (map VBig B) (flat_map ungroup ms) s = Done ((map VBig B', None), s) /\ length B' = 43%nat /\
      canonical D' B' /\ b01_of B' = b01_of B /\ agreef B' (exec T A ms g) /\ K (q_of 10 B') (q_of 12 B').
  Proof.
    induction ms as [|m t IH]; intros B g D D' s K L Ch In Nd C Ag Ok Hc.
    - cbn in Ch. injection Ch as <-. exists B. cbn [flat_map run_prog exec ops chain_ok] in *. auto 10.
    - cbn [chks] in Ch. destruct (chk D m) as [D1|] eqn:E1; [|discriminate]. cbn [flat_map forallb] in *.
      apply andb_true_iff in In, Nd. destruct In as [Im In], Nd as [Nm Nd].
      destruct m as [i e|i a b e|a b e]; cbn [chk ungroup app exec oks ops chain_ok inbm nodivm] in *.
      + destruct (fine e && comp e && negb (scratch i) && (2 <=? i)%nat) eqn:G; [|discriminate]. injection E1 as <-.
        rewrite !andb_true_iff in G. destruct G as [[[Fe Ce] Si] I2]. apply negb_true_iff in Si. apply Nat.leb_le in I2.
        apply andb_true_iff in Im. destruct Im as [Li Ie]. apply Nat.ltb_lt in Li. rewrite <- L in Ie, Li.
        destruct Ok as [Oe Ok].
        destruct (ef_zok T A e B g Fe Ie Ag Oe) as [Zk Ez].
        erewrite prog_run. 2:{ apply (set_run i e B s); [apply fine_wf, Fe | apply comp_not_int, Ce | exact Ie | exact Zk | exact Li]. }
        pose proof (comp_canon T A B e Ce Zk) as Rc.
        assert (N : forall j, nth j (lset B i (ze T A B e)) 0 = if Nat.eqb j i then ze T A B e else nth j B 0)
          by (intros j; apply lset_nth, Li).
        assert (Q : forall j, scratch j = true -> Nat.eqb j i = false) by (intros j Hj; apply Nat.eqb_neq; congruence).
        assert (E01 : b01_of (lset B i (ze T A B e)) = b01_of B).
        { unfold b01_of. rewrite !N. replace (Nat.eqb 0 i) with false by (symmetry; apply Nat.eqb_neq; lia).
          replace (Nat.eqb 1 i) with false by (symmetry; apply Nat.eqb_neq; lia). reflexivity. }
        assert (E10 : q_of 10 (lset B i (ze T A B e)) = q_of 10 B).
        { unfold q_of. rewrite !N. cbn [Nat.add]. rewrite !Q by reflexivity. reflexivity. }
        assert (E12 : q_of 12 (lset B i (ze T A B e)) = q_of 12 B).
        { unfold q_of. rewrite !N. cbn [Nat.add]. rewrite !Q by reflexivity. reflexivity. }
        destruct (IH (lset B i (ze T A B e)) (upd g i (ef T A g e)) (i :: D) D' s K) as (B' & R1 & R2 & R3 & R4 & R5 & R6);
          [rewrite lset_length; exact L | exact Ch | exact In | exact Nd | | | exact Ok | |].
        * intros j [<-|Hj].
          -- split; [exact Si|]. rewrite N, Nat.eqb_refl. exact Rc.
          -- destruct (C j Hj) as [Sj Rj]. split; [exact Sj|]. rewrite N. destruct (Nat.eqb j i); assumption.
        * intros j Hj. rewrite N. unfold upd. destruct (Nat.eqb j i); [exact Ez | apply Ag, Hj].
        * rewrite E01, E10, E12. exact Hc.
        * exists B'. rewrite E01 in R4. auto 10.
      + destruct (rawok a && rawok b && fine e && scal D e && (Nat.eqb i 10 || Nat.eqb i 12)) eqn:G; [|discriminate].
        injection E1 as <-. rewrite !andb_true_iff, orb_true_iff, !Nat.eqb_eq in G. destruct G as [[[[Ra Rb] Fe] Se] Hi].
        rewrite !andb_true_iff in Im. destruct Im as [[Ia Ib] Ie].
        destruct (operands_run B i a b e s (SEccMul i :: flat_map ungroup t) g D L ltac:(lia) Ra Rb Fe Se Ia Ib Ie Nm C Ag)
          as (B2 & E2 & L2 & N2).
        rewrite E2. clear E2. destruct Hc as (R & S & Hc). cbn [fst snd] in S.
        erewrite prog_run.
        2:{ cbn [run_stmt]. apply (mul_run i B2 s R); [lia|]. rewrite !N2.
            replace (Nat.eqb i (i + 2)) with false by (symmetry; apply Nat.eqb_neq; lia).
            replace (Nat.eqb i (i + 1)) with false by (symmetry; apply Nat.eqb_neq; lia).
            replace (Nat.eqb (i + 1) (i + 2)) with false by (symmetry; apply Nat.eqb_neq; lia).
            rewrite !Nat.eqb_refl. exact S. }
        set (B3 := lset (lset B2 i (fst R)) (i + 1) (snd R)) in *.
        assert (N3 : forall j, nth j B3 0 = if Nat.eqb j (i + 1) then snd R else if Nat.eqb j i then fst R else nth j B2 0).
        { intros j. unfold B3. rewrite lset_nth by (rewrite lset_length; lia). rewrite lset_nth by lia. reflexivity. }
        assert (F3 : forall j, scratch j = false -> nth j B3 0 = nth j B 0).
        { intros j Hj. rewrite N3, N2. unfold scratch in Hj. apply andb_false_iff in Hj. rewrite !Nat.leb_gt in Hj.
          repeat match goal with |- context [Nat.eqb ?x ?y] => destruct (Nat.eqb_spec x y); [lia|] end. reflexivity. }
        assert (E01 : b01_of B3 = b01_of B) by (unfold b01_of; rewrite !F3 by reflexivity; reflexivity).
        destruct (IH B3 g D D' s K) as (B' & R1 & R2 & R3 & R4 & R5 & R6);
          [unfold B3; rewrite !lset_length; exact L2 | exact Ch | exact In | exact Nd | eapply canonical_frame; eassumption
          | intros j Hj; rewrite F3 by exact Hj; apply Ag, Hj | exact Ok | |].
        * rewrite E01. specialize (Hc (q_of 12 B3)).
          replace (q_of 10 B3) with (if Nat.eqb i 10 then R else q_of 10 B).
          2:{ unfold q_of. rewrite !N3, !N2. cbn [Nat.add]. destruct Hi as [->| ->]; cbn [Nat.eqb Nat.add]; [|reflexivity].
              apply surjective_pairing. }
          replace (if Nat.eqb i 12 then R else q_of 12 B3) with (q_of 12 B3) in Hc; [exact Hc|].
          unfold q_of. rewrite !N3. destruct Hi as [->| ->]; cbn [Nat.eqb Nat.add]; [reflexivity|]. symmetry. apply surjective_pairing.
        * exists B'. rewrite E01 in R4. auto 10.
      + destruct (rawok a && rawok b && fine e && scal D e) eqn:G; [|discriminate].
        injection E1 as <-. rewrite !andb_true_iff in G. destruct G as [[[Ra Rb] Fe] Se].
        rewrite !andb_true_iff in Im. destruct Im as [[Ia Ib] Ie].
        destruct (operands_run B 14 a b e s (SEccMulAdd 12 :: flat_map ungroup t) g D L ltac:(lia) Ra Rb Fe Se Ia Ib Ie Nm C Ag)
          as (B2 & E2 & L2 & N2).
        cbn [Nat.add] in E2. rewrite E2. clear E2. destruct Hc as (R & Q & S & SA & Hc). cbn [fst snd] in S.
        assert (Q12 : q_of 12 B2 = q_of 12 B) by (unfold q_of; rewrite !N2; reflexivity).
        erewrite prog_run.
        2:{ cbn [run_stmt]. apply (mul_add_run 12 B2 s R Q); [lia | |].
            - cbn [Nat.add]. rewrite (N2 14%nat), (N2 15%nat), (N2 16%nat). cbn [Nat.eqb Nat.add]. exact S.
            - rewrite <- Q12 in SA. exact SA. }
        cbn [Nat.add].
        set (B3 := lset (lset (lset (lset B2 14 (fst R)) 15 (snd R)) 12 (fst Q)) 13 (snd Q)) in *.
        assert (N3 : forall j, nth j B3 0 = if Nat.eqb j 13 then snd Q else if Nat.eqb j 12 then fst Q
                       else if Nat.eqb j 15 then snd R else if Nat.eqb j 14 then fst R else nth j B2 0).
        { intros j. unfold B3. rewrite !lset_nth by (rewrite ?lset_length; lia). reflexivity. }
        assert (F3 : forall j, scratch j = false -> nth j B3 0 = nth j B 0).
        { intros j Hj. rewrite N3, N2. unfold scratch in Hj. apply andb_false_iff in Hj. rewrite !Nat.leb_gt in Hj.
          repeat match goal with |- context [Nat.eqb ?x ?y] => destruct (Nat.eqb_spec x y); [lia|] end. reflexivity. }
        assert (E01 : b01_of B3 = b01_of B) by (unfold b01_of; rewrite !F3 by reflexivity; reflexivity).
        destruct (IH B3 g D D' s K) as (B' & R1 & R2 & R3 & R4 & R5 & R6);
          [unfold B3; rewrite !lset_length; exact L2 | exact Ch | exact In | exact Nd | eapply canonical_frame; eassumption
          | intros j Hj; rewrite F3 by exact Hj; apply Ag, Hj | exact Ok | |].
        * rewrite E01. replace (q_of 12 B3) with Q; [|unfold q_of; rewrite !N3; cbn [Nat.eqb Nat.add]; apply surjective_pairing].
          replace (q_of 10 B3) with (q_of 10 B); [exact Hc|]. unfold q_of. rewrite !N3, !N2. reflexivity.
        * exists B'. rewrite E01 in R4. auto 10.
  Qed.
End Stmts.
