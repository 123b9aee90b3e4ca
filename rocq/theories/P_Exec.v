(** The trace of the verifier steps as a function on register files, and the constants of the domain. *)
From Coq Require Import ZArith Zpow_facts String Bool List Lia Arith Ring Field.
From Verif Require Import Params Go Curve Api FrOps Lib Steps NumThy FField FpField P_Fr P_Str SpecCurve SpecVerify
  P_Msm P_Flow P_Misc P_Step.
Import ListNotations.
Open Scope Z_scope.

(** ** Register files as functions *)
Definition upd (g : nat -> Fr) (i : nat) (v : Fr) : nat -> Fr := fun j => if Nat.eqb j i then v else g j.
Section Exec.
  Variables (T A : list Z).
  Fixpoint ef (g : nat -> Fr) (e : fexpr) : Fr :=
    match e with
    | FBuf i => g i
    | FTr i => fw T i
    | FAux i => fw A i
    | FStr z | FInt z => fc z
    | FMul a b => (ef g a * ef g b)%fr
    | FAdd a b => (ef g a + ef g b)%fr
    | FNeg a => (- ef g a)%fr
    | FDiv _ _ c => ef g c
    | FPow a (FStr k) => fexp (ef g a) k
    | FPow a _ => 0%fr
    end.
  Fixpoint efok (g : nat -> Fr) (e : fexpr) : Prop :=
    match e with
    | FBuf _ | FTr _ | FAux _ | FStr _ | FInt _ => True
    | FMul a b | FAdd a b => efok g a /\ efok g b
    | FPow a _ => efok g a
    | FNeg a => efok g a
    | FDiv a b (FAux i) => efok g a /\ efok g b /\ (ef g b * fw A i = ef g a)%fr /\ 0 <= nth i A 0 < r_mod
    | FDiv _ _ _ => True
    end.
  Lemma ef_ext g h e : (forall j, g j = h j) -> ef g e = ef h e.
  Proof.
    intros E. induction e as [i|i|i|z|z|a IHa b IHb|a IHa b IHb|a IHa|a IHa b IHb c IHc|a IHa k IHk]; cbn;
      try reflexivity; try apply E; try congruence; destruct k; congruence.
  Qed.
  Lemma efok_ext g h e : (forall j, g j = h j) -> efok g e -> efok h e.
  Proof.
    intros E. induction e as [i|i|i|z|z|a IHa b IHb|a IHa b IHb|a IHa|a IHa b IHb c IHc|a IHa k IHk]; cbn; try tauto.
    destruct c; try tauto. rewrite (ef_ext g h a E), (ef_ext g h b E). tauto.
  Qed.
  Lemma fe_ef env e : fe T A env e = ef (en env) e.
  Proof.
    induction e as [i|i|i|z|z|a IHa b IHb|a IHa b IHb|a IHa|a IHa b IHb c IHc|a IHa k IHk]; cbn;
      try reflexivity; try congruence. destruct k; congruence.
  Qed.
  Lemma fok_efok env e : fok T A env e -> efok (en env) e.
  Proof.
    induction e as [i|i|i|z|z|a IHa b IHb|a IHa b IHb|a IHa|a IHa b IHb c IHc|a IHa k IHk]; cbn; try tauto.
    destruct c; try tauto. rewrite !fe_ef. tauto.
  Qed.

  Fixpoint exec (ms : list mop) (g : nat -> Fr) : nat -> Fr :=
    match ms with
    | [] => g
    | MSet i e :: t => exec t (upd g i (ef g e))
    | _ :: t => exec t g
    end.
  Fixpoint oks (ms : list mop) (g : nat -> Fr) : Prop :=
    match ms with
    | [] => True
    | MSet i e :: t => efok g e /\ oks t (upd g i (ef g e))
    | _ :: t => oks t g
    end.
  (** the point operations *)
  Inductive pop := PMul (i : nat) (P : Z * Z) (s : Fr) | PAdd (P : Z * Z) (s : Fr).
  Fixpoint ops (b01 : Z * Z) (ms : list mop) (g : nat -> Fr) : list pop :=
    match ms with
    | [] => []
    | MSet i e :: t => ops b01 t (upd g i (ef g e))
    | MMul i a b e :: t => PMul i (raw T b01 a, raw T b01 b) (ef g e) :: ops b01 t g
    | MAdd a b e :: t => PAdd (raw T b01 a, raw T b01 b) (ef g e) :: ops b01 t g
    end.
  Fixpoint chain (O : oracles) (l : list pop) (q10 q12 : Z * Z) (K : Z * Z -> Z * Z -> Prop) : Prop :=
    match l with
    | [] => K q10 q12
    | PMul i P s :: t => exists q R, smul O (fst P) (snd P) (val s) R /\
        chain O t (if Nat.eqb i 10 then R else q10) (if Nat.eqb i 12 then R else q) K
    | PAdd P s :: t => exists R Q, smul O (fst P) (snd P) (val s) R /\ sadd q12 R Q /\ chain O t q10 Q K
    end.

  Lemma chain_mono' O l : forall q10 q12 (K K' : Z * Z -> Z * Z -> Prop), (forall a b, K a b -> K' a b) ->
    chain O l q10 q12 K -> chain O l q10 q12 K'.
  Proof.
    induction l as [|[i P s|P s] t IH]; intros q10 q12 K K' HK; cbn [chain].
    - apply HK.
    - intros (q & R & S & H). exists q, R. split; [exact S|]. eapply IH; eassumption.
    - intros (R & Q & S & SA & H). exists R, Q. split; [exact S|]. split; [exact SA|]. eapply IH; eassumption.
  Qed.
  Lemma chain_app O a b : forall q10 q12 K, chain O (a ++ b) q10 q12 K <->
    chain O a q10 q12 (fun x y => chain O b x y K).
  Proof.
    induction a as [|[i P s|P s] t IH]; intros q10 q12 K; cbn [chain app]; [tauto| |].
    - split; intros (q & R & S & H); exists q, R; (split; [exact S|]); apply IH, H.
    - split; intros (R & Q & S & SA & H); exists R, Q; (split; [exact S|]); (split; [exact SA|]); apply IH, H.
  Qed.

  Lemma exec_app a b g : exec (a ++ b) g = exec b (exec a g).
  Proof. revert g. induction a as [|[i e|i x y e|x y e] t IH]; intros g; cbn; auto. Qed.
  Lemma oks_app a b g : oks (a ++ b) g <-> oks a g /\ oks b (exec a g).
  Proof.
    revert g. induction a as [|[i e|i x y e|x y e] t IH]; intros g; cbn; try rewrite IH; tauto.
  Qed.
  Lemma ops_app b01 a b g : ops b01 (a ++ b) g = ops b01 a g ++ ops b01 b (exec a g).
  Proof. revert g. induction a as [|[i e|i x y e|x y e] t IH]; intros g; cbn; rewrite ?IH; reflexivity. Qed.

  Lemma upd_ext g h i v : (forall j, g j = h j) -> forall j, upd g i v j = upd h i v j.
  Proof. intros E j. unfold upd. destruct (Nat.eqb j i); auto. Qed.
  Lemma exec_ext ms : forall g h, (forall j, g j = h j) -> forall j, exec ms g j = exec ms h j.
  Proof.
    induction ms as [|[i e|i x y e|x y e] t IH]; intros g h E; cbn; try (apply IH; assumption); [exact E|].
    apply IH. rewrite (ef_ext g h e E). apply upd_ext, E.
  Qed.
  Lemma oks_ext ms : forall g h, (forall j, g j = h j) -> oks ms g -> oks ms h.
  Proof.
    induction ms as [|[i e|i x y e|x y e] t IH]; intros g h E; cbn; try (apply IH; assumption); [tauto|].
    intros [H1 H2]. split; [apply (efok_ext g h e E H1)|]. eapply IH; [|exact H2].
    rewrite (ef_ext g h e E). apply upd_ext, E.
  Qed.
  Lemma ops_ext b01 ms : forall g h, (forall j, g j = h j) -> ops b01 ms g = ops b01 ms h.
  Proof.
    induction ms as [|[i e|i x y e|x y e] t IH]; intros g h E; cbn; [reflexivity| | |].
    - apply IH. rewrite (ef_ext g h e E). apply upd_ext, E.
    - rewrite (ef_ext g h e E). f_equal. apply IH, E.
    - rewrite (ef_ext g h e E). f_equal. apply IH, E.
  Qed.

  (** registers not written keep their value *)
  Definition writes (ms : list mop) : list nat := flat_map (fun m => match m with MSet i _ => [i] | _ => [] end) ms.
  Lemma exec_frame ms j : existsb (Nat.eqb j) (writes ms) = false -> forall g, exec ms g j = g j.
  Proof.
    induction ms as [|[i e|i x y e|x y e] t IH]; cbn; intros H g; auto.
    apply orb_false_iff in H. destruct H as [H1 H2]. rewrite IH by exact H2. unfold upd. rewrite H1. reflexivity.
  Qed.

  Definition small (ms : list mop) : bool := forallb (fun j => Nat.ltb j 43) (writes ms).

  Lemma trace_app O b01 a b : forall env q10 q12 K,
    trace O T A b01 a env q10 q12 (fun e x y => trace O T A b01 b e x y K) -> trace O T A b01 (a ++ b) env q10 q12 K.
  Proof.
    induction a as [|[i e|i x y e|x y e] t IH]; intros env q10 q12 K; cbn [trace app].
    - auto.
    - intros (F & v & E & H). split; [exact F|]. exists v. auto.
    - intros (q & R & S & H). exists q, R. auto.
    - intros (R & Q & S & SA & H). exists R, Q. auto.
  Qed.

  Lemma trace_exec O b01 ms : small ms = true -> forall env q10 q12 K, length env = 43%nat ->
    trace O T A b01 ms env q10 q12 K ->
    oks ms (en env) /\
    chain O (ops b01 ms (en env)) q10 q12 (fun a b => exists env', length env' = 43%nat /\
      (forall j, en env' j = exec ms (en env) j) /\ K env' a b).
  Proof.
    intros Hs. induction ms as [|[i e|i x y e|x y e] t IH]; intros env q10 q12 K L; cbn [trace oks ops chain exec].
    - intros H. split; [exact I|]. exists env. auto.
    - intros (F & v & -> & H). unfold small in Hs. cbn in Hs. apply andb_true_iff in Hs. destruct Hs as [Hi Hs].
      apply Nat.leb_le in Hi. apply (IH Hs) in H; [|rewrite lset_length; exact L]. destruct H as [H1 H2].
      assert (E : forall j, en (lset env i (fe T A env e)) j = upd (en env) i (ef (en env) e) j).
      { intros j. rewrite en_lset by lia. unfold upd. rewrite fe_ef. reflexivity. }
      split.
      + split; [apply fok_efok, F|]. eapply oks_ext; [|exact H1]. exact E.
      + rewrite (ops_ext _ _ _ _ E) in H2. revert H2. apply chain_mono'.
        intros a b (env' & L' & E' & HK). exists env'. split; [exact L'|]. split; [|exact HK].
        intros j. rewrite E'. apply exec_ext, E.
    - intros (q & R & S & H). apply (IH Hs) in H; [|exact L]. destruct H as [H1 H2]. split; [exact H1|].
      exists q, R. rewrite <- fe_ef. cbn [fst snd]. auto.
    - intros (R & Q & S & SA & H). apply (IH Hs) in H; [|exact L]. destruct H as [H1 H2]. split; [exact H1|].
      exists R, Q. rewrite <- fe_ef. cbn [fst snd]. auto.
  Qed.
End Exec.

Lemma all_small : small (group prog1) = true /\ small (group prog2) = true /\ small (group prog3) = true.
Proof. repeat split; vm_compute; reflexivity. Qed.

(** the registers at the start: challenges 2..9 *)
Definition regs (B : list Z) : nat -> Fr := fun j => fc (nth j B 0).

Lemma en_map B j : en (map fc B) j = regs B j.
Proof. unfold en, regs. change (0%fr) with (fc 0). apply map_nth. Qed.

Lemma exec12 O T A B s b1 s1 b2 s2 : length B = 43%nat ->
  (forall j, (2 <= j < 10)%nat -> 0 <= nth j B 0 < r_mod) ->
  VerifyProof1 O Test (map VBig T) (map VBig A) (map VBig B) s = Done ((b1, None), s1) ->
  VerifyProof2 O Test (map VBig T) (map VBig A) b1 s1 = Done ((b2, None), s2) ->
  oks T A (group prog1) (regs B) /\ oks T A (group prog2) (exec T A (group prog1) (regs B)) /\
  nth_error b2 18 = Some (VBig (val (exec T A (group prog2) (exec T A (group prog1) (regs B)) 18%nat))).
Proof.
  intros L C H1 H2. destruct (steps12_trace O T A B s b1 s1 b2 s2 L C H1 H2)
    as (-> & -> & B2 & D2 & -> & L2 & E2 & K2 & I18 & _ & T2).
  destruct all_small as (S1 & S2 & _).
  apply trace_exec in T2; [|exact S1 | rewrite map_length; exact L]. destruct T2 as [K1 Ch].
  assert (G : exists q10 q12 env', length env' = 43%nat /\
            (forall j, en env' j = exec T A (group prog1) (en (map fc B)) j) /\
            trace O T A (b01_of B) (group prog2) env' q10 q12 (post B2)).
  { clear -Ch. revert Ch.
    match goal with |- chain O ?l ?a ?b ?K -> _ => generalize l a b end.
    induction l as [|[i P s|P s] t IH]; intros q10 q12; cbn [chain].
    - intros (env' & X). exists q10, q12, env'. exact X.
    - intros (q & R & _ & H). exact (IH _ _ H).
    - intros (R & Q & _ & _ & H). exact (IH _ _ H). }
  destruct G as (q10 & q12 & env' & L' & E' & T3).
  apply trace_exec in T3; [|exact S2 | exact L']. destruct T3 as [K3 Ch2].
  pose proof (fun j => eq_trans (E' j) (exec_ext T A (group prog1) _ _ (en_map B) j)) as E1.
  split; [eapply oks_ext; [apply en_map | exact K1]|].
  split; [eapply oks_ext; [exact E1 | exact K3]|].
  assert (G : exists env2, length env2 = 43%nat /\ (forall j, en env2 j = exec T A (group prog2) (en env') j) /\ agree B2 env2).
  { clear -Ch2. revert Ch2.
    match goal with |- chain O ?l ?a ?b ?K -> _ => generalize l a b end.
    induction l as [|[i P s|P s] t IH]; intros q10' q12'; cbn [chain].
    - intros (env2 & L2 & E & (Ag & _)). exists env2. auto.
    - intros (q & R & _ & H). exact (IH _ _ H).
    - intros (R & Q & _ & _ & H). exact (IH _ _ H). }
  destruct G as (env2 & L3 & E3 & Ag).
  rewrite nth_error_map. destruct (K2 18%nat I18) as [_ R18].
  rewrite (nth_error_nth' B2 0) by (rewrite L2; lia). cbn [option_map].
  specialize (Ag 18%nat eq_refl). rewrite E3, (exec_ext T A (group prog2) _ _ E1) in Ag.
  rewrite <- Ag, val_canon by exact R18. reflexivity.
Qed.

Lemma exec123 O T A B s b1 s1 b2 s2 b3 s3 : length B = 43%nat ->
  (forall j, (2 <= j < 10)%nat -> 0 <= nth j B 0 < r_mod) ->
  VerifyProof1 O Test (map VBig T) (map VBig A) (map VBig B) s = Done ((b1, None), s1) ->
  VerifyProof2 O Test (map VBig T) (map VBig A) b1 s1 = Done ((b2, None), s2) ->
  VerifyProof3 O Test (map VBig T) (map VBig A) b2 s2 = Done ((b3, None), s3) ->
  s3 = s /\
  let ms := group prog1 ++ group prog2 ++ group prog3 in
  oks T A ms (regs B) /\
  exists B3, b3 = map VBig B3 /\ length B3 = 43%nat /\
    chain O (ops T A (b01_of B) ms (regs B)) (q_of 10 B) (q_of 12 B) (fun a b => a = q_of 10 B3 /\ b = q_of 12 B3).
Proof.
  intros L C H1 H2 H3. destruct (steps_trace O T A B s b1 s1 b2 s2 b3 s3 L C H1 H2 H3) as (-> & B3 & -> & L3 & T3).
  split; [reflexivity|]. cbv zeta.
  destruct all_small as (S1 & S2 & S3).
  set (ms := group prog1 ++ group prog2 ++ group prog3).
  assert (Sm : small ms = true).
  { unfold small, ms, writes in *. rewrite !flat_map_app, !forallb_app, S1, S2, S3. reflexivity. }
  assert (Tr : trace O T A (b01_of B) ms (map fc B) (q_of 10 B) (q_of 12 B) (post B3)).
  { unfold ms. apply trace_app. revert T3. apply trace_mono. intros e a b H. apply trace_app. exact H. }
  apply trace_exec in Tr; [|exact Sm | rewrite map_length; exact L]. destruct Tr as [Ok Ch].
  rewrite (ops_ext T A _ _ _ _ (en_map B)) in Ch.
  split; [eapply oks_ext; [apply en_map | exact Ok]|]. exists B3. split; [reflexivity|]. split; [exact L3|].
  revert Ch. apply chain_mono'. intros a b (env' & _ & _ & (_ & _ & -> & ->)). auto.
Qed.
