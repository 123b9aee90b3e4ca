(** Grand products: the permutation and lookup arguments. *)
From Coq Require Import ZArith Lia Bool List Permutation Ring Field.
From Verif Require Import Params NumThy FField FpField SpecVerify SpecPoly SpecRows SpecPlonk P_Fr P_Curve P_Dom P_VSpec P_Honest P_Shplonk P_Poly P_Open P_Rows P_Snark.
Import ListNotations.
Open Scope Z_scope.

Local Opaque p_mod r_mod.
Local Opaque phi fmul fadd fsub fopp fdiv finv.
Local Opaque rot fzpow fexp omega delta dom_n.

(** ** bounded search over rows *)
Lemma nat_all_dec (P : nat -> Prop) : (forall i, {P i} + {~ P i}) -> forall n, (forall i, (i < n)%nat -> P i) \/ (exists i, (i < n)%nat /\ ~ P i).
Proof.
  intros D n. induction n as [|n [IH|(i & Hi & N)]]; [left; lia| |right; exists i; split; [lia|exact N]].
  destruct (D n) as [Y|N]; [left|right; exists n; split; [lia|exact N]]. intros i Hi. destruct (Nat.eq_dec i n) as [->|]; [exact Y|apply IH; lia].
Qed.
Lemma row_all_dec (P : Z -> Prop) n : (forall i, {P i} + {~ P i}) -> (forall j, 0 <= j < n -> P j) \/ (exists j, 0 <= j < n /\ ~ P j).
Proof.
  intros D. destruct (nat_all_dec (fun i => P (Z.of_nat i)) (fun i => D (Z.of_nat i)) (Z.to_nat n)) as [A|(i & Hi & N)].
  - left. intros j Hj. specialize (A (Z.to_nat j) ltac:(lia)). rewrite Z2Nat.id in A by lia. exact A.
  - right. exists (Z.of_nat i). split; [lia|exact N].
Qed.

(** ** products *)
Definition pr (l : list Fr) (X : Fr) : Fr := prod (map (fun v => v + X)%fr l).
Lemma pr_cons v l X : pr (v :: l) X = ((v + X) * pr l X)%fr. Proof. unfold pr. cbn [map]. apply prod_cons. Qed.
Lemma pr_nil X : pr [] X = 1%fr. Proof. reflexivity. Qed.
Lemma pr_app l l' X : pr (l ++ l') X = (pr l X * pr l' X)%fr.
Proof. induction l as [|v l IH]; cbn [app]; rewrite ?pr_nil, ?pr_cons, ?IH; ring. Qed.
Lemma pr_zero l X : pr l X = 0%fr -> In X (map (fun v => - v)%fr l).
Proof.
  induction l as [|v l IH]; intros H; [destruct (fr_1_0 H)|]. rewrite pr_cons in H. apply mul_eq0 in H. cbn [map]. destruct H as [H|H]; [left|right; apply IH, H].
  transitivity (- (v + X) + X)%fr; [ring|]. rewrite H. ring.
Qed.
Lemma pr_root e l : In e l -> pr l (- e)%fr = 0%fr.
Proof.
  induction l as [|v l IH]; intros H; [destruct H|]. rewrite pr_cons. destruct H as [->|H]; [ring|rewrite IH by exact H; ring].
Qed.
Lemma pr_nonroot e l : ~ In e l -> pr l (- e)%fr <> 0%fr.
Proof.
  intros H E. apply pr_zero in E. apply in_map_iff in E. destruct E as (v & E & Hv). apply H.
  replace e with v; [exact Hv|]. transitivity (- - v)%fr; [ring|]. rewrite E. ring.
Qed.
Lemma pr_monic l : exists g, length g = length l /\ forall X, peval (g ++ [1%fr]) X = pr l X.
Proof.
  induction l as [|v l [g [L E]]]; [exists []; split; [reflexivity|intros X; rewrite pr_nil; cbn [app]; rewrite peval_cons, peval_nil; ring]|].
  (* (v + X) (g + X^m) *)
  exists (padd_pol (0%fr :: g) (pscal v (g ++ [1%fr]))). split.
  - rewrite plus_length. unfold pscal. rewrite map_length, app_length. cbn [length]. lia.
  - intros X. rewrite pr_cons, <- E, peval_app, plus_eval, plus_length, pscal_eval, !peval_app, !peval_cons, !peval_nil.
    replace (Nat.max (length (0%fr :: g)) (length (pscal v (g ++ [1%fr])))) with (S (length g)) by (unfold pscal; rewrite map_length, app_length; cbn [length]; lia).
    rewrite Nat2Z.inj_succ. unfold Z.succ. rewrite fexp_add, fexp_1 by lia. ring.
Qed.
Lemma last_zero (g : pol) c : zero (g ++ [c]) -> c = 0%fr.
Proof. unfold zero. rewrite Forall_app. intros [_ H]. exact (Forall_inv H). Qed.
Lemma plus_app : forall (f g : pol) a b, length f = length g -> padd_pol (f ++ [a]) (g ++ [b]) = padd_pol f g ++ [(a + b)%fr].
Proof. induction f as [|x f IH]; intros [|y g] a b H; try discriminate; [reflexivity|]. cbn [app padd_pol]. rewrite IH by (cbn in H; lia). reflexivity. Qed.

(** c1 * prod(l1 + X) = c2 * prod(l2 + X) for few X only *)
Lemma few_equal c1 c2 l1 l2 : length l1 = length l2 -> c1 <> c2 \/ (c2 <> 0%fr /\ exists e, In e l1 /\ ~ In e l2) ->
  exists L, (length L <= length l1)%nat /\ forall X, (c1 * pr l1 X = c2 * pr l2 X)%fr -> In X L.
Proof.
  intros HL H. destruct (pr_monic l1) as [g1 [L1 E1]]. destruct (pr_monic l2) as [g2 [L2 E2]].
  set (f := padd_pol (pscal c1 (g1 ++ [1%fr])) (pscal (- c2)%fr (g2 ++ [1%fr]))).
  assert (Ef : forall X, peval f X = (c1 * pr l1 X - c2 * pr l2 X)%fr) by (intros X; unfold f; rewrite plus_eval, !pscal_eval, E1, E2; ring).
  destruct (few_roots f) as [L [LL HR]].
  - intros Z. destruct H as [N|(N & e & I1 & I2)].
    + apply N. unfold f, pscal in Z. rewrite !map_app in Z. cbn [map] in Z. rewrite plus_app in Z by (rewrite !map_length; lia).
      apply last_zero in Z. apply sub_eq0. rewrite <- Z. ring.
    + pose proof (zero_eval f (- e)%fr Z) as E. rewrite Ef, (pr_root e l1 I1) in E.
      apply (mul_nz c2 (pr l2 (- e)%fr) N (pr_nonroot e l2 I2)). transitivity (- (c1 * 0 - c2 * pr l2 (- e)))%fr; [ring|]. rewrite E. ring.
  - exists L. split.
    + assert (length f = S (length l1)) by (unfold f; rewrite plus_length; unfold pscal; rewrite !map_length, !app_length; cbn [length]; lia). lia.
    + intros X HX. apply HR. rewrite Ef, HX. ring.
Qed.

(** z 0 prod B = z m prod A *)
Lemma telescope (z A B : nat -> Fr) m : (forall i, (i < m)%nat -> (z (S i) * A i = z i * B i)%fr) ->
  (z m * prod (map A (seq 0 m)) = z 0%nat * prod (map B (seq 0 m)))%fr.
Proof.
  induction m as [|m IH]; intros H; [cbn [seq map]; reflexivity|]. rewrite seq_S, !map_app, !prod_app. cbn [map Nat.add]. rewrite !prod_cons.
  transitivity ((z (S m) * A m) * prod (map A (seq 0 m)) * prod [])%fr; [ring|]. rewrite H by lia.
  transitivity (B m * (z m * prod (map A (seq 0 m))) * prod [])%fr; [ring|]. rewrite IH by (intros; apply H; lia). ring.
Qed.

(** values a + beta b collide for few beta only *)
Lemma collide a0 b0 (l : list (Fr * Fr)) : ~ In (a0, b0) l -> exists Bs, length Bs = length l /\
  forall be, ~ In be Bs -> ~ In (a0 + be * b0)%fr (map (fun ab => fst ab + be * snd ab)%fr l).
Proof.
  induction l as [|[a b] l IH]; intros H; [exists []; split; [reflexivity|intros be _ []]|]. destruct IH as [Bs [LB HB]]; [intros I; apply H; right; exact I|].
  exists (((a - a0) / (b0 - b))%fr :: Bs). split; [cbn [length]; lia|]. intros be N. cbn [map fst snd In]. intros [E|E].
  - destruct (fr_dec b0 b) as [Eb|Nb].
    + apply H. left. f_equal; [|congruence]. apply sub_eq0. rewrite Eb in E. transitivity (a + be * b - be * b - a0)%fr; [ring|]. rewrite E. ring.
    + apply N. left. symmetry. apply fdiv_unique; [apply sub_nz; exact Nb|].
      transitivity ((a0 + be * b0) - be * b - a0)%fr; [ring|]. rewrite <- E. ring.
  - apply (HB be); [intros I; apply N; right; exact I|exact E].
Qed.

(** ** the two arguments on values *)
Lemma perm_few (L1 L2 : list (Fr * Fr)) a0 b0 : length L1 = length L2 -> In (a0, b0) L1 -> ~ In (a0, b0) L2 ->
  let vals be := map (fun ab => fst ab + be * snd ab)%fr in
  exists Bs, length Bs = length L1 /\ forall be, ~ In be Bs ->
  exists Gs, (length Gs <= 2 * length L1)%nat /\ forall ga, ~ In ga Gs ->
  forall z, z = 0%fr \/ z = 1%fr -> (z * pr (vals be L1) ga)%fr <> pr (vals be L2) ga.
Proof.
  intros HL I1 I2 vals. destruct (collide a0 b0 L2 I2) as [Bs [LB HB]]. exists Bs. split; [lia|]. intros be Hbe. specialize (HB be Hbe).
  assert (LV : length (vals be L1) = length (vals be L2)) by (unfold vals; rewrite !map_length; exact HL).
  destruct (few_equal 1%fr 1%fr (vals be L1) (vals be L2) LV) as [G [LG HG]].
  { right. split; [exact fr_1_0|]. exists (a0 + be * b0)%fr. split; [|exact HB]. unfold vals. apply in_map_iff. exists (a0, b0). split; [reflexivity|exact I1]. }
  exists (G ++ map (fun v => - v)%fr (vals be L2)). split.
  - rewrite app_length, map_length, <- LV. unfold vals in *. rewrite !map_length in *. lia.
  - intros ga Hga z Hz E. destruct Hz as [-> | ->].
    + apply Hga, in_app_iff. right. apply pr_zero. rewrite <- E. ring.
    + apply Hga, in_app_iff. left. apply HG. rewrite E. ring.
Qed.

Lemma pr_map {A} (f : A -> Fr) l X : pr (map f l) X = prod (map (fun a => f a + X)%fr l).
Proof. unfold pr. rewrite map_map. reflexivity. Qed.

Lemma lookup_few m (a s f t : nat -> Fr) i0 : (a 0%nat = s 0%nat) -> (forall i, (S i < m)%nat -> a (S i) = s (S i) \/ a (S i) = a i) ->
  (i0 < m)%nat -> (forall i, (i < m)%nat -> f i0 <> t i) ->
  exists Bs, (length Bs <= 2 * m)%nat /\ forall be, ~ In be Bs ->
  exists Gs, (length Gs <= 2 * m)%nat /\ forall ga, ~ In ga Gs ->
  forall z : nat -> Fr, z 0%nat = 1%fr -> z m = 0%fr \/ z m = 1%fr ->
    (forall i, (i < m)%nat -> (z (S i) * (a i + be) * (s i + ga) = z i * (f i + be) * (t i + ga))%fr) -> False.
Proof.
  intros H0 HS Hi Hf.
  set (la := map a (seq 0 m)). set (ls := map s (seq 0 m)). set (lf := map f (seq 0 m)). set (lt := map t (seq 0 m)).
  assert (La : length la = m) by (unfold la; rewrite map_length, seq_length; reflexivity).
  assert (Ls : length ls = m) by (unfold ls; rewrite map_length, seq_length; reflexivity).
  assert (Lf : length lf = m) by (unfold lf; rewrite map_length, seq_length; reflexivity).
  assert (Lt : length lt = m) by (unfold lt; rewrite map_length, seq_length; reflexivity).
  assert (If : In (f i0) lf) by (apply in_map, in_seq; lia).
  assert (Nt : ~ In (f i0) lt). { intros I. apply in_map_iff in I. destruct I as (i & E & I). apply in_seq in I. apply (Hf i); [lia|congruence]. }
  assert (TE : forall be ga (z : nat -> Fr), z 0%nat = 1%fr ->
    (forall i, (i < m)%nat -> (z (S i) * (a i + be) * (s i + ga) = z i * (f i + be) * (t i + ga))%fr) ->
    (z m * (pr la be * pr ls ga) = pr lf be * pr lt ga)%fr).
  { intros be ga z Z0 HZ. pose proof (telescope z (fun i => (a i + be) * (s i + ga))%fr (fun i => (f i + be) * (t i + ga))%fr m) as T.
    rewrite Z0 in T. unfold la, ls, lf, lt. rewrite !pr_map, <- !prod_map_mul. 
    transitivity (1 * prod (map (fun i => (f i + be) * (t i + ga)) (seq 0 m)))%fr; [|ring]. apply T. intros i Hi'. 
    transitivity (z (S i) * (a i + be) * (s i + ga))%fr; [ring|]. rewrite HZ by exact Hi'. ring. }
  destruct (in_dec fr_dec (f i0) la) as [Ia|Na].
  - assert (Is : In (f i0) ls).
    { apply in_map_iff in Ia. destruct Ia as (i1 & E1 & I1). apply in_seq in I1. destruct I1 as [_ I1]. cbn [Nat.add] in I1.
      revert E1 I1. induction i1 as [|i1 IH]; intros E1 I1.
      - rewrite <- E1, H0. apply in_map, in_seq. lia.
      - destruct (HS i1 I1) as [E|E]; [rewrite <- E1, E; apply in_map, in_seq; lia|apply IH; [congruence|lia]]. }
    exists (map (fun v => - v)%fr lf). split; [rewrite map_length; lia|]. intros be Hbe.
    assert (NF : pr lf be <> 0%fr) by (intros E; apply Hbe, pr_zero, E).
    destruct (few_equal (pr la be) (pr lf be) ls lt ltac:(lia)) as [G [LG HG]]; [right; split; [exact NF|eauto]|].
    exists (G ++ map (fun v => - v)%fr lt). split; [rewrite app_length, map_length; lia|]. intros ga Hga z Z0 ZM HZ.
    pose proof (TE be ga z Z0 HZ) as E. destruct ZM as [ZM|ZM]; rewrite ZM in E; apply Hga, in_app_iff.
    + right. apply pr_zero. assert (E0 : (pr lf be * pr lt ga = 0)%fr) by (rewrite <- E; ring). apply mul_eq0 in E0. destruct E0; [contradiction|assumption].
    + left. apply HG. rewrite <- E. ring.
  - destruct (few_equal 1%fr 1%fr lf la ltac:(lia)) as [B [LB HB]]; [right; split; [exact fr_1_0|eauto]|].
    exists (B ++ map (fun v => - v)%fr lf). split; [rewrite app_length, map_length; lia|]. intros be Hbe.
    assert (NF : pr lf be <> 0%fr) by (intros E; apply Hbe, in_app_iff; right; apply pr_zero, E).
    assert (NE : pr la be <> pr lf be) by (intros E; apply Hbe, in_app_iff; left; apply HB; rewrite E; reflexivity).
    destruct (few_equal (pr la be) (pr lf be) ls lt ltac:(lia)) as [G [LG HG]]; [left; exact NE|].
    exists (G ++ map (fun v => - v)%fr lt). split; [rewrite app_length, map_length; lia|]. intros ga Hga z Z0 ZM HZ.
    pose proof (TE be ga z Z0 HZ) as E. destruct ZM as [ZM|ZM]; rewrite ZM in E; apply Hga, in_app_iff.
    + right. apply pr_zero. assert (E0 : (pr lf be * pr lt ga = 0)%fr) by (rewrite <- E; ring). apply mul_eq0 in E0. destruct E0; [contradiction|assumption].
    + left. apply HG. rewrite <- E. ring.
Qed.
