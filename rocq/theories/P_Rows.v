(** The constraint expressions as polynomials: their values on the rows of the domain, their degrees, and the quotient. *)
From Coq Require Import ZArith Lia Bool List Permutation Ring Field.
From Verif Require Import Params NumThy FField FpField SpecVerify SpecPoly SpecRows P_Fr P_Curve P_Dom P_VSpec P_Honest P_Shplonk P_Poly P_Open.
Import ListNotations.
Open Scope Z_scope.

Local Opaque p_mod r_mod.
Local Opaque phi fmul fadd fsub fopp fdiv finv.
Notation dn := (2 ^ dom_k)%nat.

(** ** Lagrange polynomials on the rows *)
Lemma dn_n : Z.of_nat dn = dom_n. Proof. rewrite pow_Z. reflexivity. Qed.
Lemma dom_6 : 6 < dom_n. Proof. reflexivity. Qed.
Lemma mod_neg p : (p <= 6)%positive -> Z.neg p mod dom_n = dom_n - Z.pos p.
Proof. intros H. pose proof dom_6. symmetry. apply (Z.mod_unique_pos _ _ (-1)); lia. Qed.
Lemma node_in k : In k (map Z.of_nat (seq 0 (Z.to_nat dom_n))) <-> 0 <= k < dom_n.
Proof.
  rewrite dom_nat, in_map_iff. rewrite <- dn_n. split.
  - intros (m & <- & H). apply in_seq in H. lia.
  - intros H. exists (Z.to_nat k). split; [lia|]. apply in_seq. lia.
Qed.
Lemma omega_inj a b : 0 <= a < dom_n -> 0 <= b < dom_n -> fexp omega a = fexp omega b -> a = b.
Proof.
  intros Ha Hb E. rewrite <- (Z.mod_small a dom_n), <- (Z.mod_small b dom_n) by assumption. apply fzpow_inj.
  rewrite !fzpow_mod, !Z.mod_small by assumption. exact E.
Qed.
Local Opaque rot fzpow fexp omega delta dom_n.

Lemma lp_row j i : 0 <= j < dom_n -> lagrange_poly (fexp omega j) i = if j =? i mod dom_n then 1%fr else 0%fr.
Proof.
  intros Hj. unfold lagrange_poly. pose proof (Z.mod_pos_bound i dom_n ltac:(pose proof dom_6; lia)) as Hk. set (k := i mod dom_n) in *. clearbody k.
  destruct (Z.eqb_spec j k) as [->|N].
  - assert (H : forall i, In i (filter (fun j => negb (j =? k)) (map Z.of_nat (seq 0 (Z.to_nat dom_n)))) -> (fexp omega k - fexp omega i)%fr <> 0%fr).
    { intros m Hm. pose proof (proj1 (filter_In _ _ _) Hm) as [Hm' Nm]. clear Hm. pose proof (proj1 (node_in m) Hm') as Hm. clear Hm'. apply sub_nz. intros E.
      apply omega_inj in E; try assumption. subst m. rewrite Z.eqb_refl in Nm. discriminate. }
    revert H. generalize (filter (fun j => negb (j =? k)) (map Z.of_nat (seq 0 (Z.to_nat dom_n)))). intros l H.
    induction l as [|m l IH]; [reflexivity|]. cbn [map]. rewrite prod_cons, IH by (intros a Ha; apply H; right; exact Ha).
    rewrite fdiv_inv, inv_r by (apply H; left; reflexivity). ring.
  - apply prod_zero. apply in_map_iff. exists j. split; [rewrite fdiv_inv; ring|]. refine (proj2 (filter_In _ _ _) (conj (proj2 (node_in j) Hj) _)).
    destruct (Z.eqb_spec j k); [contradiction|reflexivity].
Qed.

Lemma lp_pol i : ispol dn (fun X => lagrange_poly X i).
Proof.
  unfold lagrange_poly. set (k := i mod dom_n). 
  assert (L : (S (length (filter (fun j => negb (j =? k)%Z) (map Z.of_nat (seq 0 (Z.to_nat dom_n))))) <= dn)%nat).
  { assert (Hk : In k (map Z.of_nat (seq 0 (Z.to_nat dom_n)))) by (refine (proj2 (node_in k) (Z.mod_pos_bound _ _ _)); pose proof dom_6; lia).
    replace dn with (length (map Z.of_nat (seq 0 (Z.to_nat dom_n)))) by (rewrite map_length, seq_length; apply dom_nat).
    revert Hk. generalize (map Z.of_nat (seq 0 (Z.to_nat dom_n))). clear. intros l. induction l as [|a l IH]; intros H; [destruct H|].
    cbn [filter length]. destruct (Z.eqb_spec a k) as [->|N]; cbn [negb].
    - pose proof (filter_length_le_ (fun j => negb (j =? k)) l). lia.
    - destruct H as [H|H]; [contradiction|]. specialize (IH H). cbn [length]. lia. }
  eapply ispol_le; [exact L|]. generalize (filter (fun j => negb (j =? k)) (map Z.of_nat (seq 0 (Z.to_nat dom_n)))). intros l. clear L.
  eapply ispol_ext; [|eapply ispol_le; [|apply (ispol_prod 1 (fexp omega) (fun _ => prod (map (fun j => frinv (fexp omega k - fexp omega j)%fr) l)) l), ispol_const]; lia].
  intros X. cbv beta. rewrite <- prod_map_mul. reflexivity.
Qed.

Definition lact (X : Fr) : Fr := (1 - (lagrange_poly X (-6) + sum (map (lagrange_poly X) [-5; -4; -3; -2; -1])))%fr.
Lemma lact_row j : 0 <= j < dom_n -> lact (fexp omega j) = if j <? dom_n - 6 then 1%fr else 0%fr.
Proof.
  intros Hj. unfold lact. cbn [map sum fold_right]. rewrite !lp_row by exact Hj.
  rewrite (mod_neg 6%positive), (mod_neg 5%positive), (mod_neg 4%positive), (mod_neg 3%positive), (mod_neg 2%positive), (mod_neg 1%positive) by lia.
  destruct (Z.ltb_spec j (dom_n - 6)).
  - repeat match goal with |- context [if ?a =? ?b then _ else _] => destruct (Z.eqb_spec a b); [exfalso; lia|] end. ring.
  - assert (C : j = dom_n - 6 \/ j = dom_n - 5 \/ j = dom_n - 4 \/ j = dom_n - 3 \/ j = dom_n - 2 \/ j = dom_n - 1) by lia.
    destruct C as [C|[C|[C|[C|[C|C]]]]];
    repeat match goal with |- context [if ?a =? ?b then _ else _] => destruct (Z.eqb_spec a b); try (exfalso; lia) end; ring.
Qed.

(** ** The expressions over given Lagrange values *)
Section Exprs.
  Variables (l0 ll la : Fr) (t : nat -> Fr) (theta beta gamma x : Fr).
  Local Open Scope fr_scope.
  Definition chunk_w (z zw : Fr) (cols : list (Z * Fr * Fr)) : Fr :=
    (zw * prod (map (fun '(_, c, s) => c + beta * s + gamma) cols) -
     z * prod (map (fun '(k, c, _) => c + fexp delta k * beta * x + gamma) cols)) * la.
  Definition lookup_w (z zw a a' s input table : Fr) : list Fr :=
    [l0 * (1 - z); ll * (z * z - z); (zw * (a + beta) * (s + gamma) - z * (input + beta) * (table + gamma)) * la;
     l0 * (a - s); (a - s) * (a - a') * la].
  Definition exprs_w : list Fr :=
    gates t ++
    [l0 * (1 - t 79%nat); ll * (t 88%nat * t 88%nat - t 88%nat); l0 * (t 82%nat - t 81%nat); l0 * (t 85%nat - t 84%nat);
     l0 * (t 88%nat - t 87%nat);
     chunk_w (t 79%nat) (t 80%nat) [(0, t 45%nat, t 72%nat); (1, t 46%nat, t 73%nat)]%Z;
     chunk_w (t 82%nat) (t 83%nat) [(2, t 47%nat, t 74%nat); (3, t 48%nat, t 75%nat)]%Z;
     chunk_w (t 85%nat) (t 86%nat) [(4, t 49%nat, t 76%nat); (5, t 51%nat, t 77%nat)]%Z;
     chunk_w (t 88%nat) (t 89%nat) [(6, t 44%nat, t 78%nat)]%Z] ++
    lookup_w (t 90%nat) (t 91%nat) (t 92%nat) (t 93%nat) (t 94%nat) (t 67%nat * theta + t 52%nat) (t 68%nat * theta + t 69%nat) ++
    lookup_w (t 95%nat) (t 96%nat) (t 97%nat) (t 98%nat) (t 99%nat) (fc 18 * theta + t 53%nat) (t 68%nat * theta + t 69%nat).
End Exprs.
Lemma exprs_w_eq t th be ga x : exprs_w (l_0 x) (l_last x) (l_active x) t th be ga x = expressions t th be ga x.
Proof. reflexivity. Qed.

(** the expressions depend on the cells 44..99 only *)
Lemma expressions_ext t t' th be ga x : (forall i, (44 <= i < 100)%nat -> t i = t' i) -> expressions t th be ga x = expressions t' th be ga x.
Proof.
  intros H. assert (E : forall t, expressions t th be ga x = expressions (fun i => nth (i - 44) (map t (seq 44 56)) 0%fr) th be ga x) by (intros; reflexivity).
  rewrite (E t), (E t'). replace (map t' (seq 44 56)) with (map t (seq 44 56)); [reflexivity|].
  apply map_ext_in. intros i Hi. apply in_seq in Hi. apply H. lia.
Qed.

Section Cols.
  Variables (inst : pol) (adv fixd sigm : nat -> pol) (theta beta gamma : Fr).
  Notation cellX := (cell inst adv fixd sigm).
  Notation ok := (row_ok inst adv fixd sigm theta beta gamma).
  Definition exprs (X : Fr) : list Fr :=
    exprs_w (lagrange_poly X 0) (lagrange_poly X (-6)) (lact X) (cellX X) theta beta gamma X.

  Lemma exprs_outside x : fexp x dom_n <> 1%fr -> exprs x = expressions (cellX x) theta beta gamma x.
  Proof.
    intros Hx. rewrite <- exprs_w_eq. unfold exprs. 
    replace (lact x) with (l_active x); [unfold l_0, l_last; rewrite <- !lagrange_is_poly by exact Hx; reflexivity|].
    unfold lact, l_active, l_last, l_blind. cbn [map sum fold_right]. rewrite <- !lagrange_is_poly by exact Hx. reflexivity.
  Qed.

  Lemma zero_if (b : bool) e : ((if b then 1 else 0) * e = 0)%fr <-> (b = true -> e = 0%fr).
  Proof.
    destruct b; split; intros H.
    - intros _. rewrite <- H. ring.
    - rewrite H by reflexivity. ring.
    - discriminate.
    - ring.
  Qed.
  Lemma zero_if_r (b : bool) e : (e * (if b then 1 else 0) = 0)%fr <-> (b = true -> e = 0%fr).
  Proof. rewrite <- (zero_if b e). destruct b; split; intros H; (refine (eq_trans _ H); ring). Qed.
  Lemma sub_0 a b : (a - b = 0)%fr <-> a = b.
  Proof. split; [apply sub_eq0|intros ->; ring]. Qed.
  Lemma mul_0 a b : (a * b = 0)%fr <-> a = 0%fr \/ b = 0%fr.
  Proof. split; [apply mul_eq0|intros [-> | ->]; ring]. Qed.
  Lemma sq_0 z : (z * z - z = 0)%fr <-> z = 0%fr \/ z = 1%fr.
  Proof.
    replace (z * z - z)%fr with (z * (z - 1))%fr by ring. rewrite mul_0, sub_0. reflexivity.
  Qed.
  Lemma pick_0 t k : pick t k = 0%fr <-> In (t 70%nat) (map (fun j => fc j) (filter (fun j => negb (j =? k)%Z) [0; 1; 2; 3]%Z)).
  Proof.
    unfold pick. induction (filter (fun j => negb (j =? k)) [0; 1; 2; 3]) as [|a l IH]; cbn [map].
    - split; [intros H; destruct (fr_1_0 H)|intros []].
    - rewrite prod_cons, mul_0, IH, sub_0. cbn [In]. split; (intros [H|H]; [left; congruence|right; exact H]).
  Qed.
  Lemma gate_0 t k e : (e * pick t k = 0)%fr <-> (~ In (t 70%nat) (map (fun j => fc j) (filter (fun j => negb (j =? k)%Z) [0; 1; 2; 3]%Z)) -> e = 0%fr).
  Proof.
    rewrite mul_0, pick_0. split.
    - intros [H|H] N; [exact H|contradiction].
    - intros H. destruct (in_dec fr_dec (t 70%nat) (map (fun j => fc j) (filter (fun j => negb (j =? k)%Z) [0; 1; 2; 3]%Z))) as [I|I]; [right; exact I|left; exact (H I)].
  Qed.
  Lemma one_z z : (1 - z = 0)%fr <-> z = 1%fr.
  Proof. rewrite sub_0. split; congruence. Qed.

  (** all expressions vanish on a row exactly when the row satisfies its constraints *)
  Lemma row_iff j : 0 <= j < dom_n -> (Forall (fun e => e = 0%fr) (exprs (fexp omega j)) <-> ok j).
  Proof.
    intros Hj. unfold exprs. rewrite !lp_row, lact_row by exact Hj. rewrite (mod_neg 6%positive) by lia. rewrite Z.mod_0_l by (pose proof dom_6; lia).
    unfold exprs_w, gates, chunk_w, lookup_w. cbn [app].
    unfold row_ok, product_step, lookup_step.
    generalize (cellX (fexp omega j)). intros t. split.
    - intros H.
      repeat (let G := fresh "G" in pose proof (Forall_inv H) as G; cbv beta in G; apply Forall_inv_tail in H). clear H.
      repeat match goal with
      | G : ((if ?b then _ else _) * ?e = _)%fr |- _ => let K := fresh "K" in pose proof (proj1 (zero_if b e) G) as K; clear G
      | G : (?e * (if ?b then _ else _) = _)%fr |- _ => let K := fresh "K" in pose proof (proj1 (zero_if_r b e) G) as K; clear G
      | G : (?e * pick ?u ?k = _)%fr |- _ => let K := fresh "K" in pose proof (proj1 (gate_0 u k e) G) as K; clear G
      end.
      split; [assumption|]. split; [intros Hn; apply sub_eq0; auto|]. split; [intros Hn; apply sub_eq0; auto|]. split; [intros Hn; apply sub_eq0; auto|].
      split; [|split].
      + intros E. apply Z.eqb_eq in E.
        repeat match goal with G : (j =? 0) = true -> _ |- _ => specialize (G E) | G : _ = true -> _ |- _ => clear G end.
        repeat split; first [apply sub_eq0; assumption | apply one_z; assumption].
      + intros E. apply Z.eqb_eq in E.
        repeat match goal with G : (j =? dom_n - 6) = true -> _ |- _ => specialize (G E) | G : _ = true -> _ |- _ => clear G end.
        do 3 (apply Forall_cons; [apply sq_0; assumption|]). apply Forall_nil.
      + intros E. apply Z.ltb_lt in E.
        repeat match goal with G : (j <? dom_n - 6) = true -> _ |- _ => specialize (G E) | G : _ = true -> _ |- _ => clear G end.
        repeat split; try (apply sub_eq0; assumption).
        all: match goal with G : (?a * ?b = 0)%fr |- _ \/ _ => apply mul_0 in G; rewrite !sub_0 in G; assumption end.
    - intros (G1 & G2 & G3 & G4 & F & L & A).
      repeat (apply Forall_cons; [first
        [ exact G1
        | apply zero_if; intros E; apply Z.eqb_eq in E;
          first [ destruct (F E) as (? & ? & ? & ? & ? & ? & ? & ?); first [apply one_z; assumption|apply sub_0; assumption]
                | pose proof (L E) as L'; rewrite Forall_forall in L'; apply sq_0, L'; cbn [In]; auto ]
        | apply zero_if_r; intros E; apply Z.ltb_lt in E; destruct (A E) as (? & ? & ? & ? & (? & ?) & (? & ?));
          first [apply sub_0; assumption | apply mul_0; rewrite !sub_0; assumption]
        | apply gate_0; intros E; apply sub_0; first [exact (G2 E)|exact (G3 E)|exact (G4 E)] ]|]).
      constructor.
  Qed.

  (** ** degrees *)
  Variable D : nat.
  Hypothesis LI : (length inst <= S D)%nat.
  Hypothesis LA : forall i, (length (adv i) <= S D)%nat.
  Hypothesis LF : forall i, (length (fixd i) <= S D)%nat.
  Hypothesis LS : forall i, (length (sigm i) <= S D)%nat.
  Hypothesis LN : (dn <= S D)%nat.

  Definition deg (d : nat) (F : Fr -> Fr) : Prop := ispol (S d) F.
  Lemma deg_le d d' F : deg d F -> (d <= d')%nat -> deg d' F.
  Proof. intros H L. eapply ispol_le; [|exact H]. lia. Qed.
  Lemma deg_const c : deg 0 (fun _ => c). Proof. apply ispol_const. lia. Qed.
  Lemma deg_add d d' F G : deg d F -> deg d' G -> deg (Nat.max d d') (fun X => F X + G X)%fr.
  Proof. intros H H'. apply ispol_add; (eapply ispol_le; [|eassumption]); lia. Qed.
  Lemma deg_sub d d' F G : deg d F -> deg d' G -> deg (Nat.max d d') (fun X => F X - G X)%fr.
  Proof. intros H H'. apply ispol_sub; (eapply ispol_le; [|eassumption]); lia. Qed.
  Lemma deg_mul d d' F G : deg d F -> deg d' G -> deg (d + d') (fun X => F X * G X)%fr.
  Proof.
    intros [f [Lf Ef]] HG. enough (H : ispol (length f + d') (fun X => peval f X * G X)%fr).
    - eapply ispol_le; [|eapply ispol_ext; [|exact H]]; [lia|]. intros X. cbv beta. rewrite Ef. reflexivity.
    - clear F Ef d Lf. induction f as [|a f IH].
      + eapply ispol_ext; [|apply (ispol_0 d')]. intros X. cbv beta. rewrite peval_nil. ring.
      + eapply ispol_ext; [|apply (ispol_add _ (fun X => a * G X)%fr (fun X => (X - 0) * (peval f X * G X))%fr)].
        * intros X. cbv beta. rewrite peval_cons. ring.
        * apply ispol_scal. eapply ispol_le; [|exact HG]. cbn [length]. lia.
        * apply (ispol_lin (length f + d')). exact IH.
  Qed.
  Lemma ispol_dil n f c : (length f <= n)%nat -> ispol n (fun X => peval f (c * X)%fr).
  Proof.
    revert n. induction f as [|a f IH]; intros n L; [apply (ispol_0 n)|]. destruct n as [|n]; [cbn [length] in L; lia|].
    eapply ispol_ext; [|apply (ispol_add (S n) (fun _ => a) (fun X => (X - 0) * (c * peval f (c * X)))%fr)].
    - intros X. cbv beta. rewrite peval_cons. ring.
    - apply ispol_const. lia.
    - apply ispol_lin, ispol_scal, IH. cbn [length] in L. lia.
  Qed.
  Lemma rot_mul x k : rot x k = (fzpow omega k * x)%fr. Proof. apply rot_def. Qed.
  Lemma deg_cell i : deg D (fun X => cellX X i).
  Proof.
    unfold cell. destruct (find (fun c => (fst c =? i)%nat) (cells inst adv fixd sigm)) as [[m [f k]]|] eqn:E; [|apply (ispol_0 (S D))].
    apply find_some in E. destruct E as [E _].
    assert (L : (length f <= S D)%nat).
    { revert E. unfold cells. rewrite !in_app_iff. intros [E|[E|[E|[E|E]]]].
      - cbn [In] in E. repeat destruct E as [E|E]; try (apply pair_equal_spec in E; destruct E as [_ E]; apply pair_equal_spec in E; destruct E as [<- _]; auto); destruct E.
      - apply in_map_iff in E. destruct E as (n & E & _). apply pair_equal_spec in E; destruct E as [_ E]; apply pair_equal_spec in E; destruct E as [<- _]; auto.
      - cbn [In] in E. repeat destruct E as [E|E]; try (apply pair_equal_spec in E; destruct E as [_ E]; apply pair_equal_spec in E; destruct E as [<- _]; auto); destruct E.
      - apply in_map_iff in E. destruct E as (n & E & _). apply pair_equal_spec in E; destruct E as [_ E]; apply pair_equal_spec in E; destruct E as [<- _]; auto.
      - cbn [In] in E. repeat destruct E as [E|E]; try (apply pair_equal_spec in E; destruct E as [_ E]; apply pair_equal_spec in E; destruct E as [<- _]; auto); destruct E. }
    eapply ispol_ext; [|apply (ispol_dil (S D) f (fzpow omega k) L)]. intros X. cbv beta. rewrite rot_mul. reflexivity.
  Qed.
  Lemma deg_lp i : deg D (fun X => lagrange_poly X i).
  Proof. eapply ispol_le; [|apply lp_pol]. exact LN. Qed.
  Lemma deg_lact : deg D lact.
  Proof.
    eapply deg_le; [|].
    - unfold lact. cbn [map sum fold_right].
      eapply deg_sub; [apply deg_const|]. eapply deg_add; [apply deg_lp|].
      repeat (eapply deg_add; [apply deg_lp|]). apply deg_const.
    - lia.
  Qed.
  Lemma dn_2 : (2 <= dn)%nat.
  Proof. pose proof dom_6. rewrite <- dn_n in H. lia. Qed.
  Lemma deg_X : deg D (fun X => X).
  Proof.
    eapply ispol_ext; [|eapply ispol_le; [|apply (ispol_lin 1 0%fr (fun _ => 1%fr)), ispol_const; lia]].
    - intros X. cbv beta. ring.
    - pose proof dn_2. lia.
  Qed.

  Local Opaque lagrange_poly cell lact.
  Lemma len_exprs X : exprs X = map (fun i => nth i (exprs X) 0%fr) (seq 0 23).
  Proof. reflexivity. Qed.
  Ltac dtac := lazymatch goal with
    | |- deg _ (fun X => (@?a X + @?b X)%fr) => eapply deg_add; [dtac|dtac]
    | |- deg _ (fun X => (@?a X - @?b X)%fr) => eapply deg_sub; [dtac|dtac]
    | |- deg _ (fun X => (@?a X * @?b X)%fr) => eapply deg_mul; [dtac|dtac]
    | |- deg _ (fun X => cell _ _ _ _ X _) => apply deg_cell
    | |- deg _ (fun X => lagrange_poly X _) => apply deg_lp
    | |- deg _ (fun X => lact X) => apply deg_lact
    | |- deg _ lact => apply deg_lact
    | |- deg ?d (fmul ?m ?h ?c) => change (deg d (fun X => fmul m h c X)); eapply deg_mul; [apply deg_const|apply deg_X]
    | |- deg _ (fun X => X) => apply deg_X
    | |- _ => apply deg_const
    end.
  Lemma deg_exprs i : (i < 23)%nat -> deg (4 * D) (fun X => nth i (exprs X) 0%fr).
  Proof.
    pose proof dn_2 as D2.
    intros Hi. do 23 (destruct i as [|i]; [
      unfold exprs, exprs_w, gates, gate_main, limbs, pick, chunk_w, lookup_w; cbn [app nth length seq combine map filter Z.eqb Pos.eqb negb sum prod fold_right];
      eapply deg_le; [dtac|lia]
      |]). lia.
  Qed.
End Cols.
