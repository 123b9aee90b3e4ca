(** Polynomials over Z/r by their coefficients: division by linear factors, number of roots, functions given by
    polynomials of bounded length. *)
From Coq Require Import ZArith Lia Bool List Ring Field.
From Verif Require Import Params NumThy FField FpField SpecVerify SpecPoly SpecRows P_Fr P_Curve P_Dom P_Shplonk.
Import ListNotations.
Open Scope Z_scope.

Local Opaque p_mod r_mod.
Local Opaque phi fmul fadd fsub fopp fdiv finv.

Lemma fr_dec (a b : Fr) : {a = b} + {a <> b}. Proof. exact (F_dec r_mod a b). Qed.
Lemma mul_eq0 (a b : Fr) : (a * b = 0)%fr -> a = 0%fr \/ b = 0%fr.
Proof. apply (fmul_eq0 r_mod r_gt1 prime_r). Qed.
Lemma mul_nz (a b : Fr) : a <> 0%fr -> b <> 0%fr -> (a * b)%fr <> 0%fr.
Proof. intros Ha Hb E. apply mul_eq0 in E. destruct E; contradiction. Qed.
Lemma sub_eq0 (a b : Fr) : (a - b = 0)%fr -> a = b.
Proof. intros E. transitivity (a - b + b)%fr; [ring|]. rewrite E. ring. Qed.

(** decidable search in the finite field *)
Lemma fr_search (P : Fr -> Prop) : (forall a, {P a} + {~ P a}) -> (exists a, P a) \/ (forall a, ~ P a).
Proof.
  intros D. assert (H : forall n, (exists z, (z < n)%nat /\ P (fc (Z.of_nat z))) \/ (forall z, (z < n)%nat -> ~ P (fc (Z.of_nat z)))).
  { intros n. induction n as [|n [[z [Hz Hp]]|IH]]; [right; lia|left; exists z; split; [lia|exact Hp]|].
    destruct (D (fc (Z.of_nat n))) as [Y|N]; [left; exists n; split; [lia|exact Y]|right]. intros z Hz.
    destruct (Nat.eq_dec z n) as [->|]; [exact N|apply IH; lia]. }
  destruct (H (Z.to_nat r_mod)) as [[z [_ Hp]]|N]; [left; eauto|right]. intros a.
  pose proof (val_range a) as R. specialize (N (Z.to_nat (val a)) ltac:(lia)).
  rewrite Z2Nat.id, phi_val in N by (apply r_gt1 || lia). exact N.
Qed.

Lemma peval_nil X : peval [] X = 0%fr. Proof. reflexivity. Qed.
Lemma peval_cons c f X : peval (c :: f) X = (c + X * peval f X)%fr. Proof. reflexivity. Qed.

(** ** division by X - a *)
Fixpoint pdiv (a : Fr) (f : pol) : pol :=
  match f with [] => [] | _ :: f' => match f' with [] => [] | _ => peval f' a :: pdiv a f' end end.
Lemma pdiv_length a f : length (pdiv a f) = pred (length f).
Proof. induction f as [|c [|c' f] IH]; try reflexivity. cbn [pdiv length] in *. rewrite IH. reflexivity. Qed.
Lemma pdiv_eval a f X : peval f X = (peval f a + (X - a) * peval (pdiv a f) X)%fr.
Proof.
  induction f as [|c f IH]; [rewrite !peval_nil; ring|]. destruct f as [|c' f].
  - cbn [pdiv]. rewrite !peval_cons, !peval_nil. ring.
  - change (pdiv a (c :: c' :: f)) with (peval (c' :: f) a :: pdiv a (c' :: f)). rewrite (peval_cons c), IH, (peval_cons c), (peval_cons _ (pdiv _ _)). ring.
Qed.
Definition zero (f : pol) : Prop := Forall (fun c => c = 0%fr) f.
Lemma zero_dec f : {zero f} + {~ zero f}. Proof. apply Forall_dec. intros c. apply fr_dec. Qed.
Lemma zero_eval f X : zero f -> peval f X = 0%fr.
Proof. intros H. induction H as [|c f -> H IH]; [reflexivity|]. rewrite peval_cons, IH. ring. Qed.
Lemma pdiv_zero a f : zero (pdiv a f) -> zero (tl f).
Proof.
  induction f as [|c f IH]; intros H; [constructor|]. destruct f as [|c' f]; [constructor|].
  change (pdiv a (c :: c' :: f)) with (peval (c' :: f) a :: pdiv a (c' :: f)) in H. inversion H as [|? ? H1 H2]; subst.
  specialize (IH H2). cbn [tl] in IH |- *. constructor; [|exact IH]. rewrite (zero_eval f a IH) in H1.
  rewrite <- H1. ring.
Qed.

(** a polynomial with a non-zero coefficient has fewer roots than coefficients *)
Lemma few_roots f : ~ zero f -> exists L, (length L <= pred (length f))%nat /\ forall X, peval f X = 0%fr -> In X L.
Proof.
  remember (length f) as n eqn:En. revert f En. induction n as [|n IH]; intros f En Hn.
  - destruct f; [|discriminate]. destruct Hn. constructor.
  - destruct (fr_search (fun X => peval f X = 0%fr)) as [[a Ha]|N]; [intros; apply fr_dec| |].
    + destruct (IH (pdiv a f)) as [L [HL HR]].
      * rewrite pdiv_length, <- En. reflexivity.
      * intros Z. apply Hn. apply pdiv_zero in Z. destruct f as [|c f]; [constructor|]. cbn [tl] in Z. constructor; [|exact Z].
        rewrite peval_cons, (zero_eval f a Z) in Ha. rewrite <- Ha. ring.
      * exists (a :: L); split; [cbn [length]|].
        2: intros X HX; rewrite (pdiv_eval a), Ha in HX; destruct (fr_dec X a) as [->|NE]; [left; reflexivity|right; apply HR];
          assert (E : ((X - a) * peval (pdiv a f) X = 0)%fr) by (rewrite <- HX; ring); apply mul_eq0 in E; destruct E as [E|E]; [apply sub_eq0 in E; contradiction|exact E].
        destruct n as [|n]; [|cbn [pred] in *; lia].
        exfalso; apply Hn; destruct f as [|c [|c' f]]; try discriminate; rewrite peval_cons, peval_nil in Ha;
          constructor; [rewrite <- Ha; ring|constructor].
    + exists []. split; [cbn; lia|]. intros X HX. exact (N X HX).
Qed.

(** division by several linear factors *)
Lemma divide_roots : forall A f, NoDup A -> (forall a, In a A -> peval f a = 0%fr) ->
  exists q, (length q <= length f - length A)%nat /\ forall X, peval f X = (prod (map (fun a => X - a)%fr A) * peval q X)%fr.
Proof.
  induction A as [|a A IH]; intros f N H.
  - exists f. split; [cbn [length]; lia|]. intros X. cbn [map]. rewrite prod_nil. ring.
  - inversion N as [|? ? Na N']; subst. destruct (IH (pdiv a f) N') as [q [Hq Eq]].
    + intros b Hb. pose proof (H b (or_intror Hb)) as E. rewrite (pdiv_eval a), (H a (or_introl eq_refl)) in E.
      assert (E' : ((b - a) * peval (pdiv a f) b = 0)%fr) by (rewrite <- E; ring). apply mul_eq0 in E'.
      destruct E' as [E'|E']; [|exact E']. apply sub_eq0 in E'. subst b. contradiction.
    + exists q. split; [rewrite pdiv_length in Hq; cbn [length]; lia|]. intros X.
      rewrite (pdiv_eval a f X), (H a (or_introl eq_refl)), Eq. cbn [map]. rewrite prod_cons. ring.
Qed.

(** ** functions given by polynomials with at most n coefficients *)
Definition ispol (n : nat) (F : Fr -> Fr) : Prop := exists f, (length f <= n)%nat /\ forall X, peval f X = F X.

Notation plus := padd_pol.
Lemma plus_eval X : forall f g, peval (plus f g) X = (peval f X + peval g X)%fr.
Proof.
  induction f as [|a f IH]; intros [|b g]; cbn [padd_pol]; rewrite ?peval_nil; try ring. rewrite !peval_cons, IH. ring.
Qed.
Lemma plus_length : forall f g, length (plus f g) = Nat.max (length f) (length g).
Proof. induction f as [|a f IH]; intros [|b g]; cbn [padd_pol length]; try lia. rewrite IH. lia. Qed.
Lemma pscal_eval c f X : peval (pscal c f) X = (c * peval f X)%fr.
Proof. induction f as [|a f IH]; cbn [pscal map]; rewrite ?peval_nil, ?peval_cons; [ring|]. fold (pscal c f). rewrite IH. ring. Qed.

Lemma ispol_ext n F H : (forall X, F X = H X) -> ispol n F -> ispol n H.
Proof. intros E [f [L Ef]]. exists f. split; [exact L|]. intros X. rewrite Ef. apply E. Qed.
Lemma ispol_le n m F : (n <= m)%nat -> ispol n F -> ispol m F.
Proof. intros H [f [L Ef]]. exists f. split; [lia|exact Ef]. Qed.
Lemma ispol_peval n f : (length f <= n)%nat -> ispol n (peval f).
Proof. intros H. exists f. split; [exact H|reflexivity]. Qed.
Lemma ispol_add n F H : ispol n F -> ispol n H -> ispol n (fun X => F X + H X)%fr.
Proof.
  intros [f [L Ef]] [g [L' Eg]]. exists (plus f g). rewrite plus_length. split; [lia|]. intros X. rewrite plus_eval, Ef, Eg. reflexivity.
Qed.
Lemma ispol_scal n c F : ispol n F -> ispol n (fun X => c * F X)%fr.
Proof.
  intros [f [L Ef]]. exists (pscal c f). unfold pscal at 1. rewrite map_length. split; [exact L|]. intros X. rewrite pscal_eval, Ef. reflexivity.
Qed.
Lemma ispol_sub n F H : ispol n F -> ispol n H -> ispol n (fun X => F X - H X)%fr.
Proof.
  intros PF PH. eapply ispol_ext; [|apply (ispol_add n F _ PF (ispol_scal n (-(1))%fr H PH))]. intros X. cbv beta. ring.
Qed.
Lemma ispol_const n c : (1 <= n)%nat -> ispol n (fun _ => c).
Proof. intros H. exists [c]. split; [cbn [length]; exact H|]. intros X. rewrite peval_cons, peval_nil. ring. Qed.
Lemma ispol_0 n : ispol n (fun _ => 0%fr).
Proof. exists []. split; [cbn; lia|reflexivity]. Qed.
Lemma ispol_lin n a F : ispol n F -> ispol (S n) (fun X => (X - a) * F X)%fr.
Proof.
  intros [f [L Ef]]. exists (plus (0%fr :: f) (pscal (- a)%fr f)). split.
  - rewrite plus_length. unfold pscal. rewrite map_length. cbn [length]. lia.
  - intros X. rewrite plus_eval, peval_cons, pscal_eval, Ef. ring.
Qed.
Lemma ispol_prod {A} n (g : A -> Fr) F l : ispol n F -> ispol (length l + n) (fun X => prod (map (fun k => X - g k) l) * F X)%fr.
Proof.
  intros H. induction l as [|k l IH].
  - eapply ispol_ext; [|exact H]. intros X. cbn [map]. rewrite prod_nil. ring.
  - cbn [length Nat.add]. eapply ispol_ext; [|apply (ispol_lin _ (g k) _ IH)]. intros X. cbn [map]. rewrite prod_cons. ring.
Qed.
Lemma ispol_horner {A} n c (F : A -> Fr -> Fr) l : (forall a, In a l -> ispol n (F a)) -> ispol n (fun X => horner c (map (fun a => F a X) l)).
Proof.
  induction l as [|a l IH]; intros H; [apply (ispol_0 n)|].
  eapply ispol_ext; [|apply (ispol_add n _ _ (ispol_scal n (fexp c (Z.of_nat (length l))) _ (H a (or_introl eq_refl))) (IH (fun b Hb => H b (or_intror Hb))))].
  intros X. cbn [map]. rewrite horner_cons, map_length. ring.
Qed.
Lemma ispol_sum {A} n (F : A -> Fr -> Fr) l : (forall a, In a l -> ispol n (F a)) -> ispol n (fun X => SpecVerify.sum (map (fun a => F a X) l)).
Proof.
  induction l as [|a l IH]; intros H; [apply (ispol_0 n)|].
  eapply ispol_ext; [|apply (ispol_add n _ _ (H a (or_introl eq_refl)) (IH (fun b Hb => H b (or_intror Hb))))].
  intros X. reflexivity.
Qed.
(** a polynomial function with a non-zero value has few zeros *)
Lemma few_zeros n F a : ispol n F -> F a <> 0%fr -> exists L, (length L <= pred n)%nat /\ forall X, F X = 0%fr -> In X L.
Proof.
  intros [f [L Ef]] Ha. destruct (few_roots f) as [M [HM HR]].
  - intros Z. apply Ha. rewrite <- Ef. apply zero_eval, Z.
  - exists M. split; [lia|]. intros X HX. apply HR. rewrite Ef. exact HX.
Qed.
(** Horner with a non-zero entry has few zeros *)
Lemma peval_app f g X : peval (f ++ g) X = (peval f X + fexp X (Z.of_nat (length f)) * peval g X)%fr.
Proof.
  induction f as [|a f IH]; cbn [app length].
  - change (Z.of_nat 0) with 0. rewrite fexp_0, peval_nil. ring.
  - rewrite !peval_cons, IH, fexp_S. ring.
Qed.
Lemma horner_rev c l : horner c l = peval (rev l) c.
Proof.
  induction l as [|a l IH]; [reflexivity|]. cbn [rev]. rewrite horner_cons, peval_app, rev_length, IH, peval_cons, peval_nil. ring.
Qed.
Lemma horner_zeros l b : In b l -> b <> 0%fr -> exists L, (length L <= pred (length l))%nat /\ forall c, horner c l = 0%fr -> In c L.
Proof.
  intros Hb N. destruct (few_roots (rev l)) as [L [HL HR]].
  - intros Z. apply N. unfold zero in Z. rewrite Forall_forall in Z. apply Z. apply -> in_rev. exact Hb.
  - rewrite rev_length in HL. exists L. split; [exact HL|]. intros c Hc. apply HR. rewrite <- horner_rev. exact Hc.
Qed.
