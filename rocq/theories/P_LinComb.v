(** Linear combinations of points. *)
From Coq Require Import ZArith Lia Bool List Permutation.
From Verif Require Import Params Go Curve NumThy FField FpField SpecCurve SpecMisc P_Curve P_Msm P_Group P_Order P_GroupSpec.
Import ListNotations.
Open Scope Z_scope.

Local Opaque p_mod r_mod.

Lemma enc_valid a b P : encodes a b P -> valid P.
Proof. intros H. apply point_valid. exists a, b. exact H. Qed.

Lemma enc_of a b P : encodes a b P -> of_coords0 (a, b) = P.
Proof.
  intros H. pose proof (enc_valid _ _ _ H) as V. apply encodes_coords in H. rewrite <- H. apply of_coords0_coords0, V.
Qed.

Lemma enc_coords0 P : valid P -> encodes (fst (coords0 P)) (snd (coords0 P)) P.
Proof.
  intros V. apply point_valid in V. destruct V as (a & b & H). pose proof H as H'. apply encodes_coords in H.
  rewrite H. exact H'.
Qed.

Definition term_ok (t : (Z * Z) * Z) : Prop := exists P, encodes (fst (fst t)) (snd (fst t)) P.
Definition tval (t : (Z * Z) * Z) : pt := pmul (snd t) (of_coords0 (fst t)).

Lemma term_valid t : term_ok t -> valid (of_coords0 (fst t)).
Proof.
  intros (P & H). destruct t as [[a b] k]. cbn [fst snd] in *. rewrite (enc_of _ _ _ H). exact (enc_valid _ _ _ H).
Qed.
Lemma tval_valid t : term_ok t -> valid (tval t).
Proof. intros H. apply pmul_valid, term_valid, H. Qed.

Fixpoint total (l : list ((Z * Z) * Z)) : pt := match l with [] => Inf | t :: l => padd (tval t) (total l) end.

Lemma total_valid l : Forall term_ok l -> valid (total l).
Proof. induction 1; [reflexivity|]. cbn [total]. apply padd_valid; [apply tval_valid; assumption|assumption]. Qed.

Lemma lin_comb_total l R : lin_comb l R -> Forall term_ok l /\ R = total l.
Proof.
  induction 1 as [|a b k l P Q S R He Hm Hl [IH ->] Hs]; [split; [constructor|reflexivity]|].
  split; [constructor; [exists P; exact He|exact IH]|]. cbn [total]. unfold tval. cbn [fst snd].
  rewrite (enc_of _ _ _ He). apply c50_multiple in Hm; [|exists a, b; exact He]. rewrite Hm.
  symmetry. apply group_sum_padd. exact Hs.
Qed.

Lemma total_lin_comb l : Forall term_ok l -> lin_comb l (total l).
Proof.
  induction 1 as [|[[a b] k] l H Hl IH]; [constructor|]. destruct H as (P & H). cbn [fst snd] in H.
  cbn [total]. unfold tval. cbn [fst snd]. rewrite (enc_of _ _ _ H).
  apply (lc_cons _ _ _ _ P (pmul k P) (total l)); [exact H| |exact IH|].
  - apply c50_multiple; [exists a, b; exact H|reflexivity].
  - apply padd_group_sum; [apply pmul_valid, (enc_valid _ _ _ H)|]. apply total_valid. exact Hl.
Qed.

Lemma lin_comb_unique l R R' : lin_comb l R -> lin_comb l R' -> R = R'.
Proof. intros H H'. apply lin_comb_total in H, H'. destruct H as [_ ->], H' as [_ ->]. reflexivity. Qed.

Lemma total_perm l l' : Permutation l l' -> Forall term_ok l -> total l = total l'.
Proof.
  induction 1 as [|t l l' H IH|t t' l|l l' l'' H IH H' IH']; intros F.
  - reflexivity.
  - inversion F; subst. cbn [total]. rewrite IH by assumption. reflexivity.
  - inversion F as [|? ? F1 F2]; subst. inversion F2 as [|? ? F3 F4]; subst. cbn [total].
    rewrite <- !padd_assoc by (try apply tval_valid; try apply total_valid; assumption).
    rewrite (padd_comm (tval t')) by (apply tval_valid; assumption). reflexivity.
  - rewrite IH by exact F. apply IH'. rewrite <- H. exact F.
Qed.

Lemma lin_comb_perm l l' R : Permutation l l' -> lin_comb l R -> lin_comb l' R.
Proof.
  intros P H. apply lin_comb_total in H. destruct H as [F ->]. rewrite (total_perm _ _ P F). apply total_lin_comb.
  rewrite <- P. exact F.
Qed.

Lemma msm_total l : forall acc, valid acc -> Forall term_ok l -> msm_from acc l = padd acc (total l).
Proof.
  induction l as [|t l IH]; intros acc V F; [symmetry; apply padd_inf_r|]. inversion F as [|? ? F1 F2]; subst.
  destruct t as [P k]. cbn [msm_from total]. pose proof (tval_valid _ F1) as VT. unfold tval in *. cbn [fst snd] in *.
  rewrite IH by (try apply padd_valid; assumption). apply padd_assoc; try assumption. apply total_valid. exact F2.
Qed.

Lemma msm_lin_comb p0 k0 l : term_ok (p0, k0) -> Forall term_ok l ->
  lin_comb ((p0, k0) :: l) (msm_from (pmul k0 (of_coords0 p0)) l).
Proof.
  intros H F. rewrite msm_total; [|exact (tval_valid _ H)|exact F].
  apply (total_lin_comb ((p0, k0) :: l)). constructor; assumption.
Qed.

Lemma lin_comb_msm p0 k0 l R : lin_comb ((p0, k0) :: l) R -> msm_from (pmul k0 (of_coords0 p0)) l = R.
Proof.
  intros H. pose proof (lin_comb_total _ _ H) as [F _]. inversion F; subst.
  apply (lin_comb_unique ((p0, k0) :: l)); [apply msm_lin_comb; assumption|exact H].
Qed.
