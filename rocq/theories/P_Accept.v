(** Completeness of the three verification steps. *)
From Coq Require Import ZArith Zpow_facts String Bool List Lia Arith Ring Field Permutation.
From Verif Require Import Params Go Curve Api FrOps Lib Steps NumThy FField FpField P_Fr P_Str P_Curve SpecCurve SpecMisc
  SpecVerify P_Msm P_Flow P_Misc P_Kyc P_Step P_Exec P_Dom P_Eval P_Verify P_VSpec P_Acc P_Comp.
Import ListNotations.
Open Scope Z_scope.

Local Opaque phi fmul fadd fsub fopp fdiv finv rot fzpow fexp omega delta.

(** ** Running the statements *)
Lemma inb_mono T T' A A' nb e : (length T' <= length T)%nat -> (length A' <= length A)%nat ->
  inb T' A' nb e = true -> inb T A nb e = true.
Proof.
  intros HT HA. induction e as [i|i|i|z|z|a IHa b IHb|a IHa b IHb|a IHa|a IHa b IHb c IHc|a IHa k IHk]; cbn [inb]; auto;
    rewrite ?andb_true_iff, ?Nat.ltb_lt; try lia; try tauto.
Qed.
Lemma inbm_mono T T' A A' ms : (length T' <= length T)%nat -> (length A' <= length A)%nat ->
  forallb (inbm T' A') ms = true -> forallb (inbm T A) ms = true.
Proof.
  intros HT HA H. rewrite forallb_forall in *. intros m Hm. specialize (H m Hm). clear Hm. revert H.
  destruct m as [i e|i a b e|a b e]; cbn [inbm]; rewrite ?andb_true_iff; intros H; repeat split;
    try tauto; eapply inb_mono; try eassumption; tauto.
Qed.

Lemma in_range : forallb (inbm (repeat 0 104) (repeat 0 21)) (group prog1) = true /\
  forallb (inbm (repeat 0 104) (repeat 0 21)) (group prog2) = true /\
  forallb (inbm (repeat 0 104) (repeat 0 21)) (group prog3) = true.
Proof. split; [|split]; vm_compute; reflexivity. Qed.
Lemma in_range1 : forallb (inbm (repeat 0 104) (repeat 0 16)) (group prog1) = true.
Proof. vm_compute. reflexivity. Qed.
Lemma no_divs : forallb nodivm (group prog1) = true /\ forallb nodivm (group prog2) = true /\ forallb nodivm (group prog3) = true.
Proof. split; [|split]; vm_compute; reflexivity. Qed.

Lemma in_range' T A ms : (104 <= length T)%nat -> (21 <= length A)%nat ->
  forallb (inbm (repeat 0 104) (repeat 0 21)) ms = true -> forallb (inbm T A) ms = true.
Proof. intros HT HA. apply inbm_mono; rewrite repeat_length; assumption. Qed.

Section Accept.
  Variables (O : oracles) (T A B : list Z) (s : cs).
  Hypothesis L : length B = 43%nat.
  Hypothesis C : forall j, (2 <= j < 10)%nat -> 0 <= nth j B 0 < r_mod.
  Hypothesis HT : (104 <= length T)%nat.

  Lemma canon0 : canonical [2; 3; 4; 5; 6; 7; 8; 9]%nat B.
  Proof.
    intros j Hj. assert (2 <= j < 10)%nat by (cbn in Hj; lia). split; [|apply C; assumption].
    cbn in Hj. repeat (destruct Hj as [<-|Hj]; [reflexivity|]). destruct Hj.
  Qed.

  Lemma accept1 K : (16 <= length A)%nat -> oks T A (group prog1) (regs B) ->
    chain_ok O (ops T A (b01_of B) (group prog1) (regs B)) (q_of 10 B) (q_of 12 B) K ->
    exists B1, VerifyProof1 O Test (map VBig T) (map VBig A) (map VBig B) s = Done ((map VBig B1, None), s) /\
      length B1 = 43%nat /\ K (q_of 10 B1) (q_of 12 B1).
  Proof.
    intros HA Ok Ch. destruct checked as (D1 & D2 & D3 & E1 & _). destruct no_divs as (N1 & _).
    destruct grouped as (G1 & _).
    destruct (run_complete O T A (group prog1) B (regs B) _ D1 s K L E1
      (inbm_mono T (repeat 0 104) A (repeat 0 16) _ ltac:(rewrite repeat_length; exact HT) ltac:(rewrite repeat_length; exact HA) in_range1)
      N1 canon0 (fun j _ => eq_refl) Ok Ch) as (B1 & R & L1 & _ & _ & _ & HK).
    exists B1. unfold VerifyProof1. rewrite <- G1 in R. exact (conj R (conj L1 HK)).
  Qed.

  Lemma accept123 K : (21 <= length A)%nat -> oks T A (group prog1 ++ group prog2 ++ group prog3) (regs B) ->
    chain_ok O (ops T A (b01_of B) (group prog1 ++ group prog2 ++ group prog3) (regs B)) (q_of 10 B) (q_of 12 B) K ->
    exists b1 b2 B3, VerifyProof1 O Test (map VBig T) (map VBig A) (map VBig B) s = Done ((b1, None), s) /\
      VerifyProof2 O Test (map VBig T) (map VBig A) b1 s = Done ((b2, None), s) /\
      VerifyProof3 O Test (map VBig T) (map VBig A) b2 s = Done ((map VBig B3, None), s) /\
      length B3 = 43%nat /\ K (q_of 10 B3) (q_of 12 B3).
  Proof.
    intros HA Ok Ch. destruct checked as (D1 & D2 & D3 & E1 & E2 & E3 & _). destruct no_divs as (N1 & N2 & N3).
    destruct grouped as (G1 & G2 & G3). destruct in_range as (I1 & I2 & I3).
    rewrite !oks_app in Ok. destruct Ok as (O1 & O2 & O3).
    rewrite !ops_app in Ch.
    set (g1 := exec T A (group prog1) (regs B)) in *. set (g2 := exec T A (group prog2) g1) in *.
    set (l1 := ops T A (b01_of B) (group prog1) (regs B)) in *.
    set (l2 := ops T A (b01_of B) (group prog2) g1) in *. set (l3 := ops T A (b01_of B) (group prog3) g2) in *.
    apply (proj1 (chain_ok_app O l1 (l2 ++ l3) (q_of 10 B) (q_of 12 B) K)) in Ch.
    destruct (run_complete O T A (group prog1) B (regs B) _ D1 s _ L E1 (in_range' T A _ HT HA I1)
      N1 canon0 (fun j _ => eq_refl) O1 Ch) as (B1 & R1 & L1 & C1 & Q1 & A1 & Ch1).
    cbv beta in Ch1. apply (proj1 (chain_ok_app O l2 l3 _ _ K)) in Ch1.
    unfold l2, l3 in Ch1. rewrite <- Q1 in Ch1.
    destruct (run_complete O T A (group prog2) B1 _ _ D2 s _ L1 E2 (in_range' T A _ HT HA I2)
      N2 C1 A1 O2 Ch1) as (B2 & R2 & L2 & C2 & Q2 & A2 & Ch2).
    cbv beta in Ch2. rewrite <- Q2 in Ch2.
    destruct (run_complete O T A (group prog3) B2 _ _ D3 s _ L2 E3 (in_range' T A _ HT HA I3)
      N3 C2 A2 O3 Ch2) as (B3 & R3 & L3 & _ & _ & _ & HK).
    exists (map VBig B1), (map VBig B2), B3. unfold VerifyProof1, VerifyProof2, VerifyProof3.
    rewrite <- G1 in R1. rewrite <- G2 in R2. rewrite <- G3 in R3.
    exact (conj R1 (conj R2 (conj R3 (conj L3 HK)))).
  Qed.
End Accept.
