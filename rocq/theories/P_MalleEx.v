(** The signature of TestKyc with n - s (C76). *)
From Coq Require Import ZArith Bool List Lia.
From Verif Require Import Params Go Api Agg SpecMisc SpecEcdsa SpecKycTest SpecMalle P_Fr P_Misc P_Kyc P_SecpEx P_KycTest P_Malle.
Import ListNotations.
Open Scope Z_scope.

Definition kt_s' : Z := 38386463676791071959418681863447137524132039332824599091506044418670411154362.
Lemma kt_s'_eq : kt_s' = secp_n - kt_s. Proof. reflexivity. Qed.
Lemma kt_valid' : ecdsa_valid kyc_pub_x kyc_pub_y kt_hash kt_r kt_s'.
Proof. rewrite kt_s'_eq. exact (proj1 (c76_valid _ _ _ _ _ key_order_n kt_valid)). Qed.
Lemma kt_rights : ecdsa_right ktO kyc_pub_x kyc_pub_y kt_hash kt_r kt_s /\ ecdsa_right ktO kyc_pub_x kyc_pub_y kt_hash kt_r kt_s'.
Proof. split; split; intros _; [exact kt_valid | reflexivity | exact kt_valid' | reflexivity]. Qed.
Lemma kt_both : exists S w w', compile_kyc ktO 5 1 1 = inl S /\ kt_witness kt_hash w /\ sat ktO w S /\ sat ktO w' S /\
  (forall i, (i < 13)%nat -> aw w' i = nth i kt_wires 0) /\ ae w' 0%nat = kt_r /\ ae w' 1%nat = kt_s' /\ ae w' 2%nat = kt_hash.
Proof.
  destruct kt_rights as [R R']. destruct (c66_accepts ktO R) as (S & w & E & W & H). pose proof W as (W0 & W1 & W2 & WI).
  destruct (c76_compiled ktO 5 1 1 S w) as (w' & H' & A & B0 & B1 & B2 & _).
  - rewrite W0, W1, W2. exact R.
  - rewrite W0, W1, W2, <- kt_s'_eq. exact R'.
  - exact E.
  - exact H.
  - exists S, w, w'. split; [exact E|]. split; [exact W|]. split; [exact H|]. split; [exact H'|].
    split; [intros i Hi; rewrite A by exact Hi; exact (WI i Hi)|]. rewrite B0, B1, B2, W0, W1, W2. repeat split.
Qed.
