(** The compiled KYC circuit on the data of TestKyc. *)
From Coq Require Import ZArith Bool List Lia.
From Verif Require Import Params Api Agg SpecMisc SpecEcdsa SpecKycTest P_Fr P_Misc P_Kyc P_SecpEx.
Import ListNotations.
Open Scope Z_scope.

Definition kt_asg (h : Z) : asg :=
  {| aw := fun i => nth i kt_wires 0; ae := fun i => match i with O => kt_r | 1%nat => kt_s | _ => h end |}.
Lemma c66_accepts O : ecdsa_right O kyc_pub_x kyc_pub_y kt_hash kt_r kt_s ->
  exists S w, compile_kyc O 5 1 1 = inl S /\ kt_witness kt_hash w /\ sat O w S.
Proof.
  intros R. destruct (kyc_shape_build O 5 1 1) as (S & E & _ & H).
  destruct (H (kt_asg kt_hash)) as (w' & A & A2 & B).
  - cbn [kt_asg aw ae Nat.add nth seq map kt_wires]. rewrite !modr_small by (split; [discriminate | reflexivity]).
    split; [apply R, kt_valid|]. split; [lia|]. split; [lia|]. exists 300. split; [right; right; left; reflexivity | reflexivity].
  - exists S, w'. split; [exact E|]. split; [|exact B]. unfold kt_witness. rewrite A2.
    split; [reflexivity|]. split; [reflexivity|]. split; [reflexivity|]. exact A.
Qed.
Lemma c66_rejects O S w : ecdsa_right O kyc_pub_x kyc_pub_y kt_other kt_r kt_s -> compile_kyc O 5 1 1 = inl S ->
  ae w 0%nat = kt_r -> ae w 1%nat = kt_s -> ae w 2%nat = kt_other -> ~ sat O w S.
Proof.
  intros R E W0 W1 W2 H. destruct (kyc_shape_build O 5 1 1) as (S' & E' & F & _).
  assert (S' = S) by congruence. subst S'. destruct (F w H) as [V _]. rewrite W0, W1, W2 in V.
  exact (kt_invalid (proj1 R V)).
Qed.
Definition ktO : oracles := {| o_keccak := fun _ => 0; o_sha256 := fun _ => 0; o_smul_degen := fun _ _ _ => None;
  o_pairing := fun _ => true; o_ecdsa := fun _ _ h _ _ => Z.eqb h kt_hash |}.
Lemma c66_case : ecdsa_right ktO kyc_pub_x kyc_pub_y kt_hash kt_r kt_s /\ ecdsa_right ktO kyc_pub_x kyc_pub_y kt_other kt_r kt_s.
Proof.
  split; split; intros H.
  - exact kt_valid.
  - reflexivity.
  - exfalso. discriminate H.
  - exfalso. exact (kt_invalid H).
Qed.
