(** A case for the uniqueness of the last opening point. *)
From Coq Require Import ZArith Lia Bool List Ring Field Uint63.
From Verif Require Import Params Go Curve Api FrOps Lib Steps Agg NumThy FField FpField SpecCurve SpecHash SpecMisc SpecVerify SpecPoly SpecRows
  P_Fr P_Curve P_Msm P_Group P_Order P_GroupSpec P_Misc P_LinComb P_Restate P_Dom P_VSpec P_Final P_Limb P_RunEx P_Mont P_Jac P_CircuitEx.
Import ListNotations.
Open Scope Z_scope.

Definition uq_g : lpt := Eval vm_compute in tol (1, 2).
Definition uq_r : lpt := Eval vm_compute in tol (11656928560747465473657054036269710186774820904075915471121427299831804287853,
  6642886851202808474056804595520372230530479493746273831550277328785692429169).
Lemma uq_chk : jchk (Z.to_pos ru) uq_g uq_r = true. Proof. vm_compute. reflexivity. Qed.
(** u G is not the accumulated point *)
Lemma uq_ne : pmul ru (Aff 1 2) <> Aff run_X run_Y.
Proof.
  destruct (jchk_ok _ _ _ uq_chk) as [_ E]. assert (E1 : topt uq_g = Aff 1 2) by (vm_compute; reflexivity). rewrite E1 in E.
  assert (K : ru mod r_mod = Zpos (Z.to_pos ru)) by (vm_compute; reflexivity). unfold pmul. rewrite K, E.
  vm_compute. discriminate.
Qed.
Definition run_front : list Z := Eval vm_compute in firstn 102 run_proof.
Lemma run_split : run_front ++ [1; 2] = run_proof. Proof. vm_compute. reflexivity. Qed.
Local Opaque pmul pmul_pos phi fmul fadd fsub fopp fdiv finv rot fzpow fexp omega delta dom_n.
Lemma uq_case s : exists tau, kzg_pairing (run_Op (kzg_check tau)) g20_const g21_const tau /\ degen_sane (run_Op (kzg_check tau)) /\
  length run_front = 102%nat /\ Proof_ run_circuit = map VBig (run_front ++ [1; 2]) /\
  TargetInst run_circuit ++ VerifyInst run_circuit = map VBig [7] /\
  multiple (Aff lagrange_x lagrange_y) ((o_keccak (run_Op (kzg_check tau)) (encoding (map (fun z => z mod p_mod) [7])) mod 2 ^ 256) mod r_mod)
    (Aff lagrange_x lagrange_y) /\
  (let d := transcript_values (run_Op (kzg_check tau)) lagrange_x lagrange_y (run_front ++ [1; 2]) in
   fexp (fc (nth 4 d 0)) dom_n <> 1%fr /\ fc (nth 7 d 0) <> tau) /\
  Define (run_Op (kzg_check tau)) Test run_circuit s = Done (None, s).
Proof.
  assert (VR : is_point (Aff run_X run_Y)) by (apply point_valid; vm_compute; reflexivity).
  destruct (c50_cyclic _ VR) as (k & Hk & M). exists (fc k).
  assert (MP : pmul k (Aff 1 2) = Aff run_X run_Y) by (apply c50_multiple; [apply point_valid, gen_valid|exact M]).
  split; [apply kzg_check_ok|]. split; [intros a b c E; discriminate E|]. split; [reflexivity|].
  split; [rewrite run_split; reflexivity|]. split; [reflexivity|].
  split; [rewrite run_scalar; exact (zmul_multiple _ 1 (enc_valid _ _ _ lagrange_encodes))|].
  split.
  - cbv zeta. rewrite run_split. change lagrange_x with rlx. change lagrange_y with rly. rewrite run_transcript. cbn [nth].
    split; [exact run_x_out|]. intros E. apply phi_eq_iff in E. apply uq_ne. rewrite <- MP.
    rewrite <- (P_Curve.pmul_mod ru), <- (P_Curve.pmul_mod k), <- E. reflexivity.
  - apply run_accepted_by. cbn [kzg_check].
    destruct (pt_dec (pmul (val (fc k)) (Aff 1 2)) (Aff run_X run_Y)) as [E|N]; [reflexivity|]. exfalso. apply N.
    rewrite val_phi, (Z.mod_small k) by exact Hk. exact MP.
Qed.
