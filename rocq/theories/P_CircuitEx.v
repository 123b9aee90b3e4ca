(** Concrete cases for the opening and row theorems. *)
From Coq Require Import ZArith Lia Bool List Ring Field.
From Verif Require Import Params Go Curve Api FrOps Lib Steps Agg NumThy FField FpField SpecCurve SpecHash SpecMisc SpecVerify SpecPoly SpecRows
  P_Fr P_Curve P_Msm P_Group P_Order P_GroupSpec P_Misc P_LinComb P_Restate P_Dom P_VSpec P_Final P_Shplonk P_Poly P_Open P_Rows P_Snark P_Circuit P_RunEx.
Import ListNotations.
Open Scope Z_scope.

(** ** a pairing oracle for the trapdoor tau *)
Definition kzg_check (tau : Fr) (l : list (pt * g2)) : bool :=
  match l with [(P, _); (Q, _)] => if pt_dec (pmul (val tau) P) Q then true else false | _ => false end.
Lemma kzg_check_ok tau : kzg_pairing (run_Op (kzg_check tau)) g20_const g21_const tau.
Proof.
  intros a b X Y Va _. cbn [run_Op o_pairing kzg_check]. destruct (pt_dec (pmul (val tau) (Aff a b)) (Aff X Y)) as [E|N].
  - split; [intros _|reflexivity]. apply c50_multiple; [apply point_valid, Va|exact E].
  - split; [discriminate|]. intros H. exfalso. apply N. apply c50_multiple; [apply point_valid, Va|exact H].
Qed.

(** ** every proof has polynomials behind its commitments *)
Lemma some_poly tau P : enc P -> exists f, commits tau f P.
Proof.
  intros [Q HQ]. assert (V : valid Q) by (exact (enc_valid _ _ _ HQ)).
  destruct (c50_cyclic Q (proj2 (point_valid Q) V)) as (k & Hk & M). exists [fc k]. exists Q. split; [exact HQ|].
  replace (val (peval [fc k] tau)) with k; [exact M|]. unfold peval. cbn [fold_right].
  replace (fc k + tau * 0)%fr with (fc k) by ring. symmetry. rewrite val_phi. apply Z.mod_small, Hk.
Qed.
Lemma some_polys tau l : Forall enc l -> exists fs : nat -> pol, forall i, (i < length l)%nat -> commits tau (fs i) (nth i l (0, 0)).
Proof.
  induction 1 as [|P l HP _ [fs IH]]; [exists (fun _ => []); cbn; lia|]. destruct (some_poly tau P HP) as [f Hf].
  exists (fun i => match i with 0%nat => f | S j => fs j end). intros [|i] Hi; [exact Hf|]. apply IH. cbn [length] in Hi. lia.
Qed.

Lemma run_scalar pr l : (o_keccak (run_Op pr) l mod 2 ^ 256) mod r_mod = 1.
Proof. change (o_keccak (run_Op pr) l) with 1. vm_compute. reflexivity. Qed.
Lemma ex_m3 : (-3) mod r_mod = 0 mod r_mod -> False.
Proof. vm_compute. discriminate. Qed.
Local Opaque p_mod r_mod.
Local Opaque phi fmul fadd fsub fopp fdiv finv.
Local Opaque rot fzpow fexp omega delta dom_n.

(** a run accepted under the pairing assumption, with polynomials for all commitments *)
Lemma run_opens s : exists tau inst adv fixd sigm h0 h1 h2 w w',
  kzg_pairing (run_Op (kzg_check tau)) g20_const g21_const tau /\ degen_sane (run_Op (kzg_check tau)) /\
  column_commitments tau inst adv fixd sigm run_proof (lagrange_x, lagrange_y) /\ quotient_commitments tau h0 h1 h2 run_proof /\
  opening_commitments tau w w' run_proof /\
  multiple (Aff lagrange_x lagrange_y) ((o_keccak (run_Op (kzg_check tau)) (encoding (map (fun z => z mod p_mod) [7])) mod 2 ^ 256) mod r_mod)
    (Aff lagrange_x lagrange_y) /\
  map fc (transcript_values (run_Op (kzg_check tau)) lagrange_x lagrange_y run_proof) = [fc 0; fc 0; fc 1; fc 13; fc rx; fc 1; fc 1; fc ru] /\
  fexp (fc rx) dom_n <> 1%fr /\
  Define (run_Op (kzg_check tau)) Test run_circuit s = Done (None, s).
Proof.
  assert (VR : is_point (Aff run_X run_Y)) by (apply point_valid; vm_compute; reflexivity).
  destruct (c50_cyclic _ VR) as (k & Hk & M). set (tau := fc k). exists tau.
  assert (CE : forall i, In i commitments -> enc (com run_proof i)).
  { intros i Hi. unfold com. apply mod_enc, (coms_valid_on _ run_valid i Hi). }
  destruct (some_poly tau (lagrange_x, lagrange_y)) as [inst HI]; [eexists; apply lagrange_encodes|].
  destruct (some_polys tau (map (com run_proof) (seq 0 22))) as [cs HC].
  { apply Forall_map, Forall_forall. intros i Hi. apply CE, in_app_iff. left. exact Hi. }
  pose proof vk_enc as HV. apply Forall_app in HV. destruct HV as [HF HS].
  destruct (some_polys tau _ HF) as [fx HFx]. destruct (some_polys tau _ HS) as [sg HSg].
  destruct (some_poly tau (W run_proof)) as [w HW]; [apply (CE 50%nat); apply in_app_iff; right; left; reflexivity|].
  destruct (some_poly tau (W' run_proof)) as [w' HW']; [apply (CE 51%nat); apply in_app_iff; right; right; left; reflexivity|].
  assert (HC' : forall i, (i < 22)%nat -> commits tau (cs i) (com run_proof i)).
  { intros i Hi. specialize (HC i). rewrite map_length, seq_length in HC. specialize (HC Hi).
    rewrite (nth_indep _ (0, 0) (com run_proof 0%nat)), map_nth, seq_nth in HC by (rewrite ?map_length, ?seq_length; lia). exact HC. }
  exists inst, cs, fx, sg, (cs 19%nat), (cs 20%nat), (cs 21%nat), w, w'.
  split; [apply kzg_check_ok|]. split; [intros a b c E; discriminate E|].
  split; [split; [exact HI|split; [intros i Hi; apply HC'; lia|split; [intros i Hi; exact (HFx i Hi)|intros i Hi; exact (HSg i Hi)]]]|].
  split; [split; [apply HC'; lia|split; apply HC'; lia]|].
  split; [exact (conj HW HW')|].
  split; [rewrite run_scalar; exact (zmul_multiple _ 1 (enc_valid _ _ _ lagrange_encodes))|].
  split; [change lagrange_x with rlx; change lagrange_y with rly; rewrite run_transcript; reflexivity|].
  split; [exact run_x_out|].
  apply run_accepted_by. cbn [kzg_check]. 
  destruct (pt_dec (pmul (val tau) (Aff 1 2)) (Aff run_X run_Y)) as [E|N]; [reflexivity|]. exfalso. apply N.
  unfold tau. rewrite val_phi, (Z.mod_small k) by exact Hk. apply c50_multiple; [apply point_valid, gen_valid|exact M].
Qed.

(** ** columns satisfying every row: a multiplication 3 * 5 = 15, seven identity copy columns, lookups of 18-bit limbs *)
Definition ex_inst : pol := [fc 7].
Definition ex_adv (b : Fr) (theta : Fr) (i : nat) : pol :=
  match Z.of_nat i with
  | 0 => [fc 3] | 1 => [b] | 8 | 9 | 10 | 11 => [(fc 18 * theta)%fr] | 12 | 13 | 14 | 15 | 16 | 17 => [1%fr] | _ => [] end.
Definition ex_fixd (i : nat) : pol :=
  match Z.of_nat i with 0 => [(- fc 15)%fr] | 7 => [1%fr] | 9 | 10 => [fc 18] | _ => [] end.
Definition ex_sigm (i : nat) : pol := [0%fr; fexp delta (Z.of_nat i)].

Lemma pe0 X : peval [] X = 0%fr. Proof. reflexivity. Qed.
Lemma pe1 a X : peval [a] X = a. Proof. cbn [peval fold_right]. ring. Qed.
Lemma pe2 a b X : peval [a; b] X = (a + X * b)%fr. Proof. cbn [peval fold_right]. ring. Qed.

(** the evaluations of these columns *)
Definition ex_val (b theta X : Fr) (i : nat) : Fr :=
  match Z.of_nat i with
  | 44 => fc 7 | 45 => fc 3 | 46 => b | 58 => (- fc 15)%fr | 65 => 1%fr | 67 | 68 => fc 18
  | 72 | 73 | 74 | 75 | 76 | 77 | 78 => (X * fexp delta (Z.of_nat i - 72))%fr
  | 79 | 80 | 81 | 82 | 83 | 84 | 85 | 86 | 87 | 88 | 89 | 90 | 91 | 95 | 96 => 1%fr
  | 92 | 93 | 94 | 97 | 98 | 99 => (fc 18 * theta)%fr
  | _ => 0%fr
  end.
Ltac ex_cell_tac :=
  unfold cell; cbv [cells find fst snd Nat.eqb app map seq Nat.add]; unfold ex_val, ex_inst, ex_adv, ex_fixd, ex_sigm;
  cbv [Z.of_nat Pos.of_succ_nat Pos.succ Z.sub Z.add Z.opp Z.pos_sub Pos.pred_double Z.double Z.succ_double Z.pred_double]; rewrite ?pe0, ?pe1, ?pe2, ?rot_zero; try reflexivity.
Lemma ex_cell b theta X i : (44 <= i < 100)%nat -> cell ex_inst (ex_adv b theta) ex_fixd ex_sigm X i = ex_val b theta X i.
Proof.
  intros H. do 44 (destruct i as [|i]; [lia|]). do 56 (destruct i as [|i]; [ex_cell_tac; ring|]). lia.
Qed.
Lemma ex_rows_ok theta beta gamma j : row_ok ex_inst (ex_adv (fc 5) theta) ex_fixd ex_sigm theta beta gamma j.
Proof.
  unfold row_ok, product_step, lookup_step, gate_main, limbs. cbn [map combine length seq prod sum fold_right].
  rewrite !ex_cell by lia. unfold ex_val. cbv [Z.of_nat Pos.of_succ_nat Pos.succ Z.sub Z.add Z.opp Z.pos_sub Pos.pred_double Z.double Z.succ_double Z.pred_double].
  set (X := fexp omega j).
  split; [replace (fc 15) with (fc 3 * fc 5)%fr by (rewrite <- phi_mul; reflexivity); ring|].
  split; [intros H; exfalso; apply H; left; reflexivity|]. split; [intros H; exfalso; apply H; left; reflexivity|].
  split; [intros H; exfalso; apply H; left; reflexivity|].
  split; [intros _; repeat split; reflexivity|]. split; [intros _; repeat constructor; right; reflexivity|]. intros _.
  repeat split; try (left; reflexivity); ring.
Qed.
Lemma ex_row_bad theta beta gamma j : ~ row_ok ex_inst (ex_adv (fc 4) theta) ex_fixd ex_sigm theta beta gamma j.
Proof.
  intros (H & _). revert H. unfold gate_main. rewrite !ex_cell by lia. unfold ex_val. cbn [Z.of_nat Pos.of_succ_nat Pos.succ]. intros E.
  assert (E' : fc (-3) = fc 0).
  { transitivity (- fc 15 + fc 3 * fc 4 * 1)%fr; [rewrite <- phi_opp, <- phi_mul; change 1%fr with (fc 1); rewrite <- phi_mul, <- phi_add; reflexivity|].
    change (fc 0) with 0%fr. rewrite <- E. ring. }
  apply phi_eq_iff in E'. revert E'. apply ex_m3.
Qed.
Lemma ex_lengths b theta : (length ex_inst <= 2)%nat /\ (forall i, (length (ex_adv b theta i) <= 2)%nat) /\ (forall i, (length (ex_fixd i) <= 2)%nat) /\ (forall i, (length (ex_sigm i) <= 2)%nat).
Proof.
  split; [cbn; lia|]. split; [|split; [|intros i; cbn; lia]].
  - intros i. unfold ex_adv. do 18 (destruct i as [|i]; [cbn; lia|]). destruct (Z.of_nat _) as [|q|q] eqn:E; try lia.
    cbn [length]. do 6 (try (destruct q as [q|q|]; try (cbn [length]; lia))); lia.
  - intros i. unfold ex_fixd. destruct (Z.of_nat i) as [|q|q]; [cbn; lia| |cbn; lia]. do 5 (try (destruct q as [q|q|]; try (cbn [length]; lia))).
Qed.

(** ** a wrong and a right evaluation *)
Definition ex_open (a b : Fr) : oset := ([0; 1], [({| p_com := []; p_evals := [a; b] |}, [0%fr; 1%fr])]).
Lemma ex_open_right x : evaluates x [0; 1] {| p_com := []; p_evals := [x; rot x 1] |} [0%fr; 1%fr].
Proof. unfold evaluates. cbn [p_evals map]. rewrite !pe2, rot_zero. repeat f_equal; ring. Qed.
Lemma ex_open_wrong x : ~ evaluates x [0; 1] {| p_com := []; p_evals := [(x + 1)%fr; rot x 1] |} [0%fr; 1%fr].
Proof.
  unfold evaluates. cbn [p_evals map]. rewrite !pe2, rot_zero. intros E. apply (f_equal (fun l => hd 0%fr l)) in E. cbn [hd] in E.
  apply fr_1_0. transitivity (x + 1 - x)%fr; [ring|]. rewrite E. ring.
Qed.
Lemma ex_rots : rots_ok [0; 1].
Proof. split; [discriminate|split; [repeat constructor; cbn; intuition discriminate|intros k Hk; cbn in Hk |- *; intuition subst; auto 10]]. Qed.
