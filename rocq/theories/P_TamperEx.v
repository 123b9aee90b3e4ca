(** The sample with its last point negated passes every check before the pairing. *)
From Coq Require Import ZArith String Bool List Lia Arith Ring Field Uint63.
From Verif Require Import Params Go Curve Api FrOps Lib Steps Agg NumThy FField FpField P_Fr SpecCurve SpecHash SpecMisc SpecVerify SpecSha
  SpecSample SpecPairing SpecTamper P_Curve P_Misc P_Msm P_Dom P_Step P_Exec P_Eval P_Verify P_VSpec P_Acc P_Comp P_Accept P_Honest P_Complete P_PipeOk P_Limb
  P_RunEx P_Mont P_Jac P_Refl P_SampleEx P_PairEx.
Import ListNotations.
Open Scope Z_scope.

Definition flp : list Z := Eval vm_compute in flipped_proof.
Lemma flp_ok : flipped_proof = flp. Proof. vm_compute. reflexivity. Qed.
Lemma flp_tr O x y : transcript_values O x y flp = transcript_values O x y sample_proof.
Proof.
  unfold transcript_values.
  assert (E : cut schedule (map Z.abs flp) = cut schedule (map Z.abs sample_proof)) by (vm_compute; reflexivity).
  rewrite E. reflexivity.
Qed.
Lemma flp_queries ic h x : queries flp ic h x = queries sample_proof ic h x.
Proof.
  unfold queries, h_poly, single, word.
  assert (C : forall i, (i < 51)%nat -> com flp i = com sample_proof i).
  { intros i Hi. do 51 (destruct i as [|i]; [unfold com; vm_compute; reflexivity|]). lia. }
  rewrite !C by lia. reflexivity.
Qed.

Lemma flp_word i : (i < 103)%nat -> word flp i = word sample_proof i.
Proof. intros Hi. do 103 (destruct i as [|i]; [reflexivity|]). lia. Qed.
Lemma flp_quotient th be ga x y : quotient (word flp) th be ga x y = quotient (word sample_proof) th be ga x y.
Proof.
  unfold quotient, expressions, gates, gate_main, permutation, lookups, lookup_table, pick, limbs. cbn [map combine seq length].
  rewrite !flp_word by lia. reflexivity.
Qed.

Definition flp_W' : Z * Z := Eval vm_compute in com flp 51.
Definition flp_pts : list (Z * Z) := Eval vm_compute in firstn 44 sam_pts ++ [flp_W'].
Lemma flp_final : final_terms flp (sam_ix, sam_iy) (fc sh) (fc sx) (fc syy) (fc sv) (fc su) = combine flp_pts (map fc sam_ks).
Proof.
  pose proof sam_final as F. unfold final_terms in *. rewrite flp_queries.
  set (ct := com_terms (fc syy) (fc sv) (fc sx) (fc su) (queries sample_proof (sam_ix, sam_iy) (fc sh) (fc sx))) in *.
  set (a := (- vanish (fc sx) (fc su) (first_rots (queries sample_proof (sam_ix, sam_iy) (fc sh) (fc sx))))%fr) in *.
  assert (W1 : W flp = W sample_proof) by (vm_compute; reflexivity).
  assert (W2 : W' flp = flp_W') by (vm_compute; reflexivity). rewrite W1, W2.
  change [(W sample_proof, a); (W' sample_proof, fc su)] with ([(W sample_proof, a)] ++ [(W' sample_proof, fc su)]) in F.
  change [(W sample_proof, a); (flp_W', fc su)] with ([(W sample_proof, a)] ++ [(flp_W', fc su)]).
  rewrite app_assoc in *.
  transitivity (combine (firstn 44 sam_pts) (map fc (firstn 44 sam_ks)) ++ [(flp_W', fc su)]); [|reflexivity].
  apply (f_equal (fun l => l ++ [(flp_W', fc su)])).
  apply (app_inj_tail _ _ (W' sample_proof, fc su) (W' sample_proof, fc su)).
  refine (eq_trans F _). reflexivity.
Qed.
Definition flp_ord : list ((Z * Z) * Z) := Eval vm_compute in
  map (fun i => (nth i flp_pts (0, 0), nth i sam_ks 0)) add_order.
Lemma flp_ordered : ordered_terms (final_terms flp (sam_ix, sam_iy) (fc sh) (fc sx) (fc syy) (fc sv) (fc su)) = flp_ord.
Proof.
  rewrite flp_final. unfold ordered_terms.
  transitivity (map (fun i => (nth i flp_pts (0, 0), nth i sam_ks 0)) add_order); [|vm_compute; reflexivity].
  pose proof order_45 as O. rewrite Forall_forall in O. apply map_ext_in. intros i Hi. specialize (O i Hi). clear Hi.
  cbv zeta. rewrite combine_nth by reflexivity. cbn [fst snd]. apply pair_eq; [reflexivity|].
  change 0%fr with (fc 0). rewrite map_nth, val_phi. apply Z.mod_small.
  pose proof sam_ks_small as S. rewrite Forall_forall in S. apply S, nth_In. exact O.
Qed.
(** the multiple of the last point; the other products are those of the sample *)
Definition flp_prod : lpt := Eval vm_compute in
  match nth_error sam_mul 23 with Some (_, _, R) => (fst R, limbs 9 (p_mod - lval (snd R))) | None => sam_acc end.
Definition flp_term : positive * lpt * lpt := Eval vm_compute in (Z.to_pos su, tol flp_W', flp_prod).
Definition flp_mul : list (positive * lpt * lpt) := Eval vm_compute in firstn 22 (tl sam_mul) ++ flp_term :: skipn 23 (tl sam_mul).
Definition flp_sum : list (lpt * wit) := Eval vm_compute in gsum sam_acc (map snd flp_mul).
Definition flp_res : lpt := Eval vm_compute in w_r (snd (last flp_sum (sam_acc, Build_wit [] [] [] [] [] [] sam_acc))).
Lemma flp_term_ok : jprods [flp_term] = true. Proof. vm_compute. reflexivity. Qed.
Lemma sam_tl_ok : jprods (tl sam_mul) = true.
Proof.
  pose proof sam_mul_ok as P. revert P. generalize sam_mul. intros [|m l] P; [exact P|].
  unfold jprods in P. cbn [forallb] in P. apply andb_true_iff in P. exact (proj2 P).
Qed.
Lemma flp_split : flp_mul = firstn 22 (tl sam_mul) ++ [flp_term] ++ skipn 23 (tl sam_mul). Proof. vm_compute. reflexivity. Qed.
Lemma jprods_app k l : jprods (k ++ l) = jprods k && jprods l. Proof. apply forallb_app. Qed.
Lemma flp_mul_ok : jprods flp_mul = true.
Proof.
  rewrite flp_split, !jprods_app, flp_term_ok. pose proof sam_tl_ok as P. revert P. generalize (tl sam_mul). intros l P.
  assert (P1 := P). rewrite <- (firstn_skipn 22 l), jprods_app in P1. apply andb_true_iff in P1.
  assert (P2 := P). rewrite <- (firstn_skipn 23 l), jprods_app in P2. apply andb_true_iff in P2.
  rewrite (proj1 P1), (proj2 P2). reflexivity.
Qed.
Lemma flp_sum_ok : schk sam_acc flp_sum = Some flp_res. Proof. vm_compute. reflexivity. Qed.
Lemma flp_same : jsame flp_mul flp_sum = true. Proof. vm_compute. reflexivity. Qed.
Lemma flp_term_map : map jterm flp_mul = flp_ord. Proof. vm_compute. reflexivity. Qed.
Lemma flp_res_val : topt flp_res = flipped_R. Proof. vm_compute. reflexivity. Qed.
Local Opaque pmul.
Lemma flp_sums : let acc := pmul sop (Aff 1 (p_mod - 2)) in
  fits acc /\ sums_fit acc flp_ord /\ msm_from acc flp_ord = flipped_R.
Proof.
  pose proof (nth_error_In _ _ sam_head) as Hi.
  destruct (jprods_ok _ sam_mul_ok _ _ _ Hi) as [_ E]. rewrite sam_neg in E. cbv zeta. change sop with (Zpos (Z.to_pos sop)). rewrite E.
  destruct (fitb_ok _ sam_acc_fit) as (G & F & _). split; [exact F|].
  pose proof (jsame_ok _ flp_mul_ok _ flp_same) as Q. rewrite flp_term_map in Q.
  destruct (schk_ok _ _ Q _ _ G flp_sum_ok) as [S1 S2]. rewrite flp_res_val in S2. exact (conj S1 S2).
Qed.
Lemma flp_valid : coms_valid flp.
Proof.
  assert (F : forallb (fun i => valid_pt (Aff (nth (2 * i) flp 0) (nth (2 * i + 1) flp 0))) commitments = true)
    by (vm_compute; reflexivity).
  intros i Hi. exact (proj1 (forallb_forall _ _) F i Hi).
Qed.
Lemma flp_small : Forall SpecHash.small (firstn 102 flp).
Proof.
  assert (F : forallb (fun z => Z.abs z <? 2 ^ 256) (firstn 102 flp) = true) by (vm_compute; reflexivity).
  rewrite forallb_forall in F. apply Forall_forall. intros z Hz. apply Z.ltb_lt. exact (F z Hz).
Qed.
Lemma flp_fits : fits flipped_W.
Proof. eexists. eexists. split; [reflexivity|]. split; split; discriminate || reflexivity. Qed.

Lemma flp_run O s : real_hashes O -> degen_sane O ->
  Define O Test flipped s = (emul_assert Test (o_pairing O [(flipped_W, g20_const); (flipped_R, g21_const)]) ;;; ret None) s.
Proof.
  intros [HS HK] HD. destruct flp_sums as (S1 & S2 & S3).
  pose proof (tv_ext O sam_O sam_ix sam_iy sample_proof HS) as TV. rewrite sam_transcript in TV.
  pose proof (flp_tr O sam_ix sam_iy) as TR. rewrite TV in TR. clear TV.
  pose proof (c48_gen O flipped sam_zs flp sample_aux s sam_ix sam_iy 5126950274219516759904618409644903574877069311980736548410959901264512485538 10302592561770922482366986536190573531122829617604063203963475659849737472402) as K.
  cbv zeta in K. rewrite TR in K.
  rewrite c_th, c_be, c_ga, c_y, c_x, c_yy, c_v, c_u in K.
  rewrite flp_quotient, sam_quotient in K.
  rewrite flp_queries, sam_opening in K.
  rewrite flp_ordered, sam_val in K.
  apply K; clear K.
  - reflexivity.
  - unfold flipped. cbn [Proof_]. rewrite flp_ok. reflexivity.
  - reflexivity.
  - cbn. lia.
  - vm_compute. lia.
  - cbn. lia.
  - exact HD.
  - exact flp_valid.
  - exact flp_small.
  - rewrite HK, sam_keccak. exact sam_ic.
  - reflexivity.
  - reflexivity.
  - exact sam_x0.
  - exact sam_x_out.
  - exact sam_u1.
  - exact sam_u2.
  - exact sam_helpers.
  - exact flp_fits.
  - exact S1.
  - exact S2.
  - exact S3.
  - discriminate.
  - discriminate.
  - discriminate.
  - discriminate.
Qed.

(** ** The two verdicts *)
Lemma pts_valid : valid_pt sample_W = true /\ valid_pt sample_R = true /\ valid_pt flipped_W = true /\ valid_pt flipped_R = true.
Proof. repeat split; vm_compute; reflexivity. Qed.
Lemma c61 O s : real_hashes O -> degen_sane O -> real_pairing O -> Define O Test sample s = Done (None, s).
Proof.
  intros HH HD HP. apply (c60 O s HH HD). apply HP; [|exact sample_tate].
  destruct pts_valid as (V1 & V2 & _ & _).
  constructor; [split; [exact V1 | left; reflexivity]|]. constructor; [split; [exact V2 | right; reflexivity]|]. constructor.
Qed.
Lemma c62 O s : real_hashes O -> degen_sane O -> real_pairing O ->
  o_pairing O [(flipped_W, g20_const); (flipped_R, g21_const)] = false /\ forall e s', Define O Test flipped s <> Done (e, s').
Proof.
  intros HH HD HP. destruct pts_valid as (_ & _ & V1 & V2).
  assert (F : o_pairing O [(flipped_W, g20_const); (flipped_R, g21_const)] = false).
  { apply not_true_is_false. intros T. apply HP in T; [exact (flipped_tate T)|].
    constructor; [split; [exact V1 | left; reflexivity]|]. constructor; [split; [exact V2 | right; reflexivity]|]. constructor. }
  split; [exact F|]. intros e s'. rewrite (flp_run O s HH HD), F. discriminate.
Qed.

Definition is1 (x : fp12) : bool :=
  let i2 (a b : Z * Z) := (fst a =? fst b) && (snd a =? snd b) in
  let i6 (a b : (Z * Z) * (Z * Z) * (Z * Z)) := i2 (fst (fst a)) (fst (fst b)) && i2 (snd (fst a)) (snd (fst b)) && i2 (snd a) (snd b) in
  i6 (fst x) (fst (o1 zp12)) && i6 (snd x) (snd (o1 zp12)).
Lemma is1_ok x : is1 x = true <-> x = o1 zp12.
Proof.
  split; [|intros ->; reflexivity]. destruct x as [[[[] []] []] [[[] []] []]]. unfold is1. cbn [fst snd zp12 zp6 zp2 quad cubic o1 o0 zp].
  rewrite !andb_true_iff, !Z.eqb_eq. intros H. repeat match goal with H : _ /\ _ |- _ => destruct H end. subst. reflexivity.
Qed.
Definition tate_O : oracles := {|
  o_keccak := keccak256; o_sha256 := sha256; o_smul_degen := fun _ _ _ => None; o_pairing := fun l => is1 (tate_product l);
  o_ecdsa := fun _ _ _ _ _ => false |}.
Lemma tate_O_ok : real_hashes tate_O /\ degen_sane tate_O /\ real_pairing tate_O.
Proof.
  split; [split; reflexivity|]. split; [intros x y k E; discriminate E|]. intros l _. apply is1_ok.
Qed.
Lemma tate_bases : valid_pt sample_W = true /\ valid_pt sample_R = true. Proof. split; apply pts_valid. Qed.
