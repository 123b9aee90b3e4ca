(** A complete accepted run of the aggregation circuit with non-trivial challenges, evaluations and commitments. *)
From Coq Require Import ZArith String Bool List Lia Arith Ring Field Uint63.
From Verif Require Import Params Go Curve Api FrOps Lib Steps Agg NumThy FField FpField P_Fr SpecCurve SpecHash SpecMisc SpecVerify P_Curve
  P_Misc P_Msm P_Dom P_Step P_Exec P_Eval P_Verify P_VSpec P_Acc P_Comp P_Accept P_Honest P_Complete P_PipeOk P_Limb.
Import ListNotations.
Open Scope Z_scope.

(** ** The data.  theta = beta = 0, gamma = 1, y = 13, y' = v = 1; x and u are chosen so that
    u - omega^-6 x = 1 and u - omega x = 2. *)
Definition rx : Z := 20005159452841998521249769098864485922710205810460446476860114344835018535213.
Definition ru : Z := 9406292047447067534393194371808179177159288762702766853322572253288865918399.
Definition rxn : Z := 10574021597152768502055933025414401568520731589048468820198932257079395473617.
Definition rk1 : Z := 6597743763014560682596920591247837474805707348637702687236662209876790335868.
Definition rk4 : Z := 3516434190694460903945517883977825839474550460441161568396525176187018043814.
Definition rka : Z := 21148043194305537004111866050828803137041463178096937640397864514158790947234.
Definition rkb : Z := 20089446427449580004646451797979941876610262971175360040742676254788547292561.
Definition rkw : Z := 21197734810789861973713149454112613491101834095515359247075084183092305233628.

(** the oracles: instance digest 1; transcript digests by the length of the message in words *)
Definition run_Op (pr : list (pt * g2) -> bool) : oracles := {|
  o_keccak := fun _ => 1;
  o_sha256 := fun m => match Z.of_nat (length m) / 32 with
    | 1 => 1 | 3 => ru | 7 => rx | 15 => 13 | 57 => 1 | _ => 0 end;
  o_smul_degen := fun _ _ _ => None;
  o_pairing := pr;
  o_ecdsa := fun _ _ _ _ _ => false |}.
Definition run_O : oracles := run_Op (fun _ => true).

Definition run_G2 : Z * Z := (1368015179489954701390400359078579693043519447331113978918064868415326638035, 9918110051302171585080402603319702774565515993150576347155970296011118125764).
Definition run_G3 : Z * Z := (3353031288059533942658390886683067124040920775575537747144343083137631628272, 19321533766552368860946552437480515441416830039777911637913418824951667761761).
(** the i-th commitment *)
Definition run_com (i : nat) : Z * Z :=
  if existsb (Nat.eqb i) [6; 7; 8; 10; 20; 21]%nat then (1, 2)
  else match Nat.modulo i 3 with O => (1, 2) | 1%nat => run_G2 | _ => run_G3 end.
(** evaluations at words 44..99 *)
Definition run_eval (i : nat) : Z :=
  match Z.of_nat i with
  | 45 => 3 | 46 => 5 | 65 => 1 | 58 => r_mod - 15 | 71 => 53
  | 79 | 80 | 81 | 82 | 83 | 84 | 85 | 86 | 87 | 88 | 89 | 90 | 91 | 95 | 96 => 1
  | _ => 0
  end.
Definition run_proof : list Z := Eval vm_compute in
  flat_map (fun i => [fst (run_com i); snd (run_com i)]) (seq 0 22) ++ map run_eval (seq 44 56) ++ [1; 2; 1; 2].
Definition rlx : Z := lagrange_x.
Definition rly : Z := lagrange_y.
Definition run_circuit : AggregatorCircuit := {|
  Proof_ := map VBig run_proof; VerifyInst := []; Aux := map VBig (map val (helpers (fc rx) (fc ru) 0%fr)); TargetInst := [VBig 7] |}.

Lemma run_transcript pr : transcript_values (run_Op pr) rlx rly run_proof = [0; 0; 1; 13; rx; 1; 1; ru].
Proof. vm_compute. reflexivity. Qed.

(** ** Field facts *)
Ltac fcn := rewrite <- ?phi_mul, <- ?phi_add, <- ?phi_sub, <- ?phi_opp; apply phi_eq_iff; vm_compute; reflexivity.
Lemma run_dm6 : (fc ru - rot (fc rx) (-6))%fr = 1%fr.
Proof. unfold rot. rewrite <- k_m6. change 1%fr with (fc 1). fcn. Qed.
Lemma run_d1 : (fc ru - rot (fc rx) 1)%fr = fc 2.
Proof. unfold rot. rewrite <- k_1. fcn. Qed.
Lemma run_dm1 : ((fc ru - rot (fc rx) (-1)) * fc rk1)%fr = fc 2.
Proof. unfold rot. rewrite <- k_m1. fcn. Qed.
Lemma run_d2 : ((fc ru - rot (fc rx) 2) * fc rk4)%fr = 1%fr.
Proof. unfold rot. rewrite <- k_2. change 1%fr with (fc 1). fcn. Qed.
Lemma run_w : (- ((fc ru - fc rx) * fc 2))%fr = fc rkw.
Proof. fcn. Qed.
Fixpoint sqs (n : nat) (a : Z) : Z := match n with O => a | S m => sqs m ((a * a) mod r_mod) end.
Lemma sqs_ok n : forall a, fexp (fc a) (2 ^ Z.of_nat n) = fc (sqs n a).
Proof.
  induction n as [|n IH]; intros a; [change (2 ^ Z.of_nat 0) with 1; apply fexp_1|].
  rewrite Nat2Z.inj_succ, Z.pow_succ_r by lia. rewrite fexp_mul by lia. rewrite fexp_2. cbn [sqs]. rewrite <- IH.
  rewrite phi_mod, phi_mul. reflexivity.
Qed.
Lemma run_sqs : sqs 23 rx = rxn. Proof. vm_compute. reflexivity. Qed.
Lemma run_xn : fexp (fc rx) dom_n = fc rxn.
Proof. unfold dom_n. change 23 with (Z.of_nat 23). rewrite sqs_ok, run_sqs. reflexivity. Qed.
Lemma run_xa : (fc 2 * fc rxn)%fr = fc rka. Proof. fcn. Qed.
Lemma run_xb : (fc 2 * (fc rxn * fc rxn))%fr = fc rkb. Proof. fcn. Qed.

Lemma zero_div a : (0 / a)%fr = 0%fr. Proof. unfold fdiv. ring. Qed.
Local Opaque phi fmul fadd fsub fopp fdiv finv rot fzpow fexp omega delta.

(** ** Words *)
Definition run_word (i : nat) : Fr :=
  match Z.of_nat i with
  | 45 => fc 3 | 46 => fc 5 | 65 => 1%fr | 58 => (- fc 15)%fr | 71 => fc 53
  | 79 | 80 | 81 | 82 | 83 | 84 | 85 | 86 | 87 | 88 | 89 | 90 | 91 | 95 | 96 => 1%fr
  | _ => 0%fr
  end.
Lemma run_m15 : fc (r_mod - 15) = (- fc 15)%fr. Proof. fcn. Qed.
Lemma run_words i : (44 <= i < 100)%nat -> word run_proof i = run_word i.
Proof.
  intros H. do 44 (destruct i as [|i]; [lia|]).
  do 56 (destruct i as [|i]; [first [reflexivity | exact run_m15]|]). lia.
Qed.
Lemma run_coms i : (i < 22)%nat -> com run_proof i = run_com i.
Proof. intros H. do 22 (destruct i as [|i]; [vm_compute; reflexivity|]). lia. Qed.
Lemma run_W : W run_proof = (1, 2) /\ W' run_proof = (1, 2). Proof. split; vm_compute; reflexivity. Qed.

(** ** The quotient *)
Lemma cons_eq' {X} (a b : X) k l : a = b -> k = l -> a :: k = b :: l.
Proof. intros -> ->. reflexivity. Qed.
Lemma run_quotient y x : quotient (word run_proof) 0%fr 0%fr 1%fr x y = 0%fr.
Proof.
  unfold quotient.
  assert (E : expressions (word run_proof) 0%fr 0%fr 1%fr x = repeat 0%fr 23).
  { unfold expressions, permutation, lookups, lookup, lookup_table, chunk, gates, gate_main, SpecVerify.limbs, pick.
    cbv [app map]. rewrite !run_words by lia. cbn [run_word Z.of_nat Pos.of_succ_nat Pos.succ].
    cbv [prod sum map fold_right combine length seq filter negb Z.eqb Pos.eqb]. cbn [repeat].
    generalize (l_0 x) (l_last x) (l_active x). intros l0 ll la.
    repeat (apply cons_eq'; [ring|]). reflexivity. }
  rewrite E. cbv [horner repeat fold_left].
  transitivity (0 / (fexp x dom_n - 1))%fr; [f_equal; ring|]. apply zero_div.
Qed.

(** ** The opening *)
Lemma run_x0 : fc rx <> 0%fr.
Proof. intros E. apply phi_eq_iff in E. revert E. vm_compute. discriminate. Qed.
Lemma two_n0 : fc 2 <> 0%fr.
Proof. intros E. apply phi_eq_iff in E. revert E. vm_compute. discriminate. Qed.
Lemma run_m1_n0 : (fc ru - rot (fc rx) (-1))%fr <> 0%fr.
Proof. intros E. apply two_n0. rewrite <- run_dm1, E. ring. Qed.
Lemma run_2_n0 : (fc ru - rot (fc rx) 2)%fr <> 0%fr.
Proof. intros E. apply fr_1_0. rewrite <- run_d2, E. ring. Qed.
Definition run_sets : list rotset -> list (list Z) := map fst.
Lemma run_factors ic h : let F := factor (fc rx) (fc ru) (queries run_proof ic h (fc rx)) in
  F [-6; 0; 1] = 1%fr /\ F [0; -1] = fc rk1 /\ F [0] = fc 2 /\ F [0; 1] = 1%fr /\ F [0; 1; 2] = fc rk4.
Proof.
  intros F. unfold F, factor. cbn [first_rots queries]. unfold vanish.
  cbv [without all_rots filter existsb negb orb Z.eqb Pos.eqb map prod fold_right].
  rewrite run_dm6, run_d1.
  pose proof run_m1_n0 as N1. pose proof run_2_n0 as N2.
  assert (E1 : fc rk1 = (fc 2 / (fc ru - rot (fc rx) (-1)))%fr) by (rewrite <- run_dm1; field; exact N1).
  assert (E4 : fc rk4 = (1 / (fc ru - rot (fc rx) 2))%fr) by (rewrite <- run_d2; field; exact N2).
  rewrite E1, E4. generalize dependent (fc ru - rot (fc rx) (-1))%fr. generalize dependent (fc ru - rot (fc rx) 2)%fr.
  intros a Ha _ b Hb _. repeat split; field; repeat split; assumption.
Qed.
Lemma run_interps : let I := interpolate (fc rx) (fc ru) in
  I [-6; 0; 1] [1%fr; 1%fr; 1%fr] = 1%fr /\ I [0; -1] [0%fr; 0%fr] = 0%fr /\ (forall e, I [0] [e] = e) /\
  I [0; 1] [1%fr; 1%fr] = 1%fr /\ I [0; 1] [0%fr; 0%fr] = 0%fr /\ I [0; 1; 2] [0%fr; 0%fr; 0%fr] = 0%fr.
Proof.
  intros I. unfold I, interpolate, basis. cbv [without combine filter existsb negb orb Z.eqb Pos.eqb map sum prod fold_right].
  pose proof (fun j k (H : j mod dom_n <> k mod dom_n) => rot_ne (fc rx) j k run_x0 H) as N.
  pose proof (N (-6) 0 ltac:(discriminate)) as N1. pose proof (N (-6) 1 ltac:(discriminate)) as N2. pose proof (N 0 (-6) ltac:(discriminate)) as N3.
  pose proof (N 0 1 ltac:(discriminate)) as N4. pose proof (N 1 (-6) ltac:(discriminate)) as N5. pose proof (N 1 0 ltac:(discriminate)) as N6.
  generalize dependent (rot (fc rx) (-6)). generalize dependent (rot (fc rx) 0). generalize dependent (rot (fc rx) 1).
  generalize (rot (fc rx) 2) (rot (fc rx) (-1)) (fc ru). intros.
  split; [field; repeat split; assumption|]. split; [ring|]. split; [intros; ring|].
  split; [field; repeat split; assumption|]. split; ring.
Qed.
Lemma run_opening ic : opening 1%fr 1%fr (fc rx) (fc ru) (queries run_proof ic 0%fr (fc rx)) = fc 100.
Proof.
  destruct (run_factors ic 0%fr) as (F1 & F2 & F3 & F4 & F5). destruct run_interps as (I1 & I2 & I3 & I4 & I5 & I6).
  unfold opening. set (F := factor (fc rx) (fc ru) (queries run_proof ic 0%fr (fc rx))) in *. clearbody F.
  set (I := interpolate (fc rx) (fc ru)) in *. clearbody I.
  cbv [queries map app combine seq vk_fixed vk_sigma single h_poly p_evals horner fold_left].
  rewrite !run_words by lia. cbn [run_word Z.of_nat Pos.of_succ_nat Pos.succ].
  rewrite F1, F2, F3, F4, F5, !I1, !I2, !I3, !I4, !I5, !I6. ring.
Qed.

(** ** The commitment terms *)
Lemma pows_one n : powers 1%fr n = repeat 1%fr n.
Proof.
  unfold powers. rewrite map_rev.
  assert (E : forall l : list nat, map (fun i => fexp 1%fr (Z.of_nat i)) l = repeat 1%fr (length l)).
  { induction l as [|i l IH]; [reflexivity|]. cbn [map length repeat]. rewrite IH, fexp_one by lia. reflexivity. }
  rewrite E, seq_length. clear E. induction n as [|n IH]; [reflexivity|]. cbn [repeat rev]. rewrite IH.
  clear. induction n as [|n IH]; [reflexivity|]. cbn [repeat app]. rewrite IH. reflexivity.
Qed.
Lemma pair_eq {X Y} (a c : X) (b d : Y) : a = c -> b = d -> (a, b) = (c, d). Proof. intros -> ->. reflexivity. Qed.
Definition run_coms_in (ic : Z * Z) : list (Z * Z) :=
  map (com run_proof) [12; 13; 14; 8; 10]%nat ++ [ic] ++ map (com run_proof) [0; 1; 2; 3; 5; 9; 11]%nat ++ vk_fixed ++ vk_sigma ++
  map (com run_proof) [19; 20; 21; 18; 4; 15; 16; 17; 6; 7]%nat ++ [W run_proof; W' run_proof].
Definition run_ks : list Z :=
  [1; 1; 1; rk1; rk1] ++ repeat 2 29 ++ [rka; rkb; 2; 1; 1; 1; 1; rk4; rk4; rkw; ru].
Lemma run_final ic : final_terms run_proof ic 0%fr (fc rx) 1%fr 1%fr (fc ru) =
  combine (run_coms_in ic) (map fc run_ks).
Proof.
  destruct (run_factors ic 0%fr) as (F1 & F2 & F3 & F4 & F5).
  unfold final_terms, com_terms, set_terms. rewrite !pows_one.
  set (F := factor (fc rx) (fc ru) (queries run_proof ic 0%fr (fc rx))) in *. clearbody F.
  cbv [queries map app combine seq vk_fixed vk_sigma single h_poly p_com flat_map scale length repeat run_ks run_coms_in
    first_rots vanish prod fold_right].
  rewrite !pows_one.
  cbv [map app combine flat_map length repeat].
  rewrite F1, F2, F3, F4, F5, run_xn, <- run_xa, <- run_xb, <- run_w, run_dm6, run_d1, rot_0. clear.
  change (fc 1) with 1%fr.
  repeat (apply cons_eq'; [apply pair_eq; [reflexivity | ring]|]). reflexivity.
Qed.

(** ** The sums, checked on machine integers *)
Definition run_pts : list (Z * Z) := Eval vm_compute in run_coms_in (rlx, rly).
Definition run_ord : list ((Z * Z) * Z) := Eval vm_compute in
  map (fun i => (nth i run_pts (0, 0), nth i run_ks 0)) add_order.
Lemma run_pts_ok : run_coms_in (rlx, rly) = run_pts. Proof. vm_compute. reflexivity. Qed.
Lemma run_ks_small : Forall (fun k => 0 <= k < r_mod) run_ks.
Proof. repeat (constructor; [split; [discriminate | reflexivity]|]). constructor. Qed.
Lemma order_45 : Forall (fun i => (i < 45)%nat) add_order.
Proof. unfold add_order. repeat (constructor; [lia|]). constructor. Qed.
Lemma run_ordered : ordered_terms (final_terms run_proof (rlx, rly) 0%fr (fc rx) 1%fr 1%fr (fc ru)) = run_ord.
Proof.
  rewrite run_final, run_pts_ok. unfold ordered_terms.
  transitivity (map (fun i => (nth i run_pts (0, 0), nth i run_ks 0)) add_order); [|vm_compute; reflexivity].
  pose proof order_45 as O. rewrite Forall_forall in O. apply map_ext_in. intros i Hi. specialize (O i Hi). clear Hi.
  cbv zeta. rewrite combine_nth by reflexivity. cbn [fst snd]. apply pair_eq; [reflexivity|].
  change 0%fr with (fc 0). rewrite map_nth, val_phi. apply Z.mod_small.
  pose proof run_ks_small as S. rewrite Forall_forall in S. apply S, nth_In. exact O.
Qed.

Definition run_lim : list (positive * lpt) := Eval vm_compute in map (fun t => (Z.to_pos (snd t), tol (fst t))) run_ord.
Definition run_acc : lpt := Eval vm_compute in snd (gmul 100 (tol (1, p_mod - 2))).
Definition run_mul : list (positive * lpt * (list wit * lpt)) := Eval vm_compute in
  map (fun e => (e, gmul (fst e) (snd e))) ((100%positive, tol (1, p_mod - 2)) :: run_lim).
Definition run_sum : list (lpt * wit) := Eval vm_compute in gsum run_acc (map (fun e => snd (snd e)) (tl run_mul)).
Definition run_res : lpt := Eval vm_compute in w_r (snd (last run_sum (run_acc, Build_wit [] [] [] [] [] [] run_acc))).
Lemma run_mul_ok : prods_chk run_mul = true. Proof. vm_compute. reflexivity. Qed.
Lemma run_sum_ok : schk run_acc run_sum = Some run_res. Proof. vm_compute. reflexivity. Qed.
Lemma run_same : same_pts (tl run_mul) run_sum = true. Proof. vm_compute. reflexivity. Qed.
Lemma run_term : map term_of (tl run_mul) = run_ord. Proof. vm_compute. reflexivity. Qed.
Lemma run_acc_fit : fitb run_acc = true. Proof. vm_compute. reflexivity. Qed.
Lemma run_head : nth_error run_mul 0 = Some (100%positive, tol (1, p_mod - 2), (fst (snd (hd (1%positive, run_acc, ([], run_acc)) run_mul)), run_acc)).
Proof. vm_compute. reflexivity. Qed.
Lemma run_neg : topt (tol (1, p_mod - 2)) = Aff 1 (p_mod - 2). Proof. vm_compute. reflexivity. Qed.
Lemma run_res_val : topt run_res = Aff 1502801871462175393820925455285495992887476953811468792354060856688680184360 6632252566726019873710870140265668413211553342298889289489601518770461885315. Proof. vm_compute. reflexivity. Qed.
Lemma prods_tl m l : prods_chk (m :: l) = true -> prods_chk l = true.
Proof. unfold prods_chk. cbn [forallb]. rewrite andb_true_iff. tauto. Qed.
Lemma run_sums : let acc := pmul 100 (Aff 1 (p_mod - 2)) in
  fits acc /\ sums_fit acc run_ord /\ msm_from acc run_ord = Aff 1502801871462175393820925455285495992887476953811468792354060856688680184360 6632252566726019873710870140265668413211553342298889289489601518770461885315.
Proof.
  pose proof (nth_error_In _ _ run_head) as Hi.
  destruct (prods_ok _ run_mul_ok _ _ _ _ Hi) as [_ E]. rewrite run_neg in E. cbv zeta. rewrite E.
  destruct (fitb_ok _ run_acc_fit) as (G & F & _). split; [exact F|].
  assert (P : prods_chk (tl run_mul) = true).
  { pose proof run_mul_ok as P. revert P. generalize run_mul. intros [|m l] P; [exact P | exact (prods_tl m l P)]. }
  pose proof (same_pts_ok _ P _ run_same) as Q. rewrite run_term in Q.
  destruct (schk_ok _ _ Q _ _ G run_sum_ok) as [S1 S2]. rewrite run_res_val in S2. exact (conj S1 S2).
Qed.

(** ** The accepted runs *)
Definition run_aux : list Z := map val (helpers (fc rx) (fc ru) 0%fr).
Definition run_buf : list Z := [rlx; rly; 0; 0; 1; 13; rx; 1; 1; ru] ++ repeat 0 33.
Lemma run_x_out : fexp (fc rx) dom_n <> 1%fr.
Proof. rewrite run_xn. change 1%fr with (fc 1). intros E. apply phi_eq_iff in E. revert E. vm_compute. discriminate. Qed.
Lemma sub_neq (a b : Fr) : (a - b)%fr <> 0%fr -> a <> b.
Proof. intros H ->. apply H. ring. Qed.
Lemma run_valid : coms_valid run_proof.
Proof.
  assert (F : forallb (fun i => valid_pt (Aff (nth (2 * i) run_proof 0) (nth (2 * i + 1) run_proof 0))) commitments = true)
    by (vm_compute; reflexivity).
  intros i Hi. exact (proj1 (forallb_forall _ _) F i Hi).
Qed.
Lemma run_fits : fits (Aff (nth 102 run_proof 0) (nth 103 run_proof 0)).
Proof. exists 1, 2. split; [vm_compute; reflexivity|]. split; split; discriminate || reflexivity. Qed.
Lemma run_helpers i : (i < 21)%nat -> nth i run_aux 0 = val (nth i (helpers (fc rx) (fc ru) 0%fr) 0%fr).
Proof.
  intros H. unfold run_aux. change 0 with (val 0%fr) at 1. apply map_nth.
Qed.
Lemma run_val100 : val (fc 100) = 100. Proof. rewrite val_phi. reflexivity. Qed.
Lemma run_small : Forall SpecHash.small (firstn 102 run_proof).
Proof.
  assert (F : forallb (fun z => Z.abs z <? 2 ^ 256) (firstn 102 run_proof) = true) by (vm_compute; reflexivity).
  rewrite forallb_forall in F. apply Forall_forall. intros z Hz. apply Z.ltb_lt. exact (F z Hz).
Qed.

Definition run_X : Z := 1502801871462175393820925455285495992887476953811468792354060856688680184360.
Definition run_Y : Z := 6632252566726019873710870140265668413211553342298889289489601518770461885315.
Lemma run_accepted_by pr s : pr [(Aff 1 2, g20_const); (Aff run_X run_Y, g21_const)] = true ->
  Define (run_Op pr) Test run_circuit s = Done (None, s).
Proof.
  intros HP. pose proof (run_transcript pr) as TV. destruct run_sums as (S1 & S2 & S3).
  apply (c48 (run_Op pr) run_circuit [7] run_proof run_aux s rlx rly run_X run_Y); rewrite ?TV; cbn [nth];
    change (fc 0) with 0%fr; change (fc 1) with 1%fr; rewrite ?run_quotient, ?run_opening, ?run_ordered, ?run_val100; try assumption.
  - reflexivity.
  - reflexivity.
  - reflexivity.
  - cbn. lia.
  - vm_compute. lia.
  - cbn. lia.
  - intros a b c E. discriminate E.
  - exact run_valid.
  - exact run_small.
  - vm_compute. reflexivity.
  - reflexivity.
  - reflexivity.
  - exact run_x0.
  - exact run_x_out.
  - exact (sub_neq _ _ run_m1_n0).
  - exact (sub_neq _ _ run_2_n0).
  - exact run_helpers.
  - exact run_fits.
  - discriminate.
  - discriminate.
  - discriminate.
  - discriminate.
Qed.
Lemma run_accepted s : Define run_O Test run_circuit s = Done (None, s).
Proof. apply run_accepted_by. reflexivity. Qed.

Lemma run_h : fc (nth 16 run_aux 0) = 0%fr.
Proof. rewrite run_helpers by lia. cbn [helpers map app nth]. apply phi_val. Qed.
Lemma run_range j : (2 <= j < 10)%nat -> 0 <= nth j run_buf 0 < r_mod.
Proof. intros H. do 10 (destruct j as [|j]; [first [lia | vm_compute; split; discriminate || reflexivity]|]). lia. Qed.
Lemma run_buf_valid : valid_pt (Aff (nth 0 run_buf 0) (nth 1 run_buf 0)) = true. Proof. vm_compute. reflexivity. Qed.
Lemma run_len : (104 <= length run_proof)%nat. Proof. vm_compute. lia. Qed.
Lemma run_pf : points_fit run_proof run_aux run_buf.
Proof.
  unfold points_fit. rewrite run_h. destruct run_sums as (S1 & S2 & S3). split; [exact run_fits|].
  change (regs run_buf 7%nat) with 1%fr. change (regs run_buf 8%nat) with 1%fr. change (regs run_buf 6%nat) with (fc rx).
  change (regs run_buf 9%nat) with (fc ru). change (nth 0 run_buf 0) with rlx. change (nth 1 run_buf 0) with rly.
  rewrite run_opening, run_ordered, run_val100. exact (conj S1 S2).
Qed.
Lemma run_oks : oks run_proof run_aux scalar_part (regs run_buf).
Proof.
  apply honest_ok.
  - exact run_x0.
  - exact run_x_out.
  - exact (sub_neq _ _ run_m1_n0).
  - exact (sub_neq _ _ run_2_n0).
  - change (regs run_buf 2%nat) with 0%fr. change (regs run_buf 3%nat) with 0%fr. change (regs run_buf 4%nat) with 1%fr.
    rewrite run_quotient. exact run_helpers.
Qed.
Lemma nth_VBig l i : (i < length l)%nat -> nth_error (map VBig l) i = Some (VBig (nth i l 0)).
Proof. intros H. rewrite nth_error_map, (nth_error_nth' l 0 H). reflexivity. Qed.
Lemma firstn_skipn_4 l : length l = 43%nat ->
  firstn 4 (skipn 10 (map VBig l)) = map VBig [nth 10 l 0; nth 11 l 0; nth 12 l 0; nth 13 l 0].
Proof. intros H. do 14 (destruct l as [|? l]; [discriminate H|]). reflexivity. Qed.
Lemma run_steps O s : degen_sane O -> exists b1 b2 b3,
  VerifyProof1 O Test (map VBig run_proof) (map VBig run_aux) (map VBig run_buf) s = Done ((b1, None), s) /\
  VerifyProof2 O Test (map VBig run_proof) (map VBig run_aux) b1 s = Done ((b2, None), s) /\
  VerifyProof3 O Test (map VBig run_proof) (map VBig run_aux) b2 s = Done ((b3, None), s) /\
  nth_error b2 18 = Some (VBig 100) /\ firstn 4 (skipn 10 b3) = map VBig [1; 2; 1502801871462175393820925455285495992887476953811468792354060856688680184360; 6632252566726019873710870140265668413211553342298889289489601518770461885315].
Proof.
  intros Hd.
  destruct (fit_runs O run_proof run_aux run_buf s eq_refl run_range run_len ltac:(cbn; lia) Hd run_valid run_buf_valid run_oks run_pf)
    as (b1 & b2 & B3 & H1 & H2 & H3 & L3 & Q10 & Q12).
  exists b1, b2, (map VBig B3). split; [exact H1|]. split; [exact H2|]. split; [exact H3|].
  split.
  - rewrite (c29_gen O run_proof run_aux run_buf s s s b1 b2 eq_refl run_range H1 H2 (rlx, rly)). rewrite run_h.
    change (regs run_buf 7%nat) with 1%fr. change (regs run_buf 8%nat) with 1%fr. change (regs run_buf 6%nat) with (fc rx).
    change (regs run_buf 9%nat) with (fc ru). rewrite run_opening, run_val100. reflexivity.
  - clear H1 H2 H3. rewrite run_h in Q12. destruct run_sums as (_ & _ & S3).
    change (regs run_buf 7%nat) with 1%fr in Q12. change (regs run_buf 8%nat) with 1%fr in Q12. change (regs run_buf 6%nat) with (fc rx) in Q12.
    change (regs run_buf 9%nat) with (fc ru) in Q12. change (nth 0 run_buf 0) with rlx in Q12. change (nth 1 run_buf 0) with rly in Q12.
    rewrite run_opening, run_ordered, run_val100, S3 in Q12. clear S3. unfold q_of in Q10, Q12. cbn [fst snd] in Q12.
    cbv [Nat.add] in Q10, Q12. apply encodes_coords in Q12. cbn [coords0] in Q12.
    rewrite (firstn_skipn_4 B3 L3). symmetry in Q12. apply pair_equal_spec in Q10, Q12.
    destruct Q10 as [Q1 Q2], Q12 as [Q3 Q4]. rewrite Q1, Q2, Q3, Q4. reflexivity.
Qed.
Lemma run_case : forall O s, degen_sane O ->
  length run_buf = 43%nat /\ (forall j, (2 <= j < 10)%nat -> 0 <= nth j run_buf 0 < r_mod) /\ coms_valid run_proof /\
  valid_pt (Aff (nth 0 run_buf 0) (nth 1 run_buf 0)) = true /\ fexp (fc (nth 6 run_buf 0)) dom_n <> 1%fr /\
  exists b1 b2 b3,
    VerifyProof1 O Test (map VBig run_proof) (map VBig run_aux) (map VBig run_buf) s = Done ((b1, None), s) /\
    VerifyProof2 O Test (map VBig run_proof) (map VBig run_aux) b1 s = Done ((b2, None), s) /\
    VerifyProof3 O Test (map VBig run_proof) (map VBig run_aux) b2 s = Done ((b3, None), s) /\
    nth_error b2 18 = Some (VBig 100) /\ firstn 4 (skipn 10 b3) = map VBig [1; 2;
      1502801871462175393820925455285495992887476953811468792354060856688680184360;
      6632252566726019873710870140265668413211553342298889289489601518770461885315].
Proof.
  intros O s Hd. exact (conj eq_refl (conj run_range (conj run_valid (conj run_buf_valid (conj run_x_out (run_steps O s Hd)))))).
Qed.
