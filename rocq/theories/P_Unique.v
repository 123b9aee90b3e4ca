(** At most one last opening point is accepted: C65. *)
From Coq Require Import ZArith Lia Bool List Permutation Ring Field.
From Verif Require Import Params Go Curve Api FrOps Lib Steps Agg NumThy FField FpField SpecCurve SpecHash SpecMisc SpecVerify SpecPoly SpecRows
  P_Fr P_Curve P_Msm P_Group P_Order P_GroupSpec P_Misc P_Kyc P_LinComb P_Restate P_Dom P_VSpec P_Honest P_Final P_Shplonk P_Poly P_Open P_Rows P_Snark P_Circuit P_Acc P_Complete.
Import ListNotations.
Open Scope Z_scope.

Local Opaque p_mod r_mod.
Local Opaque phi fmul fadd fsub fopp fdiv finv.
Local Opaque rot fzpow fexp omega delta dom_n.

(** ** Points of the group *)
Lemma cancel_r P Q S : valid P -> valid Q -> valid S -> padd P S = padd Q S -> P = Q.
Proof.
  intros VP VQ VS E. pose proof (pneg_valid S VS) as VN.
  assert (K : padd (padd P S) (pneg S) = padd (padd Q S) (pneg S)) by (rewrite E; reflexivity).
  rewrite !padd_assoc, pneg_add, !padd_inf_r in K by assumption. exact K.
Qed.
Lemma zmul_fr_add (a b : Fr) P : valid P -> zmul (val (a + b)%fr) P = padd (zmul (val a) P) (zmul (val b) P).
Proof.
  intros V. rewrite <- zmul_add by exact V. rewrite <- (zmul_mod P (val a + val b) V). reflexivity.
Qed.
Lemma zmul_fr_mul (a b : Fr) P : valid P -> zmul (val (a * b)%fr) P = zmul (val a) (zmul (val b) P).
Proof.
  intros V. rewrite <- zmul_mul by exact V. rewrite <- (zmul_mod P (val a * val b) V). reflexivity.
Qed.
(** tau P = Q + u P determines P *)
Lemma solve_point (tau u : Fr) Q P P' : tau <> u -> valid Q -> valid P -> valid P' ->
  zmul (val tau) P = padd Q (zmul (val u) P) -> zmul (val tau) P' = padd Q (zmul (val u) P') -> P = P'.
Proof.
  intros N VQ VP VP' H H'.
  assert (S : forall X, valid X -> zmul (val tau) X = padd Q (zmul (val u) X) -> X = zmul (val (frinv (tau - u)%fr)) Q).
  { intros X VX E. replace tau with ((tau - u) + u)%fr in E by ring. rewrite zmul_fr_add in E by exact VX.
    apply cancel_r in E; [|apply zmul_valid, VX|exact VQ|apply zmul_valid, VX]. rewrite <- E, <- zmul_fr_mul by exact VX.
    replace (frinv (tau - u) * (tau - u))%fr with 1%fr by (field; intros Z; apply N; replace tau with ((tau - u) + u)%fr by ring; rewrite Z; ring).
    rewrite <- pmul_zmul by exact VX. symmetry. apply pmul_one. }
  rewrite (S P VP H), (S P' VP' H'). reflexivity.
Qed.

(** ** What depends on the last point *)
Section Last.
  Variables (S0 : list Z) (a1 b1 a2 b2 : Z).
  Hypothesis L0 : length S0 = 102%nat.
  Notation T1 := (S0 ++ [a1; b1]).
  Notation T2 := (S0 ++ [a2; b2]).
  Lemma nth_same i : (i < 102)%nat -> nth i T1 0 = nth i T2 0.
  Proof. intros H. rewrite !app_nth1 by lia. reflexivity. Qed.
  Lemma word_same i : (i < 102)%nat -> word T1 i = word T2 i.
  Proof. intros H. unfold word. rewrite nth_same by exact H. reflexivity. Qed.
  Lemma com_same i : (i < 51)%nat -> com T1 i = com T2 i.
  Proof. intros H. unfold com. rewrite !nth_same by lia. reflexivity. Qed.
  Lemma cut_same l t t' : forall n : list nat, (list_sum n <= length l)%nat -> cut n (l ++ t) = cut n (l ++ t' : list Z).
  Proof.
    intros n. revert l. induction n as [|k n IH]; intros l H; [reflexivity|]. cbn [list_sum fold_right] in H. fold (list_sum n) in H. cbn [cut].
    rewrite !firstn_app, !skipn_app. replace (k - length l)%nat with 0%nat by lia. cbn [firstn skipn]. f_equal.
    apply IH. rewrite skipn_length. lia.
  Qed.
  Lemma tv_same O x y : transcript_values O x y T1 = transcript_values O x y T2.
  Proof.
    unfold transcript_values. rewrite !map_app. rewrite (cut_same (map Z.abs S0) (map Z.abs [a1; b1]) (map Z.abs [a2; b2])); [reflexivity|].
    rewrite map_length, L0. cbn. lia.
  Qed.
  Lemma queries_same ic h x : queries T1 ic h x = queries T2 ic h x.
  Proof. unfold queries, h_poly, single, vk_fixed, vk_sigma. rewrite !com_same by lia. cbn [map combine seq]. rewrite !word_same by lia. reflexivity. Qed.
  Lemma quotient_same th be ga x y : quotient (word T1) th be ga x y = quotient (word T2) th be ga x y.
  Proof.
    unfold quotient, expressions, gates, gate_main, permutation, lookups, lookup_table, pick, limbs. cbn [map combine seq length].
    rewrite !word_same by lia. reflexivity.
  Qed.
  Lemma W_same : W T1 = W T2. Proof. apply com_same. lia. Qed.
End Last.

Lemma last_coords S0 a b : length S0 = 102%nat -> W' (S0 ++ [a; b]) = (a mod p_mod, b mod p_mod).
Proof. intros L. unfold W', com. cbn [Nat.mul Nat.add]. rewrite !app_nth2 by lia. rewrite L. reflexivity. Qed.

(** the accumulated point is Q + u W', where Q does not depend on the last point *)
Lemma acc_split (E : Fr) l Wp (u : Fr) R : lin_comb (claim E (plain_terms (l ++ [(Wp, u)]))) R ->
  Forall term_ok (claim E (plain_terms l)) /\ R = padd (total (claim E (plain_terms l))) (pmul (val u) (of_coords0 Wp)).
Proof.
  intros H. apply lin_comb_total in H. destruct H as [F ->]. inversion F as [|t m F1 F2]; subst. unfold plain_terms in F2. rewrite map_app in F2.
  apply Forall_app in F2. destruct F2 as [F2 F3]. split; [constructor; assumption|]. unfold claim. cbn [total].
  rewrite tot_app by assumption. cbn [plain_terms map total fst snd]. rewrite padd_inf_r.
  assert (V3 : valid (tval (Wp, val u))) by (apply tval_valid; inversion F3; assumption).
  symmetry. apply padd_assoc; [apply tval_valid, F1 | apply total_valid, F2 | exact V3].
Qed.

Lemma unique_last O c1 c2 zs S0 a1 b1 a2 b2 A1 A2 s1 s1' s2 s2' tau ix iy :
  TargetInst c1 ++ VerifyInst c1 = map VBig zs -> TargetInst c2 ++ VerifyInst c2 = map VBig zs ->
  length S0 = 102%nat -> Proof_ c1 = map VBig (S0 ++ [a1; b1]) -> Proof_ c2 = map VBig (S0 ++ [a2; b2]) ->
  Aux c1 = map VBig A1 -> Aux c2 = map VBig A2 ->
  degen_sane O -> kzg_pairing O g20_const g21_const tau ->
  multiple (Aff lagrange_x lagrange_y) ((o_keccak O (encoding (map (fun z => z mod p_mod) zs)) mod 2 ^ 256) mod r_mod) (Aff ix iy) ->
  let d := transcript_values O ix iy (S0 ++ [a1; b1]) in
  fexp (fc (nth 4 d 0)) dom_n <> 1%fr -> fc (nth 7 d 0) <> tau ->
  Define O Test c1 s1 = Done (None, s1') -> Define O Test c2 s2 = Done (None, s2') ->
  a1 mod p_mod = a2 mod p_mod /\ b1 mod p_mod = b2 mod p_mod /\ forall i, (i < 21)%nat -> nth i A1 0 = nth i A2 0.
Proof.
  intros EZ1 EZ2 L0 ET1 ET2 EA1 EA2 Hd HK HI d Hx Hu H1 H2.
  assert (LT : forall a b, (104 <= length (S0 ++ [a; b]))%nat) by (intros; rewrite app_length; cbn [length]; lia).
  destruct (c36_spec O c1 zs _ A1 s1 s1' EZ1 ET1 EA1 (LT _ _) Hd H1) as (_ & _ & HT1 & ix1 & iy1 & HI1 & R1). cbv zeta in R1.
  destruct (c36_spec O c2 zs _ A2 s2 s2' EZ2 ET2 EA2 (LT _ _) Hd H2) as (_ & _ & HT2 & ix2 & iy2 & HI2 & R2). cbv zeta in R2.
  assert (EI : forall i j, multiple (Aff lagrange_x lagrange_y) ((o_keccak O (encoding (map (fun z => z mod p_mod) zs)) mod 2 ^ 256) mod r_mod) (Aff i j) -> Aff i j = Aff ix iy).
  { intros i j M. rewrite <- (multiple_pmul _ _ _ _ _ lagrange_encodes HI), <- (multiple_pmul _ _ _ _ _ lagrange_encodes M). reflexivity. }
  pose proof (EI _ _ HI1) as E1. injection E1 as -> ->. pose proof (EI _ _ HI2) as E2. injection E2 as -> ->.
  rewrite <- (tv_same S0 a1 b1 a2 b2 L0) in R2. fold d in R1, R2.
  destruct R1 as (_ & _ & _ & _ & Q1 & X1 & Y1 & C1 & W10 & W11 & _ & _ & P1).
  destruct R2 as (_ & _ & _ & _ & Q2 & X2 & Y2 & C2 & W20 & W21 & _ & _ & P2).
  destruct (Q1 Hx) as [h1 G1]. destruct (Q2 Hx) as [h2 G2]. rewrite h1 in C1. rewrite h2 in C2.
  rewrite <- (quotient_same S0 a1 b1 a2 b2 L0) in C2, G2. rewrite <- (queries_same S0 a1 b1 a2 b2 L0) in C2.
  set (x := fc (nth 4 d 0)) in *. set (yy := fc (nth 5 d 0)) in *. set (v := fc (nth 6 d 0)) in *. set (u := fc (nth 7 d 0)) in *.
  set (h := quotient (word (S0 ++ [a1; b1])) (fc (nth 0 d 0)) (fc (nth 1 d 0)) (fc (nth 2 d 0)) x (fc (nth 3 d 0))) in C1, C2.
  unfold final_terms in C1, C2. rewrite <- (queries_same S0 a1 b1 a2 b2 L0), <- (W_same S0 a1 b1 a2 b2 L0) in C2.
  set (q := queries (S0 ++ [a1; b1]) (ix, iy) h x) in *.
  set (w0 := (W (S0 ++ [a1; b1]), (- vanish x u (first_rots q))%fr)) in *.
  change (com_terms yy v x u q ++ [w0; (W' (S0 ++ [a1; b1]), u)]) with (com_terms yy v x u q ++ ([w0] ++ [(W' (S0 ++ [a1; b1]), u)])) in C1.
  change (com_terms yy v x u q ++ [w0; (W' (S0 ++ [a2; b2]), u)]) with (com_terms yy v x u q ++ ([w0] ++ [(W' (S0 ++ [a2; b2]), u)])) in C2.
  rewrite app_assoc in C1, C2. set (l := com_terms yy v x u q ++ [w0]) in *.
  assert (I51 : In 51%nat commitments) by (apply in_app_iff; right; right; left; reflexivity).
  assert (V1 : valid (Aff (fst (W' (S0 ++ [a1; b1]))) (snd (W' (S0 ++ [a1; b1]))))) by (apply (com_valid _ 51%nat I51 HT1 W10)).
  assert (V2 : valid (Aff (fst (W' (S0 ++ [a2; b2]))) (snd (W' (S0 ++ [a2; b2]))))) by (apply (com_valid _ 51%nat I51 HT2 W20)).
  assert (VR1 : valid (Aff X1 Y1)) by (apply lin_comb_total in C1; destruct C1 as [F ->]; apply total_valid, F).
  assert (VR2 : valid (Aff X2 Y2)) by (apply lin_comb_total in C2; destruct C2 as [F ->]; apply total_valid, F).
  apply (HK _ _ _ _ V1 VR1) in P1. apply (HK _ _ _ _ V2 VR2) in P2.
  apply (multiple_pmul _ _ _ _ _ (valid_encodes _ _ V1)) in P1. apply (multiple_pmul _ _ _ _ _ (valid_encodes _ _ V2)) in P2.
  apply acc_split in C1, C2. destruct C1 as [F1 C1], C2 as [_ C2]. rewrite C1 in P1. rewrite C2 in P2.
  assert (O1 := enc_of _ _ _ (valid_encodes _ _ V1)). assert (O2 := enc_of _ _ _ (valid_encodes _ _ V2)).
  rewrite <- surjective_pairing in O1, O2. rewrite O1 in P1. rewrite O2 in P2.
  rewrite !pmul_zmul in P1, P2 by assumption.
  assert (N : tau <> u) by (intros E; apply Hu; symmetry; exact E).
  pose proof (solve_point tau u _ _ _ N (total_valid _ F1) V1 V2 P1 P2) as E.
  rewrite !last_coords in E by exact L0. cbn [fst snd] in E. injection E as Ea Eb.
  split; [exact Ea|]. split; [exact Eb|]. intros i Hi. rewrite (G1 i Hi), (G2 i Hi). reflexivity.
Qed.
Definition c65 O c1 c2 zs S A1 A2 a1 b1 a2 b2 := unique_last O c1 c2 zs S a1 b1 a2 b2 A1 A2.
