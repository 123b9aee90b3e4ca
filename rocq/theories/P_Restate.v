(** The curve properties in terms of the group law. *)
From Coq Require Import ZArith Lia Bool List.
From Verif Require Import Params Go Curve Api FrOps Lib Steps Agg NumThy FField FpField SpecCurve SpecRuns SpecMisc P_Fr P_FrEx P_Curve
  P_Msm P_MsmEx P_Misc P_Kyc P_Flow P_MiscEx P_Group P_Order P_GroupSpec P_LinComb.
Import ListNotations.
Open Scope Z_scope.

Local Opaque p_mod r_mod.

Lemma enc_point a b P : encodes a b P -> is_point P.
Proof. intros H. exists a, b. exact H. Qed.
Lemma pmul_multiple a b k P : encodes a b P -> multiple P k (pmul k P).
Proof. intros H. apply c50_multiple; [exact (enc_point _ _ _ H)|reflexivity]. Qed.
Lemma multiple_pmul a b k P R : encodes a b P -> multiple P k R -> pmul k P = R.
Proof. intros H. apply c50_multiple. exact (enc_point _ _ _ H). Qed.
Lemma sum_padd a b c d P Q R : encodes a b P -> encodes c d Q -> group_sum P Q R -> padd P Q = R.
Proof. intros _ _. apply group_sum_padd. Qed.
Lemma padd_sum a b c d P Q : encodes a b P -> encodes c d Q -> group_sum P Q (padd P Q).
Proof. intros H H'. apply padd_group_sum; [exact (enc_valid _ _ _ H)|exact (enc_valid _ _ _ H')]. Qed.

Lemma c11_spec x y k P R o1 o2 : encodes (Z.abs x) (Z.abs y) P -> multiple P k R ->
  msm_hint_run [x; y; k] [o1; o2] = Done (None, [Some (fst (printed R)); Some (snd (printed R))]).
Proof. intros H M. rewrite (c11_ok _ _ _ P _ _ H), (multiple_pmul _ _ _ _ _ H M). reflexivity. Qed.

Lemma c12_spec x1 y1 x2 y2 P Q R o1 o2 :
  encodes (Z.abs x1) (Z.abs y1) P -> encodes (Z.abs x2) (Z.abs y2) Q -> group_sum P Q R ->
  add_hint_run [x1; y1; x2; y2] [o1; o2] = Done (None, [Some (fst (printed R)); Some (snd (printed R))]).
Proof. intros H H' S. rewrite (c12_ok _ _ _ _ P Q _ _ H H'), (group_sum_padd _ _ _ S). reflexivity. Qed.

Lemma c13_spec O x y k s : encodes x y (Aff x y) -> 0 <= k < p_mod -> k mod r_mod <> 0 ->
  forall vx vy e s', CalcVerifyBN256Msm O Test (VBig x) (VBig y) (VBig k) s = Done (((vx, vy), e), s') ->
    e = None /\ s' = s /\ exists X Y, multiple (Aff x y) k (Aff X Y) /\ vx = VBig X /\ vy = VBig Y /\
      encodes X Y (Aff X Y) /\ X < r_mod /\ Y < r_mod.
Proof.
  intros H K N vx vy e s' E. destruct (c13 O x y k s H K N vx vy e s' E) as (-> & -> & X & Y & EP & R).
  split; [reflexivity|]. split; [reflexivity|]. exists X, Y. split; [|exact R]. rewrite <- EP.
  exact (pmul_multiple _ _ _ _ H).
Qed.

Lemma c14_spec O x y k s : encodes x y (Aff x y) -> 0 <= k < p_mod -> k mod r_mod <> 0 ->
  forall X Y, multiple (Aff x y) k (Aff X Y) ->
    (X < r_mod /\ Y < r_mod ->
       CalcVerifyBN256Msm O Test (VBig x) (VBig y) (VBig k) s = Done (((VBig X, VBig Y), None), s)) /\
    (r_mod <= X \/ r_mod <= Y ->
       exists w, CalcVerifyBN256Msm O Test (VBig x) (VBig y) (VBig k) s = Panicked w).
Proof. intros H K N X Y M. exact (c14 O x y k s H K N X Y (multiple_pmul _ _ _ _ _ H M)). Qed.

Lemma c14_finite x y k : encodes x y (Aff x y) -> k mod r_mod <> 0 -> exists X Y, multiple (Aff x y) k (Aff X Y).
Proof.
  intros H N. pose proof (pmul_multiple _ _ k _ H) as M. destruct (pmul k (Aff x y)) as [|X Y]; [|exists X, Y; exact M].
  exfalso. apply N. apply c50_order in M; [|exact (enc_point _ _ _ H)|discriminate].
  apply Z.mod_divide; [intros Er; vm_compute in Er; discriminate|exact M].
Qed.

Lemma c15_spec x1 y1 x2 y2 vx vy e s s' : 0 <= x1 -> 0 <= y1 -> 0 <= x2 -> 0 <= y2 ->
  CalcVerifyBN256Add Test (VBig x1) (VBig y1) (VBig x2) (VBig y2) s = Done (((vx, vy), e), s') ->
  e = None /\ s' = s /\ exists P Q X Y, encodes x1 y1 P /\ encodes x2 y2 Q /\ group_sum P Q (Aff X Y) /\
    vx = VBig X /\ vy = VBig Y /\ encodes X Y (Aff X Y) /\ X < r_mod /\ Y < r_mod.
Proof.
  intros A1 A2 A3 A4 H. destruct (c15 x1 y1 x2 y2 vx vy e s s' A1 A2 A3 A4 H) as (-> & -> & P & Q & X & Y & EP & EQ & ES & R).
  split; [reflexivity|]. split; [reflexivity|]. exists P, Q, X, Y. split; [exact EP|]. split; [exact EQ|]. split; [|exact R].
  rewrite <- ES. exact (padd_sum _ _ _ _ _ _ EP EQ).
Qed.

Lemma c16_spec x1 y1 x2 y2 P Q s : encodes x1 y1 P -> encodes x2 y2 Q ->
  ((exists r, CalcVerifyBN256Add Test (VBig x1) (VBig y1) (VBig x2) (VBig y2) s = Done r) <->
   (~ add_degenerate P Q /\ exists X Y, group_sum P Q (Aff X Y) /\ 0 <= X < r_mod /\ 0 <= Y < r_mod)).
Proof.
  intros HP HQ. rewrite (c16 x1 y1 x2 y2 P Q s HP HQ). split; intros [D (X & Y & E & R)]; (split; [exact D|]); exists X, Y; (split; [|exact R]).
  - rewrite <- E. exact (padd_sum _ _ _ _ _ _ HP HQ).
  - apply group_sum_padd. exact E.
Qed.

Lemma c17_msm_points g k res s P R X Y : encodes (fst g) (snd g) P -> multiple P k R -> encodes X Y R ->
  ((exists r, VerifyBN256Msm Test g k res s = Done r) <-> X mod r_mod = fst res mod r_mod /\ Y mod r_mod = snd res mod r_mod).
Proof.
  intros H M E. rewrite c17_msm. destruct g as [a b]. cbn [fst snd] in H. rewrite (enc_of _ _ _ H), (multiple_pmul _ _ _ _ _ H M).
  apply encodes_coords in E. rewrite E. reflexivity.
Qed.

Lemma c17_add_points g h res s P Q R X Y : encodes (fst g) (snd g) P -> encodes (fst h) (snd h) Q -> group_sum P Q R -> encodes X Y R ->
  ((exists r, VerifyBN256Add Test g h res s = Done r) <-> X mod r_mod = fst res mod r_mod /\ Y mod r_mod = snd res mod r_mod).
Proof.
  intros H H' M E. rewrite c17_add. destruct g as [a b], h as [c d]. cbn [fst snd] in H, H'.
  rewrite (enc_of _ _ _ H), (enc_of _ _ _ H'), (group_sum_padd _ _ _ M). apply encodes_coords in E. rewrite E. reflexivity.
Qed.

Lemma gen_multiple_1 : multiple (Aff 1 2) 1 (Aff 1 2).
Proof. apply c50_multiple; [exists 1, 2; exact gen_encodes|apply pmul_1]. Qed.

Lemma not_enc_big : ~ encodes (1 + r_mod) 2 (Aff 1 2).
Proof.
  intros [(_ & _ & H)|(_ & _ & _ & H)]; [discriminate|]. injection H as H. vm_compute in H. discriminate.
Qed.

Lemma big_range : 0 <= 1 + r_mod < p_mod.
Proof. split; [intros H; vm_compute in H; discriminate|vm_compute; reflexivity]. Qed.
Lemma two_range : 0 <= 2 < p_mod.
Proof. split; [discriminate|vm_compute; reflexivity]. Qed.

Lemma c17_refuted_spec : ~ (forall g k res s r P R, encodes (fst g) (snd g) P -> multiple P k R ->
  0 <= fst res < p_mod -> 0 <= snd res < p_mod -> VerifyBN256Msm Test g k res s = Done r -> encodes (fst res) (snd res) R).
Proof.
  intros H. destruct (proj2 (c17_msm_points (1, 2) 1 (1 + r_mod, 2) (mk_cs 0 [] []) _ _ _ _ gen_encodes gen_multiple_1 gen_encodes)) as [r E].
  { split; vm_compute; reflexivity. }
  exact (not_enc_big (H (1, 2) 1 (1 + r_mod, 2) _ r _ _ gen_encodes gen_multiple_1 big_range two_range E)).
Qed.

Lemma c17_add_refuted_spec : ~ (forall g h res s r P Q R, encodes (fst g) (snd g) P -> encodes (fst h) (snd h) Q -> group_sum P Q R ->
  0 <= fst res < p_mod -> 0 <= snd res < p_mod -> VerifyBN256Add Test g h res s = Done r -> encodes (fst res) (snd res) R).
Proof.
  intros H. assert (E0 : encodes 0 0 Inf) by (left; auto).
  assert (S : group_sum (Aff 1 2) Inf (Aff 1 2)) by (apply gs_zero_r; exists 1, 2; exact gen_encodes).
  destruct (proj2 (c17_add_points (1, 2) (0, 0) (1 + r_mod, 2) (mk_cs 0 [] []) _ _ _ _ _ gen_encodes E0 S gen_encodes)) as [r E].
  { split; vm_compute; reflexivity. }
  exact (not_enc_big (H (1, 2) (0, 0) (1 + r_mod, 2) _ r _ _ _ gen_encodes E0 S big_range two_range E)).
Qed.

Lemma enc_from_of a b R : of_coords0 (a, b) = R -> valid R -> encodes a b R.
Proof.
  intros <- V. unfold of_coords0 in *. cbn [fst snd] in *. destruct ((a =? 0) && (b =? 0)) eqn:E.
  - apply andb_true_iff in E. rewrite !Z.eqb_eq in E. destruct E as [-> ->]. left. auto.
  - apply valid_aff in V. destruct V as (A & B & C). unfold on_curve in C. apply Z.eqb_eq in C. right. auto.
Qed.

(** histories *)
Lemma iter_pmul n k P : valid P -> Nat.iter n (pmul k) P = pmul (k ^ Z.of_nat n) P.
Proof.
  intros V. induction n as [|n IH].
  - cbn [Nat.iter nat_rect]. rewrite pmul_zmul by exact V. reflexivity.
  - change (Nat.iter (S n) (pmul k) P) with (pmul k (Nat.iter n (pmul k) P)). rewrite IH, !pmul_zmul by (try apply pmul_valid; exact V).
    rewrite <- zmul_mul by exact V. f_equal. rewrite Nat2Z.inj_succ, Z.pow_succ_r by lia. reflexivity.
Qed.

Lemma iter_padd n P Q : valid P -> valid Q -> Nat.iter n (fun A => padd A Q) P = padd P (pmul (Z.of_nat n) Q).
Proof.
  intros V W. rewrite pmul_zmul by exact W. induction n as [|n IH].
  - symmetry. apply padd_inf_r.
  - change (Nat.iter (S n) (fun A => padd A Q) P) with (padd (Nat.iter n (fun A => padd A Q) P) Q).
    rewrite IH. rewrite padd_assoc by (try apply zmul_valid; assumption). f_equal.
    rewrite Nat2Z.inj_succ. unfold Z.succ. rewrite zmul_succ by exact W. apply padd_comm; [apply zmul_valid, W|exact W].
Qed.

Lemma c18_msm_spec n g k res s P : encodes (fst g) (snd g) P ->
  ((exists r, runs_msm n g k res s = Done r) <->
   forall i X Y R, (1 <= i <= n)%nat -> multiple P (k ^ Z.of_nat i) R -> encodes X Y R ->
     X mod r_mod = fst res mod r_mod /\ Y mod r_mod = snd res mod r_mod) /\
  (forall g' s', runs_msm n g k res s = Done (g', s') ->
     s' = s /\ exists R, multiple P (k ^ Z.of_nat n) R /\ encodes (fst g') (snd g') R).
Proof.
  intros H. destruct g as [a b]. cbn [fst snd] in H. pose proof (enc_valid _ _ _ H) as V. pose proof (enc_of _ _ _ H) as EO.
  assert (V' : valid (of_coords0 (a, b))) by (rewrite EO; exact V).
  destruct (c18_msm n (a, b) k res s V') as [A B]. split.
  - rewrite B. split.
    + intros F i X Y R Hi M E. specialize (F i Hi). rewrite EO, iter_pmul, (multiple_pmul _ _ _ _ _ H M) in F by exact V.
      apply encodes_coords in E. rewrite E in F. exact F.
    + intros F i Hi. rewrite EO, iter_pmul by exact V.
      apply (F i _ _ (pmul (k ^ Z.of_nat i) P) Hi); [exact (pmul_multiple _ _ _ _ H)|]. apply enc_coords0, pmul_valid, V.
  - intros g' s' E. destruct (A g' s' E) as [-> E']. split; [reflexivity|]. exists (pmul (k ^ Z.of_nat n) P).
    split; [exact (pmul_multiple _ _ _ _ H)|]. rewrite EO, iter_pmul in E' by exact V.
    apply enc_from_of; [|apply pmul_valid, V]. rewrite <- surjective_pairing. exact E'.
Qed.

Lemma c18_add_spec n g q res s P Q : encodes (fst g) (snd g) P -> encodes (fst q) (snd q) Q ->
  ((exists r, runs_add n g q res s = Done r) <->
   forall i X Y S R, (1 <= i <= n)%nat -> multiple Q (Z.of_nat i) S -> group_sum P S R -> encodes X Y R ->
     X mod r_mod = fst res mod r_mod /\ Y mod r_mod = snd res mod r_mod) /\
  (forall g' s', runs_add n g q res s = Done (g', s') ->
     s' = s /\ exists S R, multiple Q (Z.of_nat n) S /\ group_sum P S R /\ encodes (fst g') (snd g') R).
Proof.
  intros H H'. destruct g as [a b], q as [c d]. cbn [fst snd] in H, H'.
  pose proof (enc_valid _ _ _ H) as V. pose proof (enc_of _ _ _ H) as EO.
  pose proof (enc_valid _ _ _ H') as W. pose proof (enc_of _ _ _ H') as EQ.
  assert (V' : valid (of_coords0 (a, b))) by (rewrite EO; exact V).
  assert (W' : valid (of_coords0 (c, d))) by (rewrite EQ; exact W).
  destruct (c18_add n (a, b) (c, d) res s V' W') as [A B]. split.
  - rewrite B. split.
    + intros F i X Y S R Hi M G E. specialize (F i Hi).
      rewrite EO, EQ, iter_padd, (multiple_pmul _ _ _ _ _ H' M), (group_sum_padd _ _ _ G) in F by assumption.
      apply encodes_coords in E. rewrite E in F. exact F.
    + intros F i Hi. rewrite EO, EQ, iter_padd by assumption.
      apply (F i _ _ (pmul (Z.of_nat i) Q) (padd P (pmul (Z.of_nat i) Q)) Hi); [exact (pmul_multiple _ _ _ _ H')| |].
      * apply padd_group_sum; [exact V|apply pmul_valid, W].
      * apply enc_coords0, padd_valid; [exact V|apply pmul_valid, W].
  - intros g' s' E. destruct (A g' s' E) as [-> E']. split; [reflexivity|].
    exists (pmul (Z.of_nat n) Q), (padd P (pmul (Z.of_nat n) Q)).
    split; [exact (pmul_multiple _ _ _ _ H')|]. split; [apply padd_group_sum; [exact V|apply pmul_valid, W]|].
    rewrite EO, EQ, iter_padd in E' by assumption.
    apply enc_from_of; [|apply padd_valid; [exact V|apply pmul_valid, W]]. rewrite <- surjective_pairing. exact E'.
Qed.

Lemma c18_unstable_spec : exists g k res s, is_point (Aff (fst g) (snd g)) /\
  (exists r, runs_msm 1 g k res s = Done r) /\ ~ (exists r, runs_msm 2 g k res s = Done r).
Proof.
  exists (1, 2), 2, (coords0 (pmul 2 (Aff 1 2))), (mk_cs 0 [] []).
  assert (V : valid_pt (of_coords0 (1, 2)) = true) by (vm_compute; reflexivity).
  split; [exists 1, 2; exact gen_encodes|]. split.
  - apply (c18_msm 1 (1, 2) 2 _ _ V). intros i Hi. replace i with 1%nat by lia. split; reflexivity.
  - intros H. destruct (c18_msm 2 (1, 2) 2 (coords0 (pmul 2 (Aff 1 2))) (mk_cs 0 [] []) V) as [_ I].
    destruct I as [I _]. destruct (I H 2%nat ltac:(lia)) as [H1 _].
    vm_compute in H1. discriminate.
Qed.

Lemma c19_msm_spec x y k P X Y s : encodes x y P -> multiple P k (Aff X Y) ->
  CalcVerifyBN256Msm1 Test (VBig x) (VBig y) (VBig k) s = Done (((VBig (X mod r_mod), VBig (Y mod r_mod)), None), s).
Proof. intros H M. exact (c19_msm x y k P X Y s H (multiple_pmul _ _ _ _ _ H M)). Qed.

Lemma c19_add_spec x1 y1 x2 y2 P Q X Y s : encodes x1 y1 P -> encodes x2 y2 Q -> group_sum P Q (Aff X Y) ->
  CalcVerifyBN256Add1 Test (VBig x1) (VBig y1) (VBig x2) (VBig y2) s = Done (((VBig (X mod r_mod), VBig (Y mod r_mod)), None), s).
Proof. intros H H' M. exact (c19_add x1 y1 x2 y2 P Q X Y s H H' (group_sum_padd _ _ _ M)). Qed.

(** multi-scalar multiplication *)
Lemma good_term_ok t : good_term t -> term_ok t.
Proof.
  intros [V _]. exists (Aff (fst (fst t)) (snd (fst t))). apply valid_aff in V. destruct V as (A & B & C).
  unfold on_curve in C. apply Z.eqb_eq in C. right. auto.
Qed.

Lemma apart_general l : forall p0, p0 <> [] -> Forall term_ok (p0 ++ l) -> apart (p0 ++ l) -> general (total p0) l.
Proof.
  induction l as [|[P k] l IH]; intros p0 N F A; [exact I|]. cbn [general].
  destruct (A p0 (P, k) l eq_refl N) as (x & y & x' & y' & L1 & L2 & D).
  pose proof (proj1 (Forall_app _ _ _) F) as [F0 F1]. inversion F1 as [|? ? F2 F3]; subst.
  apply lin_comb_total in L1, L2. destruct L1 as [_ L1], L2 as [_ L2]. cbn [total] in L2. rewrite padd_inf_r in L2.
  unfold tval in L2. cbn [fst snd] in L2.
  split; [exists x, y, x', y'; rewrite <- L1, <- L2; auto|].
  replace (padd (total p0) (pmul k (of_coords0 P))) with (total (p0 ++ [(P, k)])).
  - apply IH; [destruct p0; discriminate| |]; rewrite <- app_assoc; assumption.
  - clear -F0 F2. induction F0 as [|t p0 H H' IH].
    + cbn [app total]. rewrite padd_inf_r. reflexivity.
    + cbn [app total]. rewrite IH. symmetry. apply padd_assoc; [apply tval_valid, H|apply total_valid, H'|apply (tval_valid _ F2)].
Qed.

Lemma c44_spec O t l e s R X Y : good_term t -> Forall good_term l -> apart (t :: l) -> lin_comb (t :: l) R -> encodes X Y R ->
  (e = (X, Y) -> VerifyMultiScalarMul O Test (map fst (t :: l)) (map snd (t :: l)) e s = Done (None, s)) /\
  (e <> (X, Y) -> exists w, VerifyMultiScalarMul O Test (map fst (t :: l)) (map snd (t :: l)) e s = Panicked w).
Proof.
  intros G F A L E. destruct t as [p0 k0].
  assert (F' : Forall term_ok l) by (eapply Forall_impl; [exact good_term_ok|exact F]).
  pose proof (good_term_ok _ G) as G'.
  assert (Ge : general (pmul k0 (of_coords0 p0)) l).
  { replace (pmul k0 (of_coords0 p0)) with (total [(p0, k0)]) by (cbn [total]; rewrite padd_inf_r; reflexivity).
    apply (apart_general l [(p0, k0)]); [discriminate|constructor; assumption|exact A]. }
  pose proof (c44_main O p0 k0 l e s G F Ge) as C. cbv zeta in C. rewrite (lin_comb_msm _ _ _ _ L) in C.
  apply encodes_coords in E. rewrite E in C. exact C.
Qed.

Lemma c46_value_spec O buf k s b e s' : nth_error buf 2 = Some (VBig k) -> 0 <= k < p_mod -> k mod r_mod <> 0 ->
  CalcVerifyCircuitLagrange O Test buf s = Done ((b, e), s') ->
  e = None /\ s' = s /\ exists X Y, multiple (Aff lagrange_x lagrange_y) k (Aff X Y) /\
    nth_error b 0 = Some (VBig X) /\ nth_error b 1 = Some (VBig Y) /\ encodes X Y (Aff X Y).
Proof.
  intros N K Kr H. destruct (c46_value O buf k s b e s' N K Kr H) as (-> & -> & X & Y & E & R).
  split; [reflexivity|]. split; [reflexivity|]. exists X, Y. split; [|exact R]. rewrite <- E.
  exact (pmul_multiple _ _ _ _ lagrange_encodes).
Qed.

Lemma c46_accepts_spec O buf k s X Y : (3 <= length buf)%nat -> nth_error buf 2 = Some (VBig k) -> 0 <= k < p_mod -> k mod r_mod <> 0 ->
  multiple (Aff lagrange_x lagrange_y) k (Aff X Y) -> X < r_mod -> Y < r_mod ->
  CalcVerifyCircuitLagrange O Test buf s = Done ((VBig X :: VBig Y :: skipn 2 buf, None), s).
Proof. intros L N K Kr M. exact (c46_accepts O buf k s X Y L N K Kr (multiple_pmul _ _ _ _ _ lagrange_encodes M)). Qed.

(** ** Cases *)
Lemma gen_point : is_point (Aff 1 2). Proof. exact (enc_point _ _ _ gen_encodes). Qed.
Lemma gen_multiple_3 : multiple (Aff 1 2) 3 (Aff triple_x triple_y).
Proof. apply c50_multiple; [exact gen_point|exact gen3]. Qed.
Lemma gen_double : group_sum (Aff 1 2) (Aff 1 2) (Aff double_x double_y).
Proof. apply c49_sum; [exact gen_point|exact gen_point|exact gen2]. Qed.
Lemma gen_multiple_2 : multiple (Aff 1 2) 2 (Aff double_x double_y).
Proof. change 2 with (1 + 1) at 2. apply (mu_succ _ _ _ _ gen_multiple_1 gen_double). Qed.
Lemma ex44_spec : good_term ((1, 2), 1) /\ good_term ((1, 2), 2) /\ apart [((1, 2), 1); ((1, 2), 2)] /\
  lin_comb [((1, 2), 1); ((1, 2), 2)] (Aff triple_x triple_y) /\
  VerifyMultiScalarMul plainO Test [(1, 2); (1, 2)] [1; 2] (triple_x, triple_y) s0 = Done (None, s0).
Proof.
  destruct ex44 as (A & B & _ & D). split; [exact A|]. split; [exact B|].
  assert (L : forall k R, multiple (Aff 1 2) k R -> lin_comb [((1, 2), k)] R).
  { intros k R M. apply (lc_cons _ _ _ _ (Aff 1 2) R Inf); [exact gen_encodes|exact M|constructor|]. apply gs_zero_r.
    apply c50_multiple in M; [|exact gen_point]. rewrite <- M. apply point_valid, pmul_valid, point_valid, gen_point. }
  split; [|split; [|exact D]].
  - intros l1 t l2 E N. destruct l1 as [|t1 l1]; [contradiction|]. injection E as <- E.
    destruct l1 as [|t2 l1]; [|injection E as _ E; destruct l1; discriminate]. injection E as <- _.
    exists 1, 2, double_x, double_y. split; [apply L, gen_multiple_1|]. split; [apply L, gen_multiple_2|discriminate].
  - apply (lc_cons _ _ _ _ (Aff 1 2) (Aff 1 2) (Aff double_x double_y)); [exact gen_encodes|exact gen_multiple_1|apply L, gen_multiple_2|].
    pose proof gen_multiple_3 as M. inversion M as [|k Q R M2 S Ek|k Q R M2 S Ek].
    + assert (k = 2) by lia. subst k. rewrite (c50_unique _ _ _ _ gen_multiple_2 M2). exact S.
    + assert (k = 4) by lia. subst k. apply c49_sum; [exact gen_point|exists double_x, double_y; apply enc_from_of; [reflexivity|]|].
      * apply (group_sum_valid _ _ _ gen_double).
      * rewrite <- gen2, <- gen3. rewrite pmul_zmul by (apply point_valid, gen_point). reflexivity.
Qed.

Lemma c44_equal_spec O P Q k k' e s : good_term (P, k) -> good_term (Q, k') ->
  (exists x y y', lin_comb [(P, k)] (Aff x y) /\ lin_comb [(Q, k')] (Aff x y')) ->
  exists w, VerifyMultiScalarMul O Test [P; Q] [k; k'] e s = Panicked w.
Proof.
  intros G G' (x & y & y' & L & L'). apply lin_comb_total in L, L'. destruct L as [_ L], L' as [_ L'].
  cbn [total] in L, L'. rewrite padd_inf_r in L, L'. apply (c44_equal_abscissas O P Q k k' e s G G').
  exists x, y, y'. split; symmetry; assumption.
Qed.
