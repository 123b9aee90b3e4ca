(** Proofs about the repository's tests (C68). *)
From Coq Require Import ZArith String Bool List Lia.
From Verif Require Import Params Go Curve Api FrOps Lib Steps Agg SpecCurve SpecHash SpecMisc SpecVerify SpecSha SpecSample SpecPairing
  SpecTamper SpecTests P_Fr P_Curve P_Misc P_Msm P_Hash P_Step P_SampleEx P_PairEx P_TamperEx.
Import ListNotations.
Open Scope Z_scope.

Local Opaque pmul pmul_pos padd p_mod r_mod.

Lemma solved_iff m : is_solved m = None <-> exists s, m empty_cs = Done (None, s).
Proof.
  unfold is_solved. destruct (m empty_cs) as [[[e|] s]|w]; split; intros H; try discriminate; eauto.
  - destruct H as [s' H]; discriminate.
  - destruct H as [s' H]; discriminate.
Qed.

Lemma t_prod : pmul t_scalar (Aff (fst t_point) (snd t_point)) = Aff (fst t_product) (snd t_product).
Proof. exact sam_ic. Qed.
Lemma t_enc : encodes (fst t_point) (snd t_point) (Aff (fst t_point) (snd t_point)).
Proof. right. split; [vm_compute; split; [intros Q; discriminate Q|reflexivity]|].
  split; [vm_compute; split; [intros Q; discriminate Q|reflexivity]|]. split; [vm_compute; reflexivity|reflexivity]. Qed.
Lemma t_scal : 0 < t_scalar < r_mod. Proof. vm_compute. split; reflexivity. Qed.
Lemma t_scal_p : 0 <= t_scalar < p_mod. Proof. vm_compute. split; [intros Q; discriminate Q|reflexivity]. Qed.
Lemma t_xr : 0 <= fst t_point < p_mod. Proof. vm_compute. split; [intros Q; discriminate Q|reflexivity]. Qed.
Lemma t_yr : 0 <= snd t_point < p_mod. Proof. vm_compute. split; [intros Q; discriminate Q|reflexivity]. Qed.

Lemma pair_eqb_iff a b : pair_eqb a b = true <-> a = b.
Proof.
  unfold pair_eqb. rewrite andb_true_iff, !Z.eqb_eq. destruct a, b; cbn [fst snd]. split; [intros [-> ->]; reflexivity|].
  intros H; injection H as -> ->; auto.
Qed.

Lemma t_smul O : emul_scalar_mul O (fst t_point) (snd t_point) t_scalar = Some t_product.
Proof.
  rewrite (emul_scalar_mul_good O _ _ _ t_enc) by (pose proof t_scal; lia).
  rewrite t_prod. reflexivity.
Qed.

Lemma c68_scalar_mul O res : canon res ->
  (is_solved (VerifyBN254ScalarMul O Test (VBig (fst t_point), VBig (snd t_point)) (VBig t_scalar)
     (VBig (fst res), VBig (snd res))) = None <-> res = t_product).
Proof.
  intros [R1 R2]. rewrite solved_iff. unfold VerifyBN254ScalarMul, with_fp. cbn [fst snd fp_set_interface].
  rewrite (Z.mod_small (fst t_point)), (Z.mod_small (snd t_point)) by (apply t_xr || apply t_yr).
  rewrite (Z.mod_small t_scalar p_mod) by apply t_scal_p. rewrite (Z.mod_small t_scalar r_mod) by (pose proof t_scal; lia).
  unfold emul_smul. rewrite t_smul. rewrite !Z.mod_small by assumption.
  replace (fst res, snd res) with res by (destruct res; reflexivity).
  unfold bind at 1. unfold ret at 1. unfold emul_assert, bind.
  destruct (pair_eqb t_product res) eqn:E.
  - apply pair_eqb_iff in E. split; [auto|]. intros _. eexists. reflexivity.
  - split; [intros [s H]; discriminate|]. intros ->. assert (pair_eqb t_product t_product = true) by (apply pair_eqb_iff; auto). congruence.
Qed.

Lemma c68_multi O res : canon res ->
  (is_solved (VerifyMultiScalarMul O Test [t_point] [t_scalar] res) = None <-> res = t_product).
Proof.
  intros _. rewrite solved_iff. unfold VerifyMultiScalarMul. cbn [length Nat.eqb negb combine emul_msm_fold].
  unfold emul_smul. rewrite t_smul. unfold bind at 1 2. unfold ret at 1 2. unfold emul_assert, bind.
  destruct (pair_eqb t_product res) eqn:E.
  - apply pair_eqb_iff in E. split; [auto|]. intros _. eexists. reflexivity.
  - split; [intros [s H]; discriminate|]. intros ->. assert (pair_eqb t_product t_product = true) by (apply pair_eqb_iff; auto). congruence.
Qed.

Lemma c68_legacy res : 
  (is_solved (msm_circuit Test t_point t_scalar res) = None <->
   fst res mod r_mod = fst t_product /\ snd res mod r_mod = snd t_product).
Proof.
  rewrite solved_iff. unfold msm_circuit, VerifyBN256Msm.
  assert (E : of_coords0 t_point = Aff (fst t_point) (snd t_point)) by (vm_compute; reflexivity).
  rewrite E, t_prod. cbn [coords0]. unfold bind at 1. rewrite legacy_assert. cbn [fst snd].
  rewrite (Z.mod_small (fst t_product)), (Z.mod_small (snd t_product)) by (vm_compute; split; [intros Q; discriminate Q|reflexivity]).
  destruct (fst t_product =? fst res mod r_mod) eqn:E1; destruct (snd t_product =? snd res mod r_mod) eqn:E2; cbn [andb];
    rewrite ?Z.eqb_eq, ?Z.eqb_neq in *.
  - split; [auto|]. intros _. eexists. reflexivity.
  - split; [intros [s H]; discriminate|]. intros [_ H]; congruence.
  - split; [intros [s H]; discriminate|]. intros [H _]; congruence.
  - split; [intros [s H]; discriminate|]. intros [H _]; congruence.
Qed.

Local Transparent pmul pmul_pos padd.
Lemma pmul_pos_inf k : pmul_pos k Inf = Inf.
Proof. induction k as [k IH|k IH|]; cbn [pmul_pos]; rewrite ?IH; reflexivity. Qed.
Lemma pmul_inf k : pmul k Inf = Inf.
Proof. unfold pmul. destruct (k mod r_mod); auto using pmul_pos_inf. Qed.
Local Opaque pmul pmul_pos padd.
Lemma c68_legacy_zero k : is_solved (msm_circuit Test (0, 0) k (0, 0)) = None.
Proof.
  apply solved_iff. exists empty_cs. unfold msm_circuit, VerifyBN256Msm.
  assert (E : of_coords0 (0, 0) = Inf) by reflexivity. rewrite E.
  assert (E2 : pmul k Inf = Inf) by apply pmul_inf. rewrite E2. cbn [coords0 fst snd].
  unfold bind at 1. rewrite legacy_assert, Z.eqb_refl. reflexivity.
Qed.

Definition t_bytes : list Z := Eval vm_compute in be_bytes 32 t_scalar.
Lemma t_bytes_ok : be_bytes 32 t_scalar = t_bytes. Proof. vm_compute. reflexivity. Qed.
Lemma t_bytes_bytes : bytes (be_bytes 32 t_scalar).
Proof. rewrite t_bytes_ok. unfold bytes, t_bytes. repeat (constructor; [split; [intros Q; discriminate Q|reflexivity]|]). constructor. Qed.
Lemma t_sha_ok : sha256 (be_bytes 32 t_scalar) mod 2 ^ 256 = t_sha. Proof. vm_compute. reflexivity. Qed.
Lemma t_keccak_ok : keccak256 (be_bytes 32 t_scalar) mod 2 ^ 256 = t_keccak. Proof. vm_compute. reflexivity. Qed.

Lemma hash_test (m : M (option goerr)) (A : Prop) : (forall s, (A -> m s = Done (None, s)) /\ (~ A -> exists w, m s = Panicked w)) ->
  (A \/ ~ A) -> (is_solved m = None <-> A).
Proof.
  intros H D. rewrite solved_iff. destruct (H empty_cs) as [H1 H2]. split.
  - intros [s E]. destruct D as [D|D]; auto. destruct (H2 D) as [w E']. congruence.
  - intros a. eauto.
Qed.

Lemma c68_sha O hs : real_hashes O -> length hs = 32%nat ->
  (is_solved (VerifySha256 O Test (map VBig (be_bytes 32 t_scalar)) (map VBig hs)) = None <-> hs = be_bytes 32 t_sha).
Proof.
  intros [HS HK] L.
  assert (E : sha256_bytes O (be_bytes 32 t_scalar) = be_bytes 32 t_sha) by (unfold sha256_bytes; rewrite HS, t_sha_ok; reflexivity).
  rewrite (hash_test _ _ (fun s => c21_sha_test O _ _ _ _ s (bigs_VBig (be_bytes 32 t_scalar)) (bigs_VBig hs))).
  - rewrite E, firstn_all2 by lia. pose proof t_bytes_bytes. tauto.
  - rewrite E, firstn_all2 by lia. destruct (list_eq_dec Z.eq_dec hs (be_bytes 32 t_sha)) as [D|D]; pose proof t_bytes_bytes; tauto.
Qed.
Lemma c68_keccak O hs : real_hashes O -> length hs = 32%nat ->
  (is_solved (VerifyKeccak256 O Test (map VBig (be_bytes 32 t_scalar)) (map VBig hs)) = None <-> hs = be_bytes 32 t_keccak).
Proof.
  intros [HS HK] L.
  assert (E : keccak_bytes O (be_bytes 32 t_scalar) = be_bytes 32 t_keccak) by (unfold keccak_bytes; rewrite HK, t_keccak_ok; reflexivity).
  rewrite (hash_test _ _ (fun s => c21_keccak_test O _ _ _ _ s (bigs_VBig (be_bytes 32 t_scalar)) (bigs_VBig hs))).
  - rewrite E, firstn_all2 by lia. pose proof t_bytes_bytes. tauto.
  - rewrite E, firstn_all2 by lia. destruct (list_eq_dec Z.eq_dec hs (be_bytes 32 t_keccak)) as [D|D]; pose proof t_bytes_bytes; tauto.
Qed.

Lemma c68_curve_vacuous a b : is_solved (VerifyCheckOnCurveVar Test (VFr a) (VFr b)) = None.
Proof.
  apply solved_iff. eexists. eapply c20_var_accepts_all; reflexivity.
Qed.
Lemma c68_curve_point : curve_or_zero 1 t_curve_y /\ ~ curve_or_zero 1 (t_curve_y mod r_mod).
Proof.
  split; [right; vm_compute; reflexivity|]. intros [[H _]|H]; vm_compute in H; discriminate.
Qed.

Lemma c68_pairing O : real_pairing O ->
  is_solved (pairing_test O 2920616387084030925907755037226454382846345550621956833249622258647667607078
    16502678157049327323910877548707266122319935523346850792311342099791838736912
    7162082828732168937516361335135022403650719329242056518668518043784043198510
    18768486256042060147567165227366772940689098806912976766549486364846889365307) = None.
Proof.
  intros H. apply solved_iff. exists empty_cs. unfold pairing_test.
  match goal with |- context [FillVerifyCircuitsG1 ?a ?b ?c ?d] =>
    assert (E : FillVerifyCircuitsG1 a b c d = ret [coords0 sample_W; coords0 sample_R]) by (vm_compute; reflexivity) end.
  rewrite E. unfold bind at 1. unfold ret at 1.
  assert (E2 : FillVerifyCircuitsG2 = ret [g20_const; g21_const]) by (vm_compute; reflexivity).
  rewrite E2. unfold bind at 1. unfold ret at 1. unfold VerifyBN256Pairing. cbn [length Nat.eqb negb orb map combine].
  assert (E3 : of_coords0 (coords0 sample_W) = sample_W) by (vm_compute; reflexivity).
  assert (E4 : of_coords0 (coords0 sample_R) = sample_R) by (vm_compute; reflexivity).
  rewrite E3, E4. assert (P : o_pairing O [(sample_W, g20_const); (sample_R, g21_const)] = true).
  { apply H; [|exact sample_tate]. repeat constructor; cbn [fst snd]; auto; vm_compute; reflexivity. }
  rewrite P. reflexivity.
Qed.

Lemma c68_circuit O : real_hashes O -> degen_sane O -> real_pairing O ->
  is_solved (Define O Test sample) = None /\ is_solved (Define O Test flipped) <> None.
Proof.
  intros H1 H2 H3. split.
  - apply solved_iff. exists empty_cs. exact (c61 O empty_cs H1 H2 H3).
  - intros Q. apply solved_iff in Q. destruct Q as [s Q]. exact (proj2 (c62 O empty_cs H1 H2 H3) _ _ Q).
Qed.

Lemma ex68 : canon t_product /\ length (be_bytes 32 t_sha) = 32%nat /\ length (be_bytes 32 t_keccak) = 32%nat /\
  real_hashes tate_O /\ degen_sane tate_O /\ real_pairing tate_O.
Proof. split; [vm_compute; repeat split; intros Q; discriminate Q|]. split; [reflexivity|]. split; [reflexivity|]. exact tate_O_ok. Qed.
