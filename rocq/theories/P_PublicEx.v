(** The pairing test with Groth16, the two curve tests, and concrete cases for C77. *)
From Coq Require Import ZArith String Bool List Lia Znumtheory.
From Verif Require Import Params Go Curve Api FrOps Lib Agg PairCirc NumThy FField FpField SpecHash SpecCurve SpecMisc SpecRows SpecEcdsa SpecKycTest
  SpecForge SpecPublic SpecPairing SpecSample SpecTamper SpecTests P_Fr P_Hash P_Curve P_GroupSpec P_Order P_ForgeEx P_SampleEx P_PairEx P_TamperEx P_Tests P_Public P_Group.
Import ListNotations.
Open Scope Z_scope.

Local Opaque pmul pmul_pos padd p_mod r_mod.

Lemma c77_test_pairing O s : real_pairing O -> exists S g1s g2s, compile_pairing O = inl S /\
  FillVerifyCircuitsG1 (VStr (Some 2920616387084030925907755037226454382846345550621956833249622258647667607078))
    (VStr (Some 16502678157049327323910877548707266122319935523346850792311342099791838736912))
    (VStr (Some 7162082828732168937516361335135022403650719329242056518668518043784043198510))
    (VStr (Some 18768486256042060147567165227366772940689098806912976766549486364846889365307)) s = Done (g1s, s) /\
  FillVerifyCircuitsG2 s = Done (g2s, s) /\ sat O (pairing_asg g1s g2s) S.
Proof.
  intros H. destruct (c77_pairing O) as (S & C & _). exists S, [coords0 sample_W; coords0 sample_R], [g20_const; g21_const].
  split; [exact C|]. split.
  - match goal with |- FillVerifyCircuitsG1 ?a ?b ?c ?d _ = _ =>
      assert (E : FillVerifyCircuitsG1 a b c d = ret [coords0 sample_W; coords0 sample_R]) by (vm_compute; reflexivity) end.
    rewrite E. reflexivity.
  - split.
    + assert (E2 : FillVerifyCircuitsG2 = ret [g20_const; g21_const]) by (vm_compute; reflexivity). rewrite E2. reflexivity.
    + change (coords0 sample_W) with (fst (coords0 sample_W), snd (coords0 sample_W)).
      change (coords0 sample_R) with (fst (coords0 sample_R), snd (coords0 sample_R)).
      assert (R1 : 0 <= fst (coords0 sample_W) < p_mod) by (vm_compute; split; [discriminate | reflexivity]).
      assert (R2 : 0 <= snd (coords0 sample_W) < p_mod) by (vm_compute; split; [discriminate | reflexivity]).
      assert (R3 : 0 <= fst (coords0 sample_R) < p_mod) by (vm_compute; split; [discriminate | reflexivity]).
      assert (R4 : 0 <= snd (coords0 sample_R) < p_mod) by (vm_compute; split; [discriminate | reflexivity]).
      refine (proj2 (c77_held O S _ _ _ _ C R1 R2 R3 R4) _).
      assert (E3 : of_coords0 (fst (coords0 sample_W), snd (coords0 sample_W)) = sample_W) by (vm_compute; reflexivity).
      assert (E4 : of_coords0 (fst (coords0 sample_R), snd (coords0 sample_R)) = sample_R) by (vm_compute; reflexivity).
      rewrite E3, E4. apply H; [|exact sample_tate]. repeat constructor; cbn [fst snd]; auto; vm_compute; reflexivity.
Qed.

(** the curve tests *)
Lemma c68_on_bn254 x y : (y * y) mod p_mod = (x * x * x + 3) mod p_mod -> (on_bn254 x y = true <-> (p_mod * r_mod | y * y - x * x * x - 3)).
Proof.
  intros H. unfold on_bn254. rewrite Z.eqb_eq. replace (x ^ 3) with (x * x * x) by ring. rewrite Zplus_mod_idemp_l.
  pose proof prime_r as PR. pose proof prime_p as PP. pose proof (prime_ge_2 _ PR). pose proof (prime_ge_2 _ PP).
  assert (D : forall m, 2 <= m -> ((x * x * x + 3) mod m = (y * y) mod m <-> (m | y * y - x * x * x - 3))).
  { intros m Hm. replace (y * y - x * x * x - 3) with (y * y - (x * x * x + 3)) by ring. split.
    - intros E. apply Z.mod_divide; [lia|]. rewrite Zminus_mod, E, Z.sub_diag. apply Z.mod_0_l. lia.
    - intros [c E]. replace (y * y) with (x * x * x + 3 + c * m) by lia. symmetry. apply Z_mod_plus_full. }
  symmetry in H. rewrite (D r_mod) by lia. apply (D p_mod) in H; [|lia]. split.
  - intros E. destruct H as [k Hk]. rewrite Hk in *. rewrite (Z.mul_comm k) in E. apply Gauss in E.
    + destruct E as [c ->]. exists c. ring.
    + apply prime_rel_prime; [exact PR|]. intros Q. apply Z.mod_divide in Q; [|lia]. vm_compute in Q. discriminate Q.
  - intros [c ->]. exists (c * p_mod). ring.
Qed.
Lemma c68_bn254_point : encodes (fst t_point) (snd t_point) (Aff (fst t_point) (snd t_point)) /\ on_bn254 (fst t_point) (snd t_point) = false.
Proof. split; [exact t_enc | vm_compute; reflexivity]. Qed.
Lemma c68_on_curve : g1_is_on_curve 2920616387084030925907755037226454382846345550621956833249622258647667607078
    16502678157049327323910877548707266122319935523346850792311342099791838736912 = true /\
  g1_is_on_curve 7162082828732168937516361335135022403650719329242056518668518043784043198510
    18768486256042060147567165227366772940689098806912976766549486364846889365307 = true /\
  exists P Q, GetVerifyCircuitsG2Jac = Done (P, Q) /\ g2_is_on_curve P = true /\ g2_is_on_curve Q = true.
Proof. split; [vm_compute; reflexivity|]. split; [vm_compute; reflexivity|]. exists g20_const, g21_const. vm_compute. repeat split; reflexivity. Qed.
Lemma ex68_bn254 : (2 * 2) mod p_mod = (1 * 1 * 1 + 3) mod p_mod /\ on_bn254 1 2 = true.
Proof. split; vm_compute; reflexivity. Qed.

(** the conditions of TestKyc *)
Lemma ex77_kyc : forged kyc_pub_x kyc_pub_y 1 2 fg_h fg_r fg_s /\ ecdsa_right fgO kyc_pub_x kyc_pub_y fg_h fg_r fg_s /\
  length (firstn 9 kt_wires) = (2 + 5 + 1 + 1)%nat /\ elements (firstn 9 kt_wires) /\
  nth 0 (firstn 9 kt_wires) 0 <= nth 1 (firstn 9 kt_wires) 0.
Proof.
  split; [exact fg_forged|]. split; [exact fg_right|]. split; [reflexivity|]. split.
  - unfold elements. cbn [firstn kt_wires]. repeat constructor; try (vm_compute; intros Q; discriminate Q).
  - cbn. lia.
Qed.
(** an oracle for the trapdoor 3 *)
Definition three : Fr := fc 3.
Definition o3 : oracles := {| o_keccak := fun _ => 0; o_sha256 := fun _ => 0; o_smul_degen := fun _ _ _ => None;
  o_pairing := fun l => match l with [(P, _); (Q, _)] => if pt_dec (pmul (val three) P) Q then true else false | _ => false end;
  o_ecdsa := fun _ _ _ _ _ => true |}.
Lemma ex77_kzg : kzg_pairing o3 g20_const g21_const three /\ val three <> 0 /\ encodes 1 2 (Aff 1 2).
Proof.
  split; [|split].
  - intros a b X Y Va _. cbn [o3 o_pairing]. destruct (pt_dec (pmul (val three) (Aff a b)) (Aff X Y)) as [E|N].
    + split; [intros _|reflexivity]. apply c50_multiple; [apply point_valid, Va|exact E].
    + split; [discriminate|]. intros H. exfalso. apply N. apply c50_multiple; [apply point_valid, Va|exact H].
  - vm_compute. discriminate.
  - right. repeat split; try (vm_compute; first [reflexivity | discriminate]).
Qed.
Lemma ex77_hash : length (be_bytes 32 t_scalar) = 32%nat /\ bytes (be_bytes 32 t_scalar).
Proof. split; [reflexivity|]. unfold bytes. vm_compute. repeat constructor; discriminate. Qed.

Lemma ex34_pairing O s : (exists e, VerifyBN256Pairing O Test [] [] s = Done (Some e, s)) /\
  (exists e, VerifyBN256Pairing O Test [(1, 2)] [g20_const; g21_const] s = Done (Some e, s)) /\
  (o_pairing O [(Aff 1 2, g20_const); (Aff 1 (p_mod - 2), g20_const)] = true ->
   VerifyBN256Pairing O Test [(1, 2); (1, p_mod - 2)] [g20_const; g20_const] s = Done (None, s)).
Proof.
  split; [|split].
  - eexists. reflexivity.
  - eexists. reflexivity.
  - intros H. apply c34_pairing. split; [discriminate|]. split; [reflexivity|]. exact H.
Qed.

Lemma ex77_unassigned : exists i, Exists (fun P => fst P = EmWire i \/ snd P = EmWire i)
  ([(EmConst 1, EmConst 2)] ++ map fst [((EmConst 1, EmConst 2), (EmConst 3, EmWire 11))] ++ map snd [((EmConst 1, EmConst 2), (EmConst 3, EmWire 11))]).
Proof. exists 11%nat. cbn [map app fst snd]. right. right. left. right. reflexivity. Qed.
