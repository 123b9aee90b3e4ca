(** Concrete cases for Prop_Misc.v and Prop_Flow.v. *)
From Coq Require Import ZArith String Bool List Lia.
From Verif Require Import Params Go Curve Api FrOps Lib Steps Agg SpecCurve SpecHash SpecMisc
  P_Fr P_FrEx P_Curve P_Msm P_MsmEx P_Hash P_Trans P_Misc P_Kyc P_Flow.
Import ListNotations.
Open Scope Z_scope.

Lemma ex34 : FillVerifyCircuitsG1 (VBig (1 + p_mod)) (VInt 2) (VStr (Some 0)) (VFp 0) s0 = Done ([(1, 2); (0, 0)], s0) /\
  (exists w, FillVerifyCircuitsG1 (VBig 1) (VInt 3) (VBig 0) (VBig 0) s0 = Panicked w).
Proof. split; [vm_compute; reflexivity | eexists; vm_compute; reflexivity]. Qed.

Lemma ex37 : compile_agg plainO 104 1 21 4 = inr "can't set fp.Element from type"%string.
Proof. vm_compute. reflexivity. Qed.

Lemma ex38 : exists u s', mod_ Build (VInt 1) empty_cs = Done (u, s') /\ cs_hints s' = [(HMod, [EConst 1], [0%nat; 1%nat])].
Proof. eexists. eexists. split; reflexivity. Qed.
Lemma ex38_registered : In (hf_id MsmHint) registered_hints /\ In (hf_id AddHint) registered_hints /\
  In (hf_id (Keccak256Hint plainO)) registered_hints /\ ~ In HMod registered_hints.
Proof. cbn. repeat split; auto. intros [H|[H|[H|[]]]]; discriminate. Qed.

Lemma ex39 : exists mx my rx ry e,
  CalcVerifyBN256Msm plainO Test (VBig 1) (VBig 2) (VBig 3) s0 = Done (((mx, my), None), s0) /\
  CalcVerifyBN256Add Test (VFr 1) (VFr 2) mx my s0 = Done (((rx, ry), Some e), s0).
Proof.
  destruct ex13 as (G & K1 & K2 & E). specialize (E plainO s0).
  destruct (c13 plainO 1 2 3 s0 G K1 K2 _ _ _ _ E) as (_ & _ & X & Y & _ & EX & EY & C & _).
  injection EX as <-. injection EY as <-.
  destruct (add_fr_error triple_x triple_y _ s0 C) as (rx & ry & e & EA).
  exists (VBig triple_x), (VBig triple_y), rx, ry, e. split; [exact E | exact EA].
Qed.

Lemma ex46 : forall O, CalcVerifyCircuitLagrange O Test [VNil; VNil; VBig 1; VInt 7] s0 =
  Done (([VBig lagrange_x; VBig lagrange_y; VBig 1; VInt 7], None), s0).
Proof.
  intros O. apply (c46_accepts O [VNil; VNil; VBig 1; VInt 7] 1 s0); try reflexivity; try (cbn; lia).
  - split; [discriminate | reflexivity].
  - vm_compute. discriminate.
Qed.

Definition kyc_example : KycCircuit :=
  {| kyc_sig := (EmConst 1, EmConst 2); kyc_hash := EmConst 3;
     kyc := {| k_age := VInt 35; k_country := VInt 300; k_level := VInt 3; k_time := VInt 200 |};
     kyc_cond := {| c_age := (VInt 18, VInt 50); c_country := [VInt 100; VInt 200; VInt 300; VInt 400; VInt 500];
                    c_level := [VInt 3]; c_time := [VInt 300] |} |}.
Lemma ex41 : KycDefine plainO Test kyc_example s0 = Done (None, s0) /\
  kyc_ok plainO kyc_pub_x kyc_pub_y 3 1 2 35 18 50 300 [100; 200; 300; 400; 500] /\
  (exists w, KycDefine plainO Test
     (with_attrs kyc_example {| k_age := VInt 35; k_country := VInt 301; k_level := VInt 3; k_time := VInt 200 |}) s0 = Panicked w).
Proof.
  split; [vm_compute; reflexivity|]. split.
  - repeat split; try lia. exists 300. split; [cbn; auto | reflexivity].
  - eexists. vm_compute. reflexivity.
Qed.

Definition kyc_asg : asg := {| aw := fun i => nth i [18; 50; 100; 300; 3; 300; 35; 300; 3; 200] 0; ae := fun _ => 1 |}.
Lemma ex41_build : exists S w', compile_kyc plainO 2 1 1 = inl S /\ length (cs_cons S) = 10%nat /\
  (forall i, (i < 10)%nat -> aw w' i = aw kyc_asg i) /\ sat plainO w' S.
Proof.
  destruct (kyc_shape_build plainO 2 1 1) as (S & E & _ & H).
  destruct (H kyc_asg) as (w' & A & _ & B).
  - cbn [kyc_asg aw ae Nat.add nth seq map]. rewrite !modr_small by (split; [discriminate | reflexivity]).
    split; [reflexivity|]. split; [lia|]. split; [lia|]. exists 300. split; [right; left; reflexivity | reflexivity].
  - exists S, w'. split; [exact E|]. split; [|split; [exact A | exact B]].
    assert (L : match compile_kyc plainO 2 1 1 with inl sy => length (cs_cons sy) | inr _ => 0%nat end = 10%nat) by (vm_compute; reflexivity).
    rewrite E in L. exact L.
Qed.

Lemma ex44 : good_term ((1, 2), 1) /\ good_term ((1, 2), 2) /\
  general (pmul 1 (of_coords0 (1, 2))) [((1, 2), 2)] /\
  VerifyMultiScalarMul plainO Test [(1, 2); (1, 2)] [1; 2] (triple_x, triple_y) s0 = Done (None, s0).
Proof.
  assert (G1 : good_term ((1, 2), 1)) by (split; [vm_compute; reflexivity | split; reflexivity]).
  assert (G2 : good_term ((1, 2), 2)) by (split; [vm_compute; reflexivity | split; reflexivity]).
  assert (E1 : pmul 1 (of_coords0 (1, 2)) = Aff 1 2) by (vm_compute; reflexivity).
  assert (E2 : pmul 2 (of_coords0 (1, 2)) = Aff double_x double_y) by (vm_compute; reflexivity).
  assert (G : general (pmul 1 (of_coords0 (1, 2))) [((1, 2), 2)]).
  { cbn [general]. rewrite E1, E2. split; [|exact I]. do 4 eexists. repeat split; try reflexivity. discriminate. }
  split; [exact G1|]. split; [exact G2|]. split; [exact G|].
  apply (c44_main plainO (1, 2) 1 [((1, 2), 2)] (triple_x, triple_y) s0 G1 (Forall_cons _ G2 (Forall_nil _)) G).
  cbn [msm_from]. rewrite E1, E2. vm_compute. reflexivity.
Qed.

Definition agg_example (t v : list Z) : AggregatorCircuit :=
  {| Proof_ := map VBig [1; 2]; VerifyInst := map VBig v; Aux := []; TargetInst := map VBig t |}.
Lemma ex40 : let c := agg_example [5; 6] [7] in let c' := agg_example [5] [6 + p_mod; 7] in
  TargetInst c ++ VerifyInst c = map VBig [5; 6; 7] /\ TargetInst c' ++ VerifyInst c' = map VBig [5; 6 + p_mod; 7] /\
  map (fun z => z mod p_mod) [5; 6; 7] = map (fun z => z mod p_mod) [5; 6 + p_mod; 7].
Proof. repeat split. Qed.

Lemma ex32 : exists b, run_stmt plainO Test [] [] [VBig 2; VBig 3; VNil] (SSet 2 (FAdd (FMul (FBuf 0) (FBuf 1)) (FNeg (FBuf 0)))) s0 =
  Done ((b, None), s0) /\ b = [VBig 2; VBig 3; VBig 4].
Proof. eexists. split; vm_compute; reflexivity. Qed.
