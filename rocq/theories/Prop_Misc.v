(** Pairing inputs, compilation, hint registry, error propagation, instance data, KYC, multi-scalar
    multiplication, frames: C32, C34, C37-C42, C44, C46.  Specifications: SpecMisc.v, SpecCurve.v. *)
From Coq Require Import ZArith String Bool List.
From Verif Require Import Params Go Curve Api FrOps Lib Steps Agg SpecCurve SpecHash SpecMisc
  P_Fr P_FrEx P_Msm P_MsmEx P_Hash P_Misc P_Kyc P_Flow P_MiscEx P_Restate P_Legacy P_Twist SpecKinds SpecShape P_Shape.
Import ListNotations.
Open Scope Z_scope.

(** C32 *)
Theorem C32_step1_frame : step_frame VerifyProof1.
Proof. exact c32_1. Qed.
Print Assumptions C32_step1_frame.
Theorem C32_step2_frame : step_frame VerifyProof2.
Proof. exact c32_2. Qed.
Print Assumptions C32_step2_frame.
Theorem C32_step3_frame : step_frame VerifyProof3.
Proof. exact c32_3. Qed.
Print Assumptions C32_step3_frame.
Example C32_case : exists b, run_stmt plainO Test [] [] [VBig 2; VBig 3; VNil]
    (SSet 2 (FAdd (FMul (FBuf 0) (FBuf 1)) (FNeg (FBuf 0)))) s0 = Done ((b, None), s0) /\ b = [VBig 2; VBig 3; VBig 4].
Proof. exact ex32. Qed.

(** C34 *)
Theorem C34_g2_points_on_twist : exists P Q, GetVerifyCircuitsG2Jac = Done (P, Q) /\ on_twist P /\ on_twist Q.
Proof. exact c34_g2. Qed.
Print Assumptions C34_g2_points_on_twist.
(** the test made on the two points is the curve equation, for every pair of coordinates *)
Theorem C34_g2_check : forall P, g2_is_on_curve P = true <-> on_twist P.
Proof. exact c34_check. Qed.
Print Assumptions C34_g2_check.
Example C34_g2_check_case : g2_is_on_curve g20_const = true /\
  eqp (snd half_twist_fst * snd half_twist_fst - fst half_twist_fst * fst half_twist_fst * fst half_twist_fst) (fst twist_b) /\
  g2_is_on_curve half_twist = false.
Proof. exact ex34_check. Qed.
Theorem C34_g2_installed : forall s : cs, exists P Q, FillVerifyCircuitsG2 s = Done ([P; Q], s) /\ on_twist P /\ on_twist Q.
Proof. exact c34_g2_fill. Qed.
Print Assumptions C34_g2_installed.
Theorem C34_g1_installed : forall (x1 y1 x2 y2 : var) (a b c d : Z) (s : cs),
  fp_set_interface x1 = inl a -> fp_set_interface y1 = inl b -> fp_set_interface x2 = inl c -> fp_set_interface y2 = inl d ->
  curve_or_zero a b -> curve_or_zero c d ->
  FillVerifyCircuitsG1 x1 y1 x2 y2 s = Done ([(a, b); (c, d)], s).
Proof. exact c34_ok. Qed.
Print Assumptions C34_g1_installed.
Theorem C34_g1_panics : forall (x1 y1 x2 y2 : var) (s : cs),
  ~ (exists a b c d, fp_set_interface x1 = inl a /\ fp_set_interface y1 = inl b /\ fp_set_interface x2 = inl c /\
       fp_set_interface y2 = inl d /\ curve_or_zero a b /\ curve_or_zero c d) ->
  exists w, FillVerifyCircuitsG1 x1 y1 x2 y2 s = Panicked w.
Proof. exact c34_panics. Qed.
Print Assumptions C34_g1_panics.
Example C34_case : FillVerifyCircuitsG1 (VBig (1 + p_mod)) (VInt 2) (VStr (Some 0)) (VFp 0) s0 = Done ([(1, 2); (0, 0)], s0) /\
  (exists w, FillVerifyCircuitsG1 (VBig 1) (VInt 3) (VBig 0) (VBig 0) s0 = Panicked w).
Proof. exact ex34. Qed.

(** C37 *)
Theorem C37_aggregator_never_compiles : forall (O : oracles) (nproof nverify naux ntarget : nat),
  exists e, compile_agg O nproof nverify naux ntarget = inr e.
Proof. exact c37_agg. Qed.
Print Assumptions C37_aggregator_never_compiles.
Theorem C37_scalar_mul_never_compiles : forall O : oracles, exists e, compile_scalar_mul O = inr e.
Proof. exact c37_mul. Qed.
Print Assumptions C37_scalar_mul_never_compiles.
Theorem C37_add_never_compiles : exists e, compile_add = inr e.
Proof. exact c37_add. Qed.
Print Assumptions C37_add_never_compiles.
Theorem C37_main_panics : forall (O : oracles) (rest : cs -> outcome unit), exists w, main_go O rest = Panicked w.
Proof. exact c37_main. Qed.
Print Assumptions C37_main_panics.
(** the compiled circuit has one wire per leaf, public instances first *)
Theorem C37_compiled_shape : forall (O : oracles) (np nv na nt : nat), exists c : AggregatorCircuit,
  length (Proof_ c) = np /\ length (VerifyInst c) = nv /\ length (Aux c) = na /\ length (TargetInst c) = nt /\
  agg_leaves c = numbered (length (agg_leaves c)) /\ compile_agg O np nv na nt = compile (length (agg_leaves c)) (Define O Build c).
Proof. exact c37_wires. Qed.
Print Assumptions C37_compiled_shape.
(** a symbolic value in any place makes the gadgets fail, whichever the engine *)
Theorem C37_scalar_mul_kinds : forall (O : oracles) (en : engine) (x y k u v : var) (s s' : cs),
  VerifyBN254ScalarMul O en (x, y) k (u, v) s = Done (None, s') -> fp_kind x /\ fp_kind y /\ fp_kind k /\ fp_kind u /\ fp_kind v.
Proof. exact c37_mul_kinds. Qed.
Print Assumptions C37_scalar_mul_kinds.
Theorem C37_add_kinds : forall (en : engine) (x1 y1 x2 y2 u v : var) (s s' : cs),
  VerifyBN254Add en (x1, y1) (x2, y2) (u, v) s = Done (None, s') ->
  fp_kind x1 /\ fp_kind y1 /\ fp_kind x2 /\ fp_kind y2 /\ fp_kind u /\ fp_kind v.
Proof. exact c37_add_kinds. Qed.
Print Assumptions C37_add_kinds.
Example C37_case_kinds : exists s',
  VerifyBN254Add Test (VInt 1, VInt 2) (VInt 1, VBig (p_mod - 2)) (VBig 0, VStr (Some 0)) (mk_cs 0 [] []) = Done (None, s').
Proof. exact ex37_kinds. Qed.
Example C37_case : compile_agg plainO 104 1 21 4 = inr "can't set fp.Element from type"%string.
Proof. exact ex37. Qed.

(** C38 *)
Theorem C38_mod_needs_unregistered_hint : forall (v : var) (s : cs) (u : var) (s' : cs),
  mod_ Build v s = Done (u, s') -> calls HMod s' /\ hints_available s' = false.
Proof. exact c38_mod. Qed.
Print Assumptions C38_mod_needs_unregistered_hint.
Theorem C38_fr_ops_need_unregistered_hint : forall (a b c : var) (s : cs) (u : var) (s' : cs),
  (fr_mul Build a b s = Done (u, s') \/ fr_add Build a b s = Done (u, s') \/ fr_sub Build a b s = Done (u, s') \/
   fr_div Build a b c s = Done (u, s') \/ fr_pow Build a b s = Done (u, s')) ->
  calls HMod s' /\ hints_available s' = false.
Proof. exact c38_ops. Qed.
Print Assumptions C38_fr_ops_need_unregistered_hint.
Theorem C38_registered_hints_available : forall (h : hintfn) (n : nat) (ins : list var) (s : cs) r (s' : cs),
  In (hf_id h) registered_hints -> new_hint Build h n ins s = Done (r, s') ->
  hints_available s = true -> hints_available s' = true.
Proof. exact c38_registered. Qed.
Print Assumptions C38_registered_hints_available.
Theorem C38_registry : forall O : oracles,
  (forall h, In h [MsmHint; AddHint; Keccak256Hint O] -> In (hf_id h) registered_hints) /\
  (forall h, In h [modHint; toBytes] -> ~ In (hf_id h) registered_hints).
Proof. exact c38_registry. Qed.
Print Assumptions C38_registry.
Theorem C38_all_hints_registered_refuted : ~ (forall (v : var) (s : cs) (u : var) (s' : cs),
  hints_available s = true -> mod_ Build v s = Done (u, s') -> hints_available s' = true).
Proof. exact c38_refuted. Qed.
Print Assumptions C38_all_hints_registered_refuted.
Example C38_case : exists u s', mod_ Build (VInt 1) empty_cs = Done (u, s') /\
  cs_hints s' = [(HMod, [EConst 1], [0%nat; 1%nat])].
Proof. exact ex38. Qed.
Example C38_case_registered : In (hf_id MsmHint) registered_hints /\ In (hf_id AddHint) registered_hints /\
  In (hf_id (Keccak256Hint plainO)) registered_hints /\ ~ In HMod registered_hints.
Proof. exact ex38_registered. Qed.

(** C39 *)
Theorem C39_mul_error_returned : forall (O : oracles) (en : engine) (input : list var) (off : nat) (x y k : var)
    (s : cs) (rx ry : var) (e : goerr) (s' : cs),
  nth_error input off = Some x -> nth_error input (off + 1) = Some y -> nth_error input (off + 2) = Some k ->
  CalcVerifyBN256Msm O en x y k s = Done (((rx, ry), Some e), s') ->
  ecc_mul O en input off s = Done ((input, Some e), s').
Proof. exact c39_mul_error. Qed.
Print Assumptions C39_mul_error_returned.
Theorem C39_mul_result_stored : forall (O : oracles) (en : engine) (input : list var) (off : nat) (x y k : var)
    (s : cs) (rx ry : var) (s' : cs),
  nth_error input off = Some x -> nth_error input (off + 1) = Some y -> nth_error input (off + 2) = Some k ->
  CalcVerifyBN256Msm O en x y k s = Done (((rx, ry), None), s') ->
  exists b, ecc_mul O en input off s = Done ((b, None), s') /\ length b = length input /\
    forall i, nth_error b i = if Nat.eqb i (off + 1) then Some ry else if Nat.eqb i off then Some rx else nth_error input i.
Proof. exact c39_mul_ok. Qed.
Print Assumptions C39_mul_result_stored.
Theorem C39_mul_add_returns_mul_error : forall (O : oracles) (en : engine) (buf : list var) (off : nat) (x y k : var)
    (s : cs) (rx ry : var) (e : goerr) (s' : cs),
  nth_error buf (off + 2) = Some x -> nth_error buf (off + 3) = Some y -> nth_error buf (off + 4) = Some k ->
  CalcVerifyBN256Msm O en x y k s = Done (((rx, ry), Some e), s') ->
  ecc_mul_add O en buf off s = Done ((buf, Some e), s').
Proof. exact c39_mul_add_mul_error. Qed.
Print Assumptions C39_mul_add_returns_mul_error.
Theorem C39_mul_add_drops_add_error : forall (O : oracles) (en : engine) (buf : list var) (off : nat) (a b x y k : var)
    (s : cs) (mx my : var) (s1 : cs) (rx ry : var) (e : option goerr) (s' : cs),
  nth_error buf off = Some a -> nth_error buf (off + 1) = Some b ->
  nth_error buf (off + 2) = Some x -> nth_error buf (off + 3) = Some y -> nth_error buf (off + 4) = Some k ->
  CalcVerifyBN256Msm O en x y k s = Done (((mx, my), None), s1) ->
  CalcVerifyBN256Add en a b mx my s1 = Done (((rx, ry), e), s') ->
  exists buf', ecc_mul_add O en buf off s = Done ((buf', None), s') /\ length buf' = length buf /\
    nth_error buf' off = Some rx /\ nth_error buf' (off + 1) = Some ry /\
    nth_error buf' (off + 2) = Some mx /\ nth_error buf' (off + 3) = Some my /\
    (forall i, (i < off \/ off + 4 <= i)%nat -> nth_error buf' i = nth_error buf i).
Proof. exact c39_mul_add_drops. Qed.
Print Assumptions C39_mul_add_drops_add_error.
Theorem C39_mul_add_errors_are_mul_errors : forall (O : oracles) (en : engine) (buf : list var) (off : nat) (s : cs)
    (b : list var) (e : goerr) (s' : cs), ecc_mul_add O en buf off s = Done ((b, Some e), s') ->
  b = buf /\ exists x y k rx ry, nth_error buf (off + 2) = Some x /\ nth_error buf (off + 3) = Some y /\
    nth_error buf (off + 4) = Some k /\ CalcVerifyBN256Msm O en x y k s = Done (((rx, ry), Some e), s').
Proof. exact c39_errors_from_mul. Qed.
Print Assumptions C39_mul_add_errors_are_mul_errors.
Theorem C39_add_error_propagates_refuted : ~ (forall O en buf off a b x y k s mx my s1 rx ry e s',
  nth_error buf off = Some a -> nth_error buf (off + 1) = Some b ->
  nth_error buf (off + 2) = Some x -> nth_error buf (off + 3) = Some y -> nth_error buf (off + 4) = Some k ->
  CalcVerifyBN256Msm O en x y k s = Done (((mx, my), None), s1) ->
  CalcVerifyBN256Add en a b mx my s1 = Done (((rx, ry), Some e), s') ->
  exists buf' s2, ecc_mul_add O en buf off s = Done ((buf', Some e), s2)).
Proof. exact c39_refuted. Qed.
Print Assumptions C39_add_error_propagates_refuted.
Example C39_case : exists mx my rx ry e,
  CalcVerifyBN256Msm plainO Test (VBig 1) (VBig 2) (VBig 3) s0 = Done (((mx, my), None), s0) /\
  CalcVerifyBN256Add Test (VFr 1) (VFr 2) mx my s0 = Done (((rx, ry), Some e), s0).
Proof. exact ex39. Qed.

(** C40 *)
Theorem C40_boundary_irrelevant : forall (O : oracles) (en : engine) (c c' : AggregatorCircuit) (s : cs),
  TargetInst c ++ VerifyInst c = TargetInst c' ++ VerifyInst c' ->
  Proof_ c = Proof_ c' -> Aux c = Aux c' -> Define O en c s = Define O en c' s.
Proof. exact c40_boundary. Qed.
Print Assumptions C40_boundary_irrelevant.
Theorem C40_values_modulo_p : forall (O : oracles) (c c' : AggregatorCircuit) (zs zs' : list Z) (s : cs),
  TargetInst c ++ VerifyInst c = map VBig zs -> TargetInst c' ++ VerifyInst c' = map VBig zs' ->
  map (fun z => z mod p_mod) zs = map (fun z => z mod p_mod) zs' ->
  Proof_ c = Proof_ c' -> Aux c = Aux c' -> Define O Test c s = Define O Test c' s.
Proof. exact c40_mod_p. Qed.
Print Assumptions C40_values_modulo_p.
Theorem C40_too_many_panics : forall (O : oracles) (en : engine) (c : AggregatorCircuit) (s : cs),
  (43 < length (TargetInst c) + length (VerifyInst c))%nat -> exists w, Define O en c s = Panicked w.
Proof. exact c40_too_many. Qed.
Print Assumptions C40_too_many_panics.
Example C40_case : let c := agg_example [5; 6] [7] in let c' := agg_example [5] [6 + p_mod; 7] in
  TargetInst c ++ VerifyInst c = map VBig [5; 6; 7] /\ TargetInst c' ++ VerifyInst c' = map VBig [5; 6 + p_mod; 7] /\
  map (fun z => z mod p_mod) [5; 6; 7] = map (fun z => z mod p_mod) [5; 6 + p_mod; 7].
Proof. exact ex40. Qed.

(** C41 *)
Theorem C41_kyc_test_engine : forall (O : oracles) (c : KycCircuit) (h r' s' age mn mx country : Z) (cs_ : list Z) (s : cs),
  kyc_hash c = EmConst h -> kyc_sig c = (EmConst r', EmConst s') ->
  to_big (k_age (kyc c)) = Done age -> to_big (fst (c_age (kyc_cond c))) = Done mn ->
  to_big (snd (c_age (kyc_cond c))) = Done mx -> to_big (k_country (kyc c)) = Done country ->
  Forall2 (fun v z => to_big v = Done z) (c_country (kyc_cond c)) cs_ ->
  (kyc_ok O kyc_pub_x kyc_pub_y h r' s' age mn mx country cs_ -> KycDefine O Test c s = Done (None, s)) /\
  (~ kyc_ok O kyc_pub_x kyc_pub_y h r' s' age mn mx country cs_ -> exists w, KycDefine O Test c s = Panicked w).
Proof. exact c41_test. Qed.
Print Assumptions C41_kyc_test_engine.
Theorem C41_kyc_compiled : forall (O : oracles) (c : KycCircuit) (age mn mx country : expr) (cs_ : list expr) (s : cs),
  to_expr (k_age (kyc c)) = Done age -> to_expr (fst (c_age (kyc_cond c))) = Done mn ->
  to_expr (snd (c_age (kyc_cond c))) = Done mx -> to_expr (k_country (kyc c)) = Done country ->
  Forall2 (fun v e => to_expr v = Done e) (c_country (kyc_cond c)) cs_ ->
  exists s' new, KycDefine O Build c s = Done (None, s') /\ cs_cons s' = new ++ cs_cons s /\
    let ok w := kyc_ok O kyc_pub_x kyc_pub_y (evem w (kyc_hash c)) (evem w (fst (kyc_sig c))) (evem w (snd (kyc_sig c)))
                  (eval w age) (eval w mn) (eval w mx) (eval w country) (map (eval w) cs_) in
    (forall w, Forall (sat1 O w) new -> ok w) /\
    (Forall (wires_lt (cs_next s)) (age :: mn :: mx :: country :: cs_) ->
     forall w, ok w -> exists w', agree_below (cs_next s) w w' /\ Forall (sat1 O w') new).
Proof. exact c41_build. Qed.
Print Assumptions C41_kyc_compiled.
Theorem C41_kyc_compiled_circuit : forall (O : oracles) (n m l : nat), exists S, compile_kyc O n m l = inl S /\
  let N := (2 + n + m + l)%nat in
  let ok w := kyc_ok O kyc_pub_x kyc_pub_y (ae w 2%nat) (ae w 0%nat) (ae w 1%nat)
    (aw w N mod r_mod) (aw w 0%nat mod r_mod) (aw w 1%nat mod r_mod) (aw w (N + 1)%nat mod r_mod)
    (map (fun i => aw w i mod r_mod) (seq 2 n)) in
  (forall w, sat O w S -> ok w) /\
  (forall w, ok w -> exists w', (forall i, (i < N + 4)%nat -> aw w' i = aw w i) /\ ae w' = ae w /\ sat O w' S).
Proof. exact kyc_shape_build. Qed.
Print Assumptions C41_kyc_compiled_circuit.
Theorem C41_empty_list_rejects : forall (O : oracles) (c : KycCircuit) (s s1 : cs),
  c_country (kyc_cond c) = [] -> KycDefine O Test c s <> Done (None, s1).
Proof. exact c41_empty. Qed.
Print Assumptions C41_empty_list_rejects.
Example C41_case : KycDefine plainO Test kyc_example s0 = Done (None, s0) /\
  kyc_ok plainO kyc_pub_x kyc_pub_y 3 1 2 35 18 50 300 [100; 200; 300; 400; 500] /\
  (exists w, KycDefine plainO Test
     (with_attrs kyc_example {| k_age := VInt 35; k_country := VInt 301; k_level := VInt 3; k_time := VInt 200 |}) s0 = Panicked w).
Proof. exact ex41. Qed.
Example C41_case_compiled : exists S w', compile_kyc plainO 2 1 1 = inl S /\ length (cs_cons S) = 10%nat /\
  (forall i, (i < 10)%nat -> aw w' i = aw kyc_asg i) /\ sat plainO w' S.
Proof. exact ex41_build. Qed.

(** C42 *)
Theorem C42_attributes_replaceable : forall (O : oracles) (c : KycCircuit) (k : KycType) (age mn mx country : Z)
    (cs_ : list Z) (s s1 : cs), KycDefine O Test c s = Done (None, s1) ->
  to_big (k_age k) = Done age -> to_big (fst (c_age (kyc_cond c))) = Done mn ->
  to_big (snd (c_age (kyc_cond c))) = Done mx -> to_big (k_country k) = Done country ->
  Forall2 (fun v z => to_big v = Done z) (c_country (kyc_cond c)) cs_ ->
  0 <= age -> mn <= age <= mx -> listed country cs_ ->
  KycDefine O Test (with_attrs c k) s = Done (None, s).
Proof. exact c42_replace. Qed.
Print Assumptions C42_attributes_replaceable.
Theorem C42_attributes_replaceable_compiled : forall (O : oracles) (n m l : nat) (S : cs) (w : asg)
    (age country level time : Z), compile_kyc O n m l = inl S -> sat O w S ->
  let N := (2 + n + m + l)%nat in
  aw w 0%nat mod r_mod <= age mod r_mod <= aw w 1%nat mod r_mod ->
  listed country (map (fun i => aw w i mod r_mod) (seq 2 n)) ->
  exists w', sat O w' S /\ ae w' = ae w /\ (forall i, (i < N)%nat -> aw w' i = aw w i) /\
    aw w' N = age /\ aw w' (N + 1)%nat = country /\ aw w' (N + 2)%nat = level /\ aw w' (N + 3)%nat = time.
Proof. exact c42_compiled. Qed.
Print Assumptions C42_attributes_replaceable_compiled.
Theorem C42_level_and_time_ignored : forall (O : oracles) (en : engine) (c : KycCircuit) (l t : var) (ls ts : list var) (s : cs),
  KycDefine O en (with_level_time c l t ls ts) s = KycDefine O en c s.
Proof. exact c42_ignored. Qed.
Print Assumptions C42_level_and_time_ignored.
Theorem C42_signed_attributes_refuted : ~ (forall O c k s, KycDefine O Test c s = Done (None, s) ->
  KycDefine O Test (with_attrs c k) s = Done (None, s) ->
  to_big (k_age k) = to_big (k_age (kyc c)) /\ to_big (k_country k) = to_big (k_country (kyc c))).
Proof. exact c42_refuted. Qed.
Print Assumptions C42_signed_attributes_refuted.

(** C44 *)
Theorem C44_msm_length_error : forall (O : oracles) (en : engine) (p0 : Z * Z) (ps : list (Z * Z)) (ss : list Z)
    (e : Z * Z) (s : cs), length (p0 :: ps) <> length ss ->
  exists err, VerifyMultiScalarMul O en (p0 :: ps) ss e s = Done (Some err, s).
Proof. exact c44_lengths. Qed.
Print Assumptions C44_msm_length_error.
Theorem C44_msm_no_other_error : forall (O : oracles) (en : engine) (ps : list (Z * Z)) (ss : list Z) (e : Z * Z)
    (s : cs) (err : goerr) (s' : cs), ps = [] \/ length ps = length ss ->
  VerifyMultiScalarMul O en ps ss e s <> Done (Some err, s').
Proof. exact c44_no_error. Qed.
Print Assumptions C44_msm_no_other_error.
Theorem C44_msm_sum : forall (O : oracles) (t : (Z * Z) * Z) (l : list ((Z * Z) * Z)) (e : Z * Z) (s : cs)
    (R : pt) (X Y : Z),
  good_term t -> Forall good_term l -> apart (t :: l) -> lin_comb (t :: l) R -> encodes X Y R ->
  (e = (X, Y) -> VerifyMultiScalarMul O Test (map fst (t :: l)) (map snd (t :: l)) e s = Done (None, s)) /\
  (e <> (X, Y) -> exists w, VerifyMultiScalarMul O Test (map fst (t :: l)) (map snd (t :: l)) e s = Panicked w).
Proof. exact c44_spec. Qed.
Print Assumptions C44_msm_sum.
Theorem C44_msm_no_points : forall (O : oracles) (ss : list Z) (e : Z * Z) (s : cs),
  (e = (0, 0) -> VerifyMultiScalarMul O Test [] ss e s = Done (None, s)) /\
  (e <> (0, 0) -> exists w, VerifyMultiScalarMul O Test [] ss e s = Panicked w).
Proof. exact c44_empty. Qed.
Print Assumptions C44_msm_no_points.
Theorem C44_msm_equal_abscissas_rejected : forall (O : oracles) (P Q : Z * Z) (k k' : Z) (e : Z * Z) (s : cs),
  good_term (P, k) -> good_term (Q, k') ->
  (exists x y y', lin_comb [(P, k)] (Aff x y) /\ lin_comb [(Q, k')] (Aff x y')) ->
  exists w, VerifyMultiScalarMul O Test [P; Q] [k; k'] e s = Panicked w.
Proof. exact c44_equal_spec. Qed.
Print Assumptions C44_msm_equal_abscissas_rejected.
Example C44_case : good_term ((1, 2), 1) /\ good_term ((1, 2), 2) /\ apart [((1, 2), 1); ((1, 2), 2)] /\
  lin_comb [((1, 2), 1); ((1, 2), 2)] (Aff triple_x triple_y) /\
  VerifyMultiScalarMul plainO Test [(1, 2); (1, 2)] [1; 2] (triple_x, triple_y) s0 = Done (None, s0).
Proof. exact ex44_spec. Qed.

(** C46 *)
Theorem C46_lagrange_frame : forall (O : oracles) (en : engine) (buf : list var) (s : cs) (b : list var)
    (e : option goerr) (s' : cs), CalcVerifyCircuitLagrange O en buf s = Done ((b, e), s') ->
  length b = length buf /\ skipn 2 b = skipn 2 buf.
Proof. exact c46_frame. Qed.
Print Assumptions C46_lagrange_frame.
Theorem C46_lagrange_value : forall (O : oracles) (buf : list var) (k : Z) (s : cs) (b : list var) (e : option goerr) (s' : cs),
  nth_error buf 2 = Some (VBig k) -> 0 <= k < p_mod -> k mod r_mod <> 0 ->
  CalcVerifyCircuitLagrange O Test buf s = Done ((b, e), s') ->
  e = None /\ s' = s /\ exists X Y, multiple (Aff lagrange_x lagrange_y) k (Aff X Y) /\
    nth_error b 0 = Some (VBig X) /\ nth_error b 1 = Some (VBig Y) /\ encodes X Y (Aff X Y).
Proof. exact c46_value_spec. Qed.
Print Assumptions C46_lagrange_value.
Theorem C46_lagrange_accepts : forall (O : oracles) (buf : list var) (k : Z) (s : cs) (X Y : Z),
  (3 <= length buf)%nat -> nth_error buf 2 = Some (VBig k) -> 0 <= k < p_mod -> k mod r_mod <> 0 ->
  multiple (Aff lagrange_x lagrange_y) k (Aff X Y) -> X < r_mod -> Y < r_mod ->
  CalcVerifyCircuitLagrange O Test buf s = Done ((VBig X :: VBig Y :: skipn 2 buf, None), s).
Proof. exact c46_accepts_spec. Qed.
Print Assumptions C46_lagrange_accepts.
Example C46_case : forall O, CalcVerifyCircuitLagrange O Test [VNil; VNil; VBig 1; VInt 7] s0 =
  Done (([VBig lagrange_x; VBig lagrange_y; VBig 1; VInt 7], None), s0).
Proof. exact ex46. Qed.
