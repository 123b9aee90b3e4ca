(** Curve hints, gadgets and legacy circuits: C11-C20.
    [encodes a b P], [group_sum P Q R], [multiple P k R], [printed], [add_degenerate] and [curve_or_zero] are
    defined in SpecCurve.v. *)
From Coq Require Import ZArith String Bool List.
From Verif Require Import Params Go Curve Api FrOps Lib Agg SpecCurve SpecRuns SpecKinds P_FrEx P_Msm P_MsmEx P_Restate P_Legacy.
Import ListNotations.
Open Scope Z_scope.

(** C11 *)
Theorem C11_MsmHint_valid : forall (x y k : Z) (P R : pt) (o1 o2 : option Z),
  encodes (Z.abs x) (Z.abs y) P -> multiple P k R ->
  msm_hint_run [x; y; k] [o1; o2] = Done (None, [Some (fst (printed R)); Some (snd (printed R))]).
Proof. exact c11_spec. Qed.
Print Assumptions C11_MsmHint_valid.

Theorem C11_MsmHint_invalid : forall (x y k : Z) (o : list (option Z)),
  Z.abs x < 2 ^ 256 -> Z.abs y < 2 ^ 256 -> ~ (exists P, encodes (Z.abs x) (Z.abs y) P) ->
  exists e, msm_hint_run [x; y; k] o = Done (Some e, o).
Proof. exact c11_bad. Qed.
Print Assumptions C11_MsmHint_invalid.

Theorem C11_MsmHint_too_long : forall (x y k : Z) (o : list (option Z)),
  2 ^ 256 <= Z.abs x \/ 2 ^ 256 <= Z.abs y -> exists w, msm_hint_run [x; y; k] o = Panicked w.
Proof. exact c11_panic. Qed.
Print Assumptions C11_MsmHint_too_long.

Theorem C11_MsmHint_arity : forall (ins : list Z) (o : list (option Z)),
  length ins <> 3%nat -> exists w, msm_hint_run ins o = Panicked w.
Proof. exact c11_arity. Qed.
Print Assumptions C11_MsmHint_arity.

Example C11_case : encodes 1 2 (Aff 1 2) /\ encodes 0 0 Inf /\ ~ (exists P, encodes 1 3 P) /\
  msm_hint_run [1; 2; 3] [Some 0; Some 0] = Done (None, [Some triple_x; Some triple_y]) /\
  msm_hint_run [1; 2; 0] [Some 0; Some 0] = Done (None, [Some 0; Some 1]).
Proof. exact ex11. Qed.

(** C12 *)
Theorem C12_AddHint_valid : forall (x1 y1 x2 y2 : Z) (P Q R : pt) (o1 o2 : option Z),
  encodes (Z.abs x1) (Z.abs y1) P -> encodes (Z.abs x2) (Z.abs y2) Q -> group_sum P Q R ->
  add_hint_run [x1; y1; x2; y2] [o1; o2] = Done (None, [Some (fst (printed R)); Some (snd (printed R))]).
Proof. exact c12_spec. Qed.
Print Assumptions C12_AddHint_valid.

Theorem C12_AddHint_invalid : forall (x1 y1 x2 y2 : Z) (o : list (option Z)),
  Z.abs x1 < 2 ^ 256 -> Z.abs y1 < 2 ^ 256 -> Z.abs x2 < 2 ^ 256 -> Z.abs y2 < 2 ^ 256 ->
  ~ ((exists P, encodes (Z.abs x1) (Z.abs y1) P) /\ (exists Q, encodes (Z.abs x2) (Z.abs y2) Q)) ->
  exists e, add_hint_run [x1; y1; x2; y2] o = Done (Some e, o).
Proof. exact c12_bad. Qed.
Print Assumptions C12_AddHint_invalid.

(** (when the first point is invalid its error is returned before the second is looked at) *)
Theorem C12_AddHint_too_long : forall (x1 y1 x2 y2 : Z) (o : list (option Z)),
  (2 ^ 256 <= Z.abs x1 \/ 2 ^ 256 <= Z.abs y1) \/
  ((exists P, encodes (Z.abs x1) (Z.abs y1) P) /\ (2 ^ 256 <= Z.abs x2 \/ 2 ^ 256 <= Z.abs y2)) ->
  exists w, add_hint_run [x1; y1; x2; y2] o = Panicked w.
Proof. exact c12_panic. Qed.
Print Assumptions C12_AddHint_too_long.

Theorem C12_AddHint_arity : forall (ins : list Z) (o : list (option Z)),
  length ins <> 4%nat -> exists w, add_hint_run ins o = Panicked w.
Proof. exact c12_arity. Qed.
Print Assumptions C12_AddHint_arity.

Example C12_case : add_hint_run [1; 2; 1; 2] [Some 0; Some 0] = Done (None, [Some double_x; Some double_y]).
Proof. exact ex12. Qed.

(** C13 *)
Theorem C13_accepted_multiple_is_true : forall (O : oracles) (x y k : Z) (s : cs),
  encodes x y (Aff x y) -> 0 <= k < p_mod -> k mod r_mod <> 0 ->
  forall vx vy e s', CalcVerifyBN256Msm O Test (VBig x) (VBig y) (VBig k) s = Done (((vx, vy), e), s') ->
    e = None /\ s' = s /\ exists X Y, multiple (Aff x y) k (Aff X Y) /\ vx = VBig X /\ vy = VBig Y /\
      encodes X Y (Aff X Y) /\ X < r_mod /\ Y < r_mod.
Proof. exact c13_spec. Qed.
Print Assumptions C13_accepted_multiple_is_true.

Example C13_case : encodes 1 2 (Aff 1 2) /\ 0 <= 3 < p_mod /\ 3 mod r_mod <> 0 /\
  forall O s, CalcVerifyBN256Msm O Test (VBig 1) (VBig 2) (VBig 3) s =
    Done (((VBig triple_x, VBig triple_y), None), s).
Proof. exact ex13. Qed.

(** C14 *)
Theorem C14_accepts_iff_below_r : forall (O : oracles) (x y k : Z) (s : cs),
  encodes x y (Aff x y) -> 0 <= k < p_mod -> k mod r_mod <> 0 ->
  forall X Y, multiple (Aff x y) k (Aff X Y) ->
    (X < r_mod /\ Y < r_mod ->
       CalcVerifyBN256Msm O Test (VBig x) (VBig y) (VBig k) s = Done (((VBig X, VBig Y), None), s)) /\
    (r_mod <= X \/ r_mod <= Y ->
       exists w, CalcVerifyBN256Msm O Test (VBig x) (VBig y) (VBig k) s = Panicked w).
Proof. exact c14_spec. Qed.
Print Assumptions C14_accepts_iff_below_r.

(** such a multiple exists: the curve has prime order r *)
Theorem C14_multiple_finite : forall x y k : Z, encodes x y (Aff x y) -> k mod r_mod <> 0 ->
  exists X Y, multiple (Aff x y) k (Aff X Y).
Proof. exact c14_finite. Qed.
Print Assumptions C14_multiple_finite.

Theorem C14_accepts_all_valid_refuted :
  ~ (forall O x y k s, encodes x y (Aff x y) -> 0 <= k < p_mod -> k mod r_mod <> 0 ->
       exists r, CalcVerifyBN256Msm O Test (VBig x) (VBig y) (VBig k) s = Done r).
Proof. exact c14_refuted. Qed.
Print Assumptions C14_accepts_all_valid_refuted.

Example C14_case : multiple (Aff 1 2) 3 (Aff triple_x triple_y).
Proof. exact gen_multiple_3. Qed.

(** C15 *)
Theorem C15_accepted_sum_is_true : forall (x1 y1 x2 y2 : Z) (vx vy : var) (e : option goerr) (s s' : cs),
  0 <= x1 -> 0 <= y1 -> 0 <= x2 -> 0 <= y2 ->
  CalcVerifyBN256Add Test (VBig x1) (VBig y1) (VBig x2) (VBig y2) s = Done (((vx, vy), e), s') ->
  e = None /\ s' = s /\ exists P Q X Y, encodes x1 y1 P /\ encodes x2 y2 Q /\ group_sum P Q (Aff X Y) /\
    vx = VBig X /\ vy = VBig Y /\ encodes X Y (Aff X Y) /\ X < r_mod /\ Y < r_mod.
Proof. exact c15_spec. Qed.
Print Assumptions C15_accepted_sum_is_true.

Example C15_case : forall s, CalcVerifyBN256Add Test (VBig 1) (VBig 2) (VBig 1) (VBig 2) s =
    Done (((VBig double_x, VBig double_y), None), s).
Proof. exact ex15. Qed.

(** C16 *)
Theorem C16_accepts_iff : forall (x1 y1 x2 y2 : Z) (P Q : pt) (s : cs),
  encodes x1 y1 P -> encodes x2 y2 Q ->
  ((exists r, CalcVerifyBN256Add Test (VBig x1) (VBig y1) (VBig x2) (VBig y2) s = Done r) <->
   (~ add_degenerate P Q /\ exists X Y, group_sum P Q (Aff X Y) /\ 0 <= X < r_mod /\ 0 <= Y < r_mod)).
Proof. exact c16_spec. Qed.
Print Assumptions C16_accepts_iff.

Theorem C16_opposite_points_fail : forall (x y : Z) (s : cs), encodes x y (Aff x y) ->
  exists w, CalcVerifyBN256Add Test (VBig x) (VBig y) (VBig x) (VBig (p_mod - y)) s = Panicked w.
Proof. exact c16_opposite. Qed.
Print Assumptions C16_opposite_points_fail.

Theorem C16_accepts_all_valid_refuted :
  ~ (forall x1 y1 x2 y2 P Q s, encodes x1 y1 P -> encodes x2 y2 Q ->
       exists r, CalcVerifyBN256Add Test (VBig x1) (VBig y1) (VBig x2) (VBig y2) s = Done r).
Proof. exact c16_refuted. Qed.
Print Assumptions C16_accepts_all_valid_refuted.

Example C15_sum_case : group_sum (Aff 1 2) (Aff 1 2) (Aff double_x double_y).
Proof. exact gen_double. Qed.

Example C16_case : encodes beta (p_mod - 2) (Aff beta (p_mod - 2)) /\
  add_degenerate (Aff 1 2) (Aff beta (p_mod - 2)).
Proof. exact ex16. Qed.

(** C17 *)
Theorem C17_legacy_msm_mod_r : forall (g : Z * Z) (k : Z) (res : Z * Z) (s : cs) (P R : pt) (X Y : Z),
  encodes (fst g) (snd g) P -> multiple P k R -> encodes X Y R ->
  ((exists r, VerifyBN256Msm Test g k res s = Done r) <->
   X mod r_mod = fst res mod r_mod /\ Y mod r_mod = snd res mod r_mod).
Proof. exact c17_msm_points. Qed.
Print Assumptions C17_legacy_msm_mod_r.

Theorem C17_legacy_add_mod_r : forall (g h res : Z * Z) (s : cs) (P Q R : pt) (X Y : Z),
  encodes (fst g) (snd g) P -> encodes (fst h) (snd h) Q -> group_sum P Q R -> encodes X Y R ->
  ((exists r, VerifyBN256Add Test g h res s = Done r) <->
   X mod r_mod = fst res mod r_mod /\ Y mod r_mod = snd res mod r_mod).
Proof. exact c17_add_points. Qed.
Print Assumptions C17_legacy_add_mod_r.

(** operands that are not points: the coordinates the unchecked formulas give *)
Theorem C17_legacy_msm_any_operand : forall (g : Z * Z) (k : Z) (res : Z * Z) (s : cs),
  (exists r, VerifyBN256Msm Test g k res s = Done r) <->
  (fst (coords0 (pmul k (of_coords0 g))) mod r_mod = fst res mod r_mod /\
   snd (coords0 (pmul k (of_coords0 g))) mod r_mod = snd res mod r_mod).
Proof. exact c17_msm. Qed.
Print Assumptions C17_legacy_msm_any_operand.

Theorem C17_legacy_add_any_operand : forall (g h res : Z * Z) (s : cs),
  (exists r, VerifyBN256Add Test g h res s = Done r) <->
  (fst (coords0 (padd (of_coords0 g) (of_coords0 h))) mod r_mod = fst res mod r_mod /\
   snd (coords0 (padd (of_coords0 g) (of_coords0 h))) mod r_mod = snd res mod r_mod).
Proof. exact c17_add. Qed.
Print Assumptions C17_legacy_add_any_operand.

Theorem C17_legacy_msm_sound_refuted : ~ (forall g k res s r P R,
  encodes (fst g) (snd g) P -> multiple P k R -> 0 <= fst res < p_mod -> 0 <= snd res < p_mod ->
  VerifyBN256Msm Test g k res s = Done r -> encodes (fst res) (snd res) R).
Proof. exact c17_refuted_spec. Qed.
Print Assumptions C17_legacy_msm_sound_refuted.

Theorem C17_legacy_add_sound_refuted : ~ (forall g h res s r P Q R,
  encodes (fst g) (snd g) P -> encodes (fst h) (snd h) Q -> group_sum P Q R ->
  0 <= fst res < p_mod -> 0 <= snd res < p_mod ->
  VerifyBN256Add Test g h res s = Done r -> encodes (fst res) (snd res) R).
Proof. exact c17_add_refuted_spec. Qed.
Print Assumptions C17_legacy_add_sound_refuted.

Example C17_case : exists r, VerifyBN256Msm Test (1, 2) 3 (triple_x, triple_y) s0 = Done r.
Proof. exact ex17. Qed.

(** C18.  [runs_msm n g k res] runs the circuit n times, each run starting from the operand left by
    the previous one; it accepts iff each of the n successive multiples matches. *)
Theorem C18_msm_history : forall (n : nat) (g : Z * Z) (k : Z) (res : Z * Z) (s : cs) (P : pt),
  encodes (fst g) (snd g) P ->
  ((exists r, runs_msm n g k res s = Done r) <->
   forall i X Y R, (1 <= i <= n)%nat -> multiple P (k ^ Z.of_nat i) R -> encodes X Y R ->
     X mod r_mod = fst res mod r_mod /\ Y mod r_mod = snd res mod r_mod) /\
  (forall g' s', runs_msm n g k res s = Done (g', s') ->
     s' = s /\ exists R, multiple P (k ^ Z.of_nat n) R /\ encodes (fst g') (snd g') R).
Proof. exact c18_msm_spec. Qed.
Print Assumptions C18_msm_history.

Theorem C18_add_history : forall (n : nat) (g q : Z * Z) (res : Z * Z) (s : cs) (P Q : pt),
  encodes (fst g) (snd g) P -> encodes (fst q) (snd q) Q ->
  ((exists r, runs_add n g q res s = Done r) <->
   forall i X Y S R, (1 <= i <= n)%nat -> multiple Q (Z.of_nat i) S -> group_sum P S R -> encodes X Y R ->
     X mod r_mod = fst res mod r_mod /\ Y mod r_mod = snd res mod r_mod) /\
  (forall g' s', runs_add n g q res s = Done (g', s') ->
     s' = s /\ exists S R, multiple Q (Z.of_nat n) S /\ group_sum P S R /\ encodes (fst g') (snd g') R).
Proof. exact c18_add_spec. Qed.
Print Assumptions C18_add_history.

(** acceptance is not stable under repetition *)
Theorem C18_msm_repeatable_refuted : exists g k res s, is_point (Aff (fst g) (snd g)) /\
  (exists r, runs_msm 1 g k res s = Done r) /\ ~ (exists r, runs_msm 2 g k res s = Done r).
Proof. exact c18_unstable_spec. Qed.
Print Assumptions C18_msm_repeatable_refuted.

(** C19 *)
Theorem C19_Msm1_returns_mod_r : forall (x y k : Z) (P : pt) (X Y : Z) (s : cs),
  encodes x y P -> multiple P k (Aff X Y) ->
  CalcVerifyBN256Msm1 Test (VBig x) (VBig y) (VBig k) s =
  Done (((VBig (X mod r_mod), VBig (Y mod r_mod)), None), s).
Proof. exact c19_msm_spec. Qed.
Print Assumptions C19_Msm1_returns_mod_r.

Theorem C19_Add1_returns_mod_r : forall (x1 y1 x2 y2 : Z) (P Q : pt) (X Y : Z) (s : cs),
  encodes x1 y1 P -> encodes x2 y2 Q -> group_sum P Q (Aff X Y) ->
  CalcVerifyBN256Add1 Test (VBig x1) (VBig y1) (VBig x2) (VBig y2) s =
  Done (((VBig (X mod r_mod), VBig (Y mod r_mod)), None), s).
Proof. exact c19_add_spec. Qed.
Print Assumptions C19_Add1_returns_mod_r.

Theorem C19_Msm1_on_curve_refuted : ~ (forall x y k vx vy s s', encodes x y (Aff x y) ->
  CalcVerifyBN256Msm1 Test (VBig x) (VBig y) (VBig k) s = Done (((vx, vy), None), s') ->
  exists X Y, vx = VBig X /\ vy = VBig Y /\ curve_or_zero X Y).
Proof. exact c19_refuted. Qed.
Print Assumptions C19_Msm1_on_curve_refuted.

Theorem C19_Add1_on_curve_refuted : ~ (forall x1 y1 x2 y2 vx vy s s', encodes x1 y1 (Aff x1 y1) ->
  (exists Q, encodes x2 y2 Q) ->
  CalcVerifyBN256Add1 Test (VBig x1) (VBig y1) (VBig x2) (VBig y2) s = Done (((vx, vy), None), s') ->
  exists X Y, vx = VBig X /\ vy = VBig Y /\ curve_or_zero X Y).
Proof. exact c19_add_refuted. Qed.
Print Assumptions C19_Add1_on_curve_refuted.

(** operands that are not numbers, and compilation: no result is ever returned *)
Theorem C19_Msm1_kinds : forall (en : engine) (x y k : var) (s : cs) (vx vy : var) (e : option goerr) (s' : cs),
  CalcVerifyBN256Msm1 en x y k s = Done (((vx, vy), e), s') -> fp_kind x /\ fp_kind y /\ (e = None -> en = Test).
Proof. exact c19_msm_kinds. Qed.
Print Assumptions C19_Msm1_kinds.
Theorem C19_Add1_kinds : forall (en : engine) (x1 y1 x2 y2 : var) (s : cs) (vx vy : var) (e : option goerr) (s' : cs),
  CalcVerifyBN256Add1 en x1 y1 x2 y2 s = Done (((vx, vy), e), s') ->
  fp_kind x1 /\ fp_kind y1 /\ (e = None -> fp_kind x2 /\ fp_kind y2 /\ en = Test).
Proof. exact c19_add_kinds. Qed.
Print Assumptions C19_Add1_kinds.

Example C19_case : pmul 1 (Aff 1 (p_mod - 2)) = Aff 1 (p_mod - 2) /\
  (p_mod - 2) mod r_mod = p_mod - 2 - r_mod /\ ~ curve_or_zero 1 (p_mod - 2 - r_mod).
Proof. exact ex19. Qed.
Example C19_kinds_case : (exists s', CalcVerifyBN256Msm1 Build (VInt 1) (VInt 1) (VInt 3) empty_cs =
    Done (((VNil, VNil), Some "bn256.G1Affine is not on curve"%string), s')) /\
  CalcVerifyBN256Msm1 Build (VInt 1) (VInt 2) (VInt 3) empty_cs = Panicked "can't set fp.Element from type"%string /\
  CalcVerifyBN256Msm1 Test (VFr 1) (VInt 2) (VInt 3) empty_cs = Panicked "can't set fp.Element from type"%string.
Proof. exact ex19_kinds. Qed.

(** C20 *)
Theorem C20_on_curve_check : forall (en : engine) (x y : Z) (s : cs),
  (curve_or_zero x y -> VerifyCheckOnCurve en (VBig x) (VBig y) s = Done (None, s)) /\
  (~ curve_or_zero x y -> exists e, VerifyCheckOnCurve en (VBig x) (VBig y) s = Done (Some e, s)).
Proof. exact c20_test. Qed.
Print Assumptions C20_on_curve_check.

Theorem C20_on_curve_check_compiled_panics : forall (a b : expr) (s : cs),
  exists w, VerifyCheckOnCurve Build (VExpr a) (VExpr b) s = Panicked w.
Proof. exact c20_compiled_panics. Qed.
Print Assumptions C20_on_curve_check_compiled_panics.

Theorem C20_on_curve_var_check : forall (en : engine) (x y : Z) (s : cs),
  (curve_or_zero x y -> VerifyCheckOnCurveVar en (VBig x) (VBig y) s = Done (None, s)) /\
  (~ curve_or_zero x y -> exists e, VerifyCheckOnCurveVar en (VBig x) (VBig y) s = Done (Some e, s)).
Proof. exact c20_var_int. Qed.
Print Assumptions C20_on_curve_var_check.

(** values fp.Element cannot be set from (circuit wires, fr.Element, nil, ...) always pass and add no
    constraint *)
Theorem C20_on_curve_var_accepts_unconvertible : forall (vx vy : var) (e1 e2 : goerr) (en : engine) (s : cs),
  fp_set_interface vx = inr e1 -> fp_set_interface vy = inr e2 ->
  VerifyCheckOnCurveVar en vx vy s = Done (None, s).
Proof. exact c20_var_accepts_all. Qed.
Print Assumptions C20_on_curve_var_accepts_unconvertible.

Theorem C20_on_curve_var_compiled_sound_refuted :
  ~ (forall O a b s s' w, VerifyCheckOnCurveVar Build (VExpr a) (VExpr b) s = Done (None, s') ->
       sat O w s' -> curve_or_zero (eval w a) (eval w b)).
Proof. exact c20_var_refuted. Qed.
Print Assumptions C20_on_curve_var_compiled_sound_refuted.

Example C20_case : curve_or_zero (1 + p_mod) (-2) /\ curve_or_zero 0 p_mod /\ ~ curve_or_zero 1 3 /\
  (exists e, fp_set_interface (VExpr (EWire 0)) = inr e) /\ (exists e, fp_set_interface (VFr 5) = inr e).
Proof. exact ex20. Qed.
