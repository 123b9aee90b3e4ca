(** Scalar-field helpers: C01-C08. *)
From Coq Require Import ZArith String Bool List.
From Verif Require Import Params Go Curve Api FrOps P_Fr P_FrEx.
Import ListNotations.
Open Scope Z_scope.

(** C01 *)
Theorem C01_mod_test_accepts : forall (a : Z) (s : cs),
  0 <= a < r_mod -> mod_ Test (VBig a) s = Done (VBig a, s).
Proof. exact c01_ok. Qed.
Print Assumptions C01_mod_test_accepts.

Theorem C01_mod_test_rejects : forall (a : Z) (s : cs),
  ~ (0 <= a < r_mod) -> exists why, mod_ Test (VBig a) s = Panicked why.
Proof. exact c01_bad. Qed.
Print Assumptions C01_mod_test_rejects.

Example C01_case : (0 <= 12345 < r_mod) /\ ~ (0 <= r_mod < r_mod) /\ ~ (0 <= -1 < r_mod).
Proof. exact ex01. Qed.

(** C02.  [new] is the list of constraints the call adds; [e] is the operand; any assignment [w] that
    satisfies them gives the result the value of the operand, and one new wire [q] can be set to
    any value [z]. *)
Theorem C02_mod_compiled_is_identity : forall (v : var) (e : expr) (s : cs), to_expr v = Done e ->
  exists out s' new, mod_ Build v s = Done (VExpr out, s') /\ cs_cons s' = new ++ cs_cons s /\
    (forall O w, Forall (sat1 O w) new -> eval w out = eval w e) /\
    (wires_lt (cs_next s) e ->
     exists q, In q (seq (cs_next s) (cs_next s' - cs_next s)) /\
       (forall O w z, Forall (sat1 O w) new ->
          Forall (sat1 O (upd w q z)) new /\ eval (upd w q z) out = eval w out)).
Proof. exact c02. Qed.
Print Assumptions C02_mod_compiled_is_identity.

Example C02_case : to_expr (VExpr (EMul (EWire 0) (EWire 1))) = Done (EMul (EWire 0) (EWire 1)) /\
  wires_lt (cs_next s0) (EMul (EWire 0) (EWire 1)).
Proof. exact ex02. Qed.
Example C02_case_satisfied : forall O, match mod_ Build (VExpr (EWire 0)) s0 with
  | Done (_, s') => sat O w0 s' | Panicked _ => False end.
Proof. exact ex02_sat. Qed.

(** C03.  [to_big] is the engine's reading of an operand; [VBig a] is read as [a]. *)
Theorem C03_fr_ops_test : forall (va vb : var) (a b : Z) (s : cs),
  to_big va = Done a -> to_big vb = Done b ->
  fr_add Test va vb s = Done (VBig ((a + b) mod r_mod), s) /\
  fr_sub Test va vb s = Done (VBig ((a - b) mod r_mod), s) /\
  fr_mul Test va vb s = Done (VBig ((a * b) mod r_mod), s) /\
  fr_neg Test va s = Done (VBig ((- a) mod r_mod), s).
Proof. exact c03. Qed.
Print Assumptions C03_fr_ops_test.

Example C03_case : to_big (VBig (r_mod + 4)) = Done (r_mod + 4) /\ to_big (VBig (-9)) = Done (-9) /\
  fr_mul Test (VBig (r_mod + 4)) (VBig (-9)) s0 = Done (VBig (r_mod - 36), s0).
Proof. exact ex03. Qed.

(** C04 *)
Theorem C04_fr_ops_compiled : forall (va vb : var) (a b : expr) (s : cs),
  to_expr va = Done a -> to_expr vb = Done b ->
  (exists out s', fr_add Build va vb s = Done (VExpr out, s') /\
     forall O w, sat O w s' -> sat O w s /\ eval w out = (eval w a + eval w b) mod r_mod) /\
  (exists out s', fr_sub Build va vb s = Done (VExpr out, s') /\
     forall O w, sat O w s' -> sat O w s /\ eval w out = (eval w a - eval w b) mod r_mod) /\
  (exists out s', fr_mul Build va vb s = Done (VExpr out, s') /\
     forall O w, sat O w s' -> sat O w s /\ eval w out = (eval w a * eval w b) mod r_mod) /\
  (exists out s', fr_neg Build va s = Done (VExpr out, s') /\
     forall O w, sat O w s' -> sat O w s /\ eval w out = (- eval w a) mod r_mod).
Proof. exact c04. Qed.
Print Assumptions C04_fr_ops_compiled.

Example C04_case : forall O, match fr_mul Build (VExpr (EWire 0)) (VExpr (EWire 1)) s0 with
  | Done (v, s') => sat O {| aw := fun i => nth i [7; 5; 11; 99; 35] 0; ae := fun _ => 0 |} s'
  | Panicked _ => False end.
Proof. exact ex04. Qed.

(** C05 *)
Theorem C05_fr_pow_test : forall (a k : Z) (s : cs),
  (2 <= k \/ k = 1 /\ 0 <= a < r_mod) ->
  fr_pow Test (VBig a) (VBig k) s = Done (VBig (a ^ k mod r_mod), s).
Proof. exact c05_test. Qed.
Print Assumptions C05_fr_pow_test.

Theorem C05_fr_pow_nonpositive : forall (a k : Z) (s : cs), k <= 0 -> 0 <= a < r_mod ->
  fr_pow Test (VBig a) (VBig k) s = Done (VBig a, s).
Proof. exact c05_nonpos. Qed.
Print Assumptions C05_fr_pow_nonpositive.

Theorem C05_fr_pow_compiled : forall (va : var) (e : expr) (k : Z) (s : cs),
  to_expr va = Done e -> 1 <= k ->
  exists out s', fr_pow Build va (VBig k) s = Done (VExpr out, s') /\
    forall O w, sat O w s' -> sat O w s /\ eval w out = eval w e ^ k mod r_mod.
Proof. exact c05_build. Qed.
Print Assumptions C05_fr_pow_compiled.

(** "fr_pow(a,k) = a^k for every k >= 0" is false: at k = 0 the base comes back. *)
Theorem C05_fr_pow_zero_refuted : ~ (forall a k s, 0 <= k -> 0 <= a < r_mod ->
  fr_pow Test (VBig a) (VBig k) s = Done (VBig (a ^ k mod r_mod), s)).
Proof. exact c05_refuted. Qed.
Print Assumptions C05_fr_pow_zero_refuted.

Example C05_case : fr_pow Test (VBig 3) (VBig 5) s0 = Done (VBig 243, s0) /\
  fr_pow Test (VBig 3) (VBig 0) s0 = Done (VBig 3, s0).
Proof. exact ex05. Qed.
Example C05_case_compiled : forall O, match fr_pow Build (VExpr (EWire 0)) (VBig 3) s0 with
  | Done (v, s') => sat O {| aw := fun i => nth i [7; 5; 11; 99; 343] 0; ae := fun _ => 0 |} s'
  | Panicked _ => False end.
Proof. exact ex05_build. Qed.

(** C06 *)
Theorem C06_fr_div_test : forall (a b c : Z) (s : cs),
  (0 <= c < r_mod -> (b * c) mod r_mod = a ->
     fr_div Test (VBig a) (VBig b) (VBig c) s = Done (VBig c, s)) /\
  (forall v s', fr_div Test (VBig a) (VBig b) (VBig c) s = Done (v, s') ->
     0 <= c < r_mod /\ (b * c) mod r_mod = a /\ v = VBig c).
Proof. exact c06_test. Qed.
Print Assumptions C06_fr_div_test.

Theorem C06_fr_div_unique : forall (a b c c' : Z) (s : cs) v v' s1 s2, b mod r_mod <> 0 ->
  fr_div Test (VBig a) (VBig b) (VBig c) s = Done (v, s1) ->
  fr_div Test (VBig a) (VBig b) (VBig c') s = Done (v', s2) -> c = c' /\ v = v'.
Proof. exact c06_unique. Qed.
Print Assumptions C06_fr_div_unique.

Theorem C06_fr_div_by_zero : forall (a b c : Z) (s : cs), b mod r_mod = 0 -> a <> 0 ->
  exists why, fr_div Test (VBig a) (VBig b) (VBig c) s = Panicked why.
Proof. exact c06_by_zero. Qed.
Print Assumptions C06_fr_div_by_zero.

Theorem C06_fr_div_zero_zero : forall (c : Z) (s : cs), 0 <= c < r_mod ->
  fr_div Test (VBig 0) (VBig 0) (VBig c) s = Done (VBig c, s).
Proof. exact c06_zero_zero. Qed.
Print Assumptions C06_fr_div_zero_zero.

(** compiled: satisfying assignments are exactly those with b*aux = a (up to the choice of the new
    wires) and give the result the value of aux *)
Theorem C06_fr_div_compiled : forall (va vb vc : var) (a b c : expr) (s : cs),
  to_expr va = Done a -> to_expr vb = Done b -> to_expr vc = Done c ->
  exists out s' new, fr_div Build va vb vc s = Done (VExpr out, s') /\ cs_cons s' = new ++ cs_cons s /\
    (forall O w, Forall (sat1 O w) new ->
       (eval w b * eval w c) mod r_mod = eval w a /\ eval w out = eval w c) /\
    (wires_lt (cs_next s) a -> wires_lt (cs_next s) b -> wires_lt (cs_next s) c ->
     forall O w, (eval w b * eval w c) mod r_mod = eval w a ->
       exists w', agree_below (cs_next s) w w' /\ Forall (sat1 O w') new).
Proof. exact c06_build. Qed.
Print Assumptions C06_fr_div_compiled.

Example C06_case : 3 mod r_mod <> 0 /\
  fr_div Test (VBig 7) (VBig 3) (VBig seven_thirds) s0 = Done (VBig seven_thirds, s0).
Proof. exact ex06. Qed.
Example C06_case_compiled : forall O,
  match fr_div Build (VExpr (EConst 35)) (VExpr (EWire 0)) (VExpr (EWire 1)) s0 with
  | Done (v, s') => sat O {| aw := fun i => nth i [7; 5; 11; 99; 35; 98; 5] 0; ae := fun _ => 0 |} s'
  | Panicked _ => False end.
Proof. exact ex06_build. Qed.

(** C07 *)
Theorem C07_fr_mul_neg_test : forall (a b : Z) (s : cs), exists z,
  fr_mul_neg Test (VBig a) (VBig b) s = Done (VBig z, s) /\
  0 < z <= r_mod /\ z mod r_mod = (- (a * b)) mod r_mod /\
  (z = (- (a * b)) mod r_mod <-> (a * b) mod r_mod <> 0).
Proof. exact c07_test. Qed.
Print Assumptions C07_fr_mul_neg_test.

Theorem C07_fr_mul_neg_canonical_refuted : ~ (forall a b s,
  fr_mul_neg Test (VBig a) (VBig b) s = Done (VBig ((- (a * b)) mod r_mod), s)).
Proof. exact c07_refuted. Qed.
Print Assumptions C07_fr_mul_neg_canonical_refuted.

Theorem C07_fr_mul_neg_never_compiles : forall (va vb : var) (s : cs),
  exists why, fr_mul_neg Build va vb s = Panicked why.
Proof. exact c07_build. Qed.
Print Assumptions C07_fr_mul_neg_never_compiles.

Example C07_case : fr_mul_neg Test (VBig 6) (VBig 7) s0 = Done (VBig (r_mod - 42), s0) /\
  fr_mul_neg Test (VBig 0) (VBig 7) s0 = Done (VBig r_mod, s0).
Proof. exact ex07. Qed.

(** C08 *)
Theorem C08_modHint_euclid : forall (a : Z) (x y : option Z),
  exists d r, mod_hint_run [a] [x; y] = Done (None, [Some d; Some r]) /\
  a = d * r_mod + r /\ 0 <= r < r_mod.
Proof. exact c08. Qed.
Print Assumptions C08_modHint_euclid.

Example C08_case : mod_hint_run [-5] [Some 0; Some 0] = Done (None, [Some (-1); Some (r_mod - 5)]).
Proof. exact ex08. Qed.
