(** Hash circuits, byte packing, instance hash, range checks, byte helpers: C21-C24, C35, C43.
    [bigs vs zs] / [exprs vs es]: the variables denote these integers / expressions; [pack], [encoding]
    and [bytes] are in SpecHash.v.  [keccak_bytes O m] is the 32-byte digest, [sat1] satisfaction of one
    constraint by an assignment. *)
From Coq Require Import ZArith String Bool List.
From Verif Require Import Params Go Curve Api FrOps Lib Agg SpecHash P_Fr P_FrEx P_Hash P_HashEx.
Import ListNotations.
Open Scope Z_scope.

(** C21 *)
Theorem C21_keccak_test_engine : forall (O : oracles) (ins hv : list var) (zs hs : list Z) (s : cs),
  bigs ins zs -> bigs hv hs ->
  (bytes zs /\ firstn 32 hs = keccak_bytes O zs -> VerifyKeccak256 O Test ins hv s = Done (None, s)) /\
  (~ (bytes zs /\ firstn 32 hs = keccak_bytes O zs) -> exists w, VerifyKeccak256 O Test ins hv s = Panicked w).
Proof. exact c21_keccak_test. Qed.
Print Assumptions C21_keccak_test_engine.

Theorem C21_sha256_test_engine : forall (O : oracles) (ins hv : list var) (zs hs : list Z) (s : cs),
  bigs ins zs -> bigs hv hs ->
  (bytes zs /\ firstn 32 hs = sha256_bytes O zs -> VerifySha256 O Test ins hv s = Done (None, s)) /\
  (~ (bytes zs /\ firstn 32 hs = sha256_bytes O zs) -> exists w, VerifySha256 O Test ins hv s = Panicked w).
Proof. exact c21_sha_test. Qed.
Print Assumptions C21_sha256_test_engine.

Theorem C21_keccak_compiled : forall (O : oracles) (ins hv : list var) (es hs : list expr) (s : cs),
  exprs ins es -> exprs hv hs ->
  ((length hs < 32)%nat -> exists w, VerifyKeccak256 O Build ins hv s = Panicked w) /\
  ((32 <= length hs)%nat -> exists s' new, VerifyKeccak256 O Build ins hv s = Done (None, s') /\
     cs_cons s' = new ++ cs_cons s /\
     (forall w, Forall (sat1 O w) new ->
        bytes (map (eval w) es) /\ map (eval w) (firstn 32 hs) = keccak_bytes O (map (eval w) es)) /\
     (Forall (wires_lt (cs_next s)) es -> Forall (wires_lt (cs_next s)) hs ->
      forall w, bytes (map (eval w) es) -> map (eval w) (firstn 32 hs) = keccak_bytes O (map (eval w) es) ->
        exists w', agree_below (cs_next s) w w' /\ Forall (sat1 O w') new)).
Proof. exact c21_keccak_build. Qed.
Print Assumptions C21_keccak_compiled.

Theorem C21_sha256_compiled : forall (O : oracles) (ins hv : list var) (es hs : list expr) (s : cs),
  exprs ins es -> exprs hv hs ->
  ((length hs < 32)%nat -> exists w, VerifySha256 O Build ins hv s = Panicked w) /\
  ((32 <= length hs)%nat -> exists s' new, VerifySha256 O Build ins hv s = Done (None, s') /\
     cs_cons s' = new ++ cs_cons s /\
     (forall w, Forall (sat1 O w) new ->
        bytes (map (eval w) es) /\ map (eval w) (firstn 32 hs) = sha256_bytes O (map (eval w) es)) /\
     (Forall (wires_lt (cs_next s)) es -> Forall (wires_lt (cs_next s)) hs ->
      forall w, bytes (map (eval w) es) -> map (eval w) (firstn 32 hs) = sha256_bytes O (map (eval w) es) ->
        exists w', agree_below (cs_next s) w w' /\ Forall (sat1 O w') new)).
Proof. exact c21_sha_build. Qed.
Print Assumptions C21_sha256_compiled.

Example C21_case : bigs [VInt 65; VBig 66] [65; 66] /\ bytes [65; 66] /\
  VerifyKeccak256 toyO Test [VInt 65; VBig 66] (map VBig (be_bytes 32 (65 * 256 + 66)) ++ [VBig 7]) s0 = Done (None, s0) /\
  VerifySha256 toyO Test [VInt 65; VBig 66] (map VBig (be_bytes 32 (65 * 256 + 66))) s0 = Done (None, s0).
Proof. exact ex21. Qed.
Example C21_compiled_case : exprs [VExpr (EWire 0)] [EWire 0] /\ exprs (map VInt (be_bytes 32 7)) (map EConst (be_bytes 32 7)) /\
  length (map EConst (be_bytes 32 7)) = 32%nat /\ bytes (map (eval w0) [EWire 0]) /\
  map (eval w0) (firstn 32 (map EConst (be_bytes 32 7))) = keccak_bytes toyO (map (eval w0) [EWire 0]).
Proof. exact ex21_build. Qed.

(** C22 *)
Theorem C22_instance_hash : forall (O : oracles) (ins : list var) (zs : list Z) (s : cs), bigs ins zs ->
  VerifyInstanceHash O Test ins s =
  Done ((VBig ((o_keccak O (encoding (map (fun z => z mod p_mod) zs)) mod 2 ^ 256) mod r_mod), None), s).
Proof. exact c22. Qed.
Print Assumptions C22_instance_hash.
Example C22_case : VerifyInstanceHash toyO Test [VBig 5] s0 = Done ((VBig 5, None), s0) /\
  encoding [5 mod p_mod] = repeat 0 31 ++ [5].
Proof. exact ex22. Qed.

(** C23: what the compiled instance hash enforces, and that the instance itself is not bound *)
Theorem C23_hashes_some_string : forall (O : oracles) (ins : list var) (es : list expr) (s : cs), exprs ins es ->
  exists v e s' new, VerifyInstanceHash O Build ins s = Done ((v, None), s') /\ to_expr v = Done e /\
    cs_cons s' = new ++ cs_cons s /\
    (forall w, Forall (sat1 O w) new -> exists bs, bytes bs /\ length bs = (32 * length ins)%nat /\
       eval w e = (o_keccak O bs mod 2 ^ 256) mod r_mod) /\
    (forall w bs, bytes bs -> length bs = (32 * length ins)%nat ->
       exists w', agree_below (cs_next s) w w' /\ Forall (sat1 O w') new /\
         eval w' e = (o_keccak O bs mod 2 ^ 256) mod r_mod).
Proof. exact c23. Qed.
Print Assumptions C23_hashes_some_string.

Theorem C23_instance_bound_refuted : ~ (forall O ins es s v e s' w, exprs ins es ->
  VerifyInstanceHash O Build ins s = Done ((v, None), s') -> to_expr v = Done e -> sat O w s' ->
  eval w e = (o_keccak O (encoding (map (fun x => eval w x mod p_mod) es)) mod 2 ^ 256) mod r_mod).
Proof. exact c23_refuted. Qed.
Print Assumptions C23_instance_bound_refuted.
Example C23_case : exprs [VExpr (EWire 0)] [EWire 0].
Proof. exact (proj1 ex21_build). Qed.

(** C24 *)
Theorem C24_pack_test_engine : forall (v1 v2 : var) (vs : list var) (zs : list Z) (s : cs),
  bigs (v1 :: v2 :: vs) zs -> PackUInt8Variables Test (v1 :: v2 :: vs) s = Done (VBig (pack zs mod r_mod), s).
Proof. exact c24_test. Qed.
Print Assumptions C24_pack_test_engine.
Theorem C24_pack_single : forall (en : engine) (v : var) (s : cs), PackUInt8Variables en [v] s = Done (v, s).
Proof. exact c24_single. Qed.
Print Assumptions C24_pack_single.
Theorem C24_pack_empty : forall (en : engine) (s : cs), exists w, PackUInt8Variables en [] s = Panicked w.
Proof. exact c24_empty. Qed.
Print Assumptions C24_pack_empty.
Theorem C24_pack_compiled : forall (v : var) (vs : list var) (es : list expr) (s : cs), exprs (v :: vs) es ->
  exists u e, PackUInt8Variables Build (v :: vs) s = Done (u, s) /\ to_expr u = Done e /\
    forall w, eval w e = pack (map (eval w) es) mod r_mod.
Proof. exact c24_build. Qed.
Print Assumptions C24_pack_compiled.
Theorem C24_pack_injective : forall bs cs : list Z, bytes bs -> bytes cs -> length bs = length cs -> (length bs <= 31)%nat ->
  pack bs mod r_mod = pack cs mod r_mod -> bs = cs.
Proof. exact c24_inj. Qed.
Print Assumptions C24_pack_injective.
Theorem C24_pack_injective_32_refuted : ~ (forall bs cs : list Z, bytes bs -> bytes cs -> length bs = length cs ->
  length bs = 32%nat -> pack bs mod r_mod = pack cs mod r_mod -> bs = cs).
Proof. exact c24_refuted. Qed.
Print Assumptions C24_pack_injective_32_refuted.
Example C24_case : PackUInt8Variables Test [VInt 1; VInt 2; VBig 3] s0 = Done (VBig 66051, s0) /\ pack [1; 2; 3] = 66051.
Proof. exact ex24. Qed.

(** C35 *)
Theorem C35_not_zero_test_engine : forall (v : var) (x : Z) (s : cs), to_big v = Done x ->
  (1 <= x -> VerifyNotZero Test v s = Done (None, s)) /\
  (~ 1 <= x -> exists w, VerifyNotZero Test v s = Panicked w).
Proof. exact c35_notzero_test. Qed.
Print Assumptions C35_not_zero_test_engine.
Theorem C35_range_test_engine : forall (vx vmin vmax : var) (x mn mx : Z) (s : cs),
  to_big vx = Done x -> to_big vmin = Done mn -> to_big vmax = Done mx ->
  (0 <= x /\ mn <= x <= mx -> VerifyRangeCheck Test vx vmin vmax s = Done (None, s)) /\
  (~ (0 <= x /\ mn <= x <= mx) -> exists w, VerifyRangeCheck Test vx vmin vmax s = Panicked w).
Proof. exact c35_range_test. Qed.
Print Assumptions C35_range_test_engine.
Theorem C35_not_zero_compiled : forall (v : var) (e : expr) (s : cs), to_expr v = Done e -> exists s' new,
  VerifyNotZero Build v s = Done (None, s') /\ cs_cons s' = new ++ cs_cons s /\
  forall O w, Forall (sat1 O w) new <-> eval w e <> 0.
Proof. exact c35_notzero_build. Qed.
Print Assumptions C35_not_zero_compiled.
Theorem C35_range_compiled : forall (vx vmin vmax : var) (x mn mx : expr) (s : cs),
  to_expr vx = Done x -> to_expr vmin = Done mn -> to_expr vmax = Done mx ->
  exists s' new, VerifyRangeCheck Build vx vmin vmax s = Done (None, s') /\ cs_cons s' = new ++ cs_cons s /\
  forall O w, Forall (sat1 O w) new <-> eval w mn <= eval w x <= eval w mx.
Proof. exact c35_range_build. Qed.
Print Assumptions C35_range_compiled.
Example C35_case : VerifyRangeCheck Test (VBig 20) (VInt 18) (VInt 65) s0 = Done (None, s0) /\
  VerifyNotZero Test (VBig 1) s0 = Done (None, s0).
Proof. exact ex35. Qed.

(** C43 *)
Theorem C43_toBytes_never_succeeds : forall (ins : list Z) (outs : list (option Z)),
  (exists e o, to_bytes_run ins outs = Done (Some e, o)) \/ (exists w, to_bytes_run ins outs = Panicked w).
Proof. exact c43_toBytes. Qed.
Print Assumptions C43_toBytes_never_succeeds.
Theorem C43_ValueOf_ignores_input : forall a b,
  (length (ValueOf a) = 32 * length a)%nat /\ Forall (fun v => v = VNil) (ValueOf a) /\
  (length a = length b -> ValueOf a = ValueOf b).
Proof. exact c43_valueof. Qed.
Print Assumptions C43_ValueOf_ignores_input.
Example C43_case : to_bytes_run [5] (repeat (Some 0) 32) = Panicked "runtime error: index out of range".
Proof. exact ex43. Qed.
