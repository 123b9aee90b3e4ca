(** Property theorems: what the public inputs of the compiled circuits establish (C77), and the remaining tests of the
    repository (C68).  [provable O S us]: some witness with the public inputs us satisfies S (SpecPublic.v). *)
From Coq Require Import ZArith List.
From Verif Require Import Params Go Curve Api Lib Agg PairCirc FField FpField SpecHash SpecCurve SpecMisc SpecRows SpecEcdsa SpecKycTest
  SpecForge SpecPublic SpecTamper SpecTests P_ForgeEx P_TamperEx P_Public P_PublicEx.
Import ListNotations.
Open Scope Z_scope.

(** C77: a proof of the KYC circuit establishes about the public conditions only that the age bounds are in order and
    that some country is listed *)
Theorem C77_kyc : forall (O : oracles) (n m l : nat) (us : list Z) (a b h r s : Z),
  forged kyc_pub_x kyc_pub_y a b h r s -> ecdsa_right O kyc_pub_x kyc_pub_y h r s ->
  length us = (2 + n + m + l)%nat -> elements us ->
  exists S, compile_kyc O n m l = inl S /\ (provable O S us <-> nth 0 us 0 <= nth 1 us 0 /\ n <> 0%nat).
Proof. exact c77_kyc. Qed.
Print Assumptions C77_kyc.
(** the conditions of the repository's test *)
Example C77_kyc_case : forged kyc_pub_x kyc_pub_y 1 2 fg_h fg_r fg_s /\ ecdsa_right fgO kyc_pub_x kyc_pub_y fg_h fg_r fg_s /\
  length (firstn 9 kt_wires) = (2 + 5 + 1 + 1)%nat /\ elements (firstn 9 kt_wires) /\
  nth 0 (firstn 9 kt_wires) 0 <= nth 1 (firstn 9 kt_wires) 0.
Proof. exact ex77_kyc. Qed.

(** the pairing circuit by itself: it compiles, and its witnesses are the points whose pairings multiply to one *)
Theorem C77_pairing_compiled : forall O : oracles, exists S, compile_pairing O = inl S /\ forall w, sat O w S <->
  o_pairing O [(of_coords0 (ae w 0%nat mod p_mod, ae w 1%nat mod p_mod), ((ae w 4%nat mod p_mod, ae w 5%nat mod p_mod), (ae w 6%nat mod p_mod, ae w 7%nat mod p_mod)));
               (of_coords0 (ae w 2%nat mod p_mod, ae w 3%nat mod p_mod), ((ae w 8%nat mod p_mod, ae w 9%nat mod p_mod), (ae w 10%nat mod p_mod, ae w 11%nat mod p_mod)))] = true.
Proof. exact c77_pairing. Qed.
Print Assumptions C77_pairing_compiled.
Theorem C77_pairing_test_engine : forall (O : oracles) (ps : list (Z * Z)) (qs : list g2) (s : cs),
  PairingDefine O Test (map (fun P => (EmConst (fst P), EmConst (snd P))) ps)
    (map (fun Q : g2 => ((EmConst (fst (fst Q)), EmConst (snd (fst Q))), (EmConst (fst (snd Q)), EmConst (snd (snd Q))))) qs) s =
  VerifyBN256Pairing O Test (map (fun P => (fst P mod p_mod, snd P mod p_mod)) ps)
    (map (fun Q : g2 => ((fst (fst Q) mod p_mod, snd (fst Q) mod p_mod), (fst (snd Q) mod p_mod, snd (snd Q) mod p_mod))) qs) s.
Proof. exact c77_test. Qed.
Print Assumptions C77_pairing_test_engine.
(** it has no public input, so a proof says nothing about the points: every finite point is the first point of a witness *)
Theorem C77_pairing_any_point : forall (O : oracles) (tau : Fr) (a b : Z),
  kzg_pairing O g20_const g21_const tau -> val tau <> 0 -> encodes a b (Aff a b) ->
  exists S X Y, compile_pairing O = inl S /\ multiple (Aff a b) (val tau) (Aff X Y) /\
    sat O (pairing_asg [(a, b); (X, Y)] [g20_const; g21_const]) S.
Proof. exact c77_each. Qed.
Print Assumptions C77_pairing_any_point.
Example C77_pairing_case : kzg_pairing o3 g20_const g21_const three /\ val three <> 0 /\ encodes 1 2 (Aff 1 2).
Proof. exact ex77_kzg. Qed.
(** pairing_circuit_test.go:97-112 TestPairing: the witness of createProof satisfies the circuit of setupKeys *)
Theorem C77_TestPairing : forall (O : oracles) (s : cs), real_pairing O -> exists S g1s g2s, compile_pairing O = inl S /\
  FillVerifyCircuitsG1 (VStr (Some 2920616387084030925907755037226454382846345550621956833249622258647667607078))
    (VStr (Some 16502678157049327323910877548707266122319935523346850792311342099791838736912))
    (VStr (Some 7162082828732168937516361335135022403650719329242056518668518043784043198510))
    (VStr (Some 18768486256042060147567165227366772940689098806912976766549486364846889365307)) s = Done (g1s, s) /\
  FillVerifyCircuitsG2 s = Done (g2s, s) /\ sat O (pairing_asg g1s g2s) S.
Proof. exact c77_test_pairing. Qed.
Print Assumptions C77_TestPairing.
Example C77_TestPairing_case : real_pairing tate_O.
Proof. exact (proj2 (proj2 tate_O_ok)). Qed.

(** the hash circuits: the witnesses hold an input and its digest, and every byte string is the input of some witness;
    there is no public input *)
Theorem C77_keccak : forall (O : oracles) (n m : nat), ((m < 32)%nat -> exists e, compile_keccak O n m = inr e) /\
  ((32 <= m)%nat -> exists S, compile_keccak O n m = inl S /\
     (forall w, sat O w S -> bytes (map (fun i => aw w i mod r_mod) (seq 0 n)) /\
        map (fun i => aw w i mod r_mod) (seq n 32) = keccak_bytes O (map (fun i => aw w i mod r_mod) (seq 0 n))) /\
     forall zs, length zs = n -> bytes zs -> exists w, sat O w S /\ forall i, (i < n)%nat -> aw w i = nth i zs 0).
Proof. exact c77_keccak. Qed.
Print Assumptions C77_keccak.
Theorem C77_sha256 : forall (O : oracles) (n m : nat), ((m < 32)%nat -> exists e, compile_sha256 O n m = inr e) /\
  ((32 <= m)%nat -> exists S, compile_sha256 O n m = inl S /\
     (forall w, sat O w S -> bytes (map (fun i => aw w i mod r_mod) (seq 0 n)) /\
        map (fun i => aw w i mod r_mod) (seq n 32) = sha256_bytes O (map (fun i => aw w i mod r_mod) (seq 0 n))) /\
     forall zs, length zs = n -> bytes zs -> exists w, sat O w S /\ forall i, (i < n)%nat -> aw w i = nth i zs 0).
Proof. exact c77_sha. Qed.
Print Assumptions C77_sha256.
Example C77_hash_case : length (be_bytes 32 t_scalar) = 32%nat /\ bytes (be_bytes 32 t_scalar).
Proof. exact ex77_hash. Qed.

(** circuit_test.go:32-57 TestOnBn254 reduces modulo r instead of p: for a point of the curve its answer is "on the
    curve" only if the difference of the two sides is also a multiple of r, and for its own point, which is on the
    curve, the answer is "not on the curve" *)
Theorem C68_TestOnBn254 : forall x y : Z, (y * y) mod p_mod = (x * x * x + 3) mod p_mod ->
  (on_bn254 x y = true <-> (p_mod * r_mod | y * y - x * x * x - 3)).
Proof. exact c68_on_bn254. Qed.
Print Assumptions C68_TestOnBn254.
Theorem C68_TestOnBn254_point : encodes (fst t_point) (snd t_point) (Aff (fst t_point) (snd t_point)) /\
  on_bn254 (fst t_point) (snd t_point) = false.
Proof. exact c68_bn254_point. Qed.
Print Assumptions C68_TestOnBn254_point.
Example C68_TestOnBn254_case : (2 * 2) mod p_mod = (1 * 1 * 1 + 3) mod p_mod /\ on_bn254 1 2 = true.
Proof. exact ex68_bn254. Qed.
(** pairing_circuit_test.go:114-151 TestOnCurve passes *)
Theorem C68_TestOnCurve : g1_is_on_curve 2920616387084030925907755037226454382846345550621956833249622258647667607078
    16502678157049327323910877548707266122319935523346850792311342099791838736912 = true /\
  g1_is_on_curve 7162082828732168937516361335135022403650719329242056518668518043784043198510
    18768486256042060147567165227366772940689098806912976766549486364846889365307 = true /\
  exists P Q, GetVerifyCircuitsG2Jac = Done (P, Q) /\ g2_is_on_curve P = true /\ g2_is_on_curve Q = true.
Proof. exact c68_on_curve. Qed.
Print Assumptions C68_TestOnCurve.

(** C34: the pairing gadget returns an error exactly for no points or lists of different lengths, accepts exactly when the
    pairings multiply to one, and otherwise fails its assertion *)
Theorem C34_pairing_gadget : forall (O : oracles) (ps : list (Z * Z)) (qs : list g2) (s : cs),
  ((ps = [] \/ length ps <> length qs) <-> exists e, VerifyBN256Pairing O Test ps qs s = Done (Some e, s)) /\
  ((ps <> [] /\ length ps = length qs /\ o_pairing O (combine (map of_coords0 ps) qs) = true) <->
    VerifyBN256Pairing O Test ps qs s = Done (None, s)) /\
  ((ps <> [] /\ length ps = length qs /\ o_pairing O (combine (map of_coords0 ps) qs) = false) <->
    exists w, VerifyBN256Pairing O Test ps qs s = Panicked w).
Proof. exact c34_pairing. Qed.
Print Assumptions C34_pairing_gadget.
Example C34_pairing_case : forall O s, (exists e, VerifyBN256Pairing O Test [] [] s = Done (Some e, s)) /\
  (exists e, VerifyBN256Pairing O Test [(1, 2)] [g20_const; g21_const] s = Done (Some e, s)) /\
  (o_pairing O [(Aff 1 2, g20_const); (Aff 1 (p_mod - 2), g20_const)] = true ->
   VerifyBN256Pairing O Test [(1, 2); (1, p_mod - 2)] [g20_const; g20_const] s = Done (None, s)).
Proof. exact ex34_pairing. Qed.

(** C77: in the test engine the pairing circuit panics as soon as one coordinate of a point is not assigned *)
Theorem C77_pairing_unassigned : forall (O : oracles) (g1s : list (emul * emul)) (g2s : list ((emul * emul) * (emul * emul))) (s : cs),
  g1s <> [] -> length g1s = length g2s ->
  (exists i, Exists (fun P => fst P = EmWire i \/ snd P = EmWire i) (g1s ++ map fst g2s ++ map snd g2s)) ->
  exists w, PairingDefine O Test g1s g2s s = Panicked w.
Proof. exact c77_unassigned. Qed.
Print Assumptions C77_pairing_unassigned.
Example C77_pairing_unassigned_case : exists i, Exists (fun P => fst P = EmWire i \/ snd P = EmWire i)
  ([(EmConst 1, EmConst 2)] ++ map fst [((EmConst 1, EmConst 2), (EmConst 3, EmWire 11))] ++ map snd [((EmConst 1, EmConst 2), (EmConst 3, EmWire 11))]).
Proof. exact ex77_unassigned. Qed.
