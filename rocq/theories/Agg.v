(** circuit.go, pairing_circuit.go, kyc.go, main.go and the hint registry. *)
From Coq Require Import ZArith String Bool List.
From Verif Require Import Params Go Curve Api FrOps Lib Steps.
Import ListNotations.
Open Scope Z_scope.

(** ** circuit.go: instance hash *)

(** circuit.go:157-184 [Keccak256Hint]. *)
Fixpoint put_all (res : list (option Z)) (i : nat) (bs : list Z) : outcome (list (option Z)) :=
  match bs with
  | [] => Done res
  | b :: t => obind (put res i (Some b)) (fun res => put_all res (S i) t)
  end.

(** circuit.go:157-184. *)
Definition keccak_hint_run (O : oracles) : hint := fun ins res =>
  let hashBuf := flat_map (fun z => be_bytes 32 (z mod p_mod)) ins in
  let hashVal := keccak_bytes O hashBuf in
  obind (put res 0 (Some (of_be hashVal))) (fun res =>
  obind (put_all res 1 hashVal) (fun res =>
  obind (put_all res 33 hashBuf) (fun res =>
  Done (None, res)))).
(** circuit.go:157-184, as passed to NewHint at circuit.go:129. *)
Definition Keccak256Hint (O : oracles) : hintfn := {| hf_id := HKeccak; hf_run := keccak_hint_run O |}.

(** result[a:b]. circuit.go:153 and the index ranges of circuit.go:141-147. *)
Definition slice {A} (l : list A) (a b : nat) : list A := firstn (b - a) (skipn a l).

(** circuit.go:127-155 [VerifyInstanceHash]. *)
Definition VerifyInstanceHash (O : oracles) (en : engine) (inputs : list var) : M (var * option goerr) :=
  let len := (32 * (length inputs + 1))%nat in
  '(result, err) <- new_hint en (Keccak256Hint O) (1 + len) inputs ;;
  match err with
  | Some e => ret (VNil, Some e)
  | None =>
      hashU8Array <- mapM (byte_value_of en) (slice result 1 33) ;;
      inputU8Array <- mapM (byte_value_of en) (slice result 33 (len + 1)) ;;
      err <- VerifyKeccak256 O en inputU8Array hashU8Array ;;
      v <- PackUInt8Variables en (slice result 1 33) ;;
      ret (v, err)
  end.

(** ** pairing_circuit.go *)

(** pairing_circuit.go:28-46 [VerifyBN256Pairing] on constant points (a G1 point is its canonical
    coordinate pair); library PairingCheck: error on empty or mismatching inputs, otherwise asserts
    that the product of the pairings is one. *)
Definition VerifyBN256Pairing (O : oracles) (en : engine) (g1Points : list (Z * Z)) (g2Points : list g2)
  : M (option goerr) :=
  if (Nat.eqb (length g1Points) 0) || negb (Nat.eqb (length g1Points) (length g2Points))
  then ret (Some "pair: invalid inputs sizes"%string)
  else
    emul_assert en (o_pairing O (combine (map of_coords0 g1Points) g2Points)) ;;;
    ret None.

(** pairing_circuit.go:48-67 [FillVerifyCircuitsG1]: the two points stored in the circuit. *)
Definition FillVerifyCircuitsG1 (x1 y1 x2 y2 : var) : M (list (Z * Z)) :=
  match fp_set_interface x1, fp_set_interface y1 with
  | inl a, inl b =>
      if negb (g1_is_on_curve a b) then panic "err1 = nil, err2 = nil" else
      match fp_set_interface x2, fp_set_interface y2 with
      | inl c, inl d =>
          if negb (g1_is_on_curve c d) then panic "err1 = nil, err2 = nil" else
          ret [(a, b); (c, d)]
      | _, _ => panic "err1 = err, err2 = err"
      end
  | _, _ => panic "err1 = err, err2 = err"
  end.

(** pairing_circuit.go:83-113 [GetVerifyCircuitsG2Jac]: E2.SetString(a0, a1) (library) sets a0 + a1*u;
    both points have Z = 1. *)
Definition g20_const : g2 :=
  ((13560776910958896778309428450808722712362583089620853136731412215646945297830,
    17006984783035916014836003241042945838018391379603479329912940809520477208052),
   (18091431719069275340788954644764755415339503689597559484185985670418402491565,
    12900589361605111856143562381318004229723309245412571888359653960504992734777)).
(** pairing_circuit.go:98-107. *)
Definition g21_const : g2 :=
  ((10857046999023057135944570762232829481370756359578518086990519993285655852781,
    11559732032986387107991004021392285783925812861821192530917403151452391805634),
   (13392588948715843804641432497768002650278120570034223513918757245338268106653,
    17805874995975841540914202342111839520379459829704422454583296818431106115052)).
(** pairing_circuit.go:83-113. *)
Definition GetVerifyCircuitsG2Jac : outcome (g2 * g2) :=
  if negb (g2_is_on_curve g20_const) then Panicked "is not on Curve" else
  if negb (g2_is_on_curve g21_const) then Panicked "is not on Curve" else
  Done (g20_const, g21_const).

(** pairing_circuit.go:69-81 [FillVerifyCircuitsG2] (Z = 1: FromJacobian keeps the coordinates). *)
Definition FillVerifyCircuitsG2 : M (list g2) :=
  '(a, b) <- lift GetVerifyCircuitsG2Jac ;; ret [a; b].

(** ** circuit.go: AggregatorCircuit *)

(** circuit.go:14-19 *)
Record AggregatorCircuit := {
  Proof_ : list var;
  VerifyInst : list var;
  Aux : list var;
  TargetInst : list var
}.

(** loops circuit.go:29-37: copy into buf from position bufLen on. *)
Fixpoint copy_into (buf : list var) (bufLen : nat) (vs : list var) : outcome (list var * nat) :=
  match vs with
  | [] => Done (buf, bufLen)
  | v :: t => obind (put buf bufLen v) (fun buf => copy_into buf (S bufLen) t)
  end.

(** circuit.go:21-125 [AggregatorCircuit.Define]. *)
Definition Define (O : oracles) (en : engine) (circuit : AggregatorCircuit) : M (option goerr) :=
  let buf := repeat (VBig 0) 43 in
  '(buf, bufLen) <- lift (copy_into buf 0 (TargetInst circuit)) ;;
  '(buf, bufLen) <- lift (copy_into buf bufLen (VerifyInst circuit)) ;;
  '(hashValBig, err) <- VerifyInstanceHash O en (firstn bufLen buf) ;;
  match err with Some e => ret (Some e) | None =>
  hashMod <- mod_ en hashValBig ;;
  buf <- lift (put buf 2 hashMod) ;;
  '(buf, err) <- CalcVerifyCircuitLagrange O en buf ;;
  match err with Some e => ret (Some e) | None =>
  '(buf, err) <- GetChallengesShPlonkCircuit O en buf (Proof_ circuit) ;;
  match err with Some e => ret (Some e) | None =>
  '(buf, err) <- VerifyProof1 O en (Proof_ circuit) (Aux circuit) buf ;;
  match err with Some e => ret (Some e) | None =>
  '(buf, err) <- VerifyProof2 O en (Proof_ circuit) (Aux circuit) buf ;;
  match err with Some e => ret (Some e) | None =>
  '(buf, err) <- VerifyProof3 O en (Proof_ circuit) (Aux circuit) buf ;;
  match err with Some e => ret (Some e) | None =>
  b10 <- lift (get buf 10) ;; try_ (VerifyNotZero en b10) Some (
  b11 <- lift (get buf 11) ;; try_ (VerifyNotZero en b11) Some (
  b12 <- lift (get buf 12) ;; try_ (VerifyNotZero en b12) Some (
  b13 <- lift (get buf 13) ;; try_ (VerifyNotZero en b13) Some (
  g1s <- FillVerifyCircuitsG1 b10 b11 b12 b13 ;;
  g2s <- FillVerifyCircuitsG2 ;;
  VerifyBN256Pairing O en g1s g2s))))
  end end end end end end.

(** ** Running circuits *)

(** The state in which a run starts, circuit_test.go:88, main.go:180. *)
Definition empty_cs : cs := mk_cs 0 [] [].

(** test.IsSolved (library): panics of the run are turned into an error. Called at
    circuit_test.go:88. *)
Definition is_solved (m : M (option goerr)) : option goerr :=
  match m empty_cs with
  | Done (None, _) => None
  | Done (Some e, _) => Some e
  | Panicked w => Some w
  end.

(** frontend.Compile (library): witness leaves become wires, Define is run with the builder, panics
    and errors make the compilation fail; otherwise the constraint system is returned. Called at
    main.go:180; the leaves are the slices made at main.go:152-157. *)
Definition wires_from (start n : nat) : list var := map (fun i => VExpr (EWire i)) (seq start n).
(** Called at main.go:180, kyc_test.go:27. *)
Definition compile (ninputs : nat) (m : M (option goerr)) : cs + goerr :=
  match m (mk_cs ninputs [] []) with
  | Done (None, s) => inl s
  | Done (Some e, _) => inr e
  | Panicked w => inr w
  end.

(** A circuit of given shape with wires for leaves (public TargetInst first). main.go:152-157. *)
Definition agg_shape (nproof nverify naux ntarget : nat) : AggregatorCircuit :=
  {| TargetInst := wires_from 0 ntarget;
     Proof_ := wires_from ntarget nproof;
     VerifyInst := wires_from (ntarget + nproof) nverify;
     Aux := wires_from (ntarget + nproof + nverify) naux |}.
(** main.go:180. *)
Definition compile_agg (O : oracles) (nproof nverify naux ntarget : nat) : cs + goerr :=
  compile (ntarget + nproof + nverify + naux) (Define O Build (agg_shape nproof nverify naux ntarget)).

(** msm.go:42-50 [BN254ScalarMul] and msm.go:95-103 [BN254Add] as circuits. *)
Definition compile_scalar_mul (O : oracles) : cs + goerr :=
  compile 5 (VerifyBN254ScalarMul O Build (VExpr (EWire 0), VExpr (EWire 1)) (VExpr (EWire 2))
               (VExpr (EWire 3), VExpr (EWire 4))).
(** msm.go:95-103. *)
Definition compile_add : cs + goerr :=
  compile 6 (VerifyBN254Add Build (VExpr (EWire 0), VExpr (EWire 1)) (VExpr (EWire 2), VExpr (EWire 3))
               (VExpr (EWire 4), VExpr (EWire 5))).

(** main.go:151-248 [main]: compilation (180-183, panic on error) with the shape 104/1/21/4, then
    setup, proof and verification, which are library calls left abstract as [rest]. *)
Definition main_go (O : oracles) (rest : cs -> outcome unit) : outcome unit :=
  match compile_agg O 104 1 21 4 with
  | inr e => Panicked e
  | inl ccs => rest ccs
  end.

(** aggregator_lib_circuit.go:29-33 [init]: the hints registered with the solver. *)
Definition registered_hints : list hintid := [HMsm; HAdd; HKeccak].

(** gnark solver (library): solving fails when the system calls a hint that is not registered.
    Lookup among the hints of aggregator_lib_circuit.go:29-33. *)
Definition hintid_eqb (a b : hintid) : bool :=
  match a, b with
  | HMod, HMod | HMsm, HMsm | HAdd, HAdd | HKeccak, HKeccak | HToBytes, HToBytes => true
  | _, _ => false
  end.
(** Happens in plonk.Prove, main.go:228; the registered hints are those of
    aggregator_lib_circuit.go:29-33. *)
Definition hints_available (s : cs) : bool :=
  forallb (fun h => existsb (hintid_eqb (fst (fst h))) registered_hints) (cs_hints s).

(** ** kyc.go *)

(** kyc.go:12-17 [Conditions], kyc.go:19-24 [KycType], kyc.go:26-31 [Circuit]. *)
Record Conditions := {
  c_age : var * var;
  c_country : list var;
  c_level : list var;
  c_time : list var
}.
(** kyc.go:19-24. *)
Record KycType := { k_age : var; k_country : var; k_level : var; k_time : var }.
(** kyc.go:26-31; simplification: an emulated element is a constant or a wire. *)
Record KycCircuit := {
  kyc_sig : emul * emul;        (* r, s *)
  kyc_hash : emul;
  kyc : KycType;
  kyc_cond : Conditions
}.

(** kyc.go:37,42: the hard-coded public key. *)
Definition kyc_pub_x : Z := 85997066971194522473057012223499312995837068047270353161199320975157154592866.
Definition kyc_pub_y : Z := 40070151623224504185408656535330873345235311800089295101492157067180406840001.

(** ecdsa.PublicKey.Verify (library).  In the test engine emulated witness elements are constants.
    Called at kyc.go:52. *)
Definition ecdsa_verify (O : oracles) (en : engine) (px py : Z) (h r s : emul) : M unit :=
  match en with
  | Build => emit (CEcdsa px py h r s)
  | Test =>
      match h, r, s with
      | EmConst h, EmConst r, EmConst s =>
          if o_ecdsa O px py h r s then ret tt else panic "ecdsa: invalid signature"
      | _, _, _ => panic "not an assigned element"
      end
  end.

(** the loop kyc.go:60-63 *)
Fixpoint country_loop (en : engine) (country : var) (l : list var) (isInList : var) : M var :=
  match l with
  | [] => ret isInList
  | c :: t =>
      d <- api_sub en country c ;;
      m <- api_is_zero en d ;;
      isInList <- api_or en isInList m ;;
      country_loop en country t isInList
  end.

(** kyc.go:36-67 [Circuit.Define]. *)
Definition KycDefine (O : oracles) (en : engine) (c : KycCircuit) : M (option goerr) :=
  ecdsa_verify O en kyc_pub_x kyc_pub_y (kyc_hash c) (fst (kyc_sig c)) (snd (kyc_sig c)) ;;;
  try_ (VerifyRangeCheck en (k_age (kyc c)) (fst (c_age (kyc_cond c))) (snd (c_age (kyc_cond c)))) Some (
  b <- country_loop en (k_country (kyc c)) (c_country (kyc_cond c)) (VInt 0) ;;
  api_assert_eq en b (VInt 1) ;;;
  ret None).

(** kyc.go Circuit with wires for leaves: ConditionHash (public) first, then Kyc; [n], [m], [l] are
    the lengths of Country, Level, Time. Shape as at kyc_test.go:18-25. *)
Definition kyc_shape (n m l : nat) : KycCircuit :=
  {| kyc_sig := (EmWire 0, EmWire 1);
     kyc_hash := EmWire 2;
     kyc_cond := {| c_age := (VExpr (EWire 0), VExpr (EWire 1));
                    c_country := wires_from 2 n;
                    c_level := wires_from (2 + n) m;
                    c_time := wires_from (2 + n + m) l |};
     kyc := {| k_age := VExpr (EWire (2 + n + m + l));
               k_country := VExpr (EWire (3 + n + m + l));
               k_level := VExpr (EWire (4 + n + m + l));
               k_time := VExpr (EWire (5 + n + m + l)) |} |}.
(** kyc_test.go:27. *)
Definition compile_kyc (O : oracles) (n m l : nat) : cs + goerr :=
  compile (6 + n + m + l) (KycDefine O Build (kyc_shape n m l)).
