(** aggregator_lib_circuit.go, msm.go, utils.go, hash.go and the curve helpers of fr.go. *)
From Coq Require Import ZArith String Ascii Bool List.
From Verif Require Import Params Go Curve Api FrOps.
Import ListNotations.
Open Scope Z_scope.

(** "if err != nil { return ..., err }". E.g. circuit.go:101-104, aggregator_lib_circuit.go:471-474.
    *)
Definition try_ {A} (m : M (option goerr)) (on_err : goerr -> A) (k : M A) : M A :=
  e <- m ;; match e with Some e => ret (on_err e) | None => k end.

(** ** Text handling of hints *)

(** regexp class \w. Used by the pattern at aggregator_lib_circuit.go:267. *)
Definition is_word (c : ascii) : bool :=
  let n := nat_of_ascii c in
  ((48 <=? n) && (n <=? 57) || (65 <=? n) && (n <=? 90) || (97 <=? n) && (n <=? 122) || (n =? 95))%nat.
(** regexp class \s. Used by the pattern at aggregator_lib_circuit.go:267. *)
Definition is_space (c : ascii) : bool :=
  let n := nat_of_ascii c in ((n =? 9) || (n =? 10) || (n =? 12) || (n =? 13) || (n =? 32))%nat.

(** longest prefix of \w characters and the rest. Part of the match at
    aggregator_lib_circuit.go:267-269. *)
Fixpoint span_word (s : string) : string * string :=
  match s with
  | String c s' => if is_word c then let (a, b) := span_word s' in (String c a, b) else (EmptyString, s)
  | EmptyString => (EmptyString, EmptyString)
  end.

(** A literal prefix of a string: the pattern at aggregator_lib_circuit.go:267 and
    strings.TrimPrefix at aggregator_lib_circuit.go:293. *)
Fixpoint strip_prefix (p s : string) : option string :=
  match p, s with
  | EmptyString, _ => Some s
  | String a p', String b s' => if Ascii.eqb a b then strip_prefix p' s' else None
  | _, _ => None
  end.

(** aggregator_lib_circuit.go:267: the regular expression bn256\.G1\((\w+),\s(\w+)\) anchored at the
    start of [s].  The characters that follow each group are not in \w, so the longest match of
    \w+ is the only one. *)
Definition re_match_at (s : string) : option (string * string) :=
  match strip_prefix "bn256.G1(" s with
  | None => None
  | Some s1 =>
      let (a, s2) := span_word s1 in
      match a, s2 with
      | EmptyString, _ => None
      | _, String "," (String c s3) =>
          if is_space c then
            let (b, s4) := span_word s3 in
            match b, s4 with
            | EmptyString, _ => None
            | _, String ")" _ => Some (a, b)
            | _, _ => None
            end
          else None
      | _, _ => None
      end
  end.

(** FindStringSubmatch: leftmost match. Called at aggregator_lib_circuit.go:269. *)
Fixpoint re_find (s : string) : option (string * string) :=
  match re_match_at s with
  | Some m => Some m
  | None => match s with EmptyString => None | String _ s' => re_find s' end
  end.

(** aggregator_lib_circuit.go:291-306 [hexToDecimalString]; [inr] is the error. *)
Definition hexToDecimalString (hexStr : string) : string + goerr :=
  let h := match strip_prefix "0x" hexStr with Some t => t | None => hexStr end in
  match hex_decode h with
  | None => inr "encoding/hex: invalid input"%string
  | Some bs => inl (dec_of_Z (of_be bs))
  end.

(** aggregator_lib_circuit.go:266-288 [extractAndConvert]. *)
Definition extractAndConvert (input : string) : string * string * option goerr :=
  match re_find input with
  | None => (EmptyString, EmptyString, Some "invalid input format"%string)
  | Some (xs, ys) =>
      match hexToDecimalString xs with
      | inr e => (EmptyString, EmptyString, Some ("failed to decode x: " ++ e)%string)
      | inl x10 =>
          match hexToDecimalString ys with
          | inr e => (EmptyString, EmptyString, Some ("failed to decode y: " ++ e)%string)
          | inl y10 => (x10, y10, None)
          end
      end
  end.

(** Unmarshal of two FillBytes encodings, aggregator_lib_circuit.go:108-117, 184-193, 195-204. *)
Definition unmarshal_pair (a b : Z) : outcome (pt + goerr) :=
  obind (fill_bytes32 a) (fun b0 =>
  obind (fill_bytes32 b) (fun b1 =>
  Done (bn256_unmarshal (of_be b0) (of_be b1)))).

(** Storing the printed coordinates, aggregator_lib_circuit.go:121-123, 209-211. *)
Definition store_point (P : pt) (res : list (option Z)) : outcome (option goerr * list (option Z)) :=
  let '(xs, ys, _) := extractAndConvert (bn256_string P) in
  obind (put res 0 (set_string10 xs)) (fun res =>
  obind (put res 1 (set_string10 ys)) (fun res =>
  Done (None, res))).

(** aggregator_lib_circuit.go:104-125 [MsmHint]. *)
Definition msm_hint_run : hint := fun ins res =>
  match ins with
  | [a; b; k] =>
      obind (unmarshal_pair a b) (fun u =>
      match u with
      | inr e => Done (Some e, res)
      | inl p => store_point (pmul k p) res
      end)
  | _ => Panicked "MulAddHint expects 3 input operands"
  end.
(** aggregator_lib_circuit.go:104-125, as passed to NewHint. *)
Definition MsmHint : hintfn := {| hf_id := HMsm; hf_run := msm_hint_run |}.

(** aggregator_lib_circuit.go:179-213 [AddHint]. *)
Definition add_hint_run : hint := fun ins res =>
  match ins with
  | [a; b; c; d] =>
      obind (unmarshal_pair a b) (fun u =>
      match u with
      | inr e => Done (Some e, res)
      | inl p1 =>
          obind (unmarshal_pair c d) (fun u2 =>
          match u2 with
          | inr e => Done (Some e, res)
          | inl p2 => store_point (padd p1 p2) res
          end)
      end)
  | _ => Panicked "MulAddHint expects 3 input operands"
  end.
(** aggregator_lib_circuit.go:179-213, as passed to NewHint. *)
Definition AddHint : hintfn := {| hf_id := HAdd; hf_run := add_hint_run |}.

(** ** Legacy circuits on gnark-crypto points (a G1Affine is its pair of canonical coordinates) *)

(** aggregator_lib_circuit.go:52-63 [VerifyBN256Msm].  The operand behind the pointer g1Point is
    overwritten by ScalarMultiplication; its new value is returned. *)
Definition VerifyBN256Msm (en : engine) (g1Point : Z * Z) (scalar : Z) (res : Z * Z)
  : M ((Z * Z) * option goerr) :=
  let g := coords0 (pmul scalar (of_coords0 g1Point)) in
  api_assert_eq en (VFp (fst g)) (VFp (fst res)) ;;;
  api_assert_eq en (VFp (snd g)) (VFp (snd res)) ;;;
  ret (g, None).

(** aggregator_lib_circuit.go:82-92 [VerifyBN256Add], the body of aggregator_lib_circuit.go:73-80; the first operand is overwritten. *)
Definition VerifyBN256Add (en : engine) (g10 g11 res : Z * Z) : M ((Z * Z) * option goerr) :=
  let sum := coords0 (padd (of_coords0 g10) (of_coords0 g11)) in
  api_assert_eq en (VFp (fst sum)) (VFp (fst res)) ;;;
  api_assert_eq en (VFp (snd sum)) (VFp (snd res)) ;;;
  ret (sum, None).

(** fp.Element.SetInterface followed by panic on error. aggregator_lib_circuit.go:134-154, 221-254.
    *)
Definition set_or_panic (v : var) : M Z :=
  match fp_set_interface v with inl z => ret z | inr e => panic e end.

(** aggregator_lib_circuit.go:127-157 [CalcVerifyBN256Msm1]; results as ([2]Variable, error). *)
Definition CalcVerifyBN256Msm1 (en : engine) (x y k : var) : M ((var * var) * option goerr) :=
  '(result, err) <- new_hint en MsmHint 2 [x; y; k] ;;
  match err with
  | Some e => panic e
  | None =>
      gx <- set_or_panic x ;;
      gy <- set_or_panic y ;;
      if negb (g1_is_on_curve gx gy)
      then ret ((VNil, VNil), Some "bn256.G1Affine is not on curve"%string) else
      r0 <- lift (get result 0) ;; rx <- set_or_panic r0 ;;
      r1 <- lift (get result 1) ;; ry <- set_or_panic r1 ;;
      kz <- lift (as_big k) ;;
      '(_, e) <- VerifyBN256Msm en (gx, gy) kz (rx, ry) ;;
      ret ((VBig rx, VBig ry), e)
  end.

(** aggregator_lib_circuit.go:215-257 [CalcVerifyBN256Add1]; the error of NewHint is overwritten. *)
Definition CalcVerifyBN256Add1 (en : engine) (x1 y1 x2 y2 : var) : M ((var * var) * option goerr) :=
  '(result, _) <- new_hint en AddHint 2 [x1; y1; x2; y2] ;;
  ax <- set_or_panic x1 ;;
  ay <- set_or_panic y1 ;;
  if negb (g1_is_on_curve ax ay)
  then ret ((VNil, VNil), Some "bn256.G1Affine is not on curve"%string) else
  bx <- set_or_panic x2 ;;
  by_ <- set_or_panic y2 ;;
  if negb (g1_is_on_curve bx by_)
  then ret ((VNil, VNil), Some "bn256.G1Affine is not on curve"%string) else
  r0 <- lift (get result 0) ;; rx <- set_or_panic r0 ;;
  r1 <- lift (get result 1) ;; ry <- set_or_panic r1 ;;
  '(_, e) <- VerifyBN256Add en (ax, ay) (bx, by_) (rx, ry) ;;
  ret ((VBig rx, VBig ry), e).

(** ** msm.go *)

(** Curve.ScalarMul on constants; failure of the gadget is a failed assertion. Called at msm.go:77
    and inside MultiScalarMul, msm.go:34. *)
Definition emul_smul (O : oracles) (en : engine) (x y s : Z) : M (Z * Z) :=
  match emul_scalar_mul O x y s with
  | Some res => ret res
  | None => emul_assert en false ;;; ret (0, 0)
  end.

(** x, err := new(fp.Element).SetInterface(v); if err != nil { return err }.
    msm.go:59-66,71-74,79-86,113-120,126-133,141-148. *)
Definition with_fp {A} (v : var) (on_err : goerr -> A) (k : Z -> M A) : M A :=
  match fp_set_interface v with inl z => k z | inr e => ret (on_err e) end.

(** msm.go:52-93 [VerifyBN254ScalarMul]. The scalar is first reduced modulo p (fp.Element), then
    modulo r by emulated.ValueOf. *)
Definition VerifyBN254ScalarMul (O : oracles) (en : engine) (point : var * var) (scalar : var)
    (expected : var * var) : M (option goerr) :=
  with_fp (fst point) Some (fun x =>
  with_fp (snd point) Some (fun y =>
  with_fp scalar Some (fun s =>
  res <- emul_smul O en x y (s mod r_mod) ;;
  with_fp (fst expected) Some (fun ex =>
  with_fp (snd expected) Some (fun ey =>
  emul_assert en (pair_eqb res (ex, ey)) ;;;
  ret None))))).

(** msm.go:105-157 [VerifyBN254Add]. *)
Definition VerifyBN254Add (en : engine) (point1 point2 expected : var * var) : M (option goerr) :=
  with_fp (fst point1) Some (fun x1 =>
  with_fp (snd point1) Some (fun y1 =>
  with_fp (fst point2) Some (fun x2 =>
  with_fp (snd point2) Some (fun y2 =>
  let res := add_unified (x1, y1) (x2, y2) in
  with_fp (fst expected) Some (fun ex =>
  with_fp (snd expected) Some (fun ey =>
  emul_assert en (pair_eqb res (ex, ey)) ;;;
  ret None)))))).

(** Curve.Add, incomplete: fails when the abscissas are equal. Used inside MultiScalarMul,
    msm.go:34. *)
Definition emul_add_incomplete (en : engine) (p q : Z * Z) : M (Z * Z) :=
  if fst p =? fst q then emul_assert en false ;;; ret (0, 0)
  else ret (coords0 (padd (Aff (fst p) (snd p)) (Aff (fst q) (snd q)))).

(** The additions of MultiScalarMul (library), called at msm.go:34. *)
Fixpoint emul_msm_fold (O : oracles) (en : engine) (acc : Z * Z) (l : list ((Z * Z) * Z)) : M (Z * Z) :=
  match l with
  | [] => ret acc
  | (P, s) :: t =>
      q <- emul_smul O en (fst P) (snd P) s ;;
      acc' <- emul_add_incomplete en acc q ;;
      emul_msm_fold O en acc' t
  end.

(** msm.go:21-40 [VerifyMultiScalarMul], the body of msm.go:17-19, for BN254 and constant operands (canonical coordinates,
    scalars in [0,r)); library MultiScalarMul: (0,0) for no points, an error when the lengths
    differ, otherwise the sum of the scalar multiples with incomplete additions (simplification:
    taken left to right). *)
Definition VerifyMultiScalarMul (O : oracles) (en : engine) (points : list (Z * Z)) (scalars : list Z)
    (expected : Z * Z) : M (option goerr) :=
  match points with
  | [] => emul_assert en (pair_eqb (0, 0) expected) ;;; ret None
  | p0 :: ps =>
      match scalars with
      | [] => ret (Some "mismatching points and scalars slice lengths"%string)
      | s0 :: ss =>
          if negb (Nat.eqb (length ps) (length ss))
          then ret (Some "mismatching points and scalars slice lengths"%string)
          else
            acc <- emul_smul O en (fst p0) (snd p0) s0 ;;
            res <- emul_msm_fold O en acc (combine ps ss) ;;
            emul_assert en (pair_eqb res expected) ;;;
            ret None
      end
  end.

(** ** Calc gadgets and fr.go's curve helpers *)

(** aggregator_lib_circuit.go:159-177 [CalcVerifyBN256Msm]. *)
Definition CalcVerifyBN256Msm (O : oracles) (en : engine) (x y k : var)
  : M ((var * var) * option goerr) :=
  '(result, err) <- new_hint en MsmHint 2 [x; y; k] ;;
  match err with
  | Some e => panic e
  | None =>
      r0 <- lift (get result 0) ;; ex <- mod_ en r0 ;;
      r1 <- lift (get result 1) ;; ey <- mod_ en r1 ;;
      e <- VerifyBN254ScalarMul O en (x, y) k (ex, ey) ;;
      ret ((ex, ey), e)
  end.

(** aggregator_lib_circuit.go:259-264 [CalcVerifyBN256Add]; the error of NewHint is overwritten. *)
Definition CalcVerifyBN256Add (en : engine) (x1 y1 x2 y2 : var) : M ((var * var) * option goerr) :=
  '(result, _) <- new_hint en AddHint 2 [x1; y1; x2; y2] ;;
  r0 <- lift (get result 0) ;; ex <- mod_ en r0 ;;
  r1 <- lift (get result 1) ;; ey <- mod_ en r1 ;;
  e <- VerifyBN254Add en (x1, y1) (x2, y2) (ex, ey) ;;
  ret ((ex, ey), e).

(** fr.go:9-28 [ecc_mul]: the slice after the call and the error. *)
Definition ecc_mul (O : oracles) (en : engine) (input : list var) (offset : nat)
  : M (list var * option goerr) :=
  x <- lift (get input offset) ;;
  y <- lift (get input (offset + 1)) ;;
  k <- lift (get input (offset + 2)) ;;
  '((rx, ry), err) <- CalcVerifyBN256Msm O en x y k ;;
  match err with
  | Some e => ret (input, Some e)
  | None =>
      input <- lift (put input offset rx) ;;
      input <- lift (put input (offset + 1) ry) ;;
      ret (input, None)
  end.

(** fr.go:30-40 [ecc_mul_add]: the error of CalcVerifyBN256Add is dropped (line 36 shadows err,
    line 39 returns nil). *)
Definition ecc_mul_add (O : oracles) (en : engine) (buf : list var) (offset : nat)
  : M (list var * option goerr) :=
  '(buf, err) <- ecc_mul O en buf (offset + 2) ;;
  match err with
  | Some e => ret (buf, Some e)
  | None =>
      a <- lift (get buf offset) ;;
      b <- lift (get buf (offset + 1)) ;;
      c <- lift (get buf (offset + 2)) ;;
      d <- lift (get buf (offset + 3)) ;;
      '((rx, ry), _) <- CalcVerifyBN256Add en a b c d ;;
      buf <- lift (put buf offset rx) ;;
      buf <- lift (put buf (offset + 1) ry) ;;
      ret (buf, None)
  end.

(** The Lagrange commitment constants, aggregator_lib_circuit.go:95-96. *)
Definition lagrange_x : Z := 13534086339230182803823178260078315691269243572458753455438283544709107378988.
Definition lagrange_y : Z := 9053077977614827188269653632534212501565186534180282672519599630892718179094.

(** aggregator_lib_circuit.go:94-102 [CalcVerifyCircuitLagrange]. *)
Definition CalcVerifyCircuitLagrange (O : oracles) (en : engine) (buf : list var)
  : M (list var * option goerr) :=
  k <- lift (get buf 2) ;;
  '((rx, ry), err) <- CalcVerifyBN256Msm O en (VBig lagrange_x) (VBig lagrange_y) k ;;
  buf <- lift (put buf 0 rx) ;;
  buf <- lift (put buf 1 ry) ;;
  ret (buf, err).

(** ** Hash circuits *)

(** the loop "for i := range res { uapi.ByteAssertEq(hashValue[i], res[i]) }".
    aggregator_lib_circuit.go:334-336, 366-368. *)
Fixpoint byte_assert_all (en : engine) (hashValue : list var) (i : nat) (res : list var) : M unit :=
  match res with
  | [] => ret tt
  | r :: t => h <- lift (get hashValue i) ;; api_assert_eq en h r ;;; byte_assert_all en hashValue (S i) t
  end.

(** aggregator_lib_circuit.go:317-338 [VerifyKeccak256]. *)
Definition VerifyKeccak256 (O : oracles) (en : engine) (inputValue hashValue : list var) : M (option goerr) :=
  res <- keccak_sum O en inputValue ;;
  byte_assert_all en hashValue 0 res ;;;
  ret None.

(** aggregator_lib_circuit.go:349-370 [VerifySha256]. *)
Definition VerifySha256 (O : oracles) (en : engine) (inputValue hashValue : list var) : M (option goerr) :=
  res <- sha256_sum O en inputValue ;;
  byte_assert_all en hashValue 0 res ;;;
  ret None.

(** ** On-curve checks *)

(** aggregator_lib_circuit.go:381-398 [VerifyCheckOnCurve], the body of aggregator_lib_circuit.go:377-379: SetInterface errors are ignored, the nil
    pointer it returns is dereferenced by g1.X.Set. *)
Definition VerifyCheckOnCurve (en : engine) (x y : var) : M (option goerr) :=
  match fp_set_interface x with
  | inr _ => panic "nil pointer dereference"
  | inl gx =>
      match fp_set_interface y with
      | inr _ => panic "nil pointer dereference"
      | inl gy =>
          if negb (g1_is_on_curve gx gy)
          then ret (Some "bn256.G1Affine is not on curve"%string)
          else ret None
      end
  end.

(** aggregator_lib_circuit.go:409-423 [VerifyCheckOnCurveVar], the body of aggregator_lib_circuit.go:405-407: a failing SetInterface leaves the
    coordinate at zero. *)
Definition VerifyCheckOnCurveVar (en : engine) (x y : var) : M (option goerr) :=
  let gx := match fp_set_interface x with inl z => z | inr _ => 0 end in
  let gy := match fp_set_interface y with inl z => z | inr _ => 0 end in
  if negb (g1_is_on_curve gx gy)
  then ret (Some "bn256.G1Affine is not on curve"%string)
  else ret None.

(** ** Fiat-Shamir transcript *)

(** the loop at aggregator_lib_circuit.go:435-439 *)
Fixpoint absorb_bytes (absorbing : list var) (i n : nat) : outcome (list Z) :=
  match n with
  | O => Done []
  | S m =>
      obind (get absorbing i) (fun v =>
      obind (as_big v) (fun z =>
      obind (fill_bytes32 z) (fun b =>
      obind (absorb_bytes absorbing (S i) m) (fun rest =>
      Done (b ++ rest)))))
  end.

(** aggregator_lib_circuit.go:425-453 [SqueezeChallenge]: (challenge, absorbing after the call, error).
    [length] is a non-negative Go int. *)
Definition SqueezeChallenge (O : oracles) (en : engine) (absorbing : list var) (length : nat)
  : M (var * list var * option goerr) :=
  absorbing <- lift (put absorbing length (VBig 0)) ;;
  bs <- lift (absorb_bytes absorbing 0 length) ;;
  let inputBytes := bs ++ [0] in
  let ethHashVal := sha256_bytes O inputBytes in
  err <- VerifySha256 O en (new_u8_array inputBytes) (new_u8_array ethHashVal) ;;
  match err with
  | Some e => ret (VNil, absorbing, Some e)
  | None =>
      let ethHashBig := of_be ethHashVal in
      absorbing <- lift (put absorbing 0 (VBig ethHashBig)) ;;
      ret (VBig (ethHashBig mod r_mod), absorbing, None)
  end.

(** Loops such as aggregator_lib_circuit.go:469-480: check and absorb [n] points.
    State: absorbing, pos, transcriptPos. *)
Fixpoint absorb_points (en : engine) (transcript : list var) (n : nat) (st : list var * nat * nat)
  : M ((list var * nat * nat) * option goerr) :=
  match n with
  | O => ret (st, None)
  | S m =>
      let '(absorbing, pos, tpos) := st in
      x <- lift (get transcript tpos) ;;
      y <- lift (get transcript (tpos + 1)) ;;
      try_ (VerifyCheckOnCurve en x y) (fun e => (st, Some e)) (
      absorbing <- lift (put absorbing pos x) ;;
      absorbing <- lift (put absorbing (pos + 1) y) ;;
      absorb_points en transcript m (absorbing, pos + 2, tpos + 2)%nat)
  end.

(** The loop at aggregator_lib_circuit.go:555-559: absorb [n] scalars. *)
Fixpoint absorb_scalars (transcript : list var) (n : nat) (st : list var * nat * nat)
  : outcome (list var * nat * nat) :=
  match n with
  | O => Done st
  | S m =>
      let '(absorbing, pos, tpos) := st in
      obind (get transcript tpos) (fun x =>
      obind (put absorbing pos x) (fun absorbing =>
      absorb_scalars transcript m (absorbing, pos + 1, tpos + 1)%nat))
  end.

(** buf[i], err = SqueezeChallenge(api, absorbing, pos); if err != nil { return err }. E.g.
    aggregator_lib_circuit.go:484-487. *)
Definition squeeze_into {A} (O : oracles) (en : engine) (buf : list var) (i : nat)
    (absorbing : list var) (pos : nat) (on_err : list var -> goerr -> A)
    (k : list var -> list var -> M A) : M A :=
  '(c, absorbing, err) <- SqueezeChallenge O en absorbing pos ;;
  buf <- lift (put buf i c) ;;
  match err with Some e => ret (on_err buf e) | None => k buf absorbing end.

(** The absorbed verification-key constant, aggregator_lib_circuit.go:461. *)
Definition absorb0 : Z := 8025805240938309707562879759498205008153592202559235423490485577859843831056.

(** aggregator_lib_circuit.go:455-596 [GetChallengesShPlonkCircuit]: the buffer after the call and the
    error. *)
Definition GetChallengesShPlonkCircuit (O : oracles) (en : engine) (buf transcript : list var)
  : M (list var * option goerr) :=
  let onerr := fun (b : list var) (e : goerr) => (b, Some e) in
  let absorbing := repeat VNil 112 in
  absorbing <- lift (put absorbing 0 (VBig absorb0)) ;;
  b0 <- lift (get buf 0) ;; absorbing <- lift (put absorbing 1 b0) ;;
  b1 <- lift (get buf 1) ;; absorbing <- lift (put absorbing 2 b1) ;;
  '((absorbing, pos, tpos), err) <- absorb_points en transcript 8 (absorbing, 3, 0)%nat ;;
  match err with Some e => ret (buf, Some e) | None =>
  squeeze_into O en buf 2 absorbing pos onerr (fun buf absorbing =>                 (* theta *)
  '((absorbing, pos, tpos), err) <- absorb_points en transcript 4 (absorbing, 1%nat, tpos) ;;
  match err with Some e => ret (buf, Some e) | None =>
  squeeze_into O en buf 3 absorbing pos onerr (fun buf absorbing =>                 (* beta *)
  squeeze_into O en buf 4 absorbing 1 onerr (fun buf absorbing =>                   (* gamma *)
  '((absorbing, pos, tpos), err) <- absorb_points en transcript 7 (absorbing, 1%nat, tpos) ;;
  match err with Some e => ret (buf, Some e) | None =>
  squeeze_into O en buf 5 absorbing pos onerr (fun buf absorbing =>                 (* y *)
  '((absorbing, pos, tpos), err) <- absorb_points en transcript 3 (absorbing, 1%nat, tpos) ;;
  match err with Some e => ret (buf, Some e) | None =>
  squeeze_into O en buf 6 absorbing pos onerr (fun buf absorbing =>                 (* x *)
  '(absorbing, pos, tpos) <- lift (absorb_scalars transcript 56 (absorbing, 1%nat, tpos)) ;;
  squeeze_into O en buf 7 absorbing pos onerr (fun buf absorbing =>                 (* y *)
  squeeze_into O en buf 8 absorbing 1 onerr (fun buf absorbing =>                   (* v *)
  '((absorbing, pos, tpos), err) <- absorb_points en transcript 1 (absorbing, 1%nat, tpos) ;;
  match err with Some e => ret (buf, Some e) | None =>
  squeeze_into O en buf 9 absorbing pos onerr (fun buf absorbing =>                 (* u *)
  x <- lift (get transcript tpos) ;;
  y <- lift (get transcript (tpos + 1)) ;;
  try_ (VerifyCheckOnCurve en x y) (fun e => (buf, Some e)) (
  ret (buf, None)))
  end))) end) end)) end) end.

(** ** Range checks *)

(** aggregator_lib_circuit.go:598-606 [VerifyNotZero]. *)
Definition VerifyNotZero (en : engine) (x : var) : M (option goerr) :=
  api_assert_le en (VInt 1) x ;;; ret None.

(** aggregator_lib_circuit.go:614-618 [VerifyRangeCheck]. *)
Definition VerifyRangeCheck (en : engine) (x Min Max : var) : M (option goerr) :=
  api_assert_le en Min x ;;; api_assert_le en x Max ;;; ret None.

(** ** utils.go and hash.go *)

(** utils.go:8-15 [PackUInt8Variables]. *)
Definition PackUInt8Variables (en : engine) (inputs : list var) : M var :=
  match inputs with
  | [] => panic "runtime error: index out of range"
  | v :: vs =>
      fold_left (fun m input =>
        res <- m ;;
        res <- api_mul en res (VBig (2 ^ 8)) ;;
        api_add en res input) vs (ret v)
  end.

(** hash.go:11-24 [ValueOf]: a slice of 32*len(a) zero U8 values (nil Val). *)
Definition ValueOf (a : list var) : list var := repeat VNil (32 * length a).

(** the loop at hash.go:39-42 *)
Fixpoint to_bytes_loop (n i : nat) (tmp : Z) (outs : list (option Z)) : outcome (list (option Z)) :=
  match n with
  | O => Done outs
  | S m => obind (put outs i (Some (tmp mod 256))) (fun outs => to_bytes_loop m (S i) (tmp / 256) outs)
  end.

(** hash.go:26-47 [toBytes]. *)
Definition to_bytes_run : hint := fun ins outs =>
  if negb (Nat.eqb (length ins) 1) then Done (Some "input must be 1 elements"%string, outs) else
  if negb (Nat.eqb (length outs) 32) then Done (Some "output must be 8 elements"%string, outs) else
  obind (get ins 1) (fun i1 =>
  if negb ((0 <=? i1) && (i1 <? 2 ^ 64)) then Done (Some "input must be 64 bits"%string, outs) else
  obind (to_bytes_loop 32 0 i1 outs) (fun outs =>
  obind (get ins 0) (fun i0 =>
  obind (fill_bytes32 i0) (fun _ =>
  Done (None, outs))))).
(** hash.go:26-47, as a hint function. *)
Definition toBytes : hintfn := {| hf_id := HToBytes; hf_run := to_bytes_run |}.
