(** BN254 G1 (textbook affine arithmetic modulo p), its library wrappers, and the G2 twist. *)
From Coq Require Import ZArith String Bool List.
From Verif Require Import Params Go.
Import ListNotations.
Open Scope Z_scope.

(** Base-field addition inside the library calls at aggregator_lib_circuit.go:88, msm.go:139. *)
Definition padd_mod (a b : Z) := (a + b) mod p_mod.
(** Base-field subtraction inside the library calls at aggregator_lib_circuit.go:88, msm.go:139. *)
Definition psub_mod (a b : Z) := (a - b) mod p_mod.
(** Base-field multiplication inside the library calls at aggregator_lib_circuit.go:88, msm.go:139.
    *)
Definition pmul_mod (a b : Z) := (a * b) mod p_mod.
(** Base-field division inside the library calls at aggregator_lib_circuit.go:88, msm.go:139. *)
Definition pdiv_mod (a b : Z) := (a * inv_mod p_mod b) mod p_mod.

(** A point of y^2 = x^3 + 3 over Z/p: the point at infinity or affine coordinates in [0,p). Values
    of bn256.G1 and bn254.G1Affine, aggregator_lib_circuit.go:113,118,386, pairing_circuit.go:49,56.
    *)
Inductive pt := Inf | Aff (x y : Z).

(** The curve equation y^2 = x^3 + 3 modulo p (cf. comments at aggregator_lib_circuit.go:393,418). *)
Definition on_curve (x y : Z) : bool := (y * y) mod p_mod =? (x * x * x + 3) mod p_mod.

(** Points that Unmarshal (aggregator_lib_circuit.go:114,190,201) can produce. *)
Definition valid_pt (P : pt) : bool :=
  match P with
  | Inf => true
  | Aff x y => (0 <=? x) && (x <? p_mod) && (0 <=? y) && (y <? p_mod) && on_curve x y
  end.

(** third point of the line of slope [l] through (x1,y1) and abscissa x2, reflected. Step of the
    library additions called at aggregator_lib_circuit.go:88,207. *)
Definition line_pt (l x1 y1 x2 : Z) : pt :=
  let x3 := psub_mod (l * l) (x1 + x2) in
  Aff x3 (psub_mod (l * (x1 - x3)) y1).

(** Chord-and-tangent addition.  Library: gnark-crypto G1Affine.Add, go-ethereum bn256 G1.Add.
    Called at aggregator_lib_circuit.go:88,207. *)
Definition padd (P Q : pt) : pt :=
  match P, Q with
  | Inf, _ => Q
  | _, Inf => P
  | Aff x1 y1, Aff x2 y2 =>
      if x1 =? x2 then
        if (y1 =? y2) && negb (y1 =? 0)
        then line_pt (pdiv_mod (3 * x1 * x1) (2 * y1)) x1 y1 x2
        else Inf
      else line_pt (pdiv_mod (y2 - y1) (x2 - x1)) x1 y1 x2
  end.

(** Negation of a point (library), used in the pairing check called at pairing_circuit.go:38. *)
Definition pneg (P : pt) : pt :=
  match P with Inf => Inf | Aff x y => Aff x ((- y) mod p_mod) end.

(** Scalar multiplication by a positive binary numeral (double and add, most significant bit
    first). Library multiplications called at aggregator_lib_circuit.go:58,119, msm.go:77. *)
Fixpoint pmul_pos (k : positive) (P : pt) : pt :=
  match k with
  | xH => P
  | xO k' => let Q := pmul_pos k' P in padd Q Q
  | xI k' => let Q := pmul_pos k' P in padd P (padd Q Q)
  end.

(** [k]*P with the scalar reduced modulo the group order.  Library: go-ethereum bn256
    G1.ScalarMult, gnark-crypto G1Affine.ScalarMultiplication, sw_emulated ScalarMul. Called at
    aggregator_lib_circuit.go:58,119, msm.go:77. *)
Definition pmul (k : Z) (P : pt) : pt :=
  match k mod r_mod with
  | Zpos k' => pmul_pos k' P
  | _ => Inf
  end.

(** Coordinates of a gnark-crypto G1Affine / sw_emulated AffinePoint: infinity is (0,0). X and Y
    fields read at aggregator_lib_circuit.go:60-61,89-90, msm.go:87-91. *)
Definition coords0 (P : pt) : Z * Z := match P with Inf => (0, 0) | Aff x y => (x, y) end.

(** The point denoted by such a coordinate pair. Points built at aggregator_lib_circuit.go:386-391,
    pairing_circuit.go:49-65. *)
Definition of_coords0 (c : Z * Z) : pt :=
  if (fst c =? 0) && (snd c =? 0) then Inf else Aff (fst c) (snd c).

(** Coordinates printed by go-ethereum bn256 (MakeAffine leaves (0,1) for infinity). Printed at
    aggregator_lib_circuit.go:121,209. *)
Definition coords_printed (P : pt) : Z * Z := match P with Inf => (0, 1) | Aff x y => (x, y) end.

(** gnark-crypto bn254 G1Affine.IsOnCurve on an element with canonical coordinates:
    (0,0) is infinity and is accepted. Called at aggregator_lib_circuit.go:394,419,
    pairing_circuit.go:52,59. *)
Definition g1_is_on_curve (x y : Z) : bool := ((x =? 0) && (y =? 0)) || on_curve x y.

(** go-ethereum bn256 G1.Unmarshal of two 32-byte coordinates (library). Called at
    aggregator_lib_circuit.go:114,190,201. *)
Definition bn256_unmarshal (x y : Z) : pt + goerr :=
  if (p_mod <=? x) || (p_mod <=? y) then inr "bn256: coordinate exceeds modulus"%string
  else if (x =? 0) && (y =? 0) then inl Inf
  else if on_curve x y then inl (Aff x y)
  else inr "bn256: malformed point"%string.

(** go-ethereum bn256 G1.String (library). Called at aggregator_lib_circuit.go:121,209. *)
Definition bn256_string (P : pt) : string :=
  let (x, y) := coords_printed P in
  ("bn256.G1(" ++ hex_fixed 64 x "" ++ ", " ++ hex_fixed 64 y "" ++ ")")%string.

(** gnark sw_emulated Curve.AddUnified (library, v0.10), a formula without case distinction on
    x1 = x2 (Brier and Joye), completed by three selectors. Called at msm.go:139. *)
Definition add_unified (p q : Z * Z) : Z * Z :=
  let (x1, y1) := p in let (x2, y2) := q in
  let s := padd_mod y1 y2 in
  let num := psub_mod ((x1 + x2) * (x1 + x2)) (x1 * x2) in
  let den := if s =? 0 then 1 else s in
  let l := pdiv_mod num den in
  let xr := psub_mod (l * l) (x1 + x2) in
  let yr := psub_mod (l * (x1 - xr)) y1 in
  let res := if (x1 =? 0) && (y1 =? 0) then (x2, y2) else (xr, yr) in
  let res := if (x2 =? 0) && (y2 =? 0) then (x1, y1) else res in
  if s =? 0 then (0, 0) else res.

(** ** G2: the twist y^2 = x^3 + 3/(9+u) over Fp2 = Fp[u]/(u^2+1); an element a0 + a1*u. *)

(** Coordinates of bn254.G2Jac, pairing_circuit.go:84-93. *)
Definition fp2 := (Z * Z)%type.
(** Used by IsOnCurve, pairing_circuit.go:94,108. *)
Definition fp2_add (a b : fp2) : fp2 := (padd_mod (fst a) (fst b), padd_mod (snd a) (snd b)).
(** Used by IsOnCurve, pairing_circuit.go:94,108. *)
Definition fp2_mul (a b : fp2) : fp2 :=
  (psub_mod (fst a * fst b) (snd a * snd b), padd_mod (fst a * snd b) (snd a * fst b)).
(** Used by IsOnCurve, pairing_circuit.go:94,108. *)
Definition fp2_eqb (a b : fp2) : bool := (fst a =? fst b) && (snd a =? snd b).

(** gnark-crypto bTwistCurveCoeff = 3/(9+u) (library constant). Used by IsOnCurve,
    pairing_circuit.go:94,108. *)
Definition twist_b : fp2 :=
  (19485874751759354771024239261021720505790618469301721065564631296452457478373,
   266929791119991161246907387137283842545076965332900288569378510910307636690).

(** bn254.G2Jac with Z = 1 and bn254.G2Affine, pairing_circuit.go:72,84,98. *)
Definition g2 := (fp2 * fp2)%type.

(** gnark-crypto bn254 G2Jac.IsOnCurve for Z = 1 (library): y^2 = x^3 + b. Called at
    pairing_circuit.go:94,108. *)
Definition g2_is_on_curve (P : g2) : bool :=
  let (x, y) := P in
  fp2_eqb (fp2_mul y y) (fp2_add (fp2_mul (fp2_mul x x) x) twist_b).
