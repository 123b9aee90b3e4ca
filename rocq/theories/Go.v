(** Go-level machinery: outcomes, big.Int byte / decimal / hex conversions, slices,
    and the dynamic types of [frontend.Variable]. *)
From Coq Require Import ZArith String Ascii Bool List.
From Verif Require Import Params.
Import ListNotations.
Open Scope Z_scope.

(** A Go [error] value; [nil] is [None : option goerr]. Error results as at msm.go:21-24,
    circuit.go:61-65; simplification: an error is its message. *)
Definition goerr := string.

(** Result of running Go code: it returns or it panics. Panics:
    aggregator_lib_circuit.go:105-107,181-183, pairing_circuit.go:52-54, main.go:181-183. *)
Inductive outcome (A : Type) :=
| Done (a : A)
| Panicked (why : string).
Arguments Done {A} _.
Arguments Panicked {A} _.

(** Sequencing of statements in hint functions, e.g. aggregator_lib_circuit.go:104-125: a panic ends
    the call. *)
Definition obind {A B} (m : outcome A) (k : A -> outcome B) : outcome B :=
  match m with Done a => k a | Panicked w => Panicked w end.

(** ** Bytes (as integers 0..255) *)

(** Big-endian [n]-byte encoding (library: big.Int.FillBytes, fp.Element.Bytes). Used at
    aggregator_lib_circuit.go:109,111,437 and circuit.go:161. *)
Fixpoint be_bytes (n : nat) (z : Z) : list Z :=
  match n with
  | O => []
  | S m => be_bytes m (z / 256) ++ [z mod 256]
  end.

(** big.Int.SetBytes (library). Used at aggregator_lib_circuit.go:302,449 and circuit.go:165. *)
Definition of_be (bs : list Z) : Z := fold_left (fun acc b => acc * 256 + b) bs 0.

(** [x.FillBytes(make([]byte, 32))] (library): big-endian absolute value, panics if it does not
    fit.  Used at aggregator_lib_circuit.go:109,111,185,187,196,198,437. *)
Definition fill_bytes32 (z : Z) : outcome (list Z) :=
  if Z.abs z <? 2 ^ 256 then Done (be_bytes 32 (Z.abs z))
  else Panicked "math/big: buffer too small to fit value".

(** ** Decimal strings: big.Int.String and big.Int.SetString(s, 10) (library) *)

(** One digit of big.Int.String (library), called at aggregator_lib_circuit.go:305. *)
Definition digit_char (d : Z) : ascii := ascii_of_nat (Z.to_nat (48 + d)).

(** Digits of big.Int.String (library), called at aggregator_lib_circuit.go:305. *)
Fixpoint dec_digits (fuel : nat) (z : Z) (acc : string) : string :=
  let acc' := String (digit_char (z mod 10)) acc in
  match fuel with
  | O => acc'
  | S f => if z <? 10 then acc' else dec_digits f (z / 10) acc'
  end.

(** big.Int.String of a non-negative number (library), called at aggregator_lib_circuit.go:305. *)
Definition dec_of_nonneg (z : Z) : string := dec_digits (Z.to_nat (Z.log2 z)) z EmptyString.

(** big.Int.String(). Library, called at aggregator_lib_circuit.go:305. *)
Definition dec_of_Z (z : Z) : string :=
  if z <? 0 then String "-" (dec_of_nonneg (- z)) else dec_of_nonneg z.

(** One digit read by big.Int.SetString (library), called at fr.go:102,
    aggregator_lib_circuit.go:122. *)
Definition char_digit (c : ascii) : option Z :=
  let n := Z.of_nat (nat_of_ascii c) in
  if (48 <=? n) && (n <=? 57) then Some (n - 48) else None.

(** Digits read by big.Int.SetString (library), called at fr.go:102, aggregator_lib_circuit.go:122.
    *)
Fixpoint dec_parse (acc : Z) (s : string) : option Z :=
  match s with
  | EmptyString => Some acc
  | String c s' => match char_digit c with
                   | Some d => dec_parse (acc * 10 + d) s'
                   | None => None
                   end
  end.

(** big.Int.SetString wants at least one digit (library), called at fr.go:102,
    aggregator_lib_circuit.go:122. *)
Definition dec_parse_nonempty (s : string) : option Z :=
  match s with EmptyString => None | _ => dec_parse 0 s end.

(** new(big.Int).SetString(s, 10): optional sign followed by one or more digits; [None] stands for
    the nil pointer returned on failure. Called at fr.go:102, aggregator_lib_circuit.go:122-123,210-211.
    *)
Definition set_string10 (s : string) : option Z :=
  match s with
  | String "-" s' => option_map Z.opp (dec_parse_nonempty s')
  | String "+" s' => dec_parse_nonempty s'
  | _ => dec_parse_nonempty s
  end.

(** ** Hex strings *)

(** One digit of the text of a bn256 point (library), printed at aggregator_lib_circuit.go:121,209.
    *)
Definition hex_char (d : Z) : ascii :=
  ascii_of_nat (Z.to_nat (if d <? 10 then 48 + d else 87 + d)).

(** [n] lower-case hex digits, most significant first (library: fmt "%16.16x" of gfP limbs). Called
    through String at aggregator_lib_circuit.go:121,209. *)
Fixpoint hex_fixed (n : nat) (z : Z) (acc : string) : string :=
  match n with
  | O => acc
  | S m => hex_fixed m (z / 16) (String (hex_char (z mod 16)) acc)
  end.

(** One digit read by hex.DecodeString (library), called at aggregator_lib_circuit.go:296. *)
Definition char_hex (c : ascii) : option Z :=
  let n := Z.of_nat (nat_of_ascii c) in
  if (48 <=? n) && (n <=? 57) then Some (n - 48)
  else if (97 <=? n) && (n <=? 102) then Some (n - 87)
  else if (65 <=? n) && (n <=? 70) then Some (n - 55)
  else None.

(** encoding/hex.DecodeString (library): [None] is its error (odd length or bad digit). Called at
    aggregator_lib_circuit.go:296. *)
Fixpoint hex_decode (s : string) : option (list Z) :=
  match s with
  | EmptyString => Some []
  | String a s' =>
      match s' with
      | EmptyString => None
      | String b s'' =>
          match char_hex a, char_hex b, hex_decode s'' with
          | Some x, Some y, Some l => Some (x * 16 + y :: l)
          | _, _, _ => None
          end
      end
  end.

(** ** Slices *)

(** Reading l[i] with Go's bounds check, e.g. fr.go:21,36, aggregator_lib_circuit.go:98,437. *)
Definition get {A} (l : list A) (i : nat) : outcome A :=
  match nth_error l i with
  | Some a => Done a
  | None => Panicked "runtime error: index out of range"
  end.

(** Helper of [put] below (assignments such as fr.go:25-26). *)
Fixpoint set_nth {A} (l : list A) (i : nat) (a : A) : option (list A) :=
  match l, i with
  | [], _ => None
  | _ :: t, O => Some (a :: t)
  | h :: t, S j => option_map (cons h) (set_nth t j a)
  end.

(** Assigning l[i] with Go's bounds check, e.g. fr.go:25-26,70-71,
    aggregator_lib_circuit.go:432,450. *)
Definition put {A} (l : list A) (i : nat) (a : A) : outcome (list A) :=
  match set_nth l i a with
  | Some l' => Done l'
  | None => Panicked "runtime error: index out of range"
  end.

(** ** frontend.Variable *)

(** Expressions over circuit wires, as built by the frontend builder (library). Results of the calls
    at fr.go:46,53,62,82,87,98 and utils.go:11-12 when compiling (main.go:180). *)
Inductive expr :=
| EConst (z : Z)
| EWire (i : nat)
| EAdd (a b : expr)
| ESub (a b : expr)
| EMul (a b : expr).

(** [frontend.Variable] is [interface{}]; one constructor per dynamic type the code can meet.
    Simplification: a Go string is represented by the value it parses to ([None] if it does not),
    Go integers of all widths are [VInt], constants folded by the builder are [VExpr (EConst _)].
    Declared in circuit.go:15-18, kyc.go:13-23, msm.go:43-45,96-98. *)
Inductive var :=
| VNil                      (* nil interface *)
| VBig (z : Z)              (* *big.Int *)
| VBigNil                   (* nil *big.Int inside the interface *)
| VInt (z : Z)              (* int, uint8, ... *)
| VStr (parsed : option Z)  (* string *)
| VFp (z : Z)               (* fp.Element, canonical value *)
| VFr (z : Z)               (* fr.Element, canonical value *)
| VExpr (e : expr)          (* expression of the circuit builder *)
| VErr (e : goerr).         (* an error stored in a Variable, fr.go:60 *)

(** The type assertion [v.( *big.Int)] followed by a dereference (fr.go:44,78,
    aggregator_lib_circuit.go:156,437). *)
Definition as_big (v : var) : outcome Z :=
  match v with
  | VBig z => Done z
  | VBigNil => Panicked "nil pointer dereference"
  | _ => Panicked "interface conversion: interface {} is not *big.Int"
  end.

(** gnark-crypto bn254/fp.Element.SetInterface (library): [inl] is the element's canonical value,
    [inr] the error (the returned pointer is then nil). Called at
    aggregator_lib_circuit.go:134-151,221-251,388-389,415-416, msm.go:59-83,113-145,
    pairing_circuit.go:50-58. *)
Definition fp_set_interface (v : var) : Z + goerr :=
  match v with
  | VBig z | VInt z | VStr (Some z) | VFp z => inl (z mod p_mod)
  | VStr None => inr "Element.SetString failed -> can't parse number into a big.Int"%string
  | VNil | VBigNil => inr "can't set fp.Element with <nil>"%string
  | VFr _ | VExpr _ | VErr _ => inr "can't set fp.Element from type"%string
  end.
