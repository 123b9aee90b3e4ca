(** Text conversions: C09, C10. *)
From Coq Require Import ZArith String Bool List.
From Verif Require Import Params Go Curve Api FrOps Lib SpecText SpecRegex P_Str P_Regex P_FrEx.
Import ListNotations.
Open Scope Z_scope.

(** C09.  [dec_of_Z z] is big.Int.String(). *)
Theorem C09_decimal_roundtrip : forall z : Z, fr_from_string (dec_of_Z z) = VBig z.
Proof. exact c09_roundtrip. Qed.
Print Assumptions C09_decimal_roundtrip.

Theorem C09_non_numeral_is_nil : forall s : string, fr_from_string s = VBigNil <-> ~ decimal_numeral s.
Proof. exact c09_numeral. Qed.
Print Assumptions C09_non_numeral_is_nil.

Example C09_case : fr_from_string "-0042" = VBig (-42) /\ fr_from_string "12x" = VBigNil /\
  decimal_numeral "-0042" /\ ~ decimal_numeral "12x".
Proof. exact ex09. Qed.

(** C10 *)
Theorem C10_printed_point_parses : forall x y : Z, 0 <= x < 2 ^ 256 -> 0 <= y < 2 ^ 256 ->
  extractAndConvert ("bn256.G1(" ++ hex_fixed 64 x "" ++ ", " ++ hex_fixed 64 y "" ++ ")")%string =
  (dec_of_Z x, dec_of_Z y, None).
Proof. exact c10_extract. Qed.
Print Assumptions C10_printed_point_parses.

Theorem C10_hex_strings : forall s : string,
  ((exists d, hexToDecimalString s = inl d) <->
     Nat.even (String.length (hex_body s)) = true /\
     Forall is_hex_digit (list_ascii_of_string (hex_body s))) /\
  (forall d, hexToDecimalString s = inl d -> d = dec_of_Z (hex_value (hex_body s))).
Proof. exact c10_hex. Qed.
Print Assumptions C10_hex_strings.

Example C10_case : hexToDecimalString "0xfF01" = inl "65281"%string /\
  (exists e, hexToDecimalString "0xf" = inr e) /\
  extractAndConvert (bn256_string (Aff 1 2)) = ("1"%string, "2"%string, None).
Proof. exact ex10. Qed.

(** every input text: no point, or the first one *)
Theorem C10_point_in_text : forall input : string,
  ((forall pre a b, ~ point_at input pre a b) <-> extractAndConvert input = (""%string, ""%string, Some "invalid input format"%string)) /\
  forall a b, first_point input a b ->
    (hex_bytes a /\ hex_bytes b -> extractAndConvert input = (dec_of_Z (hex_value (hex_body a)), dec_of_Z (hex_value (hex_body b)), None)) /\
    (~ (hex_bytes a /\ hex_bytes b) -> exists e, extractAndConvert input = (""%string, ""%string, Some e)).
Proof. exact c10_text. Qed.
Print Assumptions C10_point_in_text.
Example C10_text_case : first_point "x bn256.G1(0a, 0x10) bn256.G1(01, 02)" "0a" "0x10" /\
  extractAndConvert "x bn256.G1(0a, 0x10) bn256.G1(01, 02)" = ("10"%string, "16"%string, None) /\
  (forall pre a b, ~ point_at "bn256.G1(0a 10)" pre a b) /\ first_point "bn256.G1(0a, 1_)" "0a" "1_" /\ ~ hex_bytes "1_".
Proof. exact ex10_text. Qed.
