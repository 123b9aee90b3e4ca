(** Specification of a printed point inside a text, independent of the model. *)
From Coq Require Import ZArith String Ascii Bool List.
From Verif Require Import SpecText.
Import ListNotations.
Open Scope Z_scope.

(** the text bn256.G1(a,_b) somewhere in a longer one, where _ is one blank character; a and b are words *)
Definition word_alphabet : list ascii :=
  list_ascii_of_string "0123456789ABCDEFGHIJKLMNOPQRSTUVWXYZabcdefghijklmnopqrstuvwxyz_".
Definition blank_alphabet : list ascii := [" "; "009"; "010"; "012"; "013"]%char.
Definition word (s : string) : Prop := s <> ""%string /\ Forall (fun c => In c word_alphabet) (list_ascii_of_string s).
Definition point_at (input pre a b : string) : Prop := exists blank post,
  input = (pre ++ "bn256.G1(" ++ a ++ "," ++ String blank (b ++ ")" ++ post))%string /\
  In blank blank_alphabet /\ word a /\ word b.
(** the first such place *)
Definition first_point (input a b : string) : Prop := exists pre, point_at input pre a b /\
  forall pre' a' b', point_at input pre' a' b' -> (String.length pre <= String.length pre')%nat.
(** whole bytes in hex, after one optional "0x" *)
Definition hex_bytes (s : string) : Prop :=
  Nat.even (String.length (hex_body s)) = true /\ Forall is_hex_digit (list_ascii_of_string (hex_body s)).
