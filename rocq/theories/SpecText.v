(** Specification of numerals as text, independent of the model. *)
From Coq Require Import ZArith String Ascii Bool List.
Import ListNotations.
Open Scope Z_scope.

(** position of a character in an alphabet *)
Fixpoint index_in (c : ascii) (l : list ascii) (i : Z) : option Z :=
  match l with
  | [] => None
  | a :: t => if Ascii.eqb a c then Some i else index_in c t (i + 1)
  end.

Definition decimal_alphabet : list ascii := list_ascii_of_string "0123456789".
Definition hex_lower : list ascii := list_ascii_of_string "0123456789abcdef".
Definition hex_upper : list ascii := list_ascii_of_string "0123456789ABCDEF".

(** A decimal numeral: optional sign, at least one digit, only digits. *)
Definition decimal_numeral (s : string) : Prop :=
  exists sign body, s = (sign ++ body)%string /\ (sign = "" \/ sign = "-" \/ sign = "+")%string /\
    body <> ""%string /\ Forall (fun c => In c decimal_alphabet) (list_ascii_of_string body).

Definition is_hex_digit (c : ascii) : Prop := In c hex_lower \/ In c hex_upper.

(** the value of a hex digit, 0 for other characters *)
Definition hex_digit_value (c : ascii) : Z :=
  match index_in c hex_lower 0 with
  | Some d => d
  | None => match index_in c hex_upper 0 with Some d => d | None => 0 end
  end.

(** base-16 value of a text *)
Definition hex_value (s : string) : Z :=
  fold_left (fun a c => 16 * a + hex_digit_value c) (list_ascii_of_string s) 0.

(** body of a hex text: without one leading "0x" *)
Definition hex_body (s : string) : string :=
  match s with
  | String "0" (String "x" t) => t
  | _ => s
  end.
