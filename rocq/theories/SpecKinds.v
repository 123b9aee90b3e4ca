(** Value kinds (C19). *)
From Verif Require Import Go.

(** values from which gnark-crypto makes a field element: a number, a parsable string, a field element *)
Definition fp_kind (v : var) : Prop :=
  match v with
  | VBig _ | VInt _ | VStr (Some _) | VFp _ => True
  | _ => False
  end.
