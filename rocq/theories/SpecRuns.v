(** Histories: the same legacy circuit value run several times, each run starting from the operand
    the previous one left behind. *)
From Coq Require Import ZArith Bool List.
From Verif Require Import Params Go Curve Api FrOps Lib.
Open Scope Z_scope.

Fixpoint runs_msm (n : nat) (g : Z * Z) (k : Z) (res : Z * Z) : M (Z * Z) :=
  match n with
  | O => ret g
  | S m => '(g', _) <- VerifyBN256Msm Test g k res ;; runs_msm m g' k res
  end.
Fixpoint runs_add (n : nat) (g h : Z * Z) (res : Z * Z) : M (Z * Z) :=
  match n with
  | O => ret g
  | S m => '(g', _) <- VerifyBN256Add Test g h res ;; runs_add m g' h res
  end.
