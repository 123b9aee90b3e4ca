(** [ring]/[field] on Z/p and Z/r, and translation from modular arithmetic on Z. *)
From Coq Require Import ZArith Znumtheory Lia Bool Ring Field.
From Verif Require Import Params NumThy FField.
Open Scope Z_scope.

Ltac Zcst t :=
  match t with
  | Z0 => true
  | Zpos ?p => Pcst p
  | Zneg ?p => Pcst p
  | _ => false
  end
with Pcst p :=
  match p with
  | xH => true
  | xO ?q => Pcst q
  | xI ?q => Pcst q
  | _ => false
  end.

Ltac phi_cst t :=
  match t with
  | phi _ _ ?z => match Zcst z with true => z | false => constr:(InitialRing.NotConstant) end
  | fzero _ _ => constr:(0)
  | fone _ _ => constr:(1)
  | _ => constr:(InitialRing.NotConstant)
  end.

(** Z/p *)
Notation Fp := (F p_mod).
Definition fp_ring := F_ring p_mod p_gt1.
Definition fp_field := F_field p_mod p_gt1 prime_p.
Definition fp_morph := phi_morph p_mod p_gt1.

Declare Scope fp_scope.
Delimit Scope fp_scope with fp.
Notation "a + b" := (fadd p_mod p_gt1 a b) : fp_scope.
Notation "a - b" := (fsub p_mod p_gt1 a b) : fp_scope.
Notation "a * b" := (fmul p_mod p_gt1 a b) : fp_scope.
Notation "a / b" := (fdiv p_mod p_gt1 a b) : fp_scope.
Notation "- a" := (fopp p_mod p_gt1 a) : fp_scope.
Notation "0" := (fzero p_mod p_gt1) : fp_scope.
Notation "1" := (fone p_mod p_gt1) : fp_scope.
Notation fq := (phi p_mod p_gt1).
Notation fpinv := (finv p_mod p_gt1).

Add Field Fp_field : fp_field (morphism fp_morph, constants [phi_cst]).

(** Z/r *)
Notation Fr := (F r_mod).
Definition fr_ring := F_ring r_mod r_gt1.
Definition fr_field := F_field r_mod r_gt1 prime_r.
Definition fr_morph := phi_morph r_mod r_gt1.

Declare Scope fr_scope.
Delimit Scope fr_scope with fr.
Notation "a + b" := (fadd r_mod r_gt1 a b) : fr_scope.
Notation "a - b" := (fsub r_mod r_gt1 a b) : fr_scope.
Notation "a * b" := (fmul r_mod r_gt1 a b) : fr_scope.
Notation "a / b" := (fdiv r_mod r_gt1 a b) : fr_scope.
Notation "- a" := (fopp r_mod r_gt1 a) : fr_scope.
Notation "0" := (fzero r_mod r_gt1) : fr_scope.
Notation "1" := (fone r_mod r_gt1) : fr_scope.
Notation fc := (phi r_mod r_gt1).
Notation frinv := (finv r_mod r_gt1).

Add Field Fr_field : fr_field (morphism fr_morph, constants [phi_cst]).


Section Test_setup.
  Open Scope fp_scope.
  Lemma ring_works (a b : Fp) : (a + fq 2 * b) * (a - b) = a * a + fq 3 * (a * b) - fq 2 * (b * b) - fq 2 * (a * b).
  Proof. ring. Qed.
  Lemma field_works (a b : Fp) : b <> 0 -> a / b + fq 2 = (a + fq 2 * b) / b.
  Proof. intros. field. assumption. Qed.
End Test_setup.
