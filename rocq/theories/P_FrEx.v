(** Concrete cases for the theorems of Prop_Fr.v and Prop_Str.v. *)
From Coq Require Import ZArith String Bool List Lia.
From Verif Require Import Params Go Curve Api FrOps Lib P_Fr SpecText P_Str.
Import ListNotations.
Open Scope Z_scope.

Definition s0 : cs := mk_cs 3 [CEq (EWire 0) (EConst 7)] [].
Definition w0 : asg := {| aw := fun i => nth i [7; 5; 11; 99; 7; 0] 0; ae := fun _ => 0 |}.

(** run the builder, then check each constraint by computation *)
Ltac run_sat := match goal with
  |- match ?m with _ => _ end => let x := eval vm_compute in m in change m with x; cbv beta iota end;
  unfold sat; cbn [cs_cons]; repeat (apply Forall_cons; [cbn [sat1]; vm_compute; reflexivity|]); apply Forall_nil.

Lemma ex01 : (0 <= 12345 < r_mod) /\ ~ (0 <= r_mod < r_mod) /\ ~ (0 <= -1 < r_mod).
Proof. split; [split; [lia | reflexivity] | split; lia]. Qed.

Lemma ex02 : to_expr (VExpr (EMul (EWire 0) (EWire 1))) = Done (EMul (EWire 0) (EWire 1)) /\
  wires_lt (cs_next s0) (EMul (EWire 0) (EWire 1)).
Proof. split; [reflexivity | cbn; lia]. Qed.

(** a satisfied system: wires 3 (free quotient 99) and 4 are the hint outputs of mod on wire 0 *)
Lemma ex02_sat O : match mod_ Build (VExpr (EWire 0)) s0 with
  | Done (_, s') => sat O w0 s' | Panicked _ => False end.
Proof. run_sat. Qed.

Lemma ex03 : to_big (VBig (r_mod + 4)) = Done (r_mod + 4) /\ to_big (VBig (-9)) = Done (-9) /\
  fr_mul Test (VBig (r_mod + 4)) (VBig (-9)) s0 = Done (VBig (r_mod - 36), s0).
Proof. repeat split; vm_compute; reflexivity. Qed.

Lemma ex04 O : match fr_mul Build (VExpr (EWire 0)) (VExpr (EWire 1)) s0 with
  | Done (v, s') => sat O {| aw := fun i => nth i [7; 5; 11; 99; 35] 0; ae := fun _ => 0 |} s'
  | Panicked _ => False end.
Proof. run_sat. Qed.

Lemma ex05 : fr_pow Test (VBig 3) (VBig 5) s0 = Done (VBig 243, s0) /\
  fr_pow Test (VBig 3) (VBig 0) s0 = Done (VBig 3, s0).
Proof. split; vm_compute; reflexivity. Qed.

Lemma ex05_build O : match fr_pow Build (VExpr (EWire 0)) (VBig 3) s0 with
  | Done (v, s') => sat O {| aw := fun i => nth i [7; 5; 11; 99; 343] 0; ae := fun _ => 0 |} s'
  | Panicked _ => False end.
Proof. run_sat. Qed.

(** 7 / 3 in the field: the quotient is (7 + r * q) / 3 for the right q *)
Definition seven_thirds : Z := (7 * inv_mod r_mod 3) mod r_mod.
Lemma ex06 : 3 mod r_mod <> 0 /\
  fr_div Test (VBig 7) (VBig 3) (VBig seven_thirds) s0 = Done (VBig seven_thirds, s0).
Proof. split; [vm_compute; discriminate | vm_compute; reflexivity]. Qed.

Lemma ex06_build O : match fr_div Build (VExpr (EConst 35)) (VExpr (EWire 0)) (VExpr (EWire 1)) s0 with
  | Done (v, s') => sat O {| aw := fun i => nth i [7; 5; 11; 99; 35; 98; 5] 0; ae := fun _ => 0 |} s'
  | Panicked _ => False end.
Proof. run_sat. Qed.

Lemma ex07 : fr_mul_neg Test (VBig 6) (VBig 7) s0 = Done (VBig (r_mod - 42), s0) /\
  fr_mul_neg Test (VBig 0) (VBig 7) s0 = Done (VBig r_mod, s0).
Proof. split; vm_compute; reflexivity. Qed.

Lemma ex08 : mod_hint_run [-5] [Some 0; Some 0] = Done (None, [Some (-1); Some (r_mod - 5)]).
Proof. vm_compute. reflexivity. Qed.

Lemma ex09 : fr_from_string "-0042" = VBig (-42) /\ fr_from_string "12x" = VBigNil /\
  decimal_numeral "-0042" /\ ~ decimal_numeral "12x".
Proof.
  split; [reflexivity|]. split; [reflexivity|]. split.
  - exists "-"%string, "0042"%string. repeat split; auto; [discriminate|].
    cbn. repeat constructor; cbn; tauto.
  - apply c09_numeral. reflexivity.
Qed.

Lemma ex10 : hexToDecimalString "0xfF01" = inl "65281"%string /\ (exists e, hexToDecimalString "0xf" = inr e) /\
  extractAndConvert (bn256_string (Aff 1 2)) = ("1"%string, "2"%string, None).
Proof. split; [reflexivity|]. split; [eexists; reflexivity | vm_compute; reflexivity]. Qed.
