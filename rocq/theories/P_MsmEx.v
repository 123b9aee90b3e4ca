(** Concrete cases for Prop_Curve.v. *)
From Coq Require Import ZArith String Bool List Lia.
From Verif Require Import Params Go Curve Api FrOps Lib SpecCurve SpecRuns P_Fr P_FrEx P_Curve P_Msm.
Import ListNotations.
Open Scope Z_scope.

Definition triple_x : Z := 3353031288059533942658390886683067124040920775575537747144343083137631628272.
Definition triple_y : Z := 19321533766552368860946552437480515441416830039777911637913418824951667761761.
Definition double_x : Z := 1368015179489954701390400359078579693043519447331113978918064868415326638035.
Definition double_y : Z := 9918110051302171585080402603319702774565515993150576347155970296011118125764.

Lemma gen_encodes : encodes 1 2 (Aff 1 2).
Proof.
  right. split; [split; [discriminate | reflexivity]|]. split; [split; [discriminate | reflexivity]|].
  split; [vm_compute; reflexivity | reflexivity].
Qed.

Lemma gen3 : pmul 3 (Aff 1 2) = Aff triple_x triple_y. Proof. vm_compute. reflexivity. Qed.
Lemma gen2 : padd (Aff 1 2) (Aff 1 2) = Aff double_x double_y. Proof. vm_compute. reflexivity. Qed.

Lemma ex11 : encodes 1 2 (Aff 1 2) /\ encodes 0 0 Inf /\ ~ (exists P, encodes 1 3 P) /\
  msm_hint_run [1; 2; 3] [Some 0; Some 0] = Done (None, [Some triple_x; Some triple_y]) /\
  msm_hint_run [1; 2; 0] [Some 0; Some 0] = Done (None, [Some 0; Some 1]).
Proof.
  split; [exact gen_encodes|]. split; [left; auto|]. split.
  - intros [P [(H & _)|(_ & _ & H & _)]]; [discriminate|]. vm_compute in H. discriminate.
  - split; (rewrite (c11_ok _ _ _ (Aff 1 2)) by exact gen_encodes).
    + rewrite gen3. reflexivity.
    + reflexivity.
Qed.

Lemma ex12 : add_hint_run [1; 2; 1; 2] [Some 0; Some 0] = Done (None, [Some double_x; Some double_y]).
Proof. rewrite (c12_ok _ _ _ _ (Aff 1 2) (Aff 1 2)) by exact gen_encodes. rewrite gen2. reflexivity. Qed.

Lemma ex13 : encodes 1 2 (Aff 1 2) /\ 0 <= 3 < p_mod /\ 3 mod r_mod <> 0 /\
  forall O s, CalcVerifyBN256Msm O Test (VBig 1) (VBig 2) (VBig 3) s =
    Done (((VBig triple_x, VBig triple_y), None), s).
Proof.
  assert (K1 : 0 <= 3 < p_mod) by (split; [discriminate | reflexivity]).
  assert (K2 : 3 mod r_mod <> 0) by (vm_compute; discriminate).
  split; [exact gen_encodes|]. split; [exact K1|]. split; [exact K2|]. intros O s.
  apply (c14 O 1 2 3 s gen_encodes K1 K2 _ _ gen3). split; reflexivity.
Qed.

Lemma ex15 : forall s, CalcVerifyBN256Add Test (VBig 1) (VBig 2) (VBig 1) (VBig 2) s =
    Done (((VBig double_x, VBig double_y), None), s).
Proof.
  intros s.
  assert (A : ~ add_degenerate (Aff 1 2) (Aff 1 2) /\
    exists X Y, padd (Aff 1 2) (Aff 1 2) = Aff X Y /\ 0 <= X < r_mod /\ 0 <= Y < r_mod).
  { split.
    - intros (a & b & c & d & E1 & E2 & N & _). injection E1 as <- <-. injection E2 as <- <-. contradiction.
    - exists double_x, double_y. split; [exact gen2|]. split; (split; [discriminate | reflexivity]). }
  apply (c16 1 2 1 2 _ _ s gen_encodes gen_encodes) in A. destruct A as [[[[vx vy] e] s'] A]. rewrite A.
  destruct (c15 1 2 1 2 vx vy e s s' ltac:(lia) ltac:(lia) ltac:(lia) ltac:(lia) A)
    as (-> & -> & P & Q & X & Y & EP & EQ & ES & -> & -> & _).
  destruct EP as [(H & _)|(_ & _ & _ & ->)]; [discriminate|].
  destruct EQ as [(H & _)|(_ & _ & _ & ->)]; [discriminate|].
  rewrite gen2 in ES. injection ES as <- <-. reflexivity.
Qed.

(** a degenerate pair: equal x^3, opposite ordinates; beta is a primitive cube root of unity mod p *)
Definition beta : Z := 2203960485148121921418603742825762020974279258880205651966.
Lemma ex16 : encodes beta (p_mod - 2) (Aff beta (p_mod - 2)) /\
  add_degenerate (Aff 1 2) (Aff beta (p_mod - 2)).
Proof.
  split.
  - right. split; [split; [discriminate | reflexivity]|]. split; [split; [discriminate | reflexivity]|].
    split; [vm_compute; reflexivity | reflexivity].
  - exists 1, 2, beta, (p_mod - 2). split; [reflexivity|]. split; [reflexivity|].
    split; [discriminate | vm_compute; reflexivity].
Qed.

Lemma ex17 : exists r, VerifyBN256Msm Test (1, 2) 3 (triple_x, triple_y) s0 = Done r.
Proof. apply c17_msm. change (of_coords0 (1, 2)) with (Aff 1 2). rewrite gen3. split; reflexivity. Qed.

Lemma ex19 : pmul 1 (Aff 1 (p_mod - 2)) = Aff 1 (p_mod - 2) /\
  (p_mod - 2) mod r_mod = p_mod - 2 - r_mod /\ ~ curve_or_zero 1 (p_mod - 2 - r_mod).
Proof.
  split; [apply pmul_1|]. split; [vm_compute; reflexivity|].
  unfold curve_or_zero. vm_compute. intros [[H _]|H]; discriminate.
Qed.

Lemma ex20 : curve_or_zero (1 + p_mod) (-2) /\ curve_or_zero 0 p_mod /\ ~ curve_or_zero 1 3 /\
  (exists e, fp_set_interface (VExpr (EWire 0)) = inr e) /\ (exists e, fp_set_interface (VFr 5) = inr e).
Proof.
  unfold curve_or_zero. split; [right; vm_compute; reflexivity|]. split; [left; split; vm_compute; reflexivity|].
  split; [|split; eexists; reflexivity]. vm_compute. intros [[H _]|H]; discriminate.
Qed.
