(** Columns satisfying the statement of SpecPlonk.v, with a copy constraint between two columns, and columns violating
    only the copies or only the lookups. *)
From Coq Require Import ZArith Lia Bool List Permutation Ring Field.
From Verif Require Import Params NumThy FField FpField SpecVerify SpecPoly SpecRows SpecPlonk P_Fr P_Curve P_Dom P_VSpec P_Honest P_Shplonk P_Poly P_Open P_Rows P_Perm P_Plonk.
Import ListNotations.
Open Scope Z_scope.

(** cells of columns 0 and 1 are copies of each other *)
Definition px_sigma (k : nat) (j : Z) : nat * Z := (match k with 0%nat => 1%nat | 1%nat => 0%nat | k => k end, j).
Definition px_sigm (k : nat) : pol := [0%fr; fexp delta (Z.of_nat (fst (px_sigma k 0)))].
(** a0 a1 = 4 + v a1, column 5 is the limb in column 6, the table has entries (18, omega^j) *)
Definition px_adv (b c : Z) (i : nat) : pol := match i with
  | 0%nat => [fc 2] | 1%nat => [fc b] | 2%nat => [fc 3] | 5%nat => [0%fr; fc 1] | 6%nat => [0%fr; fc 1] | 7%nat => [fc c] | _ => [] end.
Definition px_fixd (v : Z) (i : nat) : pol := match i with
  | 0%nat => [fc (- 4)] | 3%nat => [fc (- v)] | 7%nat => [fc 1] | 9%nat => [fc 18] | 10%nat => [fc 18] | 11%nat => [0%fr; fc 1] | 12%nat => [fc 1] | _ => [] end.
Definition px_inst : pol := [fc 7].

Lemma fc_zero (a : Z) : a mod r_mod = 0 -> fc a = 0%fr.
Proof. intros H. apply phi_eq_iff. exact H. Qed.
Lemma fc_neq_1_0 : ~ In (fc 1) [0%fr; fc 2; fc 3].
Proof. intros [E|[E|[E|[]]]]; apply phi_eq_iff in E; revert E; vm_compute; discriminate. Qed.
Lemma one_fc : 1%fr = fc 1. Proof. reflexivity. Qed.
Local Opaque p_mod r_mod phi fmul fadd fsub fopp fdiv finv rot fzpow fexp omega delta dom_n.
Lemma peval_1 c X : peval [c] X = c. Proof. cbn [peval fold_right]. ring. Qed.
Lemma peval_X c X : peval [0%fr; c] X = (c * X)%fr. Proof. cbn [peval fold_right]. ring. Qed.

Lemma px_encodes : encodes_sigma px_sigm px_sigma.
Proof.
  intros k j Hk Hj. split; [|split; [exact Hj|]].
  - do 7 (destruct k as [|k]; [cbn; lia|]). lia.
  - unfold value, px_sigm. rewrite peval_X. reflexivity.
Qed.
Lemma px_permutes : permutes px_sigma.
Proof.
  intros k j k' j' _ _ _ _ E. unfold px_sigma in E. apply pair_equal_spec in E. destruct E as [E ->]. split; [|reflexivity].
  destruct k as [|[|k]], k' as [|[|k']]; congruence.
Qed.
Lemma px_gates b c v j : (- 4 - v * b + 2 * b) mod r_mod = 0 -> gates_hold (px_adv b c) (px_fixd v) j.
Proof.
  intros H. unfold gates_hold. cbv zeta. unfold value. cbn [px_adv px_fixd]. rewrite ?peval_1, ?peval_nil, ?peval_X. split; [|split; [|split]].
  - transitivity (fc (- 4 - v * b + 2 * b)); [|apply fc_zero, H]. rewrite !phi_add, phi_sub, !phi_mul, phi_opp. rewrite <- one_fc. ring.
  - intros _. cbn [length seq combine map]. change (Z.of_nat 0) with 0. change (2 ^ (18 * 0)) with 1. rewrite <- one_fc. unfold SpecVerify.sum. cbn [fold_right]. ring.
  - intros K. exfalso. apply K. right. left. reflexivity.
  - intros K. exfalso. apply K. right. left. reflexivity.
Qed.
Lemma px_in_table v j : usable j -> in_table (px_fixd v) (fc 18) (fexp omega j).
Proof.
  intros Hj. exists j. split; [exact Hj|]. unfold value. cbn [px_fixd]. rewrite peval_1, peval_X, <- one_fc. split; [reflexivity|ring].
Qed.
Lemma px_lookup1 b c v j : usable j -> in_table (px_fixd v) (value (px_fixd v 9) j) (value (px_adv b c 6) j).
Proof.
  intros Hj. replace (value (px_fixd v 9) j) with (fc 18) by (unfold value; cbn [px_fixd]; rewrite peval_1; reflexivity).
  replace (value (px_adv b c 6) j) with (fexp omega j) by (unfold value; cbn [px_adv]; rewrite peval_X, <- one_fc; ring). apply px_in_table, Hj.
Qed.

(** all constraints hold *)
Lemma px_ok : satisfies px_inst (px_adv 2 1) (px_fixd 0) px_sigma.
Proof.
  split; [|split].
  - intros j _. apply px_gates. reflexivity.
  - intros k j Hk _. do 7 (destruct k as [|k]; [reflexivity|]). lia.
  - intros j Hj. split; [apply px_lookup1, Hj|]. replace (value (px_adv 2 1 7) j) with (fexp omega 0) by (unfold value; cbn [px_adv]; rewrite peval_1, fexp_0; reflexivity).
    apply px_in_table. unfold usable. pose proof dom_6. lia.
Qed.
(** the gates and lookups hold, column 1 is not a copy of column 0 *)
Lemma px_copy_bad : (forall j, gates_hold (px_adv 1 1) (px_fixd (- 2)) j) /\ ~ satisfies px_inst (px_adv 1 1) (px_fixd (- 2)) px_sigma.
Proof.
  split; [intros j; apply px_gates; reflexivity|]. intros (_ & C & _). specialize (C 0%nat 0 ltac:(lia) ltac:(unfold usable; pose proof dom_6; lia)).
  unfold value, copied in C. cbn [nth px_adv px_sigma fst] in C. rewrite !peval_1 in C. apply phi_eq_iff in C. discriminate.
Qed.
(** column 7 is not in the table *)
Lemma px_lookup_bad : (forall j, gates_hold (px_adv 2 0) (px_fixd 0) j) /\ ~ satisfies px_inst (px_adv 2 0) (px_fixd 0) px_sigma.
Proof.
  split; [intros j; apply px_gates; reflexivity|]. intros (_ & _ & C). destruct (C 0 ltac:(unfold usable; pose proof dom_6; lia)) as [_ (i & Hi & _ & E)].
  unfold value in E. cbn [px_adv px_fixd] in E. rewrite peval_1, peval_X in E. unfold usable in Hi.
  assert (K : (fc 1 * fexp omega i)%fr <> 0%fr).
  { apply mul_nz; [exact fr_1_0|]. apply fexp_nz; [lia|]. intros W. pose proof omega_n as ON. rewrite W in ON. rewrite fexp_zero in ON by (pose proof dom_6; lia). exact (fr_1_0 (eq_sym ON)). }
  apply K. rewrite <- E. reflexivity.
Qed.
Lemma px_lengths : (length px_inst <= Z.to_nat dom_n)%nat /\ (forall b c i, (length (px_adv b c i) <= Z.to_nat dom_n)%nat) /\
  (forall v i, (length (px_fixd v i) <= Z.to_nat dom_n)%nat) /\ (forall i, (length (px_sigm i) <= Z.to_nat dom_n)%nat).
Proof.
  assert (B : (2 <= Z.to_nat dom_n)%nat) by (pose proof dom_6; lia).
  assert (B1 : (1 <= Z.to_nat dom_n)%nat) by lia. assert (B0 : (0 <= Z.to_nat dom_n)%nat) by apply Nat.le_0_l.
  split; [exact B1|]. split; [|split].
  - intros b c i. do 8 (destruct i as [|i]; [first [exact B0|exact B1|exact B]|]). exact B0.
  - intros v i. do 13 (destruct i as [|i]; [first [exact B0|exact B1|exact B]|]). exact B0.
  - intros i. exact B.
Qed.
