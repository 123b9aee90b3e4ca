(** The hard-coded keys are points of their curves. *)
From Coq Require Import ZArith String Bool List Lia.
From Verif Require Import Params Go Curve Api FrOps Lib Steps Agg SpecCurve SpecHash SpecMisc SpecVerify SpecKeys P_Curve P_Misc P_Kyc P_FrEx P_MsmEx P_MiscEx.
Import ListNotations.
Open Scope Z_scope.

Definition secpb (x y : Z) : bool :=
  (0 <=? x) && (x <? secp_p) && (0 <=? y) && (y <? secp_p) && ((y * y) mod secp_p =? (x * x * x + 7) mod secp_p).
Lemma secpb_ok x y : secpb x y = true -> on_secp x y.
Proof. unfold secpb, on_secp. rewrite !andb_true_iff, !Z.leb_le, !Z.ltb_lt, Z.eqb_eq. tauto. Qed.
Lemma kyc_key_ok : on_secp kyc_pub_x kyc_pub_y.
Proof. apply secpb_ok. vm_compute. reflexivity. Qed.

Lemma kyc_test_key O c s s1 : KycDefine O Test c s = Done (None, s1) ->
  exists h r' s', kyc_hash c = EmConst h /\ kyc_sig c = (EmConst r', EmConst s') /\ o_ecdsa O kyc_pub_x kyc_pub_y h r' s' = true.
Proof.
  unfold KycDefine, ecdsa_verify, bind. destruct (kyc_hash c) as [h|]; [|discriminate].
  destruct (kyc_sig c) as [[a|] [b|]]; cbn [fst snd]; try discriminate.
  destruct (o_ecdsa O kyc_pub_x kyc_pub_y h a b) eqn:E; [|discriminate].
  intros _. exists h, a, b. auto.
Qed.
Lemma c59_kyc : exists px py, on_secp px py /\
  (forall O c s s1, KycDefine O Test c s = Done (None, s1) ->
     exists h r' s', kyc_hash c = EmConst h /\ kyc_sig c = (EmConst r', EmConst s') /\ o_ecdsa O px py h r' s' = true) /\
  (forall O n m l S w, compile_kyc O n m l = inl S -> sat O w S -> o_ecdsa O px py (ae w 2%nat) (ae w 0%nat) (ae w 1%nat) = true).
Proof.
  exists kyc_pub_x, kyc_pub_y. split; [exact kyc_key_ok|]. split; [exact kyc_test_key|].
  intros O n m l S w E H. destruct (kyc_shape_build O n m l) as (S' & E' & H1 & _). rewrite E in E'. injection E' as <-.
  exact (proj1 (H1 w H)).
Qed.

Definition g1b (P : Z * Z) : bool :=
  (0 <=? fst P) && (fst P <? p_mod) && (0 <=? snd P) && (snd P <? p_mod) &&
  ((snd P * snd P) mod p_mod =? (fst P * fst P * fst P + 3) mod p_mod).
Lemma g1b_ok P : g1b P = true -> on_g1 P.
Proof. unfold g1b, on_g1. rewrite !andb_true_iff, !Z.leb_le, !Z.ltb_lt, Z.eqb_eq. tauto. Qed.
Lemma g1bs_ok l : forallb g1b l = true -> Forall on_g1 l.
Proof. intros H. apply Forall_forall. intros P HP. apply g1b_ok. rewrite forallb_forall in H. exact (H P HP). Qed.
Definition pairb (P Q : Z * Z) : bool := (fst P =? fst Q) && (snd P =? snd Q).
Fixpoint distinctb (l : list (Z * Z)) : bool :=
  match l with [] => true | P :: t => negb (existsb (pairb P) t) && distinctb t end.
Lemma distinctb_ok l : distinctb l = true -> NoDup l.
Proof.
  induction l as [|P t IH]; cbn [distinctb]; [constructor|]. rewrite andb_true_iff, negb_true_iff. intros [A B].
  constructor; [|exact (IH B)]. intros HI.
  assert (C : existsb (pairb P) t = true) by (apply existsb_exists; exists P; split; [exact HI | unfold pairb; rewrite !Z.eqb_refl; reflexivity]).
  congruence.
Qed.
Definition lits : list (Z * Z) := literals (prog1 ++ prog2 ++ prog3).
Lemma c59_g1 : NoDup (literals (prog1 ++ prog2 ++ prog3)) /\ Forall on_g1 (literals (prog1 ++ prog2 ++ prog3)) /\
  length (literals (prog1 ++ prog2 ++ prog3)) = 21%nat /\ on_g1 (lagrange_x, lagrange_y).
Proof.
  change (literals (prog1 ++ prog2 ++ prog3)) with lits.
  split; [apply distinctb_ok; vm_compute; reflexivity|]. split; [apply g1bs_ok; vm_compute; reflexivity|].
  split; [vm_compute; reflexivity|]. apply g1b_ok. vm_compute. reflexivity.
Qed.

Lemma ex59 : KycDefine plainO Test kyc_example s0 = Done (None, s0) /\ ~ on_secp kyc_pub_x (kyc_pub_y + 1) /\ ~ on_g1 (lagrange_x, lagrange_y + 1) /\
  nth_error (literals (prog1 ++ prog2 ++ prog3)) 0 = Some (1, p_mod - 2).
Proof.
  split; [exact (proj1 ex41)|]. split; [intros (_ & _ & C); revert C; vm_compute; discriminate|].
  split; [intros (_ & _ & C); revert C; vm_compute; discriminate|]. vm_compute. reflexivity.
Qed.
