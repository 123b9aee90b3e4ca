(** Concrete cases for Prop_Hash.v and Prop_Trans.v.  [toyO] uses the big-endian integer of the message
    as "hash". *)
From Coq Require Import ZArith String Bool List Lia.
From Verif Require Import Params Go Curve Api FrOps Lib Steps Agg SpecHash SpecCurve P_Fr P_FrEx P_Str P_Hash P_Trans.
Import ListNotations.
Open Scope Z_scope.

Lemma ex21 : bigs [VInt 65; VBig 66] [65; 66] /\ bytes [65; 66] /\
  VerifyKeccak256 toyO Test [VInt 65; VBig 66] (map VBig (be_bytes 32 (65 * 256 + 66)) ++ [VBig 7]) s0 = Done (None, s0) /\
  VerifySha256 toyO Test [VInt 65; VBig 66] (map VBig (be_bytes 32 (65 * 256 + 66))) s0 = Done (None, s0).
Proof.
  split; [repeat constructor|]. split; [repeat constructor; lia|]. split; vm_compute; reflexivity.
Qed.
Lemma ex21_build : exprs [VExpr (EWire 0)] [EWire 0] /\ exprs (map VInt (be_bytes 32 7)) (map EConst (be_bytes 32 7)) /\
  length (map EConst (be_bytes 32 7)) = 32%nat /\ bytes (map (eval w0) [EWire 0]) /\
  map (eval w0) (firstn 32 (map EConst (be_bytes 32 7))) = keccak_bytes toyO (map (eval w0) [EWire 0]).
Proof.
  split; [repeat constructor|]. split; [generalize (be_bytes 32 7); intros l; induction l; constructor; auto|].
  split; [vm_compute; reflexivity|]. split; [|vm_compute; reflexivity].
  change (map (eval w0) [EWire 0]) with [7 mod r_mod]. repeat constructor; vm_compute; congruence.
Qed.
Lemma ex22 : VerifyInstanceHash toyO Test [VBig 5] s0 = Done ((VBig 5, None), s0) /\
  encoding [5 mod p_mod] = repeat 0 31 ++ [5].
Proof. split; vm_compute; reflexivity. Qed.
Lemma ex24 : PackUInt8Variables Test [VInt 1; VInt 2; VBig 3] s0 = Done (VBig 66051, s0) /\ pack [1; 2; 3] = 66051.
Proof. split; vm_compute; reflexivity. Qed.
Lemma ex35 : VerifyRangeCheck Test (VBig 20) (VInt 18) (VInt 65) s0 = Done (None, s0) /\
  VerifyNotZero Test (VBig 1) s0 = Done (None, s0).
Proof. split; vm_compute; reflexivity. Qed.
Lemma ex43 : to_bytes_run [5] (repeat (Some 0) 32) = Panicked "runtime error: index out of range".
Proof. reflexivity. Qed.

Lemma ex25 : exists ab, SqueezeChallenge toyO Test [VBig 1; VBig 2; VNil; VInt 9] 2 s0 =
  Done ((VBig (digest toyO (msg [1; 2]) mod r_mod), ab, None), s0) /\ msg [1; 2] = encoding [1; 2] ++ [0] /\
  digest toyO (msg [1; 2]) = 2 * 256 + 2 ^ 256 * 0.
Proof. eexists. vm_compute. repeat split. Qed.

Definition gens : list Z := concat (repeat [1; 2] 52).
Lemma ex26_points : all_points_ok gens.
Proof.
  intros i Hi. assert (H : Forall (fun j => nth j gens 0 = 1 /\ nth (j + 1) gens 0 = 2) point_slots).
  { apply Forall_forall. intros j Hj. unfold gens.
    assert (E : forallb (fun j => (nth j (concat (repeat [1; 2] 52)) 0 =? 1) && (nth (j + 1) (concat (repeat [1; 2] 52)) 0 =? 2)) point_slots = true)
      by (vm_compute; reflexivity).
    rewrite forallb_forall in E. apply E, andb_true_iff in Hj. rewrite !Z.eqb_eq in Hj. exact Hj. }
  rewrite Forall_forall in H. destruct (H i Hi) as [A B]. unfold ok_at. rewrite A, B. right. vm_compute. reflexivity.
Qed.
Lemma ex26_small : Forall small (firstn 102 gens) /\ length gens = 104%nat /\ Forall range256 (firstn 102 gens).
Proof.
  assert (A : Forall (fun z => 0 <= z < 2 ^ 256) (firstn 102 gens)).
  { apply Forall_forall. intros z Hz. assert (H : Forall (fun z => z = 1 \/ z = 2) (firstn 102 gens)) by
      (apply Forall_forall; intros j Hj; assert (E : forallb (fun z => (z =? 1) || (z =? 2)) (firstn 102 gens) = true)
         by (vm_compute; reflexivity);
       rewrite forallb_forall in E; apply E, orb_true_iff in Hj; rewrite !Z.eqb_eq in Hj; exact Hj).
    rewrite Forall_forall in H. destruct (H z Hz) as [-> | ->]; split; reflexivity || discriminate. }
  split; [|split; [reflexivity | exact A]]. revert A. apply Forall_impl. unfold small. lia.
Qed.
Lemma ex26 : forall O s, exists b, GetChallengesShPlonkCircuit O Test (VBig 1 :: VBig 2 :: repeat VNil 41) (map VBig gens) s =
  Done ((b, None), s).
Proof.
  intros O s. destruct ex26_small as (A & B & _).
  destruct (challenges_spec O Test (VBig 1 :: VBig 2 :: repeat VNil 41) 1 2 gens s eq_refl eq_refl) as (H & _);
    [cbn; lia | rewrite B; lia|].
  destruct H as (s' & E1 & E2); [exact ex26_points | reflexivity | reflexivity | exact A|].
  rewrite (E1 eq_refl) in E2. eexists. exact E2.
Qed.
Lemma ex28_bad : forall O s, exists b e s', GetChallengesShPlonkCircuit O Test (VBig 1 :: VBig 2 :: repeat VNil 41)
  (map VBig (firstn 103 gens ++ [3])) s = Done ((b, Some e), s').
Proof.
  intros O s. destruct ex26_small as (A & B & _).
  destruct (challenges_spec O Test (VBig 1 :: VBig 2 :: repeat VNil 41) 1 2 (firstn 103 gens ++ [3]) s eq_refl eq_refl) as (_ & H & _);
    [cbn; lia | rewrite app_length, firstn_length, B; cbn; lia|].
  apply H; [reflexivity | reflexivity | exact A|].
  intros C. specialize (C 102%nat ltac:(right; apply in_or_app; right; right; left; reflexivity)). unfold ok_at in C.
  change (nth 102 (firstn 103 gens ++ [3]) 0) with 1 in C. change (nth (102 + 1) (firstn 103 gens ++ [3]) 0) with 3 in C.
  destruct C as [[C _]|C]; vm_compute in C; discriminate.
Qed.
Lemma ex28_ok : all_points_ok gens /\ Forall small (firstn 102 gens) /\ length gens = 104%nat.
Proof. split; [exact ex26_points|]. destruct ex26_small as (A & B & _). auto. Qed.
Lemma ex27 : absorbed_before 0 = 16%nat /\ absorbed_before 4 = 44%nat /\ absorbed_before 7 = 102%nat /\
  Forall range256 (firstn 102 gens) /\ length gens = 104%nat.
Proof. destruct ex26_small as (A & B & C). repeat split; auto. Qed.
