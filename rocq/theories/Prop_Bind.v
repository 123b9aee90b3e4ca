(** What the last challenge of an accepted run determines: C73. *)
From Coq Require Import ZArith Bool List.
From Verif Require Import Params Go Curve Api FrOps Lib Steps Agg FField FpField SpecCurve SpecHash SpecMisc SpecVerify SpecExact SpecRows SpecBind
  P_RunEx P_CircuitEx P_EvalMod P_Bind P_BindEx.
Import ListNotations.
Open Scope Z_scope.

(** C73: two accepted inputs with the same last challenge have the same public inputs (modulo p), the same
    absorbed points and, up to sign, the same evaluations - or the two transcripts hash different messages with
    the same digest, or the two public inputs collide under Keccak modulo r *)
Theorem C73_last_challenge_binds : forall (O : oracles) c c' (zs zs' T T' A A' : list Z) (s s1 s' s1' : cs) (ix iy ix' iy' : Z),
  TargetInst c ++ VerifyInst c = map VBig zs -> Proof_ c = map VBig T -> Aux c = map VBig A ->
  TargetInst c' ++ VerifyInst c' = map VBig zs' -> Proof_ c' = map VBig T' -> Aux c' = map VBig A' ->
  degen_sane O -> instance_commitment O zs ix iy -> instance_commitment O zs' ix' iy' ->
  Define O Test c s = Done (None, s1) -> Define O Test c' s' = Done (None, s1') ->
  nth 7 (transcript_values O ix iy T) 0 = nth 7 (transcript_values O ix' iy' T') 0 ->
  (map (fun z => z mod p_mod) zs = map (fun z => z mod p_mod) zs' /\
   (forall i, point_word i -> nth i T 0 = nth i T' 0) /\
   (forall i, (44 <= i < 100)%nat -> Z.abs (nth i T 0) = Z.abs (nth i T' 0))) \/
  transcript_collision O ix iy T ix' iy' T' \/
  keccak_collision_mod_r O (instance_message zs) (instance_message zs').
Proof. exact c73. Qed.
Print Assumptions C73_last_challenge_binds.
(** with canonical public inputs, non-negative evaluations and the pairing of a trapdoor the whole input is
    determined, including the point that is not absorbed and the helper words *)
Theorem C73_whole_input_determined : forall (O : oracles) c c' (zs zs' T T' A A' : list Z) (s s1 s' s1' : cs) (tau : Fr) (ix iy ix' iy' : Z),
  TargetInst c ++ VerifyInst c = map VBig zs -> Proof_ c = map VBig T -> Aux c = map VBig A ->
  TargetInst c' ++ VerifyInst c' = map VBig zs' -> Proof_ c' = map VBig T' -> Aux c' = map VBig A' ->
  length T = 104%nat -> length T' = 104%nat ->
  Forall (fun z => 0 <= z < p_mod) zs -> Forall (fun z => 0 <= z < p_mod) zs' ->
  (forall i, (44 <= i < 100)%nat -> 0 <= nth i T 0 /\ 0 <= nth i T' 0) ->
  degen_sane O -> kzg_pairing O g20_const g21_const tau ->
  instance_commitment O zs ix iy -> instance_commitment O zs' ix' iy' ->
  fexp (fc (nth 4 (transcript_values O ix iy T) 0)) dom_n <> 1%fr -> fc (nth 7 (transcript_values O ix iy T) 0) <> tau ->
  Define O Test c s = Done (None, s1) -> Define O Test c' s' = Done (None, s1') ->
  nth 7 (transcript_values O ix iy T) 0 = nth 7 (transcript_values O ix' iy' T') 0 ->
  (zs = zs' /\ T = T' /\ forall i, (i < 21)%nat -> nth i A 0 = nth i A' 0) \/
  transcript_collision O ix iy T ix' iy' T' \/
  keccak_collision_mod_r O (instance_message zs) (instance_message zs').
Proof. exact c73_whole. Qed.
Print Assumptions C73_whole_input_determined.
(** the sign of a word is not absorbed, so the challenges do not bind the evaluations modulo r *)
Theorem C73_sign_not_absorbed : forall (O : oracles) (x y : Z) (T : list Z) (i : nat),
  transcript_values O x y (flip i T) = transcript_values O x y T.
Proof. exact c73_sign. Qed.
Print Assumptions C73_sign_not_absorbed.
Theorem C73_transcript_binds_evaluations_refuted : ~ (forall (O : oracles) (x y : Z) (T T' : list Z),
  Forall small T -> Forall small T' -> length T = 104%nat -> length T' = 104%nat ->
  transcript_values O x y T = transcript_values O x y T' ->
  (forall i, (i < 102)%nat -> nth i T 0 mod r_mod = nth i T' 0 mod r_mod) \/ transcript_collision O x y T x y T').
Proof. exact c73_sign_refuted. Qed.
Print Assumptions C73_transcript_binds_evaluations_refuted.
(** two different accepted proofs with the same challenges, under an oracle with collisions *)
Example C73_case : forall s, (exists s', Define run_O Test run_circuit s = Done (None, s')) /\
  (exists s', Define run_O Test shift_circuit s = Done (None, s')) /\
  transcript_values run_O rlx rly run_proof = transcript_values run_O rlx rly shift45 /\
  Z.abs (nth 45 run_proof 0) <> Z.abs (nth 45 shift45 0) /\
  transcript_collision run_O rlx rly run_proof rlx rly shift45.
Proof. exact bind_case. Qed.
Print Assumptions C73_case.
Example C73_whole_case : forall s, exists tau, let O := run_Op (kzg_check tau) in
  kzg_pairing O g20_const g21_const tau /\ degen_sane O /\ length run_proof = 104%nat /\ Forall (fun z => 0 <= z < p_mod) [7] /\
  (forall i, (44 <= i < 100)%nat -> 0 <= nth i run_proof 0) /\ instance_commitment O [7] rlx rly /\
  fexp (fc (nth 4 (transcript_values O rlx rly run_proof) 0)) dom_n <> 1%fr /\
  fc (nth 7 (transcript_values O rlx rly run_proof) 0) <> tau /\ Define O Test run_circuit s = Done (None, s).
Proof. exact whole_case. Qed.
Print Assumptions C73_whole_case.
Example C73_sign_case : flip 1 [5; 6; 7] = [5; -6; 7].
Proof. exact eq_refl. Qed.
Print Assumptions C73_sign_case.
