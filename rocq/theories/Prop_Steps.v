(** The verification statements VerifyProof1..3: C29-C31, C33, C45, C47.  The verifier (domain, constraint expressions,
    quotient, rotation sets, opening, commitment terms, helper values) is defined in SpecVerify.v, [lin_comb] in
    SpecCurve.v.  Challenges theta, beta, gamma, y, x, y', v, u sit in slots 2..9 of the buffer. *)
From Coq Require Import ZArith String Bool List Permutation.
From Verif Require Import Params Go Curve Api FrOps Lib Steps FField FpField SpecCurve SpecMisc SpecVerify
  P_Step P_Exec P_Dom P_Eval P_VSpec P_Acc P_StepsEx P_Complete P_Final P_RunEx.
Import ListNotations.
Open Scope Z_scope.

(** C29 *)
Theorem C29_opening : forall (O : oracles) (T A B : list Z) (s s1 s2 : cs) b1 b2,
  length B = 43%nat -> (forall j, (2 <= j < 10)%nat -> 0 <= nth j B 0 < r_mod) ->
  VerifyProof1 O Test (map VBig T) (map VBig A) (map VBig B) s = Done ((b1, None), s1) ->
  VerifyProof2 O Test (map VBig T) (map VBig A) b1 s1 = Done ((b2, None), s2) ->
  let x := fc (nth 6 B 0) in let yy := fc (nth 7 B 0) in let v := fc (nth 8 B 0) in let u := fc (nth 9 B 0) in
  forall ic, nth_error b2 18 = Some (VBig (val (opening yy v x u (queries T ic (fc (nth 16 A 0)) x)))).
Proof. exact c29_gen. Qed.
Print Assumptions C29_opening.

(** C30 *)
Theorem C30_quotient : forall (O : oracles) (T A B : list Z) (s s1 s2 : cs) b1 b2,
  length B = 43%nat -> (forall j, (2 <= j < 10)%nat -> 0 <= nth j B 0 < r_mod) ->
  VerifyProof1 O Test (map VBig T) (map VBig A) (map VBig B) s = Done ((b1, None), s1) ->
  VerifyProof2 O Test (map VBig T) (map VBig A) b1 s1 = Done ((b2, None), s2) ->
  fexp (fc (nth 6 B 0)) dom_n <> 1%fr ->
  nth 16 A 0 = val (quotient (word T) (fc (nth 2 B 0)) (fc (nth 3 B 0)) (fc (nth 4 B 0)) (fc (nth 6 B 0)) (fc (nth 5 B 0))).
Proof. exact c30_gen. Qed.
Print Assumptions C30_quotient.

(** C31 *)
Theorem C31_accumulator : forall (O : oracles) (T A B : list Z) (s s1 s2 s3 : cs) b1 b2 b3,
  length B = 43%nat -> (forall j, (2 <= j < 10)%nat -> 0 <= nth j B 0 < r_mod) ->
  VerifyProof1 O Test (map VBig T) (map VBig A) (map VBig B) s = Done ((b1, None), s1) ->
  VerifyProof2 O Test (map VBig T) (map VBig A) b1 s1 = Done ((b2, None), s2) ->
  VerifyProof3 O Test (map VBig T) (map VBig A) b2 s2 = Done ((b3, None), s3) ->
  degen_sane O -> coms_on_curve T -> curve_or_zero (nth 0 B 0) (nth 1 B 0) ->
  let ic := (nth 0 B 0 mod p_mod, nth 1 B 0 mod p_mod) in
  let h := fc (nth 16 A 0) in
  let x := fc (nth 6 B 0) in let yy := fc (nth 7 B 0) in let v := fc (nth 8 B 0) in let u := fc (nth 9 B 0) in
  s3 = s /\ length b3 = 43%nat /\
  nth_error b3 10 = Some (VBig (fst (W' T))) /\ nth_error b3 11 = Some (VBig (snd (W' T))) /\
  exists X Y, lin_comb (claim (opening yy v x u (queries T ic h x)) (plain_terms (final_terms T ic h x yy v u))) (Aff X Y) /\
    nth_error b3 12 = Some (VBig X) /\ nth_error b3 13 = Some (VBig Y).
Proof. exact c31_spec. Qed.
Print Assumptions C31_accumulator.

(** C33 *)
Theorem C33_helpers : forall (O : oracles) (T A B : list Z) (s s1 s2 : cs) b1 b2,
  length B = 43%nat -> (forall j, (2 <= j < 10)%nat -> 0 <= nth j B 0 < r_mod) ->
  VerifyProof1 O Test (map VBig T) (map VBig A) (map VBig B) s = Done ((b1, None), s1) ->
  VerifyProof2 O Test (map VBig T) (map VBig A) b1 s1 = Done ((b2, None), s2) ->
  forall i, fexp (fc (nth 6 B 0)) dom_n <> 1%fr -> (i < 21)%nat ->
  nth i A 0 = val (nth i (helpers (fc (nth 6 B 0)) (fc (nth 9 B 0))
    (quotient (word T) (fc (nth 2 B 0)) (fc (nth 3 B 0)) (fc (nth 4 B 0)) (fc (nth 6 B 0)) (fc (nth 5 B 0)))) 0%fr).
Proof. exact c33_gen. Qed.
Print Assumptions C33_helpers.
Theorem C33_unique : forall (O : oracles) (T A A' B : list Z) (s s1 s2 s1' s2' : cs) b1 b2 b1' b2',
  length B = 43%nat -> (forall j, (2 <= j < 10)%nat -> 0 <= nth j B 0 < r_mod) ->
  fexp (fc (nth 6 B 0)) dom_n <> 1%fr ->
  VerifyProof1 O Test (map VBig T) (map VBig A) (map VBig B) s = Done ((b1, None), s1) ->
  VerifyProof2 O Test (map VBig T) (map VBig A) b1 s1 = Done ((b2, None), s2) ->
  VerifyProof1 O Test (map VBig T) (map VBig A') (map VBig B) s = Done ((b1', None), s1') ->
  VerifyProof2 O Test (map VBig T) (map VBig A') b1' s1' = Done ((b2', None), s2') ->
  forall i, (i < 21)%nat -> nth i A 0 = nth i A' 0.
Proof. exact c33_unique. Qed.
Print Assumptions C33_unique.
Theorem C33_points : forall (O : oracles) (T A B : list Z) (s s1 s2 : cs) b1 b2,
  length B = 43%nat -> (forall j, (2 <= j < 10)%nat -> 0 <= nth j B 0 < r_mod) ->
  VerifyProof1 O Test (map VBig T) (map VBig A) (map VBig B) s = Done ((b1, None), s1) ->
  VerifyProof2 O Test (map VBig T) (map VBig A) b1 s1 = Done ((b2, None), s2) ->
  let x := fc (nth 6 B 0) in let u := fc (nth 9 B 0) in x <> 0%fr /\ u <> rot x (-1) /\ u <> rot x 2.
Proof. exact c33_points. Qed.
Print Assumptions C33_points.
(** without x^n <> 1 the first step accepts two different helper vectors *)
Theorem C33_unconditional_refuted : exists T B A A', length B = 43%nat /\
  (forall j, (2 <= j < 10)%nat -> 0 <= nth j B 0 < r_mod) /\ nth 9 A 0 <> nth 9 A' 0 /\ forall O s,
  (exists b, VerifyProof1 O Test (map VBig T) (map VBig A) (map VBig B) s = Done ((b, None), s)) /\
  (exists b, VerifyProof1 O Test (map VBig T) (map VBig A') (map VBig B) s = Done ((b, None), s)).
Proof. exact one_refutes. Qed.
Print Assumptions C33_unconditional_refuted.
Example C33_run_case : forall O s l0, 0 <= l0 < r_mod ->
  exists b, VerifyProof1 O Test (map VBig one_proof) (map VBig (one_aux l0)) (map VBig one_buf) s = Done ((b, None), s).
Proof. exact one_run. Qed.

(** C45 *)
Theorem C45_order : forall e, 0 <= e -> (fexp omega e = 1%fr <-> (dom_n | e)).
Proof. exact omega_order. Qed.
Print Assumptions C45_order.
Theorem C45_constants :
  map fc [c_m6; c_m5; c_m4; c_m3; c_m2; c_m1; 1; c_1; c_2] = map (fzpow omega) [-6; -5; -4; -3; -2; -1; 0; 1; 2] /\
  map fc [l_m6; l_m5; l_m4; l_m3; l_m2; l_m1; l_c0] =
    map (fun k => (fzpow omega k / fc dom_n)%fr) [-6; -5; -4; -3; -2; -1; 0].
Proof. exact c45_consts. Qed.
Print Assumptions C45_constants.
Theorem C45_constants_used : forallb (fun c => existsb (Z.eqb c) (flat_map mlits (group prog1)))
  [c_m6; c_m5; c_m4; c_m3; c_m2; c_m1; 1; c_1; c_2; l_m6; l_m5; l_m4; l_m3; l_m2; l_m1; l_c0; dom_n] = true.
Proof. exact all_used. Qed.
Print Assumptions C45_constants_used.
Theorem C45_lagrange_basis : forall (x : Fr) (i : Z), fexp x dom_n <> 1%fr -> lagrange x i = lagrange_poly x i.
Proof. exact lagrange_is_poly. Qed.
Print Assumptions C45_lagrange_basis.
Theorem C45_lagrange_used : forall (O : oracles) (T A B : list Z) (s s1 s2 : cs) b1 b2,
  length B = 43%nat -> (forall j, (2 <= j < 10)%nat -> 0 <= nth j B 0 < r_mod) ->
  VerifyProof1 O Test (map VBig T) (map VBig A) (map VBig B) s = Done ((b1, None), s1) ->
  VerifyProof2 O Test (map VBig T) (map VBig A) b1 s1 = Done ((b2, None), s2) ->
  let x := fc (nth 6 B 0) in fexp x dom_n <> 1%fr ->
  map (fun i => nth i A 0) (seq 9 7) = map (fun k => val (lagrange_poly x k)) [0; -6; -5; -4; -3; -2; -1].
Proof. exact c45_lagrange. Qed.
Print Assumptions C45_lagrange_used.

(** C47: exactly which runs are accepted *)
Theorem C47_acceptance : forall (O : oracles) (T A B : list Z) (s : cs),
  length B = 43%nat -> (forall j, (2 <= j < 10)%nat -> 0 <= nth j B 0 < r_mod) ->
  (104 <= length T)%nat -> (21 <= length A)%nat -> degen_sane O -> coms_valid T ->
  valid_pt (Aff (nth 0 B 0) (nth 1 B 0)) = true ->
  let ic := (nth 0 B 0, nth 1 B 0) in
  let x := fc (nth 6 B 0) in let yy := fc (nth 7 B 0) in let v := fc (nth 8 B 0) in let u := fc (nth 9 B 0) in
  let h := fc (nth 16 A 0) in
  fexp x dom_n <> 1%fr ->
  ((exists s1 s2 s3 b1 b2 b3,
    VerifyProof1 O Test (map VBig T) (map VBig A) (map VBig B) s = Done ((b1, None), s1) /\
    VerifyProof2 O Test (map VBig T) (map VBig A) b1 s1 = Done ((b2, None), s2) /\
    VerifyProof3 O Test (map VBig T) (map VBig A) b2 s2 = Done ((b3, None), s3)) <->
   x <> 0%fr /\ u <> rot x (-1) /\ u <> rot x 2 /\
   (forall i, (i < 21)%nat -> nth i A 0 = val (nth i (helpers x u
      (quotient (word T) (fc (nth 2 B 0)) (fc (nth 3 B 0)) (fc (nth 4 B 0)) x (fc (nth 5 B 0)))) 0%fr)) /\
   fits (Aff (nth 102 T 0) (nth 103 T 0)) /\
   computable (claim (opening yy v x u (queries T ic h x)) (ordered_terms (final_terms T ic h x yy v u)))).
Proof. exact c47_spec. Qed.
Print Assumptions C47_acceptance.

(** a run accepted by all three steps, meeting the hypotheses of C29-C31, C33, C45 and C47: 24 commitments (multiples of the
    generator), non-zero evaluations, opening value 100 and the accumulated point below *)
Example C47_run_case : forall O s, degen_sane O ->
  length run_buf = 43%nat /\ (forall j, (2 <= j < 10)%nat -> 0 <= nth j run_buf 0 < r_mod) /\ coms_valid run_proof /\
  valid_pt (Aff (nth 0 run_buf 0) (nth 1 run_buf 0)) = true /\ fexp (fc (nth 6 run_buf 0)) dom_n <> 1%fr /\
  exists b1 b2 b3,
    VerifyProof1 O Test (map VBig run_proof) (map VBig run_aux) (map VBig run_buf) s = Done ((b1, None), s) /\
    VerifyProof2 O Test (map VBig run_proof) (map VBig run_aux) b1 s = Done ((b2, None), s) /\
    VerifyProof3 O Test (map VBig run_proof) (map VBig run_aux) b2 s = Done ((b3, None), s) /\
    nth_error b2 18 = Some (VBig 100) /\ firstn 4 (skipn 10 b3) = map VBig [1; 2;
      1502801871462175393820925455285495992887476953811468792354060856688680184360;
      6632252566726019873710870140265668413211553342298889289489601518770461885315].
Proof. exact run_case. Qed.
Print Assumptions C47_run_case.
