(** Runs of the first verification step at x = 1, where one helper value is free. *)
From Coq Require Import ZArith String Bool List Lia Arith Ring Field.
From Verif Require Import Params Go Curve Api FrOps Lib Steps NumThy FField FpField P_Fr SpecCurve SpecVerify P_Curve P_Misc
  P_Msm P_Step P_Exec P_Dom P_Eval P_Verify P_VSpec P_Acc P_Comp P_Accept P_Honest.
Import ListNotations.
Open Scope Z_scope.

(** instance commitment (1,2); challenges theta, beta, gamma, y, x, y', v, u in slots 2..9 *)
Definition one_buf : list Z := [1; 2; 0; 0; 0; 13; 1; 17; 19; 3] ++ repeat 0 33.
(** non-zero words: the three product polynomials start at 1; the second opening proof is the generator *)
Definition one_proof : list Z :=
  repeat 0 79 ++ [1] ++ repeat 0 10 ++ [1] ++ repeat 0 4 ++ [1] ++ repeat 0 6 ++ [1; 2].
(** the specified helpers, but for the value l0 in place of the first Lagrange value *)
Definition one_aux (l0 : Z) : list Z :=
  map val (firstn 9 (helpers 1%fr (fc 3) 0%fr)) ++ l0 :: repeat 0 7 ++ map val (skipn 17 (helpers 1%fr (fc 3) 0%fr)).

Lemma one_regs : regs one_buf 2%nat = 0%fr /\ regs one_buf 3%nat = 0%fr /\ regs one_buf 4%nat = 0%fr /\
  regs one_buf 5%nat = fc 13 /\ regs one_buf 6%nat = 1%fr /\ regs one_buf 9%nat = fc 3.
Proof. repeat split. Qed.

Lemma one_u : fc 3 <> rot 1%fr (-1) /\ fc 3 <> rot 1%fr 2.
Proof.
  unfold rot. rewrite <- k_m1, <- k_2. split; intros E.
  - assert (E' : fc 3 = fc c_m1) by (rewrite E; ring). apply phi_eq_iff in E'. revert E'. vm_compute. discriminate.
  - assert (E' : fc 3 = fc c_2) by (rewrite E; ring). apply phi_eq_iff in E'. revert E'. vm_compute. discriminate.
Qed.

Local Opaque phi fmul fadd fsub fopp fdiv finv rot fzpow fexp omega delta.

Definition one_word (i : nat) : Fr := if existsb (Nat.eqb i) [79; 90; 95; 102]%nat then 1%fr else if Nat.eqb i 103 then fc 2 else 0%fr.
Lemma one_words i : (i < 104)%nat -> fw one_proof i = one_word i.
Proof. intros H. do 104 (destruct i as [|i]; [reflexivity|]). lia. Qed.

Lemma cons_eq {X} (a b : X) k l : a = b -> k = l -> a :: k = b :: l.
Proof. intros -> ->. reflexivity. Qed.
Lemma one_exprs L0 : horner (fc 13) (exprs one_proof 0%fr 0%fr 0%fr 1%fr L0 0%fr 1%fr) = 0%fr.
Proof.
  assert (E : exprs one_proof 0%fr 0%fr 0%fr 1%fr L0 0%fr 1%fr = repeat 0%fr 23).
  { unfold exprs. cbv [gates gate_main limbs pick tbl lkp chunkp app map].
    rewrite !one_words by lia. cbn [one_word existsb Nat.eqb orb].
    cbv [prod sum map fold_right combine length seq filter negb Z.eqb Pos.eqb repeat]. cbn [repeat]. repeat (apply cons_eq; [ring|]). reflexivity. }
  rewrite E. cbv [horner repeat fold_left]. ring.
Qed.

Lemma one_oks l0 : 0 <= l0 < r_mod -> oks one_proof (one_aux l0) scalar_part (regs one_buf).
Proof.
  intros R. apply (proj2 (proj1 (whole_iff one_proof (one_aux l0) (regs one_buf)))).
  destruct one_regs as (R2 & R3 & R4 & R5 & R6 & R9). destruct one_u as [U1 U2].
  set (A := one_aux l0).
  assert (D : forall j k i, nth i A 0 = val (frinv (rot 1%fr j - rot 1%fr k)%fr) -> j mod dom_n <> k mod dom_n ->
      isinv A (rot 1%fr j - rot 1%fr k)%fr i).
  { intros j k i E Hn. apply isinv_val; [apply rot_ne; [exact fr_1_0 | assumption] | exact E]. }
  assert (Zr : forall k i, nth i A 0 = 0 -> islag A 1%fr k i).
  { intros k i E. unfold islag, rng, fw. rewrite E. split; [|split; [lia | reflexivity]].
    rewrite fexp_one by discriminate. change (fc 0) with 0%fr. ring. }
  unfold inv_ok, lag_ok, quot_ok. cbv zeta. rewrite R2, R3, R4, R5, R6, R9.
  split; [|split].
  - pose proof (D (-6) 0 0%nat eq_refl ltac:(discriminate)) as I0. pose proof (D (-6) 1 1%nat eq_refl ltac:(discriminate)) as I1.
    pose proof (D 0 (-6) 2%nat eq_refl ltac:(discriminate)) as I2. pose proof (D 0 1 3%nat eq_refl ltac:(discriminate)) as I3.
    pose proof (D 1 (-6) 4%nat eq_refl ltac:(discriminate)) as I4. pose proof (D 1 0 5%nat eq_refl ltac:(discriminate)) as I5.
    pose proof (D (-1) 0 6%nat eq_refl ltac:(discriminate)) as I6. pose proof (D 0 (-1) 7%nat eq_refl ltac:(discriminate)) as I7.
    pose proof (D 0 2 17%nat eq_refl ltac:(discriminate)) as I17. pose proof (D 1 2 18%nat eq_refl ltac:(discriminate)) as I18.
    pose proof (D 2 0 19%nat eq_refl ltac:(discriminate)) as I19. pose proof (D 2 1 20%nat eq_refl ltac:(discriminate)) as I20.
    rewrite rot_0 in *.
    assert (I8 : isinv A ((fc 3 - rot 1%fr (-1)) * (fc 3 - rot 1%fr 2))%fr 8).
    { apply isinv_val; [apply fmul_nz; apply sub_nz; assumption|].
      assert (V8 : ((fc 3 - rot 1%fr (-1)) * (fc 3 - rot 1%fr 2))%fr = vanish 1%fr (fc 3) [-1; 2])
        by (cbv [vanish prod map fold_right]; ring).
      rewrite V8. reflexivity. }
    exact (conj I0 (conj I1 (conj I2 (conj I3 (conj I4 (conj I5 (conj I6 (conj I7 (conj I8 (conj I17 (conj I18 (conj I19 I20)))))))))))).
  - split.
    + unfold islag, rng, fw. change (nth 9 A 0) with l0. split; [|exact R]. rewrite fexp_one by discriminate. rewrite <- k_0. ring.
    + exact (conj (Zr _ 10%nat eq_refl) (conj (Zr _ 11%nat eq_refl) (conj (Zr _ 12%nat eq_refl) (conj (Zr _ 13%nat eq_refl)
        (conj (Zr _ 14%nat eq_refl) (Zr _ 15%nat eq_refl)))))).
  - split; [|unfold rng; change (nth 16 A 0) with 0; split; [lia | reflexivity]].
    assert (E : forall i, nth i A 0 = 0 -> fw A i = 0%fr) by (intros i E; unfold fw; rewrite E; reflexivity).
    rewrite (E 10%nat eq_refl), (E 11%nat eq_refl), (E 12%nat eq_refl), (E 13%nat eq_refl), (E 14%nat eq_refl), (E 15%nat eq_refl), (E 16%nat eq_refl).
    assert (Ea : act 0%fr 0%fr 0%fr 0%fr 0%fr 0%fr = 1%fr) by (unfold act; ring). rewrite Ea, one_exprs. ring.
Qed.

Lemma one_run O s l0 : 0 <= l0 < r_mod ->
  exists b, VerifyProof1 O Test (map VBig one_proof) (map VBig (one_aux l0)) (map VBig one_buf) s = Done ((b, None), s).
Proof.
  intros R. pose proof (one_oks l0 R) as Ok.
  assert (K : oks one_proof (one_aux l0) (group prog1 ++ group prog2) (regs one_buf)).
  { rewrite segments12, oks_app. split; [exact Ok|]. apply oks_nodiv. vm_compute. reflexivity. }
  rewrite oks_app in K. destruct K as [K _].
  destruct (accept1 O one_proof (one_aux l0) one_buf s eq_refl) with (K := fun _ _ : Z * Z => True) as (B1 & E & _);
    [| cbn; lia | cbn; lia | exact K | | exists (map VBig B1); exact E].
  - intros j Hj. do 10 (destruct j as [|j]; [first [lia | vm_compute; split; [discriminate | reflexivity]]|]). lia.
  - assert (G : ops one_proof (one_aux l0) (b01_of one_buf) (group prog1) (regs one_buf) = [PMul 10 (1, 2) (fc 1)]) by reflexivity.
    rewrite G. cbn [chain_ok]. exists (1, 2). split; [|exact (fun _ => Logic.I)].
    exists (Aff 1 2). cbn [fst snd]. split; [right; vm_compute; repeat split; discriminate|]. split; reflexivity.
Qed.

Lemma one_refutes : exists T B A A', length B = 43%nat /\ (forall j, (2 <= j < 10)%nat -> 0 <= nth j B 0 < r_mod) /\
  nth 9 A 0 <> nth 9 A' 0 /\ forall O s,
  (exists b, VerifyProof1 O Test (map VBig T) (map VBig A) (map VBig B) s = Done ((b, None), s)) /\
  (exists b, VerifyProof1 O Test (map VBig T) (map VBig A') (map VBig B) s = Done ((b, None), s)).
Proof.
  exists one_proof, one_buf, (one_aux 0), (one_aux 1). split; [reflexivity|]. split.
  - intros j Hj. do 10 (destruct j as [|j]; [first [lia | vm_compute; split; [discriminate | reflexivity]]|]). lia.
  - split; [discriminate|]. intros O s. split; apply one_run; vm_compute; split; discriminate || reflexivity.
Qed.

(** ** Consequences for the property statements *)
Lemma c33_unique O T A A' B s s1 s2 s1' s2' b1 b2 b1' b2' : length B = 43%nat ->
  (forall j, (2 <= j < 10)%nat -> 0 <= nth j B 0 < r_mod) -> fexp (fc (nth 6 B 0)) dom_n <> 1%fr ->
  VerifyProof1 O Test (map VBig T) (map VBig A) (map VBig B) s = Done ((b1, None), s1) ->
  VerifyProof2 O Test (map VBig T) (map VBig A) b1 s1 = Done ((b2, None), s2) ->
  VerifyProof1 O Test (map VBig T) (map VBig A') (map VBig B) s = Done ((b1', None), s1') ->
  VerifyProof2 O Test (map VBig T) (map VBig A') b1' s1' = Done ((b2', None), s2') ->
  forall i, (i < 21)%nat -> nth i A 0 = nth i A' 0.
Proof.
  intros L C Hx H1 H2 H1' H2' i Hi.
  rewrite (c33_gen O T A B s s1 s2 b1 b2 L C H1 H2 i Hx Hi), (c33_gen O T A' B s s1' s2' b1' b2' L C H1' H2' i Hx Hi). reflexivity.
Qed.
Lemma c33_points O T A B s s1 s2 b1 b2 : length B = 43%nat ->
  (forall j, (2 <= j < 10)%nat -> 0 <= nth j B 0 < r_mod) ->
  VerifyProof1 O Test (map VBig T) (map VBig A) (map VBig B) s = Done ((b1, None), s1) ->
  VerifyProof2 O Test (map VBig T) (map VBig A) b1 s1 = Done ((b2, None), s2) ->
  let x := fc (nth 6 B 0) in let u := fc (nth 9 B 0) in x <> 0%fr /\ u <> rot x (-1) /\ u <> rot x 2.
Proof. intros L C H1 H2. exact (honest_nec T A (regs B) (acc_oks O T A B s s1 s2 b1 b2 L C H1 H2)). Qed.

Lemma c45_lagrange O T A B s s1 s2 b1 b2 : length B = 43%nat ->
  (forall j, (2 <= j < 10)%nat -> 0 <= nth j B 0 < r_mod) ->
  VerifyProof1 O Test (map VBig T) (map VBig A) (map VBig B) s = Done ((b1, None), s1) ->
  VerifyProof2 O Test (map VBig T) (map VBig A) b1 s1 = Done ((b2, None), s2) ->
  let x := fc (nth 6 B 0) in fexp x dom_n <> 1%fr ->
  map (fun i => nth i A 0) (seq 9 7) = map (fun k => val (lagrange_poly x k)) [0; -6; -5; -4; -3; -2; -1].
Proof.
  intros L C H1 H2 x Hx. pose proof (fun i => c33_gen O T A B s s1 s2 b1 b2 L C H1 H2 i Hx) as H.
  assert (E : forall k, val (lagrange_poly x k) = val (lagrange x k)) by (intros k; rewrite lagrange_is_poly by exact Hx; reflexivity).
  cbn [seq map]. rewrite !E.
  rewrite (H 9%nat), (H 10%nat), (H 11%nat), (H 12%nat), (H 13%nat), (H 14%nat), (H 15%nat) by lia. reflexivity.
Qed.

Lemma c45_consts :
  map fc [c_m6; c_m5; c_m4; c_m3; c_m2; c_m1; 1; c_1; c_2] = map (fzpow omega) [-6; -5; -4; -3; -2; -1; 0; 1; 2] /\
  map fc [l_m6; l_m5; l_m4; l_m3; l_m2; l_m1; l_c0] =
    map (fun k => (fzpow omega k / fc dom_n)%fr) [-6; -5; -4; -3; -2; -1; 0].
Proof.
  cbn [map]. change (fc 1) with 1%fr.
  rewrite k_m6, k_m5, k_m4, k_m3, k_m2, k_m1, k_1, k_2, <- k_0, q_m6, q_m5, q_m4, q_m3, q_m2, q_m1, q_0, <- k_0. split; reflexivity.
Qed.
(** the literals of a program *)
Fixpoint lits (e : fexpr) : list Z :=
  match e with
  | FStr z => [z]
  | FMul a b | FAdd a b | FPow a b => lits a ++ lits b
  | FNeg a => lits a
  | FDiv a b c => lits a ++ lits b ++ lits c
  | _ => []
  end.
Definition mlits (m : mop) : list Z := match m with MSet _ e => lits e | _ => [] end.
Lemma all_used : forallb (fun c => existsb (Z.eqb c) (flat_map mlits (group prog1)))
  [c_m6; c_m5; c_m4; c_m3; c_m2; c_m1; 1; c_1; c_2; l_m6; l_m5; l_m4; l_m3; l_m2; l_m1; l_c0; dom_n] = true.
Proof. vm_compute. reflexivity. Qed.
