(** C77: what the public inputs of the compiled circuits establish. *)
From Coq Require Import ZArith String Bool List Lia.
From Verif Require Import Params Go Curve Api Lib Agg PairCirc FField FpField SpecHash SpecCurve SpecMisc SpecRows SpecEcdsa SpecKycTest
  SpecForge SpecPublic P_Fr P_Hash P_Kyc P_Curve P_GroupSpec P_Restate P_Forge P_LinComb.
Import ListNotations.
Open Scope Z_scope.

(** KYC *)
Lemma map_nth_seq (us : list Z) : map (fun i => nth i us 0) (seq 0 (length us)) = us.
Proof. induction us as [|u us IH]; [reflexivity|]. cbn [length seq map nth]. f_equal. rewrite <- seq_shift, map_map. exact IH. Qed.
Lemma c77_kyc O n m l us a b h r s : forged kyc_pub_x kyc_pub_y a b h r s -> ecdsa_right O kyc_pub_x kyc_pub_y h r s ->
  length us = (2 + n + m + l)%nat -> elements us ->
  exists S, compile_kyc O n m l = inl S /\ (provable O S us <-> nth 0 us 0 <= nth 1 us 0 /\ n <> 0%nat).
Proof.
  intros F R L E. destruct (kyc_shape_build O n m l) as (S & C & H1 & H2). exists S. split; [exact C|].
  assert (EL : forall i, (i < length us)%nat -> 0 <= nth i us 0 < r_mod) by (intros i Hi; apply (proj1 (Forall_forall _ _) E), nth_In, Hi).
  split.
  - intros (w & HS & HU). destruct (H1 w HS) as (_ & A0 & A1 & (x & I & _)).
    assert (V : forall i, (i < length us)%nat -> aw w i mod r_mod = nth i us 0).
    { intros i Hi. pose proof (f_equal (fun l => nth i l 0) HU) as Q. cbv beta in Q. rewrite <- Q.
      rewrite (nth_indep _ 0 ((fun i => aw w i mod r_mod) 0%nat)) by (rewrite map_length, seq_length; exact Hi).
      rewrite (map_nth (fun i => aw w i mod r_mod)), seq_nth by exact Hi. reflexivity. }
    split; [rewrite <- !V by lia; lia|]. intros ->. exact I.
  - intros [HL Hn]. set (N := (2 + n + m + l)%nat) in *.
    set (v := fun i => if Nat.eqb i N then nth 0 us 0 else if Nat.eqb i (N + 1) then nth 2 us 0 else nth i us 0).
    assert (VN : v N = nth 0 us 0) by (unfold v; now rewrite Nat.eqb_refl).
    assert (VM : v (N + 1)%nat = nth 2 us 0) by (unfold v; rewrite (proj2 (Nat.eqb_neq (N + 1) N)) by lia; now rewrite Nat.eqb_refl).
    assert (VI : forall i, (i < N)%nat -> v i = nth i us 0).
    { intros i Hi. unfold v. rewrite (proj2 (Nat.eqb_neq i N)) by lia. now rewrite (proj2 (Nat.eqb_neq i (N + 1))) by lia. }
    assert (N2 : (2 < N)%nat) by (unfold N; lia). clearbody v.
    destruct (c75_compiled O n m l {| aw := v; ae := fun _ => 0 |} a b h r s F R) as (S' & w' & C' & HS & HW & _).
    + cbn [aw]. fold N. rewrite VN, !VI by lia. rewrite !Z.mod_small by (apply EL; lia). lia.
    + cbn [aw]. fold N. rewrite VM.
      exists (nth 2 us 0). split; [|reflexivity]. apply in_map_iff. exists 2%nat. split; [|apply in_seq; lia].
      rewrite VI by lia. apply Z.mod_small, EL. lia.
    + rewrite C in C'. injection C' as <-. exists w'. split; [exact HS|].
      transitivity (map (fun i => nth i us 0) (seq 0 (length us))); [|apply map_nth_seq].
      apply map_ext_in. intros i Hi. apply in_seq in Hi. rewrite HW by (fold N; lia). cbn [aw].
      rewrite VI by lia. apply Z.mod_small, EL. lia.
Qed.

(** the pairing circuit *)
Lemma c77_pairing O : exists S, compile_pairing O = inl S /\ forall w, sat O w S <->
  o_pairing O [(of_coords0 (ae w 0%nat mod p_mod, ae w 1%nat mod p_mod), ((ae w 4%nat mod p_mod, ae w 5%nat mod p_mod), (ae w 6%nat mod p_mod, ae w 7%nat mod p_mod)));
               (of_coords0 (ae w 2%nat mod p_mod, ae w 3%nat mod p_mod), ((ae w 8%nat mod p_mod, ae w 9%nat mod p_mod), (ae w 10%nat mod p_mod, ae w 11%nat mod p_mod)))] = true.
Proof.
  eexists. split; [reflexivity|]. intros w. unfold sat. cbn [cs_cons]. rewrite Forall_cons_iff. cbn [sat1].
  unfold pairing_g1_leaves, pairing_g2_leaves, evg1, evg2, evfp2. cbn [map combine fst snd evem].
  split; [intros [H _]; exact H | intros H; split; [exact H | constructor]].
Qed.
Lemma all_some_map {A B : Type} (f : A -> option B) (g : A -> B) l : (forall x, In x l -> f x = Some (g x)) -> all_some (map f l) = Some (map g l).
Proof. induction l as [|x l IH]; intros H; [reflexivity|]. cbn [map all_some]. rewrite (H x (or_introl eq_refl)), IH; [reflexivity|]. intros y I. apply H. now right. Qed.
Lemma c77_test O (ps : list (Z * Z)) (qs : list g2) s :
  PairingDefine O Test (map (fun P => (EmConst (fst P), EmConst (snd P))) ps)
    (map (fun Q : g2 => ((EmConst (fst (fst Q)), EmConst (snd (fst Q))), (EmConst (fst (snd Q)), EmConst (snd (snd Q))))) qs) s =
  VerifyBN256Pairing O Test (map (fun P => (fst P mod p_mod, snd P mod p_mod)) ps)
    (map (fun Q : g2 => ((fst (fst Q) mod p_mod, snd (fst Q) mod p_mod), (fst (snd Q) mod p_mod, snd (snd Q) mod p_mod))) qs) s.
Proof.
  unfold PairingDefine. rewrite !map_length. destruct (_ || _) eqn:E.
  - unfold VerifyBN256Pairing. rewrite !map_length, E. reflexivity.
  - rewrite !map_map. cbn [em_pair em_g2 em_value fst snd].
    rewrite (all_some_map _ (fun P : Z * Z => (fst P mod p_mod, snd P mod p_mod)) ps) by (intros; reflexivity).
    rewrite (all_some_map _ (fun Q : g2 => ((fst (fst Q) mod p_mod, snd (fst Q) mod p_mod), (fst (snd Q) mod p_mod, snd (snd Q) mod p_mod))) qs) by (intros; reflexivity).
    reflexivity.
Qed.

(** the assignment that holds two given points and the hard-coded G2 points *)
Lemma c77_held O S a b X Y : compile_pairing O = inl S -> 0 <= a < p_mod -> 0 <= b < p_mod -> 0 <= X < p_mod -> 0 <= Y < p_mod ->
  (sat O (pairing_asg [(a, b); (X, Y)] [g20_const; g21_const]) S <->
   o_pairing O [(of_coords0 (a, b), g20_const); (of_coords0 (X, Y), g21_const)] = true).
Proof.
  intros C A B HX HY. destruct (c77_pairing O) as (S' & C' & H). rewrite C in C'. injection C' as <-. rewrite H.
  cbn [pairing_asg ae flat_map app nth fst snd]. rewrite !Z.mod_small with (1 := A), !Z.mod_small with (1 := B), !Z.mod_small with (1 := HX), !Z.mod_small with (1 := HY).
  match goal with |- o_pairing _ [(_, ?q); (_, ?q')] = true <-> _ =>
    replace q with g20_const by (vm_compute; reflexivity); replace q' with g21_const by (vm_compute; reflexivity) end.
  reflexivity.
Qed.
Lemma enc_range a b : encodes a b (Aff a b) -> 0 <= a < p_mod /\ 0 <= b < p_mod.
Proof. intros [(_ & _ & Q)|(A & B & _)]; [discriminate | split; assumption]. Qed.
Lemma c77_each O tau a b : kzg_pairing O g20_const g21_const tau -> val tau <> 0 -> encodes a b (Aff a b) ->
  exists S X Y, compile_pairing O = inl S /\ multiple (Aff a b) (val tau) (Aff X Y) /\
    sat O (pairing_asg [(a, b); (X, Y)] [g20_const; g21_const]) S.
Proof.
  intros K T E. destruct (c77_pairing O) as (S & C & _).
  assert (T' : val tau mod r_mod <> 0) by (rewrite Z.mod_small by (apply val_range); exact T).
  destruct (c14_finite a b (val tau) E T') as (X & Y & M).
  assert (V : is_point (Aff X Y)).
  { destruct (c50_total (Aff a b) (val tau) (enc_point _ _ _ E)) as (Q & V & M'). rewrite (c50_unique _ _ _ _ M M'). exact V. }
  assert (EX : encodes X Y (Aff X Y)).
  { destruct V as (c & d & V). destruct V as [(_ & _ & Q)|(V1 & V2 & V3 & Q)]; [discriminate|]. injection Q as -> ->. right. repeat split; auto; lia. }
  exists S, X, Y. split; [exact C|]. split; [exact M|].
  destruct (enc_range _ _ E) as [A B]. destruct (enc_range _ _ EX) as [A' B'].
  apply (c77_held O S a b X Y C A B A' B'). rewrite (enc_of _ _ _ E), (enc_of _ _ _ EX).
  apply K; [apply point_valid, (enc_point _ _ _ E) | apply point_valid, V | exact M].
Qed.

(** the hash circuits *)
Lemma wires_exprs a n : exprs (wires_from a n) (map EWire (seq a n)).
Proof. unfold wires_from, exprs. revert a. induction n as [|n IH]; intros a; cbn [seq map]; constructor; [reflexivity | apply IH]. Qed.
Lemma wires_lt_seq a n k : (a + n <= k)%nat -> Forall (wires_lt k) (map EWire (seq a n)).
Proof. intros H. rewrite Forall_map. apply Forall_forall. intros i I. apply in_seq in I. cbn [wires_lt]. lia. Qed.
Lemma map_eval_seq w a n (zs : list Z) : length zs = n -> elements zs -> (forall i, (i < n)%nat -> aw w (a + i)%nat = nth i zs 0) ->
  map (eval w) (map EWire (seq a n)) = zs.
Proof.
  revert a n w. induction zs as [|z zs IH]; intros a n w L E H; cbn [length] in L; subst n; [reflexivity|].
  cbn [seq map eval]. inversion E as [|? ? E1 E2]; subst. f_equal.
  - specialize (H 0%nat ltac:(lia)). rewrite Nat.add_0_r in H. rewrite H. cbn [nth]. apply Z.mod_small, E1.
  - apply (IH (S a) (length zs) w eq_refl E2). intros i Hi. specialize (H (S i) ltac:(lia)). cbn [nth] in H. rewrite <- H. f_equal. lia.
Qed.

Lemma hash_gen O (f : list var -> list var -> M (option goerr)) (dig : list Z -> list Z) n m :
  (forall l, length (dig l) = 32%nat /\ bytes (dig l)) ->
  (forall ins hv es hs s, exprs ins es -> exprs hv hs ->
    ((length hs < 32)%nat -> exists w, f ins hv s = Panicked w) /\
    ((32 <= length hs)%nat -> exists s' new, f ins hv s = Done (None, s') /\ cs_cons s' = new ++ cs_cons s /\
       (forall w, Forall (sat1 O w) new -> bytes (map (eval w) es) /\ map (eval w) (firstn 32 hs) = dig (map (eval w) es)) /\
       (Forall (wires_lt (cs_next s)) es -> Forall (wires_lt (cs_next s)) hs ->
        forall w, bytes (map (eval w) es) -> map (eval w) (firstn 32 hs) = dig (map (eval w) es) ->
          exists w', agree_below (cs_next s) w w' /\ Forall (sat1 O w') new))) ->
  ((m < 32)%nat -> exists e, compile (n + m) (f (wires_from 0 n) (wires_from n m)) = inr e) /\
  ((32 <= m)%nat -> exists S, compile (n + m) (f (wires_from 0 n) (wires_from n m)) = inl S /\
     (forall w, sat O w S -> bytes (map (fun i => aw w i mod r_mod) (seq 0 n)) /\
        map (fun i => aw w i mod r_mod) (seq n 32) = dig (map (fun i => aw w i mod r_mod) (seq 0 n))) /\
     forall zs, length zs = n -> bytes zs -> exists w, sat O w S /\ forall i, (i < n)%nat -> aw w i = nth i zs 0).
Proof.
  intros D H. destruct (H _ _ _ _ (mk_cs (n + m) [] []) (wires_exprs 0 n) (wires_exprs n m)) as [H1 H2].
  rewrite map_length, seq_length in H1, H2. split.
  - intros L. destruct (H1 L) as [w E]. unfold compile. rewrite E. exists w. reflexivity.
  - intros L. destruct (H2 L) as (s' & new & E & C & Q & K). unfold compile. rewrite E. exists s'. split; [reflexivity|]. cbn [cs_cons] in C. split.
    { intros w HS. unfold sat in HS. rewrite C, app_nil_r in HS. destruct (Q w HS) as [Q1 Q2].
      replace m with (32 + (m - 32))%nat in Q2 by lia. rewrite seq_app, map_app, firstn_app, map_length, seq_length, Nat.sub_diag, firstn_O, app_nil_r in Q2.
      rewrite firstn_all2 in Q2 by (rewrite map_length, seq_length; lia). rewrite (map_map EWire (eval w)) in Q1. rewrite (map_map EWire (eval w) (seq n 32)), (map_map EWire (eval w) (seq 0 n)) in Q2. split; [exact Q1 | exact Q2]. }
    intros zs LZ BZ. cbn [cs_next cs_cons] in *.
    set (w := {| aw := fun i => nth i (zs ++ dig zs) 0; ae := fun _ => 0 |}). destruct (D zs) as [D1 D2].
    assert (EI : map (eval w) (map EWire (seq 0 n)) = zs).
    { apply map_eval_seq; [exact LZ | exact (bytes_lt_r _ BZ)|]. intros i Hi. unfold w. cbn [aw Nat.add]. apply app_nth1. lia. }
    assert (EO : map (eval w) (firstn 32 (map EWire (seq n m))) = dig zs).
    { replace m with (32 + (m - 32))%nat by lia. rewrite seq_app, map_app, firstn_app, map_length, seq_length, Nat.sub_diag, firstn_O, app_nil_r.
      rewrite firstn_all2 by (rewrite map_length, seq_length; lia).
      apply map_eval_seq; [exact D1 | exact (bytes_lt_r _ D2)|]. intros i Hi. unfold w. cbn [aw]. rewrite app_nth2 by lia. f_equal. lia. }
    destruct (K (wires_lt_seq 0 n (n + m) ltac:(lia)) (wires_lt_seq n m (n + m) ltac:(lia)) w) as (w' & [A _] & S').
    + rewrite EI. exact BZ.
    + rewrite EI. exact EO.
    + exists w'. split.
      * unfold sat. rewrite C, app_nil_r. exact S'.
      * intros i Hi. rewrite A by lia. unfold w. cbn [aw]. apply app_nth1. lia.
Qed.
Lemma c77_keccak O n m : ((m < 32)%nat -> exists e, compile_keccak O n m = inr e) /\
  ((32 <= m)%nat -> exists S, compile_keccak O n m = inl S /\
     (forall w, sat O w S -> bytes (map (fun i => aw w i mod r_mod) (seq 0 n)) /\
        map (fun i => aw w i mod r_mod) (seq n 32) = keccak_bytes O (map (fun i => aw w i mod r_mod) (seq 0 n))) /\
     forall zs, length zs = n -> bytes zs -> exists w, sat O w S /\ forall i, (i < n)%nat -> aw w i = nth i zs 0).
Proof. apply (hash_gen O (VerifyKeccak256 O Build) (keccak_bytes O)); [apply keccak_ok|]. intros. apply c21_keccak_build; assumption. Qed.
Lemma c77_sha O n m : ((m < 32)%nat -> exists e, compile_sha256 O n m = inr e) /\
  ((32 <= m)%nat -> exists S, compile_sha256 O n m = inl S /\
     (forall w, sat O w S -> bytes (map (fun i => aw w i mod r_mod) (seq 0 n)) /\
        map (fun i => aw w i mod r_mod) (seq n 32) = sha256_bytes O (map (fun i => aw w i mod r_mod) (seq 0 n))) /\
     forall zs, length zs = n -> bytes zs -> exists w, sat O w S /\ forall i, (i < n)%nat -> aw w i = nth i zs 0).
Proof. apply (hash_gen O (VerifySha256 O Build) (sha256_bytes O)); [apply sha256_ok|]. intros. apply c21_sha_build; assumption. Qed.

(** ** The pairing gadget by itself *)
Lemma c34_pairing O (ps : list (Z * Z)) (qs : list g2) s :
  ((ps = [] \/ length ps <> length qs) <-> exists e, VerifyBN256Pairing O Test ps qs s = Done (Some e, s)) /\
  ((ps <> [] /\ length ps = length qs /\ o_pairing O (combine (map of_coords0 ps) qs) = true) <->
    VerifyBN256Pairing O Test ps qs s = Done (None, s)) /\
  ((ps <> [] /\ length ps = length qs /\ o_pairing O (combine (map of_coords0 ps) qs) = false) <->
    exists w, VerifyBN256Pairing O Test ps qs s = Panicked w).
Proof.
  unfold VerifyBN256Pairing, emul_assert, bind, ret, panic.
  destruct (Nat.eqb_spec (length ps) 0) as [E0|E0].
  - apply length_zero_iff_nil in E0. subst. cbn [orb].
    split; [|split]; split; intros H; try (left; reflexivity); try (eexists; reflexivity); try (exfalso; apply (proj1 H); reflexivity);
      try discriminate H; destruct H as [? H]; discriminate H.
  - assert (N : ps <> []) by (intros ->; apply E0; reflexivity).
    destruct (Nat.eqb_spec (length ps) (length qs)) as [E|E]; cbn [orb negb].
    + destruct (o_pairing O _) eqn:P; (split; [|split]); split; intros H; try (exfalso; tauto); try discriminate H; try reflexivity;
        try (eexists; reflexivity); try (split; [exact N|split; [exact E|reflexivity]]);
        try (destruct H as [? H]; discriminate H); destruct H as (_ & _ & H); discriminate H.
    + split; [|split]; split; intros H; try (exfalso; tauto); try discriminate H; try (eexists; reflexivity); try (right; exact E);
        destruct H as [? H]; discriminate H.
Qed.

Lemma all_some_none {A : Type} (l : list (option A)) : In None l -> all_some l = None.
Proof.
  induction l as [|[a|] t IH]; cbn [In all_some]; [tauto| |reflexivity].
  intros [H|H]; [discriminate H|]. rewrite (IH H). reflexivity.
Qed.
Lemma em_pair_wire a i : fst a = EmWire i \/ snd a = EmWire i -> em_pair a = None.
Proof.
  destruct a as [x y]. cbn [fst snd]. unfold em_pair. cbn [fst snd].
  intros [->| ->]; cbn [em_value]; [reflexivity|]. destruct (em_value x); reflexivity.
Qed.
Lemma c77_unassigned O (g1s : list (emul * emul)) (g2s : list ((emul * emul) * (emul * emul))) s :
  g1s <> [] -> length g1s = length g2s ->
  (exists i, Exists (fun P => fst P = EmWire i \/ snd P = EmWire i) (g1s ++ map fst g2s ++ map snd g2s)) ->
  exists w, PairingDefine O Test g1s g2s s = Panicked w.
Proof.
  intros N E (i & H). unfold PairingDefine.
  destruct (Nat.eqb_spec (length g1s) 0) as [Z|_]; [apply length_zero_iff_nil in Z; contradiction|].
  rewrite E, Nat.eqb_refl. cbn [orb negb].
  apply Exists_app in H. destruct H as [H|H].
  - apply Exists_exists in H. destruct H as (P & I & H).
    rewrite (all_some_none (map em_pair g1s)). { eexists. reflexivity. }
    rewrite <- (em_pair_wire P i H). apply in_map. exact I.
  - assert (G : all_some (map em_g2 g2s) = None).
    { apply all_some_none. apply Exists_app in H. destruct H as [H|H]; apply Exists_exists in H; destruct H as (P & I & H);
        apply in_map_iff in I; destruct I as (Q & EQ & I); apply in_map_iff; exists Q; (split; [|exact I]);
        unfold em_g2; rewrite EQ, (em_pair_wire P i H); [reflexivity|]. destruct (em_pair (fst Q)); reflexivity. }
    rewrite G. destruct (all_some (map em_pair g1s)); eexists; reflexivity.
Qed.
