(** Proofs about the hash circuits, the instance hash and byte packing (C21-C24), range checks (C35)
    and hash.go (C43). *)
From Coq Require Import ZArith Lia String Ascii Bool List.
From Verif Require Import Params Go Curve Api FrOps Lib Steps Agg SpecHash P_Fr P_Str.
Import ListNotations.
Open Scope Z_scope.


Lemma Forall2_len {A B} (R : A -> B -> Prop) l l' : Forall2 R l l' -> length l = length l'.
Proof. induction 1; cbn; auto. Qed.
Lemma nth_error_ext' {A} (l l' : list A) : (forall i, nth_error l i = nth_error l' i) -> l = l'.
Proof.
  revert l'. induction l as [|a l IH]; intros [|b l'] H; auto; try (specialize (H O); discriminate H).
  pose proof (H O) as H0. injection H0 as <-. f_equal. apply IH. intros i. exact (H (S i)).
Qed.

Lemma mapM_big vs zs s : bigs vs zs -> mapM (fun v => lift (to_big v)) vs s = Done (zs, s).
Proof.
  intros H. induction H as [|v z vs zs Hv H IH]; [reflexivity|].
  cbn [mapM]. unfold bind, lift at 1. rewrite Hv, IH. reflexivity.
Qed.
Lemma mapM_expr vs es s : exprs vs es -> mapM (fun v => lift (to_expr v)) vs s = Done (es, s).
Proof.
  intros H. induction H as [|v z vs zs Hv H IH]; [reflexivity|].
  cbn [mapM]. unfold bind, lift at 1. rewrite Hv, IH. reflexivity.
Qed.

Lemma bigs_VBig zs : bigs (map VBig zs) zs.
Proof. induction zs; constructor; auto. Qed.
Lemma bigs_VInt zs : Forall (fun z => 0 <= z < r_mod) zs -> bigs (map VInt zs) zs.
Proof. induction 1; constructor; auto. cbn. rewrite modr_small; auto. Qed.
Lemma exprs_VExpr es : exprs (map VExpr es) es.
Proof. induction es; constructor; auto. Qed.

Lemma byte_lt_r : 256 < r_mod. Proof. reflexivity. Qed.
Lemma bytes_lt_r bs : bytes bs -> Forall (fun z => 0 <= z < r_mod) bs.
Proof. apply Forall_impl. intros. pose proof byte_lt_r. lia. Qed.

Lemma is_byte_spec z : is_byte z = true <-> 0 <= z < 256.
Proof. unfold is_byte. rewrite andb_true_iff, Z.leb_le, Z.ltb_lt. reflexivity. Qed.
Lemma forallb_bytes zs : forallb is_byte zs = true <-> bytes zs.
Proof.
  unfold bytes. rewrite forallb_forall, Forall_forall. split; intros H z Hz; apply is_byte_spec; auto.
Qed.

(** ** C21 *)
Lemma nth_error_bigs vs zs i z : bigs vs zs -> nth_error zs i = Some z ->
  exists v, nth_error vs i = Some v /\ to_big v = Done z.
Proof.
  intros H. revert i. induction H; intros [|i]; cbn; try discriminate; eauto.
  intros E. injection E as <-. eauto.
Qed.
Lemma nth_error_none_bigs {A B} (R : A -> B -> Prop) vs zs i : Forall2 R vs zs -> nth_error zs i = None ->
  nth_error vs i = None.
Proof. intros H. apply Forall2_len in H. rewrite !nth_error_None. lia. Qed.

Lemma skipn_nth {A} (l : list A) i : skipn i l = match nth_error l i with
  | Some a => a :: skipn (S i) l | None => [] end.
Proof. revert i. induction l; intros [|i]; cbn; auto. rewrite IHl. reflexivity. Qed.

Lemma list_eq_dec_Z (a b : list Z) : {a = b} + {a <> b}.
Proof. apply list_eq_dec, Z.eq_dec. Qed.

Lemma assert_all_test hv hs ds s : bigs hv hs -> forall i,
  (firstn (length ds) (skipn i hs) = ds -> byte_assert_all Test hv i (map VBig ds) s = Done (tt, s)) /\
  (firstn (length ds) (skipn i hs) <> ds -> exists w, byte_assert_all Test hv i (map VBig ds) s = Panicked w).
Proof.
  intros H. induction ds as [|d ds IH]; intros i; cbn [map length byte_assert_all].
  - split; [reflexivity|]. cbn. congruence.
  - rewrite (skipn_nth hs i). unfold bind at 1 3, lift, get.
    destruct (nth_error hs i) as [h|] eqn:E.
    + destruct (nth_error_bigs _ _ _ _ H E) as (v & -> & Hv).
      unfold bind. rewrite (api_assert_eq_test v (VBig d) h d s Hv eq_refl).
      cbn [firstn]. destruct (IH (S i)) as [I1 I2]. destruct (Z.eqb_spec h d) as [->|N].
      * split; [intros E1; injection E1 as E1; auto|]. intros N. apply I2. intros C. apply N. f_equal. exact C.
      * split; [intros E1; injection E1 as -> _; contradiction | eauto].
    + rewrite (nth_error_none_bigs _ _ _ _ H E). split; [discriminate | eauto].
Qed.

Lemma assert_all_ok hv hs ds s i : bigs hv hs -> firstn (length ds) (skipn i hs) = ds ->
  byte_assert_all Test hv i (map VBig ds) s = Done (tt, s).
Proof. intros H. apply (assert_all_test hv hs ds s H i). Qed.

Definition hash_circuit (en : engine) dig c (ins hv : list var) : M (option goerr) :=
  res <- hash_sum en dig c ins ;; byte_assert_all en hv 0 res ;;; ret None.

Lemma c21_test_gen (dig : list Z -> list Z) c ins hv zs hs s :
  (forall l, length (dig l) = 32%nat) -> bigs ins zs -> bigs hv hs ->
  (bytes zs /\ firstn 32 hs = dig zs -> hash_circuit Test dig c ins hv s = Done (None, s)) /\
  (~ (bytes zs /\ firstn 32 hs = dig zs) -> exists w, hash_circuit Test dig c ins hv s = Panicked w).
Proof.
  intros HL Hi Hh. unfold hash_circuit, hash_sum, bind. rewrite (mapM_big _ _ _ Hi).
  destruct (forallb is_byte zs) eqn:EB.
  - apply forallb_bytes in EB. cbn [ret].
    pose proof (HL zs) as L. split.
    + intros [_ E]. unfold ret. rewrite (assert_all_ok hv hs); auto. rewrite L. exact E.
    + intros N. assert (N' : firstn (length (dig zs)) (skipn 0 hs) <> dig zs)
        by (rewrite L; intros E; apply N; auto).
      destruct (proj2 (assert_all_test hv hs (dig zs) s Hh 0%nat) N') as [w W].
      unfold ret. exists w. rewrite W. reflexivity.
  - split; [intros [B _]; apply forallb_bytes in B; congruence | intros _; eexists; reflexivity].
Qed.

Lemma be32_len z : length (be_bytes 32 z) = 32%nat. Proof. apply be_bytes_length. Qed.

Lemma c21_keccak_test O ins hv zs hs s : bigs ins zs -> bigs hv hs ->
  (bytes zs /\ firstn 32 hs = keccak_bytes O zs -> VerifyKeccak256 O Test ins hv s = Done (None, s)) /\
  (~ (bytes zs /\ firstn 32 hs = keccak_bytes O zs) -> exists w, VerifyKeccak256 O Test ins hv s = Panicked w).
Proof. apply (c21_test_gen (keccak_bytes O) CKeccak). intros. apply be32_len. Qed.
Lemma c21_sha_test O ins hv zs hs s : bigs ins zs -> bigs hv hs ->
  (bytes zs /\ firstn 32 hs = sha256_bytes O zs -> VerifySha256 O Test ins hv s = Done (None, s)) /\
  (~ (bytes zs /\ firstn 32 hs = sha256_bytes O zs) -> exists w, VerifySha256 O Test ins hv s = Panicked w).
Proof. apply (c21_test_gen (sha256_bytes O) CSha256). intros. apply be32_len. Qed.

(** compiled *)
Fixpoint zip_eq (hs rs : list expr) : list constr :=
  match hs, rs with h :: hs, r :: rs => CEq h r :: zip_eq hs rs | _, _ => [] end.

Lemma assert_all_build hv hs rs s : exprs hv hs -> forall i,
  (i + length rs <= length hs)%nat ->
  exists s', byte_assert_all Build hv i (map VExpr rs) s = Done (tt, s') /\
    cs_next s' = cs_next s /\ cs_hints s' = cs_hints s /\
    cs_cons s' = rev (zip_eq (skipn i hs) rs) ++ cs_cons s.
Proof.
  intros H. revert s. induction rs as [|r rs IH]; intros s i L.
  - exists s. repeat split. destruct (skipn i hs); reflexivity.
  - cbn [map byte_assert_all]. rewrite (skipn_nth hs i). cbn [length] in L.
    destruct (nth_error hs i) as [h|] eqn:E; [|apply nth_error_None in E; lia].
    assert (exists v, nth_error hv i = Some v /\ to_expr v = Done h) as (v & E1 & E2).
    { clear -H E. revert i E. induction H; intros [|i]; cbn; try discriminate; eauto.
      intros E. injection E as <-. eauto. }
    unfold bind at 1, lift, get. rewrite E1. unfold bind.
    rewrite (api_assert_eq_build v (VExpr r) h r s E2 eq_refl).
    destruct (IH (mk_cs (cs_next s) (CEq h r :: cs_cons s) (cs_hints s)) (S i) ltac:(lia))
      as (s' & A & B & C & D).
    exists s'. rewrite A. repeat split; auto. rewrite D. cbn [cs_cons zip_eq rev].
    rewrite <- app_assoc. reflexivity.
Qed.

Lemma assert_all_build_short hv hs rs : exprs hv hs -> forall i s,
  (i <= length hs)%nat -> (length hs < i + length rs)%nat ->
  exists w, byte_assert_all Build hv i (map VExpr rs) s = Panicked w.
Proof.
  intros H. induction rs as [|r rs IH]; intros i s L0 L; cbn [length] in L; [lia|].
  cbn [map byte_assert_all]. unfold bind at 1, lift, get.
  destruct (nth_error hs i) as [h|] eqn:E.
  - assert (exists v, nth_error hv i = Some v /\ to_expr v = Done h) as (v & E1 & E2).
    { clear -H E. revert i E. induction H; intros [|i]; cbn; try discriminate; eauto.
      intros E. injection E as <-. eauto. }
    rewrite E1. unfold bind. rewrite (api_assert_eq_build v (VExpr r) h r s E2 eq_refl).
    apply IH; [|lia]. assert (i < length hs)%nat by (apply nth_error_Some; congruence). lia.
  - rewrite (nth_error_none_bigs _ _ _ _ H E). eauto.
Qed.

Lemma zip_eq_sat O w : forall rs hs, (length rs <= length hs)%nat ->
  Forall (sat1 O w) (zip_eq hs rs) <-> map (eval w) (firstn (length rs) hs) = map (eval w) rs.
Proof.
  induction rs as [|r rs IH]; intros [|h hs] L; cbn [length] in L; try lia; cbn [zip_eq firstn map length];
    try (split; [reflexivity | constructor]).
  rewrite Forall_cons_iff, IH by lia. cbn [sat1]. split; [intros [-> ->]; reflexivity|].
  intros E. injection E as E1 E2. auto.
Qed.

Definition upd_list (w : asg) (n : nat) (zs : list Z) : asg :=
  {| aw := fun j => if (Nat.leb n j && Nat.ltb j (n + length zs))%bool then nth (j - n) zs 0 else aw w j;
     ae := ae w |}.
Lemma upd_list_below w n zs : agree_below n w (upd_list w n zs).
Proof.
  split; [|reflexivity]. intros i Hi. cbn. destruct (Nat.leb_spec n i); [lia | reflexivity].
Qed.
Lemma upd_list_wires w n zs : Forall (fun z => 0 <= z < r_mod) zs ->
  map (eval (upd_list w n zs)) (map EWire (seq n (length zs))) = zs.
Proof.
  intros H. apply nth_error_ext'. intros i. rewrite map_map.
  destruct (Nat.lt_ge_cases i (length zs)) as [L|L].
  - assert (L' : (i < length (seq n (length zs)))%nat) by (rewrite seq_length; exact L).
    rewrite (map_nth_error _ _ _ (nth_error_nth' (seq n (length zs)) O L')).
    rewrite seq_nth by lia. rewrite (nth_error_nth' zs 0 L). f_equal. cbn [eval aw upd_list].
    replace ((n <=? n + i)%nat) with true by (symmetry; apply Nat.leb_le; lia).
    replace ((n + i <? n + length zs)%nat) with true by (symmetry; apply Nat.ltb_lt; lia).
    cbn [andb]. replace (n + i - n)%nat with i by lia. apply modr_small.
    rewrite Forall_forall in H. apply H, nth_In, L.
  - rewrite (proj2 (nth_error_None zs i)) by lia. apply nth_error_None. rewrite map_length, seq_length. lia.
Qed.

Lemma c21_build_gen O (dig : list Z -> list Z) c ins hv es hs s :
  (forall l, length (dig l) = 32%nat /\ bytes (dig l)) ->
  (forall w es outs, sat1 O w (c es outs) <->
     Forall (fun e => eval w e < 256) es /\ map (eval w) outs = dig (map (eval w) es)) ->
  exprs ins es -> exprs hv hs ->
  ((length hs < 32)%nat -> exists w, hash_circuit Build dig c ins hv s = Panicked w) /\
  ((32 <= length hs)%nat -> exists s' new, hash_circuit Build dig c ins hv s = Done (None, s') /\
     cs_cons s' = new ++ cs_cons s /\ cs_next s' = (cs_next s + 32)%nat /\ cs_hints s' = cs_hints s /\
     (forall w, Forall (sat1 O w) new ->
        bytes (map (eval w) es) /\ map (eval w) (firstn 32 hs) = dig (map (eval w) es)) /\
     (Forall (wires_lt (cs_next s)) es -> Forall (wires_lt (cs_next s)) hs ->
      forall w, bytes (map (eval w) es) -> map (eval w) (firstn 32 hs) = dig (map (eval w) es) ->
        Forall (sat1 O (upd_list w (cs_next s) (dig (map (eval w) es)))) new)).
Proof.
  intros HD HC Hi Hh. set (n := cs_next s).
  set (outs := map EWire (seq n 32)).
  set (s1 := mk_cs (n + 32) (c es outs :: cs_cons s) (cs_hints s)).
  assert (E : hash_circuit Build dig c ins hv s =
    match byte_assert_all Build hv 0 (map VExpr outs) s1 with
    | Done (a, s') => Done (None, s') | Panicked w => Panicked w end).
  { unfold hash_circuit, hash_sum, bind. rewrite (mapM_expr _ _ _ Hi). reflexivity. }
  assert (LO : length outs = 32%nat) by reflexivity.
  split.
  - intros L. destruct (assert_all_build_short hv hs outs Hh 0%nat s1) as [w W]; [lia | rewrite LO; lia|].
    exists w. rewrite E, W. reflexivity.
  - intros L. destruct (assert_all_build hv hs outs s1 Hh 0%nat) as (s' & A & B & B' & C); [rewrite LO; lia|].
    exists s', (rev (zip_eq hs outs) ++ [c es outs]).
    rewrite E, A. split; [reflexivity|]. cbn [skipn] in C.
    split; [rewrite C; cbn [cs_cons s1]; rewrite <- app_assoc; reflexivity|].
    split; [rewrite B; reflexivity|]. split; [rewrite B'; reflexivity|]. split.
    + intros w W. apply Forall_app in W. destruct W as [W1 W2].
      apply Forall_rev in W1. rewrite rev_involutive in W1. apply zip_eq_sat in W1; [|rewrite LO; lia].
      rewrite LO in W1. inversion W2 as [|? ? W3 _]; subst. apply HC in W3. destruct W3 as [W3 W4].
      split; [|congruence]. unfold bytes. apply Forall_map. revert W3. apply Forall_impl.
      intros a Ha. pose proof (eval_range w a). lia.
    + intros We Wh w W1 W2.
      set (zs := dig (map (eval w) es)) in *. destruct (HD (map (eval w) es)) as [D1 D2]. fold zs in D1, D2.
      assert (U : map (eval (upd_list w n zs)) outs = zs).
      { unfold outs. rewrite <- D1. apply upd_list_wires, bytes_lt_r, D2. }
      assert (G : forall l, Forall (wires_lt n) l -> map (eval (upd_list w n zs)) l = map (eval w) l).
      { intros l Hl. apply map_ext_Forall. revert Hl. apply Forall_impl. intros a.
        apply eval_agree, upd_list_below. }
      apply Forall_app. split.
      * apply Forall_rev. apply zip_eq_sat; [rewrite LO; lia|]. rewrite LO, U, G; [exact W2|].
        apply Forall_forall. intros a Ha. rewrite Forall_forall in Wh. apply Wh.
        rewrite <- (firstn_skipn 32 hs). apply in_or_app. auto.
      * constructor; [|constructor]. apply HC. rewrite U, (G _ We). split; [|reflexivity].
        rewrite Forall_forall in *. intros a Ha. rewrite (eval_agree n w) by (auto; apply upd_list_below).
        unfold bytes in W1. rewrite Forall_forall in W1. apply W1. apply in_map, Ha.
Qed.

Lemma keccak_ok O l : length (keccak_bytes O l) = 32%nat /\ bytes (keccak_bytes O l).
Proof. split; [apply be32_len | apply be_bytes_byte]. Qed.
Lemma sha256_ok O l : length (sha256_bytes O l) = 32%nat /\ bytes (sha256_bytes O l).
Proof. split; [apply be32_len | apply be_bytes_byte]. Qed.

Lemma c21_keccak_build O ins hv es hs s : exprs ins es -> exprs hv hs ->
  ((length hs < 32)%nat -> exists w, VerifyKeccak256 O Build ins hv s = Panicked w) /\
  ((32 <= length hs)%nat -> exists s' new, VerifyKeccak256 O Build ins hv s = Done (None, s') /\
     cs_cons s' = new ++ cs_cons s /\
     (forall w, Forall (sat1 O w) new ->
        bytes (map (eval w) es) /\ map (eval w) (firstn 32 hs) = keccak_bytes O (map (eval w) es)) /\
     (Forall (wires_lt (cs_next s)) es -> Forall (wires_lt (cs_next s)) hs ->
      forall w, bytes (map (eval w) es) -> map (eval w) (firstn 32 hs) = keccak_bytes O (map (eval w) es) ->
        exists w', agree_below (cs_next s) w w' /\ Forall (sat1 O w') new)).
Proof.
  intros Hi Hh. destruct (c21_build_gen O (keccak_bytes O) CKeccak ins hv es hs s (keccak_ok O)) as [A B]; auto;
    [intros; reflexivity|].
  split; [exact A|]. intros L. destruct (B L) as (s' & new & E & E1 & _ & _ & E2 & E3).
  exists s', new. split; [exact E|]. split; [exact E1|]. split; [exact E2|]. intros W1 W2 w W3 W4.
  eexists. split; [apply upd_list_below | apply E3; assumption].
Qed.
Lemma c21_sha_build O ins hv es hs s : exprs ins es -> exprs hv hs ->
  ((length hs < 32)%nat -> exists w, VerifySha256 O Build ins hv s = Panicked w) /\
  ((32 <= length hs)%nat -> exists s' new, VerifySha256 O Build ins hv s = Done (None, s') /\
     cs_cons s' = new ++ cs_cons s /\
     (forall w, Forall (sat1 O w) new ->
        bytes (map (eval w) es) /\ map (eval w) (firstn 32 hs) = sha256_bytes O (map (eval w) es)) /\
     (Forall (wires_lt (cs_next s)) es -> Forall (wires_lt (cs_next s)) hs ->
      forall w, bytes (map (eval w) es) -> map (eval w) (firstn 32 hs) = sha256_bytes O (map (eval w) es) ->
        exists w', agree_below (cs_next s) w w' /\ Forall (sat1 O w') new)).
Proof.
  intros Hi Hh. destruct (c21_build_gen O (sha256_bytes O) CSha256 ins hv es hs s (sha256_ok O)) as [A B]; auto;
    [intros; reflexivity|].
  split; [exact A|]. intros L. destruct (B L) as (s' & new & E & E1 & _ & _ & E2 & E3).
  exists s', new. split; [exact E|]. split; [exact E1|]. split; [exact E2|]. intros W1 W2 w W3 W4.
  eexists. split; [apply upd_list_below | apply E3; assumption].
Qed.

(** ** C24 *)
Lemma of_be_gen bs : forall a, fold_left (fun acc b => acc * 256 + b) bs a = a * 256 ^ Z.of_nat (length bs) + pack bs.
Proof.
  induction bs as [|b bs IH]; intros a; cbn [fold_left length pack].
  - change (Z.of_nat 0) with 0. rewrite Z.pow_0_r. ring.
  - rewrite IH, Nat2Z.inj_succ, Z.pow_succ_r by lia. ring.
Qed.
Lemma of_be_pack bs : of_be bs = pack bs.
Proof. unfold of_be. rewrite of_be_gen. ring. Qed.
Lemma pack_be32 z : 0 <= z < 2 ^ 256 -> pack (be_bytes 32 z) = z.
Proof. intros H. rewrite <- of_be_pack. apply of_be_32, H. Qed.

Definition pack_step (en : engine) (m : M var) (input : var) : M var :=
  res <- m ;; res <- api_mul en res (VBig (2 ^ 8)) ;; api_add en res input.

Lemma mod_horner a z n y : ((a * 256 mod r_mod + z) mod r_mod * n + y) mod r_mod = ((a * 256 + z) * n + y) mod r_mod.
Proof.
  rewrite (Z.add_mod_idemp_l (a * 256)) by auto.
  rewrite <- Z.add_mod_idemp_l, Z.mul_mod_idemp_l, Z.add_mod_idemp_l by auto. reflexivity.
Qed.

Lemma pack_fold_test vs zs s : bigs vs zs -> forall m u a, m s = Done (u, s) -> to_big u = Done a ->
  exists u', fold_left (pack_step Test) vs m s = Done (u', s) /\
    (vs = [] -> u' = u) /\
    (vs <> [] -> u' = VBig ((a * 256 ^ Z.of_nat (length zs) + pack zs) mod r_mod)).
Proof.
  intros H. induction H as [|v z vs zs Hv H IH]; intros m u a Hm Hu; cbn [fold_left].
  - exists u. repeat split; auto. congruence.
  - set (b := (a * 256 mod r_mod + z) mod r_mod).
    assert (S : pack_step Test m v s = Done (VBig b, s)).
    { unfold pack_step, bind. rewrite Hm. unfold api_mul, api_add.
      rewrite (api_bin_test _ _ u (VBig (2 ^ 8)) a (2 ^ 8)) by auto.
      rewrite (api_bin_test _ _ _ v ((a * 2 ^ 8) mod r_mod) z) by auto. reflexivity. }
    destruct (IH _ _ _ S eq_refl) as (u' & E & E1 & E2). exists u'. split; [exact E|].
    split; [discriminate|]. intros _. cbn [length pack]. rewrite Nat2Z.inj_succ, Z.pow_succ_r by lia.
    destruct vs as [|v' vs].
    + inversion H; subst zs. rewrite E1 by reflexivity. f_equal. unfold b. cbn.
      rewrite Z.add_mod_idemp_l by auto. f_equal. ring.
    + rewrite E2 by discriminate. f_equal. unfold b. rewrite mod_horner. f_equal. ring.
Qed.

Lemma pack_test v1 v2 vs zs s : bigs (v1 :: v2 :: vs) zs ->
  PackUInt8Variables Test (v1 :: v2 :: vs) s = Done (VBig (pack zs mod r_mod), s).
Proof.
  intros H. inversion H as [|? z1 ? zs' H1 H2]; subst. unfold PackUInt8Variables.
  destruct (pack_fold_test _ _ s H2 (ret v1) v1 z1 eq_refl H1) as (u & E & _ & E2).
  change (fun (m : M var) (input : var) => _) with (pack_step Test). rewrite E, E2 by discriminate. reflexivity.
Qed.

Lemma pack_test_list bs s : (2 <= length bs)%nat ->
  PackUInt8Variables Test (map VBig bs) s = Done (VBig (pack bs mod r_mod), s).
Proof.
  destruct bs as [|b1 [|b2 bs]]; cbn [length]; try lia. intros _. apply pack_test.
  apply (bigs_VBig (b1 :: b2 :: bs)).
Qed.

Lemma c24_test v1 v2 vs zs s : bigs (v1 :: v2 :: vs) zs ->
  PackUInt8Variables Test (v1 :: v2 :: vs) s = Done (VBig (pack zs mod r_mod), s).
Proof. exact (pack_test v1 v2 vs zs s). Qed.
Lemma c24_single en v s : PackUInt8Variables en [v] s = Done (v, s).
Proof. reflexivity. Qed.
Lemma c24_empty en s : exists w, PackUInt8Variables en [] s = Panicked w.
Proof. eexists. reflexivity. Qed.

Lemma pack_fold_build vs es : exprs vs es -> forall m u s e, m s = Done (u, s) -> to_expr u = Done e ->
  exists u' e', fold_left (pack_step Build) vs m s = Done (u', s) /\ to_expr u' = Done e' /\
    forall w, eval w e' = (eval w e * 256 ^ Z.of_nat (length es) + pack (map (eval w) es)) mod r_mod.
Proof.
  intros H. induction H as [|v z vs zs Hv H IH]; intros m u s e Hm Hu; cbn [fold_left].
  - exists u, e. repeat split; auto. intros w. cbn. rewrite Z.mul_1_r, Z.add_0_r. symmetry. apply eval_mod.
  - assert (S : pack_step Build m v s = Done (VExpr (EAdd (EMul e (EConst (2 ^ 8))) z), s)).
    { unfold pack_step, bind. rewrite Hm. unfold api_mul, api_add.
      rewrite (api_bin_build _ _ u (VBig (2 ^ 8)) e (EConst (2 ^ 8))) by auto.
      rewrite (api_bin_build _ _ _ v (EMul e (EConst (2 ^ 8))) z) by auto. reflexivity. }
    destruct (IH _ _ _ _ S eq_refl) as (u' & e' & E & E1 & E2). exists u', e'. repeat split; auto.
    intros w. rewrite E2. cbn [map length pack eval]. rewrite map_length.
    change (2 ^ 8 mod r_mod) with 256. rewrite mod_horner, Nat2Z.inj_succ, Z.pow_succ_r by lia. f_equal. ring.
Qed.

Lemma c24_build v vs es s : exprs (v :: vs) es ->
  exists u e, PackUInt8Variables Build (v :: vs) s = Done (u, s) /\ to_expr u = Done e /\
    forall w, eval w e = pack (map (eval w) es) mod r_mod.
Proof.
  intros H. inversion H as [|? e1 ? es' H1 H2]; subst.
  destruct (pack_fold_build _ _ H2 (ret v) v s e1 eq_refl H1) as (u & e & E & E1 & E2).
  exists u, e. repeat split; auto. intros w. rewrite E2. cbn [map pack]. rewrite map_length. reflexivity.
Qed.

Lemma pack_bound bs : bytes bs -> 0 <= pack bs < 256 ^ Z.of_nat (length bs).
Proof.
  induction 1 as [|b bs Hb H IH]; cbn [pack length]; [lia|].
  rewrite Nat2Z.inj_succ, Z.pow_succ_r by lia. nia.
Qed.
Lemma pack_inj bs : bytes bs -> forall cs, bytes cs -> length bs = length cs -> pack bs = pack cs -> bs = cs.
Proof.
  induction 1 as [|b bs Hb H IH]; intros [|c cs] HC L E; try discriminate L; auto.
  inversion HC as [|? ? Hc HC']; subst. cbn [length] in L. injection L as L. cbn [pack] in E. rewrite <- L in E.
  pose proof (pack_bound bs H). pose proof (pack_bound cs HC'). rewrite <- L in H1.
  assert (b = c) by nia. subst c. f_equal. apply IH; auto. lia.
Qed.
Lemma pow_256_31 : 256 ^ 31 < r_mod. Proof. reflexivity. Qed.
Lemma c24_inj bs cs : bytes bs -> bytes cs -> length bs = length cs -> (length bs <= 31)%nat ->
  pack bs mod r_mod = pack cs mod r_mod -> bs = cs.
Proof.
  intros HB HC L L31 E. apply pack_inj; auto.
  assert (256 ^ Z.of_nat (length bs) <= 256 ^ 31) by (apply Z.pow_le_mono_r; lia).
  pose proof (pack_bound bs HB). pose proof (pack_bound cs HC). rewrite <- L in H1.
  pose proof pow_256_31. rewrite !modr_small in E by lia. exact E.
Qed.
Lemma c24_refuted : ~ (forall bs cs, bytes bs -> bytes cs -> length bs = length cs -> length bs = 32%nat ->
  pack bs mod r_mod = pack cs mod r_mod -> bs = cs).
Proof.
  intros H. specialize (H (be_bytes 32 0) (be_bytes 32 r_mod)).
  assert (N : be_bytes 32 0 <> be_bytes 32 r_mod).
  { intros E. apply (f_equal pack) in E. vm_compute in E. discriminate. }
  apply N, H; try apply be_bytes_byte; rewrite ?be32_len; auto.
Qed.

(** ** C22 *)
Lemma set_nth_app {A} (pre : list A) a b l : set_nth (pre ++ a :: l) (length pre) b = Some (pre ++ b :: l).
Proof. induction pre as [|c pre IH]; cbn; [reflexivity|]. rewrite IH. reflexivity. Qed.

Lemma put_all_ok pre rest bs post : length bs = length rest ->
  put_all (pre ++ rest ++ post) (length pre) bs = Done (pre ++ map Some bs ++ post).
Proof.
  revert pre rest. induction bs as [|b bs IH]; intros pre [|r rest] L; try discriminate L; [reflexivity|].
  cbn [put_all]. unfold put.
  assert (S : set_nth (pre ++ (r :: rest) ++ post) (length pre) (Some b) = Some (pre ++ (Some b :: rest) ++ post)).
  { cbn [app]. apply set_nth_app. }
  rewrite S. cbn [obind]. injection L as L. specialize (IH (pre ++ [Some b]) rest L).
  rewrite app_length in IH. cbn [length] in IH. rewrite Nat.add_1_r, <- !app_assoc in IH. exact IH.
Qed.

Lemma flat_map_be_length zs : length (flat_map (be_bytes 32) zs) = (32 * length zs)%nat.
Proof. induction zs as [|z zs IH]; [reflexivity|]. cbn [flat_map length]. rewrite app_length, be32_len, IH. lia. Qed.
Lemma encoding_bytes zs : bytes (encoding zs).
Proof.
  induction zs as [|z zs IH]; [constructor|]. unfold encoding. cbn [flat_map]. apply Forall_app.
  split; [apply be_bytes_byte | exact IH].
Qed.

Lemma encoding_map {A} (f : A -> Z) zs : encoding (map f zs) = flat_map (fun z => be_bytes 32 (f z)) zs.
Proof. unfold encoding. induction zs as [|z zs IH]; cbn [map flat_map]; [reflexivity | rewrite IH; reflexivity]. Qed.

Lemma keccak_hint_eq O zs :
  let buf := encoding (map (fun z => z mod p_mod) zs) in
  keccak_hint_run O zs (repeat (Some 0) (S (32 * (length zs + 1)))) =
  Done (None, map Some (of_be (keccak_bytes O buf) :: keccak_bytes O buf ++ buf)).
Proof.
  intros buf. unfold keccak_hint_run.
  replace (flat_map (fun z => be_bytes 32 (z mod p_mod)) zs) with buf
    by apply encoding_map.
  set (h := keccak_bytes O buf).
  assert (Lh : length h = 32%nat) by apply be32_len.
  assert (Lb : length buf = (32 * length zs)%nat) by (unfold buf, encoding; rewrite flat_map_be_length, map_length; reflexivity).
  cbn [repeat]. unfold put at 1. cbn [set_nth obind].
  replace (repeat (Some 0) (32 * (length zs + 1))) with (repeat (Some 0) 32 ++ repeat (Some 0) (32 * length zs))
    by (rewrite <- repeat_app; f_equal; lia).
  set (z32 := repeat (Some 0) 32). assert (L32 : length z32 = 32%nat) by reflexivity. clearbody z32.
  pose proof (put_all_ok [Some (of_be h)] z32 h (repeat (Some 0) (32 * length zs)) ltac:(congruence)) as P1.
  cbn [length app] in P1. rewrite P1. cbn [obind].
  pose proof (put_all_ok (Some (of_be h) :: map Some h) (repeat (Some 0) (32 * length zs)) buf []
    ltac:(rewrite repeat_length; exact Lb)) as P.
  replace (length (Some (of_be h) :: map Some h)) with 33%nat in P by (cbn [length]; rewrite map_length, Lh; reflexivity).
  rewrite !app_nil_r in P. cbn [app] in P |- *. rewrite P. cbn [obind map]. rewrite map_app. reflexivity.
Qed.

Lemma mapM_somes zs s : Forall (fun z => 0 <= z < r_mod) zs ->
  mapM (fun o => match o with Some z => ret (VBig (z mod r_mod)) | None => panic "nil pointer dereference" end)
    (map Some zs) s = Done (map VBig zs, s).
Proof.
  induction 1 as [|z zs Hz H IH]; [reflexivity|]. cbn [map mapM]. unfold bind. unfold ret at 1.
  rewrite IH. rewrite modr_small by assumption. reflexivity.
Qed.
Lemma mapM_bytes bs s : bytes bs -> mapM (byte_value_of Test) (map VBig bs) s = Done (map VBig bs, s).
Proof.
  induction 1 as [|z zs Hz H IH]; [reflexivity|]. cbn [map mapM]. unfold bind. cbn [byte_value_of to_big].
  unfold bind, lift. rewrite (proj2 (is_byte_spec z) Hz). unfold ret at 1. rewrite IH. reflexivity.
Qed.

Lemma slice_app {A} (a b c : list A) n m : length a = n -> m = (n + length b)%nat -> slice (a ++ b ++ c) n m = b.
Proof.
  intros <- ->. unfold slice. rewrite skipn_app, skipn_all, Nat.sub_diag. cbn [skipn app].
  replace (length a + length b - length a)%nat with (length b) by lia.
  rewrite firstn_app, firstn_all, Nat.sub_diag. cbn. apply app_nil_r.
Qed.

Lemma c22 O ins zs s : bigs ins zs ->
  VerifyInstanceHash O Test ins s =
  Done ((VBig ((o_keccak O (encoding (map (fun z => z mod p_mod) zs)) mod 2 ^ 256) mod r_mod), None), s).
Proof.
  intros H. pose proof (Forall2_len _ _ _ H) as L. unfold VerifyInstanceHash, bind.
  unfold new_hint. cbn [Nat.add]. unfold bind. rewrite (mapM_big _ _ _ H). cbn [hf_run Keccak256Hint].
  rewrite L. pose proof (keccak_hint_eq O zs) as K. cbn [Nat.add] in K. cbv zeta in K. unfold lift. rewrite K.
  set (buf := encoding (map (fun z => z mod p_mod) zs)) in *. set (h := keccak_bytes O buf).
  pose proof (keccak_ok O buf) as [Lh Bh]. fold h in Lh, Bh.
  assert (Bb : bytes buf) by apply encoding_bytes.
  assert (Lb : length buf = (32 * length zs)%nat)
    by (unfold buf, encoding; rewrite flat_map_be_length, map_length; reflexivity).
  cbn [map mapM]. unfold bind, ret at 1.
  rewrite mapM_somes by (apply bytes_lt_r, Forall_app; auto). unfold ret.
  rewrite map_app.
  rewrite (slice_app [VBig (of_be h mod r_mod)] (map VBig h) (map VBig buf)) by (cbn [length]; rewrite ?map_length; lia).
  pose proof (slice_app (VBig (of_be h mod r_mod) :: map VBig h) (map VBig buf) []
    33 (32 * (length zs + 1) + 1)) as SL.
  rewrite app_nil_r in SL. cbn [app] in SL.
  rewrite SL by (cbn [length]; rewrite ?map_length; lia). clear SL.
  rewrite !mapM_bytes by assumption.
  rewrite (proj1 (c21_keccak_test O _ _ buf h s (bigs_VBig _) (bigs_VBig _))).
  2:{ split; [assumption|]. rewrite <- Lh. apply firstn_all. }
  rewrite pack_test_list by lia. unfold ret. do 3 f_equal. f_equal. f_equal.
  apply pack_be32, Z.mod_pos_bound. reflexivity.
Qed.

(** ** C23 *)
Lemma mapM_bytes_build es : forall s, exists s', mapM (byte_value_of Build) (map VExpr es) s = Done (map VExpr es, s') /\
  cs_next s' = cs_next s /\ cs_hints s' = cs_hints s /\ cs_cons s' = rev (map CByte es) ++ cs_cons s.
Proof.
  induction es as [|e es IH]; intros s; [exists s; repeat split|].
  cbn [map mapM]. unfold bind. cbn [byte_value_of to_expr]. unfold bind, lift, emit, ret at 1.
  destruct (IH (mk_cs (cs_next s) (CByte e :: cs_cons s) (cs_hints s))) as (s' & A & B & C & D).
  exists s'. rewrite A. unfold ret. repeat split; auto. rewrite D. cbn [rev cs_cons]. rewrite <- app_assoc. reflexivity.
Qed.

Lemma map_VExpr_wires ws : map (fun i => VExpr (EWire i)) ws = map VExpr (map EWire ws).
Proof. rewrite map_map. reflexivity. Qed.

Lemma slice_seq n len a b : (a <= b)%nat -> (b <= len)%nat -> slice (seq n len) a b = seq (n + a) (b - a).
Proof.
  intros H1 H2. replace len with (a + ((b - a) + (len - b)))%nat by lia.
  rewrite !seq_app. rewrite (slice_app (seq n a)); [reflexivity | apply seq_length | rewrite seq_length; lia].
Qed.
Lemma slice_map {A B} (f : A -> B) l a b : slice (map f l) a b = map f (slice l a b).
Proof. unfold slice. rewrite skipn_map, firstn_map. reflexivity. Qed.

Lemma agree_trans n m w1 w2 w3 : (n <= m)%nat -> agree_below n w1 w2 -> agree_below m w2 w3 -> agree_below n w1 w3.
Proof.
  intros L [A1 A2] [B1 B2]. split; [|congruence]. intros i Hi. rewrite B1 by lia. apply A1. exact Hi.
Qed.

Lemma wires_lt_seq n a l : (a + l <= n)%nat -> Forall (wires_lt n) (map EWire (seq a l)).
Proof. intros H. apply Forall_map, Forall_forall. intros i Hi. apply in_seq in Hi. cbn. lia. Qed.

Lemma upd_list_slice w n zs a l : Forall (fun z => 0 <= z < r_mod) zs -> (a + l <= length zs)%nat ->
  map (eval (upd_list w n zs)) (map EWire (seq (n + a) l)) = firstn l (skipn a zs).
Proof.
  intros H L. pose proof (upd_list_wires w n zs H) as U.
  apply (f_equal (fun x => firstn l (skipn a x))) in U. rewrite <- U.
  rewrite !map_map. rewrite skipn_map, firstn_map. f_equal.
  replace (length zs) with (a + (l + (length zs - a - l)))%nat by lia.
  rewrite !seq_app, skipn_app, skipn_all2 by (rewrite seq_length; lia). rewrite seq_length, Nat.sub_diag. cbn [app skipn].
  rewrite firstn_app, firstn_all2 by (rewrite seq_length; lia). rewrite seq_length, Nat.sub_diag. cbn [firstn].
  rewrite app_nil_r. reflexivity.
Qed.

Lemma c23 O ins es s : exprs ins es ->
  exists v e s' new, VerifyInstanceHash O Build ins s = Done ((v, None), s') /\ to_expr v = Done e /\
    cs_cons s' = new ++ cs_cons s /\
    (forall w, Forall (sat1 O w) new -> exists bs, bytes bs /\ length bs = (32 * length ins)%nat /\
       eval w e = (o_keccak O bs mod 2 ^ 256) mod r_mod) /\
    (forall w bs, bytes bs -> length bs = (32 * length ins)%nat ->
       exists w', agree_below (cs_next s) w w' /\ Forall (sat1 O w') new /\
         eval w' e = (o_keccak O bs mod 2 ^ 256) mod r_mod).
Proof.
  intros H. pose proof (Forall2_len _ _ _ H) as L. set (N := cs_next s). set (k := length ins).
  set (len := (32 * (k + 1))%nat). set (tot := S len).
  set (s1 := mk_cs (N + tot) (cs_cons s) ((HKeccak, es, seq N tot) :: cs_hints s)).
  set (hw := map EWire (seq (N + 1) 32)). set (iw := map EWire (seq (N + 33) (32 * k))).
  destruct (mapM_bytes_build hw s1) as (s2 & A2 & N2 & H2 & C2).
  destruct (mapM_bytes_build iw s2) as (s3 & A3 & N3 & H3 & C3).
  destruct (c21_build_gen O (keccak_bytes O) CKeccak (map VExpr iw) (map VExpr hw) iw hw s3 (keccak_ok O)
    ltac:(intros; reflexivity) (exprs_VExpr _) (exprs_VExpr _)) as [_ B].
  destruct B as (s4 & newk & A4 & C4 & N4 & _ & S4 & T4); [unfold hw; rewrite map_length, seq_length; lia|].
  assert (exists v e, PackUInt8Variables Build (map VExpr hw) s4 = Done (v, s4) /\ to_expr v = Done e /\
    forall w, eval w e = pack (map (eval w) hw) mod r_mod) as (v & e & A5 & A6 & A7).
  { exact (c24_build _ _ _ s4 (exprs_VExpr (map EWire (seq (N + 1) 32)))). }
  exists v, e, s4, (newk ++ rev (map CByte iw) ++ rev (map CByte hw)).
  split.
  { unfold VerifyInstanceHash, bind. unfold new_hint. fold k. fold len. cbn [Nat.add]. fold tot. unfold bind.
    rewrite (mapM_expr _ _ _ H). cbn [alloc log_hint ret hf_id Keccak256Hint cs_next cs_cons cs_hints].
    unfold alloc, log_hint, ret. cbn [hf_id Keccak256Hint cs_next cs_cons cs_hints]. fold N. fold s1.
    rewrite map_VExpr_wires, !slice_map.
    rewrite !slice_seq by (unfold tot, len; lia).
    replace (33 - 1)%nat with 32%nat by reflexivity. fold hw. rewrite A2.
    replace (len + 1 - 33)%nat with (32 * k)%nat by (unfold len; lia). fold iw. rewrite A3.
    change (VerifyKeccak256 O Build (map VExpr iw) (map VExpr hw))
      with (hash_circuit Build (keccak_bytes O) CKeccak (map VExpr iw) (map VExpr hw)).
    rewrite A4, A5. reflexivity. }
  split; [exact A6|].
  split; [rewrite C4, C3, C2; cbn [cs_cons s1]; rewrite !app_assoc; reflexivity|].
  assert (F32 : forall w, map (eval w) (firstn 32 hw) = map (eval w) hw) by reflexivity.
  assert (P : forall w bs, map (eval w) hw = keccak_bytes O bs -> eval w e = (o_keccak O bs mod 2 ^ 256) mod r_mod).
  { intros w bs E. rewrite A7, E. f_equal. apply pack_be32, Z.mod_pos_bound. reflexivity. }
  split.
  - intros w W. apply Forall_app in W. destruct W as [W _]. apply S4 in W. destruct W as [W1 W2].
    rewrite F32 in W2. exists (map (eval w) iw). split; [exact W1|]. split; [|apply P; exact W2].
    unfold iw. rewrite !map_length, seq_length. reflexivity.
  - intros w bs Hb Lb. pose proof (keccak_ok O bs) as [Lh Bh].
    set (zs := 0 :: keccak_bytes O bs ++ bs).
    assert (Rz : Forall (fun z => 0 <= z < r_mod) zs).
    { constructor; [pose proof r_pos; lia|]. apply bytes_lt_r, Forall_app. auto. }
    assert (Lz : length zs = tot) by (unfold zs, tot, len; cbn [length]; rewrite app_length, Lh, Lb; fold k; lia).
    set (w1 := upd_list w N zs).
    assert (E1 : map (eval w1) hw = keccak_bytes O bs).
    { unfold hw, w1. rewrite upd_list_slice by (auto; rewrite Lz; unfold tot, len; lia).
      change (skipn 1 zs) with (keccak_bytes O bs ++ bs). rewrite firstn_app, firstn_all2 by lia.
      rewrite Lh. apply app_nil_r. }
    assert (E2 : map (eval w1) iw = bs).
    { unfold iw, w1. rewrite upd_list_slice by (auto; rewrite Lz; unfold tot, len; lia).
      change (skipn 33 zs) with (skipn 32 (keccak_bytes O bs ++ bs)).
      rewrite skipn_app, skipn_all2 by lia. rewrite Lh. cbn [Nat.sub skipn app].
      fold k in Lb. rewrite <- Lb. apply firstn_all. }
    assert (NN : cs_next s3 = (N + tot)%nat) by (rewrite N3, N2; reflexivity).
    assert (Wi : Forall (wires_lt (cs_next s3)) iw) by (apply wires_lt_seq; rewrite NN; unfold tot, len; lia).
    assert (Wh : Forall (wires_lt (cs_next s3)) hw) by (apply wires_lt_seq; rewrite NN; unfold tot, len; lia).
    set (w2 := upd_list w1 (cs_next s3) (keccak_bytes O (map (eval w1) iw))).
    assert (G : forall l, Forall (wires_lt (cs_next s3)) l -> map (eval w2) l = map (eval w1) l).
    { intros l Hl. apply map_ext_Forall. revert Hl. apply Forall_impl. intros a. apply eval_agree, upd_list_below. }
    exists w2. split; [|split].
    + apply (agree_trans N (cs_next s3) w w1); [lia | apply upd_list_below | apply upd_list_below].
    + apply Forall_app. split; [|apply Forall_app; split].
      * apply T4; auto; [rewrite E2; exact Hb | rewrite F32, E1, E2; reflexivity].
      * apply Forall_rev, Forall_map. pose proof (G iw Wi) as G'. rewrite E2 in G'. rewrite <- G' in Hb.
        unfold bytes in Hb. rewrite Forall_map in Hb. revert Hb. apply Forall_impl. intros a Ha. cbn [sat1]. lia.
      * apply Forall_rev, Forall_map. pose proof (G hw Wh) as G'. rewrite E1 in G'. rewrite <- G' in Bh.
        unfold bytes in Bh. rewrite Forall_map in Bh. revert Bh. apply Forall_impl. intros a Ha. cbn [sat1]. lia.
    + apply P. rewrite (G hw Wh). exact E1.
Qed.

(** the hash of the given instance is not forced: with an (injective on 32 bytes) toy hash the
    instance [0] also yields the hash of the encoding of 1 *)
Definition toyO : oracles := {| o_keccak := of_be; o_sha256 := of_be; o_smul_degen := fun _ _ _ => None;
  o_pairing := fun _ => true; o_ecdsa := fun _ _ _ _ _ => true |}.

Lemma c23_refuted : ~ (forall O ins es s v e s' w, exprs ins es ->
  VerifyInstanceHash O Build ins s = Done ((v, None), s') -> to_expr v = Done e -> sat O w s' ->
  eval w e = (o_keccak O (encoding (map (fun x => eval w x mod p_mod) es)) mod 2 ^ 256) mod r_mod).
Proof.
  assert (X : exprs [VInt 0] [EConst 0]) by (repeat constructor).
  intros C. destruct (c23 toyO [VInt 0] [EConst 0] empty_cs X) as (v & e & s' & new & A & B & D & _ & F).
  assert (L : length (be_bytes 32 1) = (32 * length [VInt 0])%nat) by (rewrite be32_len; reflexivity).
  destruct (F {| aw := fun _ => 0; ae := fun _ => 0 |} (be_bytes 32 1) (be_bytes_byte 32 1) L) as (w' & _ & F1 & F2).
  assert (S : sat toyO w' s').
  { unfold sat. rewrite D. apply Forall_app. split; [exact F1 | constructor]. }
  specialize (C toyO [VInt 0] [EConst 0] empty_cs v e s' w' X A B S). rewrite F2 in C. clear -C.
  cbn [map eval toyO o_keccak] in C.
  assert (E : of_be (be_bytes 32 1) = 1) by (vm_compute; reflexivity). rewrite E in C.
  assert (E' : of_be (encoding [(0 mod r_mod) mod p_mod]) = 0) by (vm_compute; reflexivity).
  rewrite E' in C. vm_compute in C. discriminate.
Qed.

(** ** C35 *)
Lemma c35_notzero_test v x s : to_big v = Done x ->
  (1 <= x -> VerifyNotZero Test v s = Done (None, s)) /\
  (~ 1 <= x -> exists w, VerifyNotZero Test v s = Panicked w).
Proof.
  intros H. unfold VerifyNotZero, api_assert_le, bind, lift. rewrite H. cbn [to_big].
  rewrite (modr_small 1) by (pose proof byte_lt_r; lia).
  split; intros A.
  - destruct (Z.ltb_spec x 0); [lia|]. unfold ret. destruct (Z.leb_spec 1 x); [reflexivity | lia].
  - destruct (Z.ltb_spec x 0); [eexists; reflexivity|]. destruct (Z.leb_spec 1 x); [lia | eexists; reflexivity].
Qed.
Lemma c35_range_test vx vmin vmax x mn mx s : to_big vx = Done x -> to_big vmin = Done mn -> to_big vmax = Done mx ->
  (0 <= x /\ mn <= x <= mx -> VerifyRangeCheck Test vx vmin vmax s = Done (None, s)) /\
  (~ (0 <= x /\ mn <= x <= mx) -> exists w, VerifyRangeCheck Test vx vmin vmax s = Panicked w).
Proof.
  intros H1 H2 H3. unfold VerifyRangeCheck, api_assert_le, bind, lift. rewrite H1, H2, H3.
  split; intros A.
  - destruct (Z.ltb_spec x 0); [lia|]. destruct (Z.leb_spec mn x); [|lia]. unfold ret.
    destruct (Z.ltb_spec mx 0); [lia|]. destruct (Z.leb_spec x mx); [reflexivity | lia].
  - destruct (Z.ltb_spec x 0); [eexists; reflexivity|]. destruct (Z.leb_spec mn x); [|eexists; reflexivity].
    unfold ret. destruct (Z.ltb_spec mx 0); [eexists; reflexivity|].
    destruct (Z.leb_spec x mx); [lia | eexists; reflexivity].
Qed.
Lemma c35_notzero_build v e s : to_expr v = Done e -> exists s' new,
  VerifyNotZero Build v s = Done (None, s') /\ cs_cons s' = new ++ cs_cons s /\
  forall O w, Forall (sat1 O w) new <-> eval w e <> 0.
Proof.
  intros H. exists (mk_cs (cs_next s) (CLe (EConst 1) e :: cs_cons s) (cs_hints s)), [CLe (EConst 1) e].
  split; [|split; [reflexivity|]].
  - unfold VerifyNotZero, api_assert_le, bind, lift. cbn [to_expr]. rewrite H. reflexivity.
  - intros O w. rewrite Forall_cons_iff. cbn [sat1 eval]. rewrite (modr_small 1) by (pose proof byte_lt_r; lia).
    pose proof (eval_range w e). split; [lia|]. intros N. split; [lia | constructor].
Qed.
Lemma c35_range_build vx vmin vmax x mn mx s : to_expr vx = Done x -> to_expr vmin = Done mn -> to_expr vmax = Done mx ->
  exists s' new, VerifyRangeCheck Build vx vmin vmax s = Done (None, s') /\ cs_cons s' = new ++ cs_cons s /\
  forall O w, Forall (sat1 O w) new <-> eval w mn <= eval w x <= eval w mx.
Proof.
  intros H1 H2 H3. eexists. exists [CLe x mx; CLe mn x]. split; [|split].
  - unfold VerifyRangeCheck, api_assert_le, bind, lift. rewrite H1, H2, H3. reflexivity.
  - reflexivity.
  - intros O w. rewrite !Forall_cons_iff. cbn [sat1]. split; [tauto|]. intros [A B]. repeat split; auto.
Qed.

(** ** C43 *)
Lemma c43_toBytes ins outs : (exists e o, to_bytes_run ins outs = Done (Some e, o)) \/
  (exists w, to_bytes_run ins outs = Panicked w).
Proof.
  unfold to_bytes_run. destruct (Nat.eqb_spec (length ins) 1) as [L|L]; cbn [negb]; [|left; eauto].
  destruct (Nat.eqb (length outs) 32); cbn [negb]; [|left; eauto].
  destruct ins as [|a [|b t]]; try discriminate L. right. eexists. reflexivity.
Qed.
Lemma c43_valueof a b : (length (ValueOf a) = 32 * length a)%nat /\ Forall (fun v => v = VNil) (ValueOf a) /\
  (length a = length b -> ValueOf a = ValueOf b).
Proof.
  unfold ValueOf. split; [apply repeat_length|]. split; [|intros ->; reflexivity].
  apply Forall_forall. intros x Hx. apply repeat_spec in Hx. exact Hx.
Qed.
