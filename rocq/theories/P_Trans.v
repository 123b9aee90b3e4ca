(** Proofs about the Fiat-Shamir transcript (C25-C28). *)
From Coq Require Import ZArith Lia String Bool List.
From Verif Require Import Params Go Curve Api FrOps Lib SpecHash SpecCurve P_Fr P_Str P_Hash P_Msm.
Import ListNotations.
Open Scope Z_scope.

Lemma small_dec z : {small z} + {~ small z}.
Proof. unfold small. destruct (Z_lt_dec (Z.abs z) (2 ^ 256)); auto. Qed.


Lemma digest_range O m : 0 <= digest O m < 2 ^ 256.
Proof. apply Z.mod_pos_bound. reflexivity. Qed.
Lemma digest_small O m : small (digest O m).
Proof. pose proof (digest_range O m). unfold small. lia. Qed.

Lemma fill_small z : small z -> fill_bytes32 z = Done (be_bytes 32 (Z.abs z)).
Proof. unfold small, fill_bytes32. intros H. destruct (Z.ltb_spec (Z.abs z) (2 ^ 256)); [reflexivity | lia]. Qed.
Lemma fill_large z : ~ small z -> fill_bytes32 z = Panicked "math/big: buffer too small to fit value".
Proof. unfold small, fill_bytes32. intros H. destruct (Z.ltb_spec (Z.abs z) (2 ^ 256)); [lia | reflexivity]. Qed.

Lemma absorb_bytes_ok l : forall n i zs, firstn n (skipn i l) = map VBig zs -> length zs = n -> Forall small zs ->
  absorb_bytes l i n = Done (encoding (map Z.abs zs)).
Proof.
  induction n as [|n IH]; intros i zs E L HS; [destruct zs; [reflexivity | discriminate L]|].
  cbn [absorb_bytes]. rewrite (skipn_nth l i) in E. unfold get. destruct (nth_error l i) as [v|]; [|destruct zs; discriminate].
  destruct zs as [|z zs]; [discriminate L|]. cbn [firstn map] in E. injection E as -> E. injection L as L.
  inversion HS; subst. cbn [obind as_big]. rewrite fill_small by assumption. cbn [obind].
  rewrite (IH (S i) zs) by auto. reflexivity.
Qed.

Lemma absorb_bytes_inv l : forall n i bs, absorb_bytes l i n = Done bs ->
  exists zs, firstn n (skipn i l) = map VBig zs /\ length zs = n /\ Forall small zs.
Proof.
  induction n as [|n IH]; intros i bs E; [exists []; repeat split; constructor|].
  cbn [absorb_bytes] in E. rewrite (skipn_nth l i). unfold get in E. destruct (nth_error l i) as [v|]; [|discriminate].
  cbn [obind] in E. destruct v; try discriminate E. cbn [as_big obind] in E.
  destruct (small_dec z) as [Hz|Hz]; [|rewrite fill_large in E by assumption; discriminate E].
  rewrite fill_small in E by assumption. cbn [obind] in E.
  destruct (absorb_bytes l (S i) n) eqn:E1; [|discriminate E]. destruct (IH _ _ E1) as (zs & A & B & C).
  exists (z :: zs). cbn [firstn map length]. rewrite A, B. repeat split; constructor; auto.
Qed.

(** the inner SHA-256 circuit always passes on constants *)
Lemma sha_const_ok O en ms s : bytes ms ->
  exists s', VerifySha256 O en (new_u8_array ms) (new_u8_array (sha256_bytes O ms)) s = Done (None, s') /\
    (en = Test -> s' = s).
Proof.
  intros H. destruct en.
  - exists s. split; [|reflexivity]. apply (c21_sha_test O _ _ ms (sha256_bytes O ms) s).
    + apply bigs_VInt, bytes_lt_r, H.
    + apply bigs_VInt, bytes_lt_r, sha256_ok.
    + split; [exact H|]. pose proof (sha256_ok O ms) as [L _]. rewrite <- L. apply firstn_all.
  - destruct (c21_sha_build O (new_u8_array ms) (new_u8_array (sha256_bytes O ms)) (map EConst ms)
      (map EConst (sha256_bytes O ms)) s) as [_ A].
    + unfold new_u8_array. generalize ms. intros l. induction l; constructor; auto.
    + unfold new_u8_array. generalize (sha256_bytes O ms). intros l. induction l; constructor; auto.
    + destruct A as (s' & new & A & _); [rewrite map_length; pose proof (sha256_ok O ms) as [L _]; lia|].
      exists s'. split; [exact A | discriminate].
Qed.

Lemma msg_bytes ms : bytes (msg ms).
Proof. apply Forall_app. split; [apply encoding_bytes | repeat constructor; lia]. Qed.

Lemma sha_digest O m : of_be (sha256_bytes O m) = digest O m.
Proof. rewrite of_be_pack. apply pack_be32, digest_range. Qed.

Lemma set_nth_some {A} (l : list A) : forall i a, (i < length l)%nat ->
  exists l', set_nth l i a = Some l' /\ length l' = length l /\
    forall j, nth_error l' j = if Nat.eqb j i then Some a else nth_error l j.
Proof.
  induction l as [|b l IH]; intros [|i] a L; cbn [length] in L; try lia.
  - exists (a :: l). repeat split. intros [|j]; reflexivity.
  - destruct (IH i a ltac:(lia)) as (l' & A1 & A2 & A3). exists (b :: l'). cbn. rewrite A1, A2.
    repeat split. intros [|j]; cbn; auto.
Qed.
Lemma set_nth_none {A} (l : list A) : forall i a, (length l <= i)%nat -> set_nth l i a = None.
Proof. induction l; intros [|i] b L; cbn in *; auto; try lia. rewrite IHl by lia. reflexivity. Qed.

Lemma firstn_ext_nth {A} (l l' : list A) : forall n, (forall i, (i < n)%nat -> nth_error l i = nth_error l' i) ->
  firstn n l = firstn n l'.
Proof.
  intros n. revert l l'. induction n as [|n IH]; intros l l' H; [reflexivity|].
  pose proof (H O ltac:(lia)) as H0. destruct l, l'; cbn in H0; try discriminate; auto.
  injection H0 as ->. cbn. f_equal. apply IH. intros i Hi. apply (H (S i)). lia.
Qed.

(** ** C25 *)
Lemma c25_ok O en absorbing n zs s : (n < length absorbing)%nat ->
  firstn n absorbing = map VBig zs -> Forall small zs ->
  exists absorbing' s', SqueezeChallenge O en absorbing n s =
      Done ((VBig (digest O (msg zs) mod r_mod), absorbing', None), s') /\
    (en = Test -> s' = s) /\ length absorbing' = length absorbing /\
    (forall i, nth_error absorbing' i =
       if Nat.eqb i 0 then Some (VBig (digest O (msg zs)))
       else if Nat.eqb i n then Some (VBig 0) else nth_error absorbing i).
Proof.
  intros L E S.
  assert (Lz : length zs = n).
  { apply (f_equal (@length _)) in E. rewrite firstn_length, map_length in E. lia. }
  destruct (set_nth_some absorbing n (VBig 0) L) as (l1 & A1 & A2 & A3).
  assert (E1 : firstn n (skipn 0 l1) = map VBig zs).
  { cbn [skipn]. rewrite <- E. apply firstn_ext_nth. intros i Hi. rewrite A3.
    destruct (Nat.eqb_spec i n); [lia | reflexivity]. }
  assert (L1 : (0 < length l1)%nat) by lia.
  destruct (set_nth_some l1 0 (VBig (digest O (msg zs))) L1) as (l2 & B1 & B2 & B3).
  destruct (sha_const_ok O en (msg zs) s (msg_bytes zs)) as (s' & V1 & V2).
  exists l2, s'. split; [|split; [exact V2|split; [lia|]]].
  - unfold SqueezeChallenge, bind, lift, put. rewrite A1.
    rewrite (absorb_bytes_ok l1 n 0 zs E1 Lz S). cbv zeta. change (encoding (map Z.abs zs) ++ [0]) with (msg zs).
    rewrite V1, sha_digest, B1. reflexivity.
  - intros i. rewrite B3. destruct (Nat.eqb_spec i 0); [reflexivity|]. apply A3.
Qed.

Lemma c25_panics O en absorbing n s :
  ~ ((n < length absorbing)%nat /\ exists zs, firstn n absorbing = map VBig zs /\ Forall small zs) ->
  exists w, SqueezeChallenge O en absorbing n s = Panicked w.
Proof.
  intros H. unfold SqueezeChallenge, bind, lift, put.
  destruct (Nat.lt_ge_cases n (length absorbing)) as [L|L]; [|rewrite set_nth_none by exact L; eauto].
  destruct (set_nth_some absorbing n (VBig 0) L) as (l1 & A1 & A2 & A3). rewrite A1.
  destruct (absorb_bytes l1 0 n) as [bs|w] eqn:E; [|eauto]. exfalso. apply H. split; [exact L|].
  destruct (absorb_bytes_inv _ _ _ _ E) as (zs & B1 & B2 & B3). exists zs. split; [|exact B3].
  rewrite <- B1. cbn [skipn]. apply firstn_ext_nth. intros i Hi. rewrite A3.
  destruct (Nat.eqb_spec i n); [lia | reflexivity].
Qed.

(** ** The schedule as a list of stages: (points?, count, slot) *)
Definition onerr := fun (b : list var) (e : goerr) => (b, Some e).
Definition absorb_any (en : engine) (tr : list var) (pts : bool) (n : nat) (st : list var * nat * nat) :
  M ((list var * nat * nat) * option goerr) :=
  if pts then absorb_points en tr n st
  else r <- lift (absorb_scalars tr n st) ;; ret (r, None).

Fixpoint run_stages (O : oracles) (en : engine) (tr : list var) (l : list (bool * nat * nat))
    (buf absorbing : list var) (pos tpos : nat) (K : list var -> nat -> M (list var * option goerr))
  : M (list var * option goerr) :=
  match l with
  | [] => K buf tpos
  | (pts, n, i) :: l' =>
      '((absorbing, pos, tpos), err) <- absorb_any en tr pts n (absorbing, pos, tpos) ;;
      match err with Some e => ret (buf, Some e) | None =>
        squeeze_into O en buf i absorbing pos onerr (fun buf absorbing =>
          run_stages O en tr l' buf absorbing 1 tpos K)
      end
  end.

Definition stages : list (bool * nat * nat) :=
  [(true, 8, 2); (true, 4, 3); (true, 0, 4); (true, 7, 5); (true, 3, 6); (false, 56, 7); (true, 0, 8); (true, 1, 9)]%nat.

Definition last_check (en : engine) (tr : list var) (buf : list var) (tpos : nat) : M (list var * option goerr) :=
  x <- lift (get tr tpos) ;;
  y <- lift (get tr (tpos + 1)) ;;
  try_ (VerifyCheckOnCurve en x y) (fun e => (buf, Some e)) (ret (buf, None)).

Lemma bind_ext {A B} (m : M A) (k k' : A -> M B) s : (forall a s', k a s' = k' a s') -> bind m k s = bind m k' s.
Proof. intros H. unfold bind. destruct (m s) as [[a s']|]; auto. Qed.
Lemma squeeze_ext {A} O en buf i ab pos (oe : list var -> goerr -> A) k k' s :
  (forall b a s', k b a s' = k' b a s') ->
  squeeze_into O en buf i ab pos oe k s = squeeze_into O en buf i ab pos oe k' s.
Proof.
  intros H. unfold squeeze_into. apply bind_ext. intros [[c a] e] s1. apply bind_ext. intros b s2.
  destruct e; auto.
Qed.
Lemma bind_ret_l {A B} (a : A) (k : A -> M B) s : bind (ret a) k s = k a s. Proof. reflexivity. Qed.
Lemma bind_assoc {A B C} (m : M A) (f : A -> M B) (g : B -> M C) s :
  bind (bind m f) g s = bind m (fun a => bind (f a) g) s.
Proof. unfold bind. destruct (m s) as [[a s']|]; auto. Qed.

Ltac stage_pts := cbn [run_stages absorb_any];
  apply bind_ext; intros [[[? ?] ?] [?|]] ?; [reflexivity|]; apply squeeze_ext; intros ? ? ?.
Ltac stage_0 := cbn [run_stages absorb_any absorb_points]; rewrite ?bind_ret_l; apply squeeze_ext; intros ? ? ?.

Lemma challenges_stages O en buf b0 b1 tr s : nth_error buf 0 = Some b0 -> nth_error buf 1 = Some b1 ->
  GetChallengesShPlonkCircuit O en buf tr s =
  run_stages O en tr stages buf (VBig absorb0 :: b0 :: b1 :: repeat VNil 109) 3 0 (last_check en tr) s.
Proof.
  intros H0 H1. unfold GetChallengesShPlonkCircuit.
  change (repeat VNil 112) with (VNil :: VNil :: VNil :: repeat VNil 109). generalize (repeat VNil 109). intros tl.
  unfold bind at 1, lift at 1, put at 1. cbn [set_nth].
  unfold bind at 1, lift at 1, get at 1. rewrite H0.
  unfold bind at 1, lift at 1, put at 1. cbn [set_nth option_map].
  unfold bind at 1, lift at 1, get at 1. rewrite H1.
  unfold bind at 1, lift at 1, put at 1. cbn [set_nth option_map].
  unfold stages. stage_pts. stage_pts. stage_0. stage_pts. stage_pts.
  cbn [run_stages absorb_any]. rewrite bind_assoc. apply bind_ext. intros [[? ?] ?] ?. rewrite bind_ret_l.
  apply squeeze_ext. intros ? ? ?. stage_0. stage_pts. reflexivity.
Qed.

Fixpoint pts_ok (n : nat) (l : list Z) : Prop :=
  match n, l with
  | O, _ => True
  | S m, a :: b :: t => curve_or_zero a b /\ pts_ok m t
  | S _, _ => False
  end.

Lemma curve_or_zero_dec a b : {curve_or_zero a b} + {~ curve_or_zero a b}.
Proof.
  destruct (g1_is_on_curve (a mod p_mod) (b mod p_mod)) eqn:E; [left | right].
  - apply g1_is_on_curve_iff, E.
  - intros H. apply g1_is_on_curve_iff in H. congruence.
Qed.
Lemma pts_ok_dec n : forall l, {pts_ok n l} + {~ pts_ok n l}.
Proof.
  induction n as [|n IH]; intros l; cbn; auto. destruct l as [|a [|b t]]; auto.
  destruct (curve_or_zero_dec a b), (IH t); tauto.
Qed.

Lemma skipn_cons_nth {A} (l : list A) i a t : skipn i l = a :: t -> nth_error l i = Some a /\ skipn (i + 1) l = t.
Proof.
  rewrite skipn_nth. intros H. destruct (nth_error l i) eqn:E; [|discriminate]. injection H as -> <-.
  rewrite Nat.add_1_r. auto.
Qed.

Lemma absorb_points_spec en zs s : forall n pre rest tpos chunk tl,
  skipn tpos zs = chunk ++ tl -> length chunk = (2 * n)%nat -> (2 * n <= length rest)%nat ->
  (pts_ok n chunk -> absorb_points en (map VBig zs) n (pre ++ rest, length pre, tpos) s =
     Done (((pre ++ map VBig chunk ++ skipn (2 * n) rest, length pre + 2 * n, tpos + 2 * n)%nat, None), s)) /\
  (~ pts_ok n chunk -> exists st e, absorb_points en (map VBig zs) n (pre ++ rest, length pre, tpos) s =
     Done ((st, Some e), s)).
Proof.
  induction n as [|n IH]; intros pre rest tpos chunk tl E L R.
  - destruct chunk; [|discriminate L]. cbn. rewrite !Nat.add_0_r. split; [reflexivity | tauto].
  - destruct chunk as [|a [|b chunk]]; cbn [length] in L; try lia.
    destruct rest as [|r1 [|r2 rest]]; cbn [length] in R; try lia.
    cbn [app] in E. destruct (skipn_cons_nth _ _ _ _ E) as [E1 E2]. destruct (skipn_cons_nth _ _ _ _ E2) as [E3 E4].
    rewrite <- Nat.add_assoc in E4. cbn [Nat.add] in E4.
    set (m := absorb_points en (map VBig zs) (S n) (pre ++ r1 :: r2 :: rest, length pre, tpos) s).
    assert (M : m = match VerifyCheckOnCurve en (VBig a) (VBig b) s with
      | Done (Some e, s') => Done (((pre ++ r1 :: r2 :: rest, length pre, tpos), Some e), s')
      | Done (None, s') => absorb_points en (map VBig zs) n
          ((pre ++ [VBig a; VBig b]) ++ rest, length (pre ++ [VBig a; VBig b]), (tpos + 2)%nat) s'
      | Panicked w => Panicked w end).
    { unfold m. cbn [absorb_points]. unfold bind at 1, lift, get. rewrite (map_nth_error _ _ _ E1).
      unfold bind at 1, lift, get. rewrite (map_nth_error _ _ _ E3). unfold try_, bind at 1.
      destruct (VerifyCheckOnCurve en (VBig a) (VBig b) s) as [[[e|] s']|w]; try reflexivity.
      unfold bind at 1, lift, put. rewrite set_nth_app. unfold bind at 1, lift, put.
      replace (pre ++ VBig a :: r2 :: rest) with ((pre ++ [VBig a]) ++ r2 :: rest) by (rewrite <- app_assoc; reflexivity).
      replace (length pre + 1)%nat with (length (pre ++ [VBig a])) by (rewrite app_length; reflexivity).
      rewrite set_nth_app. rewrite app_length. cbn [length]. rewrite <- !app_assoc. cbn [app].
      replace (length (pre ++ [VBig a; VBig b])) with (length pre + 2)%nat by (rewrite app_length; reflexivity).
      reflexivity. }
    destruct (IH (pre ++ [VBig a; VBig b]) rest (tpos + 2)%nat chunk tl E4 ltac:(lia) ltac:(lia)) as [I1 I2].
    rewrite M. cbn [pts_ok]. destruct (c20_test en a b s) as [C1 C2].
    split.
    + intros [P1 P2]. rewrite (C1 P1), (I1 P2). rewrite app_length. cbn [length].
      replace (2 * S n)%nat with (S (S (2 * n))) by lia. cbn [map skipn]. rewrite <- !app_assoc. cbn [app].
      do 2 f_equal. f_equal. f_equal; [|lia]. f_equal. lia.
    + intros N. destruct (curve_or_zero_dec a b) as [P1|P1].
      * rewrite (C1 P1). apply I2. tauto.
      * destruct (C2 P1) as [e ->]. eauto.
Qed.

Lemma absorb_scalars_spec zs : forall n pre rest tpos chunk tl,
  skipn tpos zs = chunk ++ tl -> length chunk = n -> (n <= length rest)%nat ->
  absorb_scalars (map VBig zs) n (pre ++ rest, length pre, tpos) =
     Done (pre ++ map VBig chunk ++ skipn n rest, length pre + n, tpos + n)%nat.
Proof.
  induction n as [|n IH]; intros pre rest tpos chunk tl E L R.
  - destruct chunk; [|discriminate L]. cbn. rewrite !Nat.add_0_r. reflexivity.
  - destruct chunk as [|a chunk]; cbn [length] in L; try lia.
    destruct rest as [|r1 rest]; cbn [length] in R; try lia.
    cbn [app] in E. destruct (skipn_cons_nth _ _ _ _ E) as [E1 E2].
    cbn [absorb_scalars]. unfold get. rewrite (map_nth_error _ _ _ E1). cbn [obind]. unfold put.
    rewrite set_nth_app. cbn [obind].
    pose proof (IH (pre ++ [VBig a]) rest (tpos + 1)%nat chunk tl E2 ltac:(lia) ltac:(lia)) as I.
    rewrite app_length, <- !app_assoc in I. cbn [length app] in I. rewrite I.
    cbn [map skipn app]. f_equal. f_equal; [|lia]. f_equal. lia.
Qed.

Definition size (st : bool * nat * nat) : nat := let '(pts, n, _) := st in if pts then (2 * n)%nat else n.
Definition stage_ok (st : bool * nat * nat) (chunk : list Z) : Prop :=
  let '(pts, n, _) := st in if pts then pts_ok n chunk else True.
Lemma stage_ok_dec st c : {stage_ok st c} + {~ stage_ok st c}.
Proof. destruct st as [[[] n] i]; cbn; auto using pts_ok_dec. Qed.

Lemma absorb_any_spec en zs s pts n i pre rest tpos chunk tl :
  skipn tpos zs = chunk ++ tl -> length chunk = size (pts, n, i) -> (size (pts, n, i) <= length rest)%nat ->
  (stage_ok (pts, n, i) chunk -> absorb_any en (map VBig zs) pts n (pre ++ rest, length pre, tpos) s =
     Done (((pre ++ map VBig chunk ++ skipn (size (pts, n, i)) rest, length pre + size (pts, n, i),
             tpos + size (pts, n, i))%nat, None), s)) /\
  (~ stage_ok (pts, n, i) chunk -> exists st e, absorb_any en (map VBig zs) pts n (pre ++ rest, length pre, tpos) s =
     Done ((st, Some e), s)).
Proof.
  intros E L R. destruct pts; cbn [size] in *.
  - apply (absorb_points_spec en zs s n pre rest tpos chunk tl E L R).
  - cbn [stage_ok]. split; [|tauto]. intros _. unfold absorb_any, bind, lift.
    rewrite (absorb_scalars_spec zs n pre rest tpos chunk tl E L R). reflexivity.
Qed.

Fixpoint total (l : list (bool * nat * nat)) : nat :=
  match l with [] => O | st :: l' => (size st + total l')%nat end.
Fixpoint stages_ok (l : list (bool * nat * nat)) (zs : list Z) : Prop :=
  match l with [] => True | st :: l' => stage_ok st (firstn (size st) zs) /\ stages_ok l' (skipn (size st) zs) end.
Lemma stages_ok_dec l : forall zs, {stages_ok l zs} + {~ stages_ok l zs}.
Proof.
  induction l as [|st l IH]; intros zs; cbn; auto.
  destruct (stage_ok_dec st (firstn (size st) zs)), (IH (skipn (size st) zs)); tauto.
Qed.

Definition achain (O : oracles) (ms : list Z) (chunks : list (list Z)) : list Z :=
  chain O (map Z.abs ms) (map (map Z.abs) chunks).
Lemma achain_cons O ms c t : achain O ms (c :: t) =
  digest O (msg (ms ++ c)) :: achain O [digest O (msg (ms ++ c))] t.
Proof.
  unfold achain, chain. cbn [map chain_messages]. rewrite <- map_app. fold (msg (ms ++ c)). f_equal.
  rewrite (Z.abs_eq (digest O _)) by apply digest_range. reflexivity.
Qed.


Lemma Forall_app_dec ms : {Forall small ms} + {~ Forall small ms}.
Proof. apply Forall_dec, small_dec. Qed.

Lemma run_stages_spec O en zs K : forall l i0 b1 b2 ms rest tpos s,
  map snd l = seq i0 (length l) -> length b1 = i0 -> (length l <= length b2)%nat ->
  (1 <= length ms)%nat -> length (map VBig ms ++ rest) = 112%nat ->
  Forall (fun st => (length ms + size st < 112)%nat) l ->
  (tpos + total l <= length zs)%nat ->
  let R := skipn tpos zs in
  let run := run_stages O en (map VBig zs) l (b1 ++ b2) (map VBig ms ++ rest) (length ms) tpos K s in
  (stages_ok l R -> Forall small ms -> Forall small (firstn (total l) R) ->
   exists s', (en = Test -> s' = s) /\
   run = K (b1 ++ map chal (achain O ms (cut (map size l) R)) ++ skipn (length l) b2) (tpos + total l)%nat s') /\
  (Forall small ms -> Forall small (firstn (total l) R) -> ~ stages_ok l R ->
   exists b e s', run = Done ((b, Some e), s')) /\
  (forall b s', run = Done ((b, None), s') ->
   stages_ok l R /\ (l <> [] -> Forall small ms) /\ Forall small (firstn (total l) R)).
Proof.
  induction l as [|[[pts n] i] l IH]; intros i0 b1 b2 ms rest tpos s HS L1 L2 Lm LA HC HT R run.
  - unfold run. cbn [run_stages total stages_ok firstn cut map skipn length].
    split; [|split].
    + intros _ _ _. exists s. split; [reflexivity|]. rewrite Nat.add_0_r. reflexivity.
    + tauto.
    + intros _ _ _. split; [exact I|]. split; [congruence | constructor].
  - set (st := (pts, n, i)) in *. cbn [total] in HT. set (sz := size st) in *.
    set (chunk := firstn sz R). assert (LR : length R = (length zs - tpos)%nat) by apply skipn_length.
    assert (Lc : length chunk = sz) by (unfold chunk; rewrite firstn_length; lia).
    assert (ER : R = chunk ++ skipn sz R) by (symmetry; apply firstn_skipn).
    inversion HC as [|? ? HC1 HC2]; subst. fold sz in HC1.
    rewrite app_length, map_length in LA.
    destruct (absorb_any_spec en zs s pts n i (map VBig ms) rest tpos chunk (skipn sz R) ER Lc ltac:(fold st; fold sz; lia))
      as [A1 A2].
    fold st in A1, A2. fold sz in A1, A2. rewrite map_length in A1, A2.
    cbn [map] in HS. cbn [length seq] in HS. injection HS as HI HS. cbn in HI. subst i.
    (* the squeeze *)
    set (ab := map VBig ms ++ map VBig chunk ++ skipn sz rest) in *.
    assert (Lab : length ab = 112%nat)
      by (unfold ab; rewrite !app_length, !map_length, skipn_length; lia).
    assert (Fab : firstn (length ms + sz) ab = map VBig (ms ++ chunk)).
    { unfold ab. rewrite app_assoc, <- map_app, firstn_app.
      rewrite firstn_all2 by (rewrite map_length, app_length; lia).
      rewrite map_length, app_length, Lc, Nat.sub_diag. cbn [firstn]. apply app_nil_r. }
    cbn [length] in L2. destruct b2 as [|v b2]; [cbn in L2; lia|]. cbn [length] in L2.
    assert (Erun : run = match absorb_any en (map VBig zs) pts n (map VBig ms ++ rest, length ms, tpos) s with
      | Done (((ab', pos', tpos'), Some e), s') => Done ((b1 ++ v :: b2, Some e), s')
      | Done (((ab', pos', tpos'), None), s') =>
          match SqueezeChallenge O en ab' pos' s' with
          | Done ((c, ab'', Some e), s'') => Done ((b1 ++ c :: b2, Some e), s'')
          | Done ((c, ab'', None), s'') => run_stages O en (map VBig zs) l ((b1 ++ [c]) ++ b2) ab'' 1 tpos' K s''
          | Panicked w => Panicked w
          end
      | Panicked w => Panicked w end).
    { unfold run. cbn [run_stages]. unfold bind at 1. unfold st.
      destruct (absorb_any en (map VBig zs) pts n (map VBig ms ++ rest, length ms, tpos) s) as [[[[[ab' pos'] tpos'] [e|]] s']|w];
        try reflexivity.
      unfold squeeze_into, bind at 1. destruct (SqueezeChallenge O en ab' pos' s') as [[[[c ab''] e] s'']|w]; [|reflexivity].
      unfold bind, lift, put. rewrite set_nth_app.
      replace ((b1 ++ [c]) ++ b2) with (b1 ++ c :: b2) by (rewrite <- app_assoc; reflexivity).
      destruct e; reflexivity. }
    destruct (Forall_app_dec (ms ++ chunk)) as [Sm|Sm].
    + destruct (c25_ok O en ab (length ms + sz) (ms ++ chunk) s ltac:(lia) Fab Sm) as (ab' & s1 & Q1 & Q2 & Q3 & Q4).
      set (d := digest O (msg (ms ++ chunk))) in *.
      assert (exists rest', ab' = map VBig [d] ++ rest') as (rest' & Eab).
      { pose proof (Q4 0%nat) as Q. cbn in Q. destruct ab' as [|x ab']; [discriminate Q|]. injection Q as ->.
        exists ab'. reflexivity. }
      destruct (IH (S (length b1)) (b1 ++ [chal d]) b2 [d] rest' (tpos + sz)%nat s1) as (I1 & I2 & I3).
      * exact HS.
      * rewrite app_length. cbn. lia.
      * lia.
      * cbn. lia.
      * rewrite <- Eab. lia.
      * revert HC2. apply Forall_impl. intros a Ha. cbn [length]. lia.
      * lia.
      * assert (ES : skipn (tpos + sz) zs = skipn sz R).
        { unfold R. rewrite Nat.add_comm. clear. revert tpos. induction zs as [|z zs IH]; intros [|t].
          - rewrite !skipn_nil. reflexivity.
          - rewrite !skipn_nil. reflexivity.
          - rewrite Nat.add_0_r. reflexivity.
          - rewrite Nat.add_succ_r. cbn [skipn]. apply IH. }
        rewrite ES in I1, I2, I3.
        assert (Fsplit : firstn (sz + total l) R = chunk ++ firstn (total l) (skipn sz R)).
        { rewrite ER at 1. rewrite firstn_app, firstn_all2 by lia. rewrite Lc.
          replace (sz + total l - sz)%nat with (total l) by lia. reflexivity. }
        assert (Erun2 : stage_ok st chunk -> run =
          run_stages O en (map VBig zs) l ((b1 ++ [chal d]) ++ b2) (map VBig [d] ++ rest') (length [d]) (tpos + sz) K s1).
        { intros P. rewrite Erun, (A1 P), Q1, Eab. reflexivity. }
        cbn [total stages_ok]. fold sz. fold chunk. rewrite Fsplit.
        apply Forall_app in Sm. destruct Sm as [Sm1 Sm2].
        assert (Sd : Forall small [d]) by (repeat constructor; apply digest_small).
        split; [|split].
        -- intros [P1 P2] _ S2. apply Forall_app in S2. destruct S2 as [_ S2].
           destruct (I1 P2 Sd S2) as (s2 & T1 & T2). exists s2. split; [intros E; rewrite (T1 E); auto|].
           rewrite (Erun2 P1), T2. cbn [map cut]. fold sz. fold chunk. rewrite achain_cons. fold d.
           cbn [map skipn length]. rewrite <- !app_assoc. cbn [app]. f_equal. lia.
        -- intros _ S2 N. apply Forall_app in S2. destruct S2 as [_ S2].
           destruct (stage_ok_dec st chunk) as [P1|P1].
           ++ rewrite (Erun2 P1). apply I2; auto.
           ++ destruct (A2 P1) as (st' & e & A). rewrite Erun, A. destruct st' as [[? ?] ?]. eauto.
        -- intros b s' E. destruct (stage_ok_dec st chunk) as [P1|P1].
           ++ rewrite (Erun2 P1) in E. destruct (I3 _ _ E) as (J1 & _ & J2).
              split; [auto|]. split; [auto|]. apply Forall_app. auto.
           ++ destruct (A2 P1) as (st' & e & A). rewrite Erun, A in E. destruct st' as [[? ?] ?]. discriminate.
    + assert (Fsplit : firstn (sz + total l) R = chunk ++ firstn (total l) (skipn sz R)).
      { rewrite ER at 1. rewrite firstn_app, firstn_all2 by lia. rewrite Lc.
        replace (sz + total l - sz)%nat with (total l) by lia. reflexivity. }
      cbn [total]. fold sz. rewrite Fsplit.
      split; [|split].
      * intros _ S1 S2. exfalso. apply Sm. apply Forall_app in S2. apply Forall_app. tauto.
      * intros S1 S2. exfalso. apply Sm. apply Forall_app in S2. apply Forall_app. tauto.
      * intros b s' E. exfalso. destruct (stage_ok_dec st chunk) as [P1|P1].
        -- destruct (c25_panics O en ab (length ms + sz) s) as [w W].
           { intros (_ & zs' & F1 & F2). rewrite Fab in F1. apply Sm.
             assert (ms ++ chunk = zs'); [|congruence].
             clear -F1. revert zs' F1. induction (ms ++ chunk) as [|x t IH]; intros [|y t'] F; try discriminate F; auto.
             cbn in F. injection F as -> F. f_equal. auto. }
           rewrite Erun, (A1 P1), W in E. discriminate.
        -- destruct (A2 P1) as (st' & e & A). rewrite Erun, A in E. destruct st' as [[? ?] ?]. discriminate.
Qed.

(** ** C26, C28 *)

Lemma pts_ok_idx n : forall l, (2 * n <= length l)%nat ->
  pts_ok n l <-> forall j, (j < n)%nat -> curve_or_zero (nth (2 * j) l 0) (nth (2 * j + 1) l 0).
Proof.
  induction n as [|n IH]; intros l L; [cbn; split; [lia | auto]|].
  destruct l as [|a [|b l]]; cbn [length] in L; try lia. cbn [pts_ok]. rewrite IH by lia. split.
  - intros [H1 H2] [|j] Hj; [exact H1|]. replace (2 * S j)%nat with (S (S (2 * j))) by lia. cbn [nth Nat.add].
    apply H2. lia.
  - intros H. split; [exact (H O ltac:(lia))|]. intros j Hj. specialize (H (S j) ltac:(lia)).
    replace (2 * S j)%nat with (S (S (2 * j))) in H by lia. exact H.
Qed.

Lemma nth_firstn_lt {A} (l : list A) n i d : (i < n)%nat -> nth i (firstn n l) d = nth i l d.
Proof. revert n i. induction l; intros [|n] [|i] H; cbn; auto; try lia. apply IHl. lia. Qed.
Lemma nth_skipn {A} (l : list A) n i d : nth i (skipn n l) d = nth (n + i) l d.
Proof. revert n. induction l; intros [|n]; cbn; auto. destruct i; reflexivity. Qed.

Fixpoint idx (off : nat) (l : list (bool * nat * nat)) : list nat :=
  match l with
  | [] => []
  | (pts, n, i) :: l' => (if pts then map (fun j => (off + 2 * j)%nat) (seq 0 n) else []) ++ idx (off + size (pts, n, i)) l'
  end.

Lemma skipn_add {A} (l : list A) a b : skipn a (skipn b l) = skipn (b + a) l.
Proof. revert b. induction l; intros [|b]; cbn; rewrite ?skipn_nil; auto. Qed.

Lemma stages_ok_idx zs : forall l off, (off + total l <= length zs)%nat ->
  stages_ok l (skipn off zs) <-> Forall (ok_at zs) (idx off l).
Proof.
  induction l as [|[[pts n] i] l IH]; intros off L; [cbn; split; auto|].
  cbn [stages_ok idx]. cbn [total] in L. set (sz := size (pts, n, i)) in *.
  rewrite skipn_add, Forall_app, IH by lia.
  assert (E : stage_ok (pts, n, i) (firstn sz (skipn off zs)) <->
    Forall (ok_at zs) (if pts then map (fun j => (off + 2 * j)%nat) (seq 0 n) else [])); [|rewrite E; reflexivity].
  destruct pts; cbn [stage_ok]; [|split; auto]. cbn [size] in sz.
  rewrite pts_ok_idx by (rewrite firstn_length, skipn_length; lia).
  rewrite Forall_map, Forall_forall. unfold ok_at. split; intros H j Hj.
  - apply in_seq in Hj. specialize (H j ltac:(lia)). rewrite !nth_firstn_lt, !nth_skipn in H by (unfold sz; lia).
    rewrite Nat.add_assoc in H. exact H.
  - specialize (H j ltac:(apply in_seq; lia)). rewrite !nth_firstn_lt, !nth_skipn by (unfold sz; lia).
    rewrite Nat.add_assoc. exact H.
Qed.


Lemma all_points_split zs : (104 <= length zs)%nat -> all_points_ok zs <-> stages_ok stages zs /\ ok_at zs 102.
Proof.
  intros L. rewrite (stages_ok_idx zs stages 0) by (cbn; lia). unfold all_points_ok.
  change point_slots with (idx 0 stages ++ [102%nat]).
  rewrite Forall_forall. generalize (idx 0 stages). intros l. split.
  - intros H. split; [intros i Hi | ]; apply H, in_or_app; [left; exact Hi | right; left; reflexivity].
  - intros [H1 H2] i H. apply in_app_or in H. destruct H as [H|[<-|[]]]; auto.
Qed.

Lemma last_check_spec en zs b s : (104 <= length zs)%nat ->
  (ok_at zs 102 -> last_check en (map VBig zs) b 102 s = Done ((b, None), s)) /\
  (~ ok_at zs 102 -> exists e, last_check en (map VBig zs) b 102 s = Done ((b, Some e), s)).
Proof.
  intros L. unfold last_check, bind, lift, get.
  assert (L1 : (102 < length zs)%nat) by lia. assert (L2 : (102 + 1 < length zs)%nat) by lia.
  rewrite (map_nth_error VBig 102 zs (nth_error_nth' zs 0 L1)).
  rewrite (map_nth_error VBig (102 + 1) zs (nth_error_nth' zs 0 L2)).
  unfold ok_at. destruct (c20_test en (nth 102 zs 0) (nth (102 + 1) zs 0) s) as [C1 C2].
  unfold try_, bind. split; intros H.
  - rewrite (C1 H). reflexivity.
  - destruct (C2 H) as [e E]. exists e. rewrite E. reflexivity.
Qed.

Lemma map_abs_cut sizes : forall zs, map (map Z.abs) (cut sizes zs) = cut sizes (map Z.abs zs).
Proof. induction sizes; intros zs; cbn; auto. rewrite IHsizes, firstn_map, skipn_map. reflexivity. Qed.


Lemma challenges_spec O en buf x y zs s :
  nth_error buf 0 = Some (VBig x) -> nth_error buf 1 = Some (VBig y) -> (10 <= length buf)%nat -> (104 <= length zs)%nat ->
  (all_points_ok zs -> small x -> small y -> Forall small (firstn 102 zs) ->
   exists s', (en = Test -> s' = s) /\ GetChallengesShPlonkCircuit O en buf (map VBig zs) s =
     Done ((firstn 2 buf ++ map chal (transcript_values O x y zs) ++ skipn 10 buf, None), s')) /\
  (small x -> small y -> Forall small (firstn 102 zs) -> ~ all_points_ok zs ->
   exists b e s', GetChallengesShPlonkCircuit O en buf (map VBig zs) s = Done ((b, Some e), s')) /\
  (forall b s', GetChallengesShPlonkCircuit O en buf (map VBig zs) s = Done ((b, None), s') ->
   all_points_ok zs /\ small x /\ small y /\ Forall small (firstn 102 zs)).
Proof.
  intros B0 B1 LB LZ. rewrite (challenges_stages O en buf (VBig x) (VBig y) (map VBig zs) s B0 B1).
  set (K := last_check en (map VBig zs)).
  set (b2 := skipn 2 buf).
  assert (EB : buf = firstn 2 buf ++ b2) by (symmetry; apply firstn_skipn).
  assert (L2 : length (firstn 2 buf) = 2%nat) by (rewrite firstn_length; lia).
  assert (Lb2 : (8 <= length b2)%nat) by (unfold b2; rewrite skipn_length; lia).
  pose proof (run_stages_spec O en zs K stages 2 (firstn 2 buf) b2 [absorb0; x; y] (repeat VNil 109) 0 s) as H.
  specialize (H eq_refl L2 Lb2 ltac:(cbn; lia) eq_refl).
  specialize (H ltac:(repeat constructor)).
  specialize (H ltac:(cbn; lia)). cbv zeta in H. rewrite <- EB in H.
  change (length [absorb0; x; y]) with 3%nat in H. change (skipn 0 zs) with zs in H.
  change (total stages) with 102%nat in H. change (map size stages) with schedule in H.
  change (length stages) with 8%nat in H. change (0 + 102)%nat with 102%nat in H.
  change (map VBig [absorb0; x; y] ++ repeat VNil 109) with (VBig absorb0 :: VBig x :: VBig y :: repeat VNil 109) in H.
  destruct H as (H1 & H2 & H3).
  pose proof (all_points_split zs LZ) as AP.
  assert (SA : small absorb0) by (unfold small; reflexivity).
  assert (ES : skipn 8 b2 = skipn 10 buf) by (unfold b2; rewrite skipn_add; reflexivity).
  assert (ET : achain O [absorb0; x; y] (cut schedule zs) = transcript_values O x y zs).
  { unfold achain, transcript_values. rewrite map_abs_cut. reflexivity. }
  rewrite ES, ET in H1.
  split; [|split].
  - intros P Sx Sy Sz. apply AP in P. destruct P as [P1 P2].
    destruct (H1 P1 ltac:(repeat constructor; assumption) Sz) as (s' & E1 & E2).
    exists s'. split; [exact E1|]. rewrite E2. unfold K. apply last_check_spec; assumption.
  - intros Sx Sy Sz N. assert (Sm : Forall small [absorb0; x; y]) by (repeat constructor; assumption).
    destruct (stages_ok_dec stages zs) as [P1|P1].
    + destruct (H1 P1 Sm Sz) as (s' & E1 & E2). rewrite E2.
      destruct (proj2 (last_check_spec en zs (firstn 2 buf ++ map chal (transcript_values O x y zs) ++ skipn 10 buf) s' LZ)) as [e E];
        [tauto|]. unfold K. rewrite E. eauto.
    + apply H2; assumption.
  - intros b s' E. destruct (H3 b s' E) as (P1 & P2 & P3). specialize (P2 ltac:(discriminate)).
    inversion P2 as [|? ? _ P4]; subst. inversion P4 as [|? ? Sx P5]; subst. inversion P5 as [|? ? Sy _]; subst.
    split; [|auto]. apply AP. split; [exact P1|].
    destruct (H1 P1 P2 P3) as (s1 & _ & E2). rewrite E2 in E. unfold K in E.
    destruct (curve_or_zero_dec (nth 102 zs 0) (nth (102 + 1) zs 0)) as [Q|Q]; [exact Q|].
    destruct (proj2 (last_check_spec en zs (firstn 2 buf ++ map chal (transcript_values O x y zs) ++ skipn 10 buf) s1 LZ) Q) as [e E3].
    rewrite E3 in E. discriminate.
Qed.

(** ** C27 *)
Lemma chain_messages_length O : forall chunks init, length (chain_messages O init chunks) = length chunks.
Proof. induction chunks; intros; cbn; auto. Qed.
Lemma chain_prefix O : forall k init chunks chunks', firstn (S k) chunks = firstn (S k) chunks' ->
  nth_error (chain O init chunks) k = nth_error (chain O init chunks') k.
Proof.
  unfold chain. induction k as [|k IH]; intros init [|c t] [|c' t'] E; cbn [firstn] in E; try discriminate E; auto.
  - injection E as ->. reflexivity.
  - injection E as -> E. cbn [chain_messages map nth_error]. apply IH. exact E.
Qed.

Lemma firstn_eq_le {A} (l l' : list A) n m : (n <= m)%nat -> firstn m l = firstn m l' -> firstn n l = firstn n l'.
Proof.
  intros H E. replace n with (Nat.min n m) by lia. rewrite <- !firstn_firstn, E. reflexivity.
Qed.
Lemma cut_prefix {A} : forall sizes k (l l' : list A),
  firstn (fold_right Nat.add O (firstn k sizes)) l = firstn (fold_right Nat.add O (firstn k sizes)) l' ->
  firstn k (cut sizes l) = firstn k (cut sizes l').
Proof.
  induction sizes as [|n t IH]; intros [|k] l l' E; auto. cbn [firstn fold_right cut] in *.
  f_equal; [eapply firstn_eq_le; [|exact E]; lia|]. apply IH.
  apply (f_equal (skipn n)) in E. rewrite !skipn_firstn_comm in E.
  replace (n + fold_right Nat.add O (firstn k t) - n)%nat with (fold_right Nat.add O (firstn k t)) in E by lia.
  exact E.
Qed.

Lemma done_inj {A B C} (a a' : A) (e e' : B) (s s' : C) : Done ((a, e), s) = Done ((a', e'), s') -> a = a'.
Proof. intros E. injection E as -> _ _. reflexivity. Qed.

Lemma c27_prefix O en buf buf' x y zs zs' b b' s1 s2 s1' s2' k :
  nth_error buf 0 = Some (VBig x) -> nth_error buf 1 = Some (VBig y) -> (10 <= length buf)%nat -> (104 <= length zs)%nat ->
  nth_error buf' 0 = Some (VBig x) -> nth_error buf' 1 = Some (VBig y) -> (10 <= length buf')%nat -> (104 <= length zs')%nat ->
  GetChallengesShPlonkCircuit O en buf (map VBig zs) s1 = Done ((b, None), s1') ->
  GetChallengesShPlonkCircuit O en buf' (map VBig zs') s2 = Done ((b', None), s2') ->
  (k < 8)%nat -> firstn (absorbed_before k) zs = firstn (absorbed_before k) zs' ->
  nth_error b (2 + k) = nth_error b' (2 + k).
Proof.
  intros H1 H2 H3 H4 G1 G2 G3 G4 E E' Hk EQ.
  destruct (challenges_spec O en buf x y zs s1 H1 H2 H3 H4) as (A1 & _ & A3).
  destruct (challenges_spec O en buf' x y zs' s2 G1 G2 G3 G4) as (B1 & _ & B3).
  destruct (A3 _ _ E) as (P1 & P2 & P3 & P4). destruct (A1 P1 P2 P3 P4) as (t & _ & T). rewrite T in E.
  destruct (B3 _ _ E') as (Q1 & Q2 & Q3 & Q4). destruct (B1 Q1 Q2 Q3 Q4) as (u & _ & U). rewrite U in E'.
  apply done_inj in E. apply done_inj in E'. rewrite <- E, <- E'.
  assert (L : forall z, length (transcript_values O x y z) = 8%nat).
  { intros z. unfold transcript_values, chain. rewrite map_length, chain_messages_length. reflexivity. }
  assert (N : forall (bf : list var) z, (2 <= length bf)%nat ->
    nth_error (firstn 2 bf ++ map chal (transcript_values O x y z) ++ skipn 10 bf) (2 + k) =
    option_map chal (nth_error (transcript_values O x y z) k)).
  { intros bf z Lb. rewrite nth_error_app2 by (rewrite firstn_length; lia).
    rewrite firstn_length, Nat.min_l by lia. replace (2 + k - 2)%nat with k by lia.
    rewrite nth_error_app1 by (rewrite map_length, L; lia). apply nth_error_map. }
  rewrite !N by lia. f_equal. unfold transcript_values. apply chain_prefix. apply cut_prefix.
  change (fold_right Nat.add 0%nat (firstn (S k) schedule)) with (absorbed_before k).
  rewrite !firstn_map, EQ. reflexivity.
Qed.

Lemma be32_inj a b : 0 <= a < 2 ^ 256 -> 0 <= b < 2 ^ 256 -> be_bytes 32 a = be_bytes 32 b -> a = b.
Proof. intros A B E. apply (f_equal of_be) in E. rewrite !of_be_32 in E by assumption. exact E. Qed.


Lemma encoding_inj l : Forall range256 l -> forall l', Forall range256 l' -> encoding l = encoding l' -> l = l'.
Proof.
  induction 1 as [|a l Ha H IH]; intros l' H' E.
  - destruct l' as [|b l']; auto. apply (f_equal (@length _)) in E. unfold encoding in E.
    rewrite !flat_map_be_length in E. discriminate E.
  - destruct H' as [|b l' Hb H'].
    + apply (f_equal (@length _)) in E. unfold encoding in E. rewrite !flat_map_be_length in E. discriminate E.
    + unfold encoding in E. cbn [flat_map] in E.
      assert (be_bytes 32 a = be_bytes 32 b /\ flat_map (be_bytes 32) l = flat_map (be_bytes 32) l') as [E1 E2].
      { pose proof (be32_len a). pose proof (be32_len b).
        apply (f_equal (fun x => (firstn 32 x, skipn 32 x))) in E.
        rewrite !firstn_app, !skipn_app, !firstn_all2, !skipn_all2, H0, H1 in E by lia.
        change (firstn (32 - 32) (flat_map (be_bytes 32) l)) with (@nil Z) in E.
        change (firstn (32 - 32) (flat_map (be_bytes 32) l')) with (@nil Z) in E.
        change (skipn (32 - 32) (flat_map (be_bytes 32) l)) with (flat_map (be_bytes 32) l) in E.
        change (skipn (32 - 32) (flat_map (be_bytes 32) l')) with (flat_map (be_bytes 32) l') in E.
        rewrite !app_nil_r in E. apply pair_equal_spec in E. exact E. }
      apply be32_inj in E1; [|assumption|assumption]. subst b. f_equal. apply IH; assumption.
Qed.

Lemma message_inj l l' : Forall range256 l -> Forall range256 l' -> encoding l ++ [0] = encoding l' ++ [0] -> l = l'.
Proof. intros H H' E. apply app_inj_tail in E. apply encoding_inj; tauto. Qed.

Lemma app_split {A} (a a' c c' : list A) : length a = length a' -> a ++ c = a' ++ c' -> a = a' /\ c = c'.
Proof.
  revert a'. induction a as [|x a IH]; intros [|x' a'] L E; try discriminate L; [auto|].
  cbn in E. injection E as -> E. injection L as L. destruct (IH a' L E) as [-> ->]. auto.
Qed.

Lemma chain_binding O : forall k init init' chunks chunks', length init = length init' ->
  Forall range256 init -> Forall range256 init' ->
  Forall (Forall range256) chunks -> Forall (Forall range256) chunks' ->
  (k < length chunks)%nat -> (k < length chunks')%nat ->
  nth_error (chain O init chunks) k = nth_error (chain O init' chunks') k ->
  (init = init' /\ firstn (S k) chunks = firstn (S k) chunks') \/
  (exists j m m', (j <= k)%nat /\ nth_error (chain_messages O init chunks) j = Some m /\
     nth_error (chain_messages O init' chunks') j = Some m' /\ collision O m m').
Proof.
  unfold chain. induction k as [|k IH]; intros init init' [|c t] [|c' t'] L R R' RC RC' Hk Hk' E; cbn [length] in *; try lia.
  - cbn [chain_messages map nth_error] in E. injection E as E.
    inversion RC; subst. inversion RC'; subst.
    destruct (list_eq_dec Z.eq_dec (encoding (init ++ c) ++ [0]) (encoding (init' ++ c') ++ [0])) as [Q|Q].
    + left. apply message_inj in Q; try (apply Forall_app; auto).
      assert (init = init' /\ c = c') as [-> ->]; [|auto].
        apply app_split; assumption.
    + right. exists 0%nat, (encoding (init ++ c) ++ [0]), (encoding (init' ++ c') ++ [0]).
      repeat split; auto.
  - cbn [chain_messages map nth_error] in E. inversion RC; subst. inversion RC'; subst.
    set (m := encoding (init ++ c) ++ [0]) in *. set (m' := encoding (init' ++ c') ++ [0]) in *.
    destruct (IH [digest O m] [digest O m'] t t' eq_refl) as [[Q1 Q2]|(j & a & a' & J1 & J2 & J3 & J4)]; auto; try lia.
    { repeat constructor; apply digest_range. } { repeat constructor; apply digest_range. }
    + injection Q1 as Q1.
      destruct (list_eq_dec Z.eq_dec m m') as [Q|Q].
      * left. unfold m, m' in Q. apply message_inj in Q; try (apply Forall_app; auto).
        assert (init = init' /\ c = c') as [-> ->]; [|split; [reflexivity|]; cbn [firstn] in *; congruence].
        apply app_split; assumption.
      * right. exists 0%nat, m, m'. repeat split; auto. lia.
    + right. exists (S j), a, a'. repeat split; auto; try lia; apply J4.
Qed.

Lemma concat_cut {A} : forall sizes k (l : list A),
  concat (firstn k (cut sizes l)) = firstn (fold_right Nat.add O (firstn k sizes)) l.
Proof.
  induction sizes as [|n t IH]; intros [|k] l; auto. cbn [firstn fold_right cut concat]. rewrite IH.
  set (m := fold_right Nat.add O (firstn k t)).
  rewrite <- (firstn_skipn n l) at 3. rewrite firstn_app.
  destruct (Nat.le_gt_cases n (length l)) as [H|H].
  - rewrite (firstn_all2 (firstn n l)) by (rewrite firstn_length; lia). rewrite firstn_length.
    replace (n + m - Nat.min n (length l))%nat with m by lia. reflexivity.
  - rewrite (firstn_all2 (firstn n l)) by (rewrite firstn_length; lia).
    rewrite (skipn_all2 l) by lia. rewrite !firstn_nil. reflexivity.
Qed.

Lemma cut_Forall {A} (P : A -> Prop) : forall sizes l, Forall P (firstn (fold_right Nat.add O sizes) l) ->
  Forall (Forall P) (cut sizes l).
Proof.
  induction sizes as [|n t IH]; intros l H; constructor; cbn [fold_right] in H.
  - apply Forall_forall. intros a Ha. rewrite Forall_forall in H. apply H.
    assert (E : firstn n l = firstn n (firstn (n + fold_right Nat.add O t) l))
      by (rewrite firstn_firstn; f_equal; lia).
    rewrite E in Ha. rewrite <- (firstn_skipn n (firstn (n + fold_right Nat.add O t) l)). apply in_or_app. auto.
  - apply IH. apply Forall_forall. intros a Ha. rewrite Forall_forall in H. apply H.
    assert (E : firstn (fold_right Nat.add O t) (skipn n l) = skipn n (firstn (n + fold_right Nat.add O t) l)).
    { rewrite skipn_firstn_comm. f_equal. lia. }
    rewrite E in Ha. rewrite <- (firstn_skipn n (firstn (n + fold_right Nat.add O t) l)). apply in_or_app. auto.
Qed.

Lemma c27_binding O x y zs x' y' zs' k : (k < 8)%nat -> Forall range256 [x; y; x'; y'] ->
  Forall range256 (firstn 102 zs) -> Forall range256 (firstn 102 zs') ->
  (102 <= length zs)%nat -> (102 <= length zs')%nat ->
  nth_error (chain O [vk_constant; x; y] (cut schedule zs)) k = nth_error (chain O [vk_constant; x'; y'] (cut schedule zs')) k ->
  (x = x' /\ y = y' /\ firstn (absorbed_before k) zs = firstn (absorbed_before k) zs') \/
  (exists j m m', (j <= k)%nat /\
     nth_error (chain_messages O [vk_constant; x; y] (cut schedule zs)) j = Some m /\
     nth_error (chain_messages O [vk_constant; x'; y'] (cut schedule zs')) j = Some m' /\ collision O m m').
Proof.
  intros Hk R R1 R2 L1 L2 E.
  inversion R as [|? ? Rx R3]; subst. inversion R3 as [|? ? Ry R4]; subst. inversion R4 as [|? ? Rx' R5]; subst.
  inversion R5 as [|? ? Ry' _]; subst.
  assert (RA : range256 vk_constant) by (split; [discriminate | reflexivity]).
  destruct (chain_binding O k [vk_constant; x; y] [vk_constant; x'; y'] (cut schedule zs) (cut schedule zs') eq_refl)
    as [[I F]|C]; auto.
  - apply cut_Forall. exact R1.
  - apply cut_Forall. exact R2.
  - left. injection I as -> ->. split; [reflexivity|]. split; [reflexivity|].
    apply (f_equal (@concat _)) in F. rewrite !concat_cut in F. exact F.
Qed.

(** non-negative elements: the transcript of the circuit is the plain chain *)
Lemma transcript_plain O x y zs : 0 <= x -> 0 <= y -> Forall (fun z => 0 <= z) zs ->
  transcript_values O x y zs = chain O [vk_constant; x; y] (cut schedule zs).
Proof.
  intros Hx Hy H. unfold transcript_values. rewrite !Z.abs_eq by assumption.
  replace (map Z.abs zs) with zs; [reflexivity|]. induction H; cbn; [reflexivity|].
  rewrite Z.abs_eq by assumption. congruence.
Qed.

(** the encoding function is the concatenation of the 32-byte strings *)
Lemma encoding_spec zs : Forall range256 zs -> encode zs (encoding zs) /\ (forall bs, encode zs bs -> bs = encoding zs).
Proof.
  induction 1 as [|z zs Hz H IH]; [split; [reflexivity | intros bs E; exact E]|].
  assert (B : be32_of z (be_bytes 32 z)).
  { split; [apply be32_len|]. split; [apply be_bytes_byte|]. apply pack_be32, Hz. }
  split.
  - exists (be_bytes 32 z), (encoding zs). split; [reflexivity|]. split; [exact B | apply IH].
  - intros bs (h & t & -> & (B1 & B2 & B3) & E). destruct IH as [_ IH]. rewrite (IH t E).
    unfold encoding. cbn [flat_map]. f_equal. destruct B as (D1 & D2 & D3). apply pack_inj; congruence.
Qed.

Lemma transcript_length O x y zs : length (transcript_values O x y zs) = 8%nat.
Proof. unfold transcript_values, chain. rewrite map_length, chain_messages_length. reflexivity. Qed.

Lemma c26 O en buf x y zs s s' b :
  nth_error buf 0 = Some (VBig x) -> nth_error buf 1 = Some (VBig y) -> (10 <= length buf)%nat -> (104 <= length zs)%nat ->
  GetChallengesShPlonkCircuit O en buf (map VBig zs) s = Done ((b, None), s') ->
  b = firstn 2 buf ++ map chal (transcript_values O x y zs) ++ skipn 10 buf /\
  length (transcript_values O x y zs) = 8%nat.
Proof.
  intros H1 H2 H3 H4 E. split; [|apply transcript_length].
  destruct (challenges_spec O en buf x y zs s H1 H2 H3 H4) as (A1 & _ & A3).
  destruct (A3 _ _ E) as (P1 & P2 & P3 & P4). destruct (A1 P1 P2 P3 P4) as (t & _ & T). rewrite T in E.
  apply done_inj in E. symmetry. exact E.
Qed.

Lemma cut_app_long {A} : forall sizes (l t : list A), (fold_right Nat.add 0 sizes <= length l)%nat ->
  cut sizes (l ++ t) = cut sizes l.
Proof.
  induction sizes as [|n sz IH]; intros l t H; cbn [cut]; [reflexivity|]. cbn [fold_right] in H.
  rewrite firstn_app, skipn_app. replace (n - length l)%nat with 0%nat by lia. cbn [firstn skipn]. rewrite app_nil_r.
  f_equal. apply IH. rewrite skipn_length. lia.
Qed.

Lemma c26_reads O buf x y zs t t' s :
  nth_error buf 0 = Some (VBig x) -> nth_error buf 1 = Some (VBig y) -> (10 <= length buf)%nat -> length zs = 104%nat ->
  forall b, GetChallengesShPlonkCircuit O Test buf (map VBig (zs ++ t)) s = Done ((b, None), s) ->
  GetChallengesShPlonkCircuit O Test buf (map VBig (zs ++ t')) s = Done ((b, None), s).
Proof.
  intros H1 H2 H3 H4 b E.
  assert (LL : forall u, (104 <= length (zs ++ u))%nat) by (intros u; rewrite app_length; lia).
  destruct (c26 O Test buf x y (zs ++ t) s s b H1 H2 H3 (LL t) E) as [-> _].
  destruct (challenges_spec O Test buf x y (zs ++ t) s H1 H2 H3 (LL t)) as (_ & _ & A3).
  destruct (A3 _ _ E) as (P1 & P2 & P3 & P4).
  assert (N : forall u i, (i < 104)%nat -> nth i (zs ++ u) 0 = nth i zs 0) by (intros u i Hi; apply app_nth1; lia).
  assert (PO : all_points_ok (zs ++ t')).
  { intros i Hi. specialize (P1 i Hi). unfold ok_at in *.
    assert (i + 1 < 104)%nat.
    { assert (B : forallb (fun i => Nat.ltb (i + 1) 104) point_slots = true) by reflexivity.
      rewrite forallb_forall in B. apply Nat.ltb_lt, B, Hi. }
    rewrite !N in * by lia. exact P1. }
  destruct (challenges_spec O Test buf x y (zs ++ t') s H1 H2 H3 (LL t')) as (B1 & _ & _).
  assert (F : forall u, firstn 102 (zs ++ u) = firstn 102 zs).
  { intros u. rewrite firstn_app. replace (102 - length zs)%nat with 0%nat by lia. apply app_nil_r. }
  rewrite F in P4. destruct (B1 PO P2 P3 ltac:(rewrite F; exact P4)) as (s' & E1 & E2). rewrite (E1 eq_refl) in E2.
  rewrite E2. unfold transcript_values. rewrite !map_app, !cut_app_long by (rewrite map_length, H4; cbn; lia). reflexivity.
Qed.
