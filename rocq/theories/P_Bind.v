(** What the last challenge of an accepted run determines: C73. *)
From Coq Require Import ZArith Bool List Lia Znumtheory.
From Verif Require Import Params Go Curve Api FrOps Lib Steps Agg NumThy FField FpField SpecCurve SpecHash SpecMisc SpecVerify SpecExact SpecRows SpecBind
  P_Fr P_Curve P_Hash P_Trans P_Msm P_Group P_Order P_GroupSpec P_LinComb P_Misc P_Restate P_Step P_Acc P_Pipe P_Complete P_PipeOk P_Final P_Exact P_Unique.
Import ListNotations.
Open Scope Z_scope.
Local Opaque pmul padd.

(** scalars below r are determined by the multiple of a finite point *)
Lemma multiple_inj P i j Q : is_point P -> P <> Inf -> 0 <= i < r_mod -> 0 <= j < r_mod -> multiple P i Q -> multiple P j Q -> i = j.
Proof.
  intros HP N Hi Hj A B. pose proof HP as V. apply point_valid in V.
  apply c50_multiple in A; [|exact HP]. apply c50_multiple in B; [|exact HP].
  rewrite pmul_zmul in A, B by exact V.
  assert (E : zmul (i - j) P = Inf) by (apply zmul_eq; [exact V|congruence]).
  rewrite <- pmul_zmul in E by exact V. apply c50_multiple in E; [|exact HP]. apply (c50_order P _ HP N) in E.
  destruct E as [c Ec]. assert (c = 0) by nia. lia.
Qed.

Lemma instance_bound O zs zs' ix iy : instance_commitment O zs ix iy -> instance_commitment O zs' ix iy ->
  map (fun z => z mod p_mod) zs = map (fun z => z mod p_mod) zs' \/
  keccak_collision_mod_r O (instance_message zs) (instance_message zs').
Proof.
  intros A B. unfold instance_commitment in A, B.
  assert (HP : is_point (Aff lagrange_x lagrange_y)) by (apply point_valid; vm_compute; reflexivity).
  assert (E : instance_scalar O zs = instance_scalar O zs').
  { refine (multiple_inj _ _ _ _ HP _ _ _ A B); [discriminate|..]; apply Z.mod_pos_bound; reflexivity. }
  destruct (list_eq_dec Z.eq_dec (map (fun z => z mod p_mod) zs) (map (fun z => z mod p_mod) zs')) as [D|D]; [left; exact D|].
  right. split; [|exact E]. intros M. apply D. unfold instance_message in M.
  assert (R : forall l, Forall range256 (map (fun z => z mod p_mod) l)).
  { intros l. apply Forall_forall. intros z Hz. apply in_map_iff in Hz. destruct Hz as (w & <- & _).
    assert (p_mod < 2 ^ 256) by (vm_compute; reflexivity). pose proof (Z.mod_pos_bound w p_mod ltac:(reflexivity)). split; lia. }
  exact (encoding_inj _ (R zs) _ (R zs') M).
Qed.

Lemma abs_range T : Forall SpecHash.small (firstn 102 T) -> Forall range256 (firstn 102 (map Z.abs T)).
Proof.
  intros H. rewrite firstn_map. apply Forall_forall. intros z Hz. apply in_map_iff in Hz. destruct Hz as (w & <- & Hw).
  rewrite Forall_forall in H. specialize (H w Hw). unfold SpecHash.small in H. split; lia.
Qed.

Lemma nth_firstn_eq {X} (l l' : list X) d n i : firstn n l = firstn n l' -> (i < n)%nat -> nth i l d = nth i l' d.
Proof.
  revert l l' i. induction n as [|n IH]; intros [|a l] [|b l'] i E Hi; try lia; try discriminate; try reflexivity.
  cbn [firstn] in E. injection E as -> E. destruct i as [|i]; [reflexivity|]. cbn [nth]. apply IH; [exact E|lia].
Qed.

Lemma c73 O c c' zs zs' T T' A A' s s1 s' s1' ix iy ix' iy' :
  TargetInst c ++ VerifyInst c = map VBig zs -> Proof_ c = map VBig T -> Aux c = map VBig A ->
  TargetInst c' ++ VerifyInst c' = map VBig zs' -> Proof_ c' = map VBig T' -> Aux c' = map VBig A' ->
  degen_sane O -> instance_commitment O zs ix iy -> instance_commitment O zs' ix' iy' ->
  Define O Test c s = Done (None, s1) -> Define O Test c' s' = Done (None, s1') ->
  nth 7 (transcript_values O ix iy T) 0 = nth 7 (transcript_values O ix' iy' T') 0 ->
  (map (fun z => z mod p_mod) zs = map (fun z => z mod p_mod) zs' /\
   (forall i, point_word i -> nth i T 0 = nth i T' 0) /\
   (forall i, (44 <= i < 100)%nat -> Z.abs (nth i T 0) = Z.abs (nth i T' 0))) \/
  transcript_collision O ix iy T ix' iy' T' \/
  keccak_collision_mod_r O (instance_message zs) (instance_message zs').
Proof.
  intros EZ ET EA EZ' ET' EA' Hd HI HI' H H' E.
  destruct (define_inv O c zs T A s s1 EZ ET EA Hd H) as (LT & VT & SM & jx & jy & B & HJ & RX & RY & _ & _ & _ & _ & VJ & _).
  destruct (define_inv O c' zs' T' A' s' s1' EZ' ET' EA' Hd H') as (LT' & VT' & SM' & jx' & jy' & B' & HJ' & RX' & RY' & _ & _ & _ & _ & VJ' & _).
  pose proof (multiple_pmul _ _ _ _ _ lagrange_encodes HI) as E1. pose proof (multiple_pmul _ _ _ _ _ lagrange_encodes HI') as E2.
  unfold instance_scalar in E1, E2. rewrite E1 in HJ. rewrite E2 in HJ'. clear E1 E2.
  assert (X : ix = jx /\ iy = jy) by (clear - HJ; split; congruence). destruct X as [<- <-].
  assert (X : ix' = jx' /\ iy' = jy') by (clear - HJ'; split; congruence). destruct X as [<- <-].
  apply valid_aff in VJ. destruct VJ as (Q1 & Q2 & _). apply valid_aff in VJ'. destruct VJ' as (Q1' & Q2' & _).
  assert (P256 : p_mod < 2 ^ 256) by (vm_compute; reflexivity).
  assert (R4 : Forall range256 [Z.abs ix; Z.abs iy; Z.abs ix'; Z.abs iy']).
  { repeat constructor; unfold range256; lia. }
  unfold transcript_values in E.
  assert (E' : nth_error (chain O [vk_constant; Z.abs ix; Z.abs iy] (cut schedule (map Z.abs T))) 7 =
               nth_error (chain O [vk_constant; Z.abs ix'; Z.abs iy'] (cut schedule (map Z.abs T'))) 7).
  { pose proof (transcript_length O ix iy T) as L1. pose proof (transcript_length O ix' iy' T') as L2. unfold transcript_values in L1, L2.
    rewrite !(nth_error_nth' _ 0) by lia. f_equal. exact E. }
  destruct (c27_binding O _ _ _ _ _ _ 7 ltac:(lia) R4 (abs_range T SM) (abs_range T' SM') ltac:(rewrite map_length; lia) ltac:(rewrite map_length; lia) E')
    as [(X1 & X2 & F)|(j & m & m' & _ & C)]; [|right; left; exists j, m, m'; exact C].
  assert (X : ix = ix' /\ iy = iy') by (clear - X1 X2 Q1 Q2 Q1' Q2'; split; lia). destruct X as [<- <-].
  assert (AB : forall i, (i < 102)%nat -> Z.abs (nth i T 0) = Z.abs (nth i T' 0)).
  { intros i Hi. change (absorbed_before 7) with 102%nat in F. pose proof (nth_firstn_eq _ _ (Z.abs 0) 102 i F Hi) as G.
    rewrite !map_nth in G. exact G. }
  destruct (instance_bound O zs zs' ix iy HI HI') as [M|M]; [left|right; right; exact M].
  split; [exact M|]. split; [|intros i Hi; apply AB; lia].
  assert (PW : forall S, coms_valid S -> forall i, point_word i -> 0 <= nth i S 0).
  { clear. intros S V i Hi. set (j := (i / 2)%nat). pose proof (Nat.div_mod i 2 ltac:(lia)) as D.
    pose proof (Nat.mod_upper_bound i 2 ltac:(lia)) as U. fold j in D.
    assert (Hj : In j commitments).
    { unfold commitments. apply in_app_iff. destruct Hi as [Hi|Hi]; [left; apply in_seq; lia | right].
      assert (j = 50)%nat as -> by lia. left. reflexivity. }
    pose proof (V j Hj) as W. apply valid_aff in W. destruct W as (W1 & W2 & _).
    destruct (Nat.eq_dec (i mod 2) 0) as [Z0|Z1]; [replace i with (2 * j)%nat by lia; lia | replace i with (2 * j + 1)%nat by lia; lia]. }
  intros i Hi. pose proof (PW T VT i Hi). pose proof (PW T' VT' i Hi). assert (i < 102)%nat by (destruct Hi; lia).
  pose proof (AB i ltac:(assumption)). lia.
Qed.

(** the sign of a word is not absorbed *)
Lemma map_abs_flip i T : map Z.abs (flip i T) = map Z.abs T.
Proof.
  unfold flip. rewrite <- (firstn_skipn i T) at 3. rewrite !map_app. f_equal. destruct (skipn i T) as [|z t]; [reflexivity|].
  cbn [map]. rewrite Z.abs_opp. reflexivity.
Qed.
Lemma c73_sign O x y T i : transcript_values O x y (flip i T) = transcript_values O x y T.
Proof. unfold transcript_values. rewrite map_abs_flip. reflexivity. Qed.

Lemma c73_sign_refuted : ~ (forall O x y T T', Forall SpecHash.small T -> Forall SpecHash.small T' -> length T = 104%nat -> length T' = 104%nat ->
  transcript_values O x y T = transcript_values O x y T' ->
  (forall i, (i < 102)%nat -> nth i T 0 mod r_mod = nth i T' 0 mod r_mod) \/ transcript_collision O x y T x y T').
Proof.
  intros H. set (T := repeat 1 104).
  assert (S : forall l, forallb (fun z => Z.abs z <? 2 ^ 256) l = true -> Forall SpecHash.small l).
  { intros l E. apply Forall_forall. intros z Hz. rewrite forallb_forall in E. apply Z.ltb_lt, (E z Hz). }
  destruct (H plainO 1 1 T (flip 45 T) ltac:(apply S; vm_compute; reflexivity) ltac:(apply S; vm_compute; reflexivity)
    eq_refl eq_refl (eq_sym (c73_sign _ _ _ _ _))) as [E|(j & m & m' & E1 & E2 & [N _])].
  - specialize (E 45%nat ltac:(lia)). vm_compute in E. discriminate E.
  - apply N. unfold messages in E1, E2. rewrite map_abs_flip in E2. congruence.
Qed.

Lemma split104 {X} (l : list X) (d : X) : length l = 104%nat -> l = firstn 102 l ++ [nth 102 l d; nth 103 l d].
Proof.
  intros L. rewrite <- (firstn_skipn 102 l) at 1. f_equal.
  assert (K : length (skipn 102 l) = 2%nat) by (rewrite skipn_length, L; reflexivity).
  rewrite <- (firstn_skipn 102 l) at 2 3. rewrite !app_nth2 by (rewrite firstn_length; lia). rewrite !firstn_length, L.
  destruct (skipn 102 l) as [|a [|b [|e t]]]; try discriminate K. reflexivity.
Qed.
Lemma firstn_ext {X} (d : X) n : forall l l', (n <= length l)%nat -> (n <= length l')%nat -> (forall i, (i < n)%nat -> nth i l d = nth i l' d) ->
  firstn n l = firstn n l'.
Proof.
  induction n as [|n IH]; intros [|a l] [|b l'] L L' H; cbn [length] in *; try lia; try reflexivity.
  cbn [firstn]. f_equal; [exact (H 0%nat ltac:(lia))|]. apply IH; [lia|lia|]. intros i Hi. exact (H (S i) ltac:(lia)).
Qed.

(** with canonical public inputs and non-negative evaluations the last challenge determines the whole input *)
Lemma c73_whole O c c' zs zs' T T' A A' s s1 s' s1' tau ix iy ix' iy' :
  TargetInst c ++ VerifyInst c = map VBig zs -> Proof_ c = map VBig T -> Aux c = map VBig A ->
  TargetInst c' ++ VerifyInst c' = map VBig zs' -> Proof_ c' = map VBig T' -> Aux c' = map VBig A' ->
  length T = 104%nat -> length T' = 104%nat ->
  Forall (fun z => 0 <= z < p_mod) zs -> Forall (fun z => 0 <= z < p_mod) zs' ->
  (forall i, (44 <= i < 100)%nat -> 0 <= nth i T 0 /\ 0 <= nth i T' 0) ->
  degen_sane O -> kzg_pairing O g20_const g21_const tau ->
  instance_commitment O zs ix iy -> instance_commitment O zs' ix' iy' ->
  fexp (fc (nth 4 (transcript_values O ix iy T) 0)) dom_n <> 1%fr -> fc (nth 7 (transcript_values O ix iy T) 0) <> tau ->
  Define O Test c s = Done (None, s1) -> Define O Test c' s' = Done (None, s1') ->
  nth 7 (transcript_values O ix iy T) 0 = nth 7 (transcript_values O ix' iy' T') 0 ->
  (zs = zs' /\ T = T' /\ forall i, (i < 21)%nat -> nth i A 0 = nth i A' 0) \/
  transcript_collision O ix iy T ix' iy' T' \/
  keccak_collision_mod_r O (instance_message zs) (instance_message zs').
Proof.
  intros EZ ET EA EZ' ET' EA' LT LT' CZ CZ' NN Hd HK HI HI' Hx Hu H H' E.
  destruct (c73 O c c' zs zs' T T' A A' s s1 s' s1' ix iy ix' iy' EZ ET EA EZ' ET' EA' Hd HI HI' H H' E) as [(M & PW & EW)|C]; [left|right; exact C].
  assert (MZ : forall l, Forall (fun z => 0 <= z < p_mod) l -> map (fun z => z mod p_mod) l = l).
  { clear. induction 1 as [|z l Hz Hl IH]; [reflexivity|]. cbn [map]. rewrite IH, Z.mod_small by exact Hz. reflexivity. }
  rewrite (MZ zs CZ), (MZ zs' CZ') in M. subst zs'. split; [reflexivity|].
  assert (F : firstn 102 T = firstn 102 T').
  { apply (firstn_ext 0); [lia|lia|]. intros i Hi. destruct (Nat.lt_ge_cases i 44); [apply PW; left; assumption|].
    destruct (Nat.lt_ge_cases i 100); [|apply PW; right; lia]. pose proof (EW i ltac:(lia)). pose proof (NN i ltac:(lia)). lia. }
  pose proof (split104 T 0 LT) as ST. pose proof (split104 T' 0 LT') as ST'. rewrite <- F in ST'.
  destruct (define_inv O c zs T A s s1 EZ ET EA Hd H) as (_ & VT & _). destruct (define_inv O c' zs T' A' s' s1' EZ' ET' EA' Hd H') as (_ & VT' & _).
  assert (L : length (firstn 102 T) = 102%nat) by (rewrite firstn_length; lia).
  assert (I51 : In 51%nat commitments) by (apply in_app_iff; right; right; left; reflexivity).
  pose proof (VT 51%nat I51) as V. pose proof (VT' 51%nat I51) as V'. cbn [Nat.mul Nat.add] in V, V'.
  apply valid_aff in V. apply valid_aff in V'. destruct V as (V1 & V2 & _), V' as (V1' & V2' & _).
  assert (EP : Proof_ c = map VBig (firstn 102 T ++ [nth 102 T 0; nth 103 T 0])) by (rewrite <- ST; exact ET).
  assert (EP' : Proof_ c' = map VBig (firstn 102 T ++ [nth 102 T' 0; nth 103 T' 0])) by (rewrite <- ST'; exact ET').
  rewrite ST in Hx, Hu.
  destruct (c65 O c c' zs (firstn 102 T) A A' _ _ _ _ s s1 s' s1' tau ix iy EZ EZ' L EP EP' EA EA' Hd HK HI Hx Hu H H') as (G1 & G2 & G3).
  rewrite !Z.mod_small in G1, G2 by assumption. split; [|exact G3]. rewrite ST, ST', G1, G2. reflexivity.
Qed.
