(** Columns that satisfy the statement of SpecPlonk.v can be completed so that all rows are satisfied. *)
From Coq Require Import ZArith Lia Bool List Permutation Ring Field.
From Verif Require Import Params NumThy FField FpField SpecVerify SpecPoly SpecRows SpecPlonk P_Fr P_Curve P_Dom P_VSpec P_Honest P_Shplonk P_Poly P_Open P_Rows P_Snark P_Perm P_Plonk.
Import ListNotations.
Open Scope Z_scope.

Local Opaque p_mod r_mod.
Local Opaque phi fmul fadd fsub fopp fdiv finv.
Local Opaque rot fzpow fexp omega delta dom_n act.

(** ** interpolation on the rows *)
Lemma sum_pick (g : Z -> Fr) j l : NoDup l -> In j l -> SpecVerify.sum (map (fun i => g i * (if j =? i then 1 else 0))%fr l) = g j.
Proof.
  intros ND I. induction l as [|a l IH]; [destruct I|]. cbn [map]. change (SpecVerify.sum (?x :: ?r)) with (x + SpecVerify.sum r)%fr.
  inversion_clear ND as [|? ? Na ND']. destruct (Z.eqb_spec j a) as [->|N].
  - assert (E : SpecVerify.sum (map (fun i => g i * (if a =? i then 1 else 0))%fr l) = 0%fr).
    { clear IH I ND'. induction l as [|b l IH]; [reflexivity|]. cbn [map]. change (SpecVerify.sum (?x :: ?r)) with (x + SpecVerify.sum r)%fr.
      rewrite IH by (intros H; apply Na; right; exact H). destruct (Z.eqb_spec a b) as [->|]; [exfalso; apply Na; left; reflexivity|]. ring. }
    rewrite E. ring.
  - destruct I as [I|I]; [congruence|]. rewrite IH by assumption. ring.
Qed.
Lemma interp (g : Z -> Fr) : exists f, (length f <= Z.to_nat dom_n)%nat /\ forall j, 0 <= j < dom_n -> value f j = g j.
Proof.
  set (nodes := map Z.of_nat (seq 0 (Z.to_nat dom_n))).
  assert (ND : NoDup nodes) by (unfold nodes; apply FinFun.Injective_map_NoDup; [intros x y H; lia|apply seq_NoDup]).
  assert (IN : forall k, In k nodes <-> 0 <= k < dom_n) by exact node_in. clearbody nodes.
  assert (P : ispol dn (fun X => SpecVerify.sum (map (fun i => g i * lagrange_poly X i)%fr nodes))).
  { apply (ispol_sum dn (fun i X => g i * lagrange_poly X i)%fr nodes). intros i _. apply ispol_scal, lp_pol. }
  destruct P as [f [L E]]. exists f. rewrite dom_nat. split; [exact L|]. intros j Hj. unfold value. rewrite E.
  rewrite <- (sum_pick g j nodes ND (proj2 (IN j) Hj)).
  apply (f_equal SpecVerify.sum), map_ext_in. intros i Hi. apply IN in Hi. rewrite lp_row by exact Hj. rewrite (Z.mod_small i) by exact Hi. reflexivity.
Qed.

(** ** permuted lookup columns *)
Definition spread {T} (l : list (T * nat)) : list T := flat_map (fun '(v, m) => repeat v (S m)) l.
Lemma grouping {T} (dec : forall a b : T, {a = b} + {a <> b}) (f : list T) : exists l, NoDup (map fst l) /\ incl (map fst l) f /\ Permutation (spread l) f.
Proof.
  induction f as [|a f (l & ND & IN & P)]; [exists []; split; [constructor|split; [intros x []|constructor]]|].
  destruct (in_dec dec a (map fst l)) as [I|N].
  - apply in_map_iff in I. destruct I as ([b m] & E & I). cbn [fst] in E. subst b. apply in_split in I. destruct I as (l1 & l2 & ->).
    exists (l1 ++ (a, S m) :: l2). unfold spread in *. rewrite !map_app, !flat_map_app in *. cbn [map fst flat_map] in *. split; [exact ND|]. split.
    + intros x Hx. right. apply IN, Hx.
    + change (repeat a (S (S m))) with (a :: repeat a (S m)). cbn [app]. apply Permutation_sym. eapply perm_trans; [apply perm_skip, Permutation_sym, P|]. apply Permutation_middle.
  - exists ((a, 0%nat) :: l). cbn [map fst spread flat_map]. split; [constructor; assumption|]. split.
    + intros x [->|Hx]; [left; reflexivity|right; apply IN, Hx].
    + cbn [repeat app]. apply perm_skip, P.
Qed.
Lemma take_out {T} (dec : forall a b : T, {a = b} + {a <> b}) (d t : list T) : NoDup d -> incl d t -> exists rest, Permutation t (d ++ rest).
Proof.
  revert t. induction d as [|a d IH]; intros t ND IN; [exists t; apply Permutation_refl|]. inversion_clear ND as [|? ? Na ND'].
  destruct (in_split a t (IN a (or_introl eq_refl))) as (t1 & t2 & ->). destruct (IH (t1 ++ t2) ND') as [rest P].
  - intros x Hx. specialize (IN x (or_intror Hx)). apply in_app_iff in IN. apply in_app_iff. destruct IN as [H|[H|H]]; auto. subst x. contradiction.
  - exists rest. cbn [app]. apply Permutation_sym. eapply perm_trans; [apply perm_skip, Permutation_sym, P|]. apply Permutation_middle.
Qed.
(** every value equals its partner or the value before *)
Fixpoint runs {T} (prev : option T) (A B : list T) : Prop := match A, B with
  | [], [] => True
  | a :: A, s :: B => (a = s \/ prev = Some a) /\ runs (Some a) A B
  | _, _ => False end.
Fixpoint fill {T} (l : list (T * nat)) (rest : list T) : list T := match l with
  | [] => []
  | (v, m) :: l => v :: firstn m rest ++ fill l (skipn m rest) end.
Fixpoint extra {T} (l : list (T * nat)) : nat := match l with [] => 0%nat | (_, m) :: l => (m + extra l)%nat end.
Lemma fill_perm {T} (l : list (T * nat)) : forall rest, length rest = extra l -> Permutation (fill l rest) (map fst l ++ rest).
Proof.
  induction l as [|[v m] l IH]; intros rest E; cbn [fill extra map fst app] in *; [destruct rest; [constructor|discriminate]|].
  apply perm_skip. specialize (IH (skipn m rest)). rewrite skipn_length in IH. specialize (IH ltac:(lia)).
  rewrite <- (firstn_skipn m rest) at 3. rewrite !app_assoc. eapply perm_trans; [apply Permutation_app_head, IH|].
  rewrite !app_assoc. apply Permutation_app_tail, Permutation_app_comm.
Qed.
Lemma runs_more {T} (v : T) A B : forall r, runs (Some v) A B -> runs (Some v) (repeat v (length r) ++ A) (r ++ B).
Proof. induction r as [|x r IH]; intros H; [exact H|]. cbn [length repeat app runs]. split; [right; reflexivity|apply IH, H]. Qed.
Lemma fill_runs {T} (l : list (T * nat)) : forall rest prev, length rest = extra l -> runs prev (spread l) (fill l rest).
Proof.
  induction l as [|[v m] l IH]; intros rest prev E; cbn [fill extra spread flat_map] in *; [exact I|].
  change (repeat v (S m)) with (v :: repeat v m). cbn [app runs]. split; [left; reflexivity|].
  assert (L : length (firstn m rest) = m) by (apply firstn_length_le; lia). rewrite <- L at 1. apply runs_more, IH. rewrite skipn_length. lia.
Qed.
Lemma spread_length {T} (l : list (T * nat)) : length (spread l) = (length l + extra l)%nat.
Proof. induction l as [|[v m] l IH]; [reflexivity|]. cbn [spread flat_map length extra]. rewrite app_length, repeat_length. fold (spread l). rewrite IH. lia. Qed.
Lemma arrange {T} (dec : forall a b : T, {a = b} + {a <> b}) (f t : list T) : length f = length t -> incl f t ->
  exists A B, Permutation A f /\ Permutation B t /\ runs None A B.
Proof.
  intros L IN. destruct (grouping dec f) as (l & ND & IL & P). destruct (take_out dec (map fst l) t ND (fun x H => IN x (IL x H))) as [rest R].
  assert (LR : length rest = extra l).
  { pose proof (Permutation_length R) as LR. rewrite app_length, map_length in LR. pose proof (Permutation_length P) as LP. rewrite spread_length in LP. lia. }
  exists (spread l), (fill l rest). split; [exact P|]. split; [|apply fill_runs, LR].
  eapply perm_trans; [apply fill_perm, LR|]. apply Permutation_sym, R.
Qed.
Lemma runs_nth {T} (d : T) : forall A B prev i, runs prev A B -> (i < length A)%nat ->
  nth i A d = nth i B d \/ (match i with O => prev = Some (nth 0 A d) | S k => nth i A d = nth k A d end).
Proof.
  induction A as [|a A IH]; intros B prev i R Hi; [cbn in Hi; lia|]. destruct B as [|s B]; [destruct R|]. destruct R as [R1 R2].
  destruct i as [|i]; [cbn [nth]; destruct R1; auto|]. cbn [nth length] in *. destruct (IH B (Some a) i R2 ltac:(lia)) as [H|H]; [left; exact H|right].
  destruct i as [|i]; [injection H as H; symmetry; exact H|exact H].
Qed.
Lemma nth_seq {T} (d : T) l : l = map (fun i => nth i l d) (seq 0 (length l)).
Proof.
  apply (nth_ext _ _ d d); [rewrite map_length, seq_length; reflexivity|]. intros n Hn.
  rewrite (nth_indep (map _ _) d (nth 0 l d)) by (rewrite map_length, seq_length; exact Hn).
  rewrite (map_nth (fun i => nth i l d)), seq_nth by exact Hn. reflexivity.
Qed.
Lemma arrange_fun m (f t : nat -> Fr) : (forall i, (i < m)%nat -> exists i', (i' < m)%nat /\ f i = t i') ->
  exists a s : nat -> Fr, Permutation (map a (seq 0 m)) (map f (seq 0 m)) /\ Permutation (map s (seq 0 m)) (map t (seq 0 m)) /\
    ((0 < m)%nat -> a 0%nat = s 0%nat) /\ forall i, (i < m)%nat -> a i = s i \/ forall k, i = S k -> a i = a k.
Proof.
  intros H. destruct (arrange fr_dec (map f (seq 0 m)) (map t (seq 0 m))) as (A & B & PA & PB & R).
  - rewrite !map_length. reflexivity.
  - intros x Hx. apply in_map_iff in Hx. destruct Hx as (i & <- & Hi). apply in_seq in Hi. destruct (H i ltac:(lia)) as (i' & Hi' & ->). apply in_map, in_seq. lia.
  - pose proof (Permutation_length PA) as LA. pose proof (Permutation_length PB) as LB. rewrite map_length, seq_length in LA, LB.
    exists (fun i => nth i A 0%fr), (fun i => nth i B 0%fr). split; [rewrite <- LA, <- nth_seq, LA; exact PA|]. split; [rewrite <- LB, <- nth_seq, LB; exact PB|]. split.
    + intros Hm. destruct (runs_nth 0%fr A B None 0%nat R ltac:(lia)) as [E|E]; [exact E|discriminate].
    + intros i Hi. destruct (runs_nth 0%fr A B None i R ltac:(lia)) as [E|E]; [left; exact E|right]. intros k ->. exact E.
Qed.

(** ** running products *)
Fixpoint running (z : Fr) (A B : nat -> Fr) (i : nat) : Fr := match i with O => z | S k => (running z A B k * (B k / A k))%fr end.
Lemma running_step z A B i : A i <> 0%fr -> (running z A B (S i) * A i = running z A B i * B i)%fr.
Proof.
  intros H. cbn [running]. rewrite fdiv_inv. transitivity (running z A B i * B i * (A i * frinv (A i)))%fr; [ring|]. rewrite inv_r by exact H. ring.
Qed.
Lemma prod_nz {T} (g : T -> Fr) l : (forall x, In x l -> g x <> 0%fr) -> prod (map g l) <> 0%fr.
Proof.
  intros H. induction l as [|a l IH]; [exact fr_1_0|]. cbn [map]. rewrite prod_cons. apply mul_nz; [apply H; left; reflexivity|apply IH; intros x Hx; apply H; right; exact Hx].
Qed.
Lemma prod_perm l l' : Permutation l l' -> prod l = prod l'.
Proof. intros P. induction P; rewrite ?prod_cons; [reflexivity|rewrite IHP; reflexivity|ring|congruence]. Qed.

(** ** the rows from their parts *)
Section Rows.
  Variables (inst : pol) (adv fixd sigm : nat -> pol) (theta beta gamma : Fr).
  Notation V f i := (value f (Z.of_nat i)).
  Ltac words := rewrite ?w44, ?w45, ?w46, ?w47, ?w48, ?w49, ?w50, ?w51, ?w52, ?w53, ?w54, ?w55, ?w56, ?w57, ?w58, ?w59, ?w60, ?w61, ?w62, ?w63, ?w64, ?w65, ?w66, ?w67, ?w68, ?w69, ?w70, ?w72, ?w73, ?w74, ?w75, ?w76, ?w77, ?w78, ?w79, ?w80, ?w81, ?w82, ?w83, ?w84, ?w85, ?w86, ?w87, ?w88, ?w89, ?w90, ?w91, ?w92, ?w93, ?w94, ?w95, ?w96, ?w97, ?w98, ?w99.
  Definition up k i := (cv inst adv k i + beta * sv sigm k i + gamma)%fr.
  Definition down k i := (cv inst adv k i + fexp delta (Z.of_nat k) * beta * fexp omega (Z.of_nat i) + gamma)%fr.
  Definition pair_step z k k' i := (V (adv z) (S i) * (up k i * (up k' i * 1)) = V (adv z) i * (down k i * (down k' i * 1)))%fr.
  Hypothesis G : forall j, 0 <= j < dom_n -> gates_hold adv fixd j.
  Hypothesis F1 : V (adv 12%nat) 0 = 1%fr. Hypothesis F2 : V (adv 13%nat) 0 = V (adv 12%nat) act. Hypothesis F3 : V (adv 14%nat) 0 = V (adv 13%nat) act.
  Hypothesis F4 : V (adv 15%nat) 0 = V (adv 14%nat) act. Hypothesis F5 : V (adv 16%nat) 0 = 1%fr. Hypothesis F6 : V (adv 8%nat) 0 = V (adv 9%nat) 0.
  Hypothesis F7 : V (adv 17%nat) 0 = 1%fr. Hypothesis F8 : V (adv 10%nat) 0 = V (adv 11%nat) 0.
  Hypothesis L : V (adv 15%nat) act = 1%fr /\ V (adv 16%nat) act = 1%fr /\ V (adv 17%nat) act = 1%fr.
  Hypothesis A1 : forall i, (i < act)%nat -> pair_step 12 0 1 i. Hypothesis A2 : forall i, (i < act)%nat -> pair_step 13 2 3 i.
  Hypothesis A3 : forall i, (i < act)%nat -> pair_step 14 4 5 i.
  Hypothesis A4 : forall i, (i < act)%nat -> (V (adv 15%nat) (S i) * (up 6 i * 1) = V (adv 15%nat) i * (down 6 i * 1))%fr.
  Hypothesis K1 : forall i, (i < act)%nat ->
    (V (adv 16%nat) (S i) * (V (adv 8%nat) i + beta) * (V (adv 9%nat) i + gamma) =
     V (adv 16%nat) i * (V (fixd 9%nat) i * theta + V (adv 6%nat) i + beta) * (V (fixd 10%nat) i * theta + V (fixd 11%nat) i + gamma))%fr /\
    (V (adv 8%nat) i = V (adv 9%nat) i \/ forall k, i = S k -> V (adv 8%nat) i = V (adv 8%nat) k).
  Hypothesis K2 : forall i, (i < act)%nat ->
    (V (adv 17%nat) (S i) * (V (adv 10%nat) i + beta) * (V (adv 11%nat) i + gamma) =
     V (adv 17%nat) i * (fc 18 * theta + V (adv 7%nat) i + beta) * (V (fixd 10%nat) i * theta + V (fixd 11%nat) i + gamma))%fr /\
    (V (adv 10%nat) i = V (adv 11%nat) i \/ forall k, i = S k -> V (adv 10%nat) i = V (adv 10%nat) k).

  Lemma rows_intro j : 0 <= j < dom_n -> row_ok inst adv fixd sigm theta beta gamma j.
  Proof.
    intros Hj. pose proof dom_6 as D6. pose proof act_Z as AZ. destruct (G j Hj) as (G1 & G2 & G3 & G4). unfold value in G1, G2, G3, G4.
    split. { unfold gate_main. words. rewrite !rot_zero, (rot_row j 1) by lia. exact G1. }
    split. { unfold SpecVerify.limbs. cbn [length seq combine map]. words. rewrite !rot_zero. exact G2. }
    split. { unfold SpecVerify.limbs. cbn [length seq combine map]. words. rewrite !rot_zero, !(rot_row j 1) by lia. exact G3. }
    split. { unfold SpecVerify.limbs. cbn [length seq combine map]. words. rewrite !rot_zero, !(rot_row j 1), !(rot_row j 2) by lia. exact G4. }
    split.
    { intros ->. words. rewrite !rot_zero, (rot_row_neg (-6)) by lia. replace (dom_n + -6) with (Z.of_nat act) by lia.
      exact (conj F1 (conj F2 (conj F3 (conj F4 (conj F5 (conj F6 (conj F7 F8))))))). }
    split.
    { intros ->. words. rewrite !rot_zero. rewrite <- AZ. destruct L as (L1 & L2 & L3).
      constructor; [right; exact L1|]. constructor; [right; exact L2|]. constructor; [right; exact L3|constructor]. }
    intros Hj6. assert (Hi : (Z.to_nat j < act)%nat) by lia. remember (Z.to_nat j) as i eqn:Ei.
    assert (Ej : j = Z.of_nat i) by lia. clear Ei. subst j.
    assert (R1 : rot (fexp omega (Z.of_nat i)) 1 = fexp omega (Z.of_nat (S i))) by (rewrite rot_row by lia; f_equal; lia).
    split; [|split; [|split; [|split; [|split]]]].
    - unfold product_step. cbn [map]. words. rewrite !rot_zero, !R1. exact (A1 i Hi).
    - unfold product_step. cbn [map]. words. rewrite !rot_zero, !R1. exact (A2 i Hi).
    - unfold product_step. cbn [map]. words. rewrite !rot_zero, !R1. exact (A3 i Hi).
    - unfold product_step. cbn [map]. words. rewrite !rot_zero, !R1. exact (A4 i Hi).
    - unfold lookup_step. words. rewrite !rot_zero, !R1. destruct (K1 i Hi) as [K K']. split; [exact K|]. destruct i as [|i].
      + left. exact F6.
      + destruct K' as [E|E]; [left; exact E|right]. rewrite rot_row by lia. replace (Z.of_nat (S i) + -1) with (Z.of_nat i) by lia. exact (E i eq_refl).
    - unfold lookup_step. words. rewrite !rot_zero, !R1. destruct (K2 i Hi) as [K K']. split; [exact K|]. destruct i as [|i].
      + left. exact F8.
      + destruct K' as [E|E]; [left; exact E|right]. rewrite rot_row by lia. replace (Z.of_nat (S i) + -1) with (Z.of_nat i) by lia. exact (E i eq_refl).
  Qed.
End Rows.

(** ** columns completing a satisfying assignment *)
Lemma column (z : nat -> Fr) : exists f, (length f <= Z.to_nat dom_n)%nat /\ forall i, (i <= act)%nat -> value f (Z.of_nat i) = z i.
Proof.
  destruct (interp (fun j => z (Z.to_nat j))) as [f [Lf Hf]]. exists f. split; [exact Lf|]. intros i Hi. pose proof act_Z.
  rewrite Hf by lia. rewrite Nat2Z.id. reflexivity.
Qed.
Lemma prod_shift (a : nat -> Fr) be l l' : Permutation (map a l) l' -> prod (map (fun i => a i + be)%fr l) = prod (map (fun v => v + be)%fr l').
Proof. intros P. rewrite <- (prod_perm _ _ (Permutation_map (fun v => v + be)%fr P)), map_map. reflexivity. Qed.
Lemma running_end z A B m : (forall i, (i < m)%nat -> A i <> 0%fr) -> prod (map A (seq 0 m)) = prod (map B (seq 0 m)) -> running z A B m = z.
Proof.
  intros HA E. apply (mul_cancel (prod (map A (seq 0 m)))); [apply prod_nz; intros x Hx; apply in_seq in Hx; apply HA; lia|].
  pose proof (telescope (running z A B) A B m (fun i Hi => running_step z A B i (HA i Hi))) as T. rewrite <- E in T.
  change (running z A B 0) with z in T. refine (eq_trans _ (eq_trans T _)); ring.
Qed.
Lemma in_opp (x b : Fr) (g : Fr) l : In g l -> ~ In b (map (fun v => - v)%fr l) -> (g + b)%fr <> 0%fr.
Proof. intros I N E. apply N. apply in_map_iff. exists g. split; [|exact I]. apply sub_eq0. rewrite <- E. transitivity (0 - (g + b))%fr; [ring|]. rewrite E. ring. Qed.

Lemma lookup_good (f t : nat -> Fr) : (forall i, (i < act)%nat -> exists i', (i' < act)%nat /\ f i = t i') ->
  exists a s, (length a <= Z.to_nat dom_n)%nat /\ (length s <= Z.to_nat dom_n)%nat /\
    value a (Z.of_nat 0) = value s (Z.of_nat 0) /\
    (forall i, (i < act)%nat -> value a (Z.of_nat i) = value s (Z.of_nat i) \/ forall k, i = S k -> value a (Z.of_nat i) = value a (Z.of_nat k)) /\
    exists Bs Gs, length Bs = act /\ length Gs = act /\ forall be ga, ~ In be Bs -> ~ In ga Gs ->
    exists z, (length z <= Z.to_nat dom_n)%nat /\ value z (Z.of_nat 0) = 1%fr /\ value z (Z.of_nat act) = 1%fr /\
      forall i, (i < act)%nat -> (value z (Z.of_nat (S i)) * (value a (Z.of_nat i) + be) * (value s (Z.of_nat i) + ga) = value z (Z.of_nat i) * (f i + be) * (t i + ga))%fr.
Proof.
  intros H. destruct (arrange_fun act f t H) as (av & sv & PA & PS & E0 & R). pose proof act_pos as AP. specialize (E0 AP).
  destruct (column av) as [a [La Ha]]. destruct (column sv) as [s [Ls Hs]]. exists a, s. split; [exact La|]. split; [exact Ls|].
  split; [rewrite Ha, Hs by lia; exact E0|]. split.
  { intros i Hi. rewrite Ha, Hs by lia. destruct (R i Hi) as [E|E]; [left; exact E|right]. intros k ->. rewrite Ha by lia. exact (E k eq_refl). }
  exists (map (fun v => - v)%fr (map av (seq 0 act))), (map (fun v => - v)%fr (map sv (seq 0 act))). rewrite !map_length, !seq_length.
  split; [reflexivity|]. split; [reflexivity|]. intros be ga Hbe Hga.
  set (A := fun i => ((av i + be) * (sv i + ga))%fr). set (B := fun i => ((f i + be) * (t i + ga))%fr).
  assert (NA : forall i, (i < act)%nat -> A i <> 0%fr).
  { intros i Hi. unfold A. apply mul_nz; [apply (in_opp (av i) be (av i) (map av (seq 0 act)))|apply (in_opp (sv i) ga (sv i) (map sv (seq 0 act)))]; try assumption; apply in_map, in_seq; lia. }
  destruct (column (running 1%fr A B)) as [z [Lz Hz]]. exists z. split; [exact Lz|]. split; [rewrite Hz by lia; reflexivity|]. split.
  { rewrite Hz by lia. apply running_end; [exact NA|]. unfold A, B. rewrite !prod_map_mul. rewrite (prod_shift av be _ _ PA), (prod_shift sv ga _ _ PS), !map_map. reflexivity. }
  intros i Hi. rewrite !Hz, Ha, Hs by lia. pose proof (running_step 1%fr A B i (NA i Hi)) as S1. unfold A at 2 in S1. unfold B at 3 in S1.
  refine (eq_trans _ (eq_trans S1 _)); ring.
Qed.

Lemma sigma_perm sigma (sigm : nat -> pol) : encodes_sigma sigm sigma -> permutes sigma ->
  Permutation (map (fun '(k, i) => (fst (sigma k (Z.of_nat i)), Z.to_nat (snd (sigma k (Z.of_nat i))))) places) places.
Proof.
  intros HS HP. pose proof act_Z as AZ.
  assert (U : forall i, (i < act)%nat -> usable (Z.of_nat i)) by (intros i Hi; unfold usable; lia).
  apply NoDup_Permutation_bis.
  - assert (ND : NoDup places).
    { unfold places. generalize (seq_NoDup 7 0). generalize (seq 0 7). intros l NL. induction l as [|k l IH]; [constructor|]. cbn [flat_map]. inversion_clear NL as [|? ? Nk NL'].
      assert (A : forall (x y : list (nat * nat)), NoDup x -> NoDup y -> (forall c, In c x -> ~ In c y) -> NoDup (x ++ y)).
      { clear. intros x y Hx Hy D. induction x as [|c x IH]; [exact Hy|]. inversion_clear Hx as [|? ? Nc Hx']. cbn [app]. constructor.
        - intros I. apply in_app_iff in I. destruct I as [I|I]; [contradiction|]. exact (D c (or_introl eq_refl) I).
        - apply IH; [exact Hx'|]. intros e He. apply D. right. exact He. }
      apply A; [|apply IH, NL'|].
      - apply FinFun.Injective_map_NoDup; [intros x y E; congruence|apply seq_NoDup].
      - intros [k' i] I1 I2. apply in_map_iff in I1. destruct I1 as (i' & E & _). apply pair_equal_spec in E. destruct E as [-> ->].
        apply in_flat_map in I2. destruct I2 as (k'' & I2 & I3). apply in_map_iff in I3. destruct I3 as (i'' & E & _). apply pair_equal_spec in E. destruct E as [-> _]. contradiction. }
    assert (M : forall l, (forall x, In x l -> In x places) -> NoDup l -> NoDup (map (fun '(k, i) => (fst (sigma k (Z.of_nat i)), Z.to_nat (snd (sigma k (Z.of_nat i))))) l)).
    { intros l. induction l as [|[k i] l IH]; intros Hl NL; [constructor|]. inversion_clear NL as [|? ? Nk NL']. cbn [map]. constructor.
      - intros I. apply in_map_iff in I. destruct I as ([k' i'] & E & I). apply pair_equal_spec in E. destruct E as [E1 E2].
        pose proof (proj1 (places_in _ _) (Hl _ (or_introl eq_refl))) as [B1 B2]. pose proof (proj1 (places_in _ _) (Hl _ (or_intror I))) as [B3 B4].
        destruct (HS k (Z.of_nat i) B1 (U i B2)) as (_ & S1 & _). destruct (HS k' (Z.of_nat i') B3 (U i' B4)) as (_ & S2 & _). unfold usable in S1, S2.
        destruct (HP k' (Z.of_nat i') k (Z.of_nat i) B3 (U i' B4) B1 (U i B2)) as [Ek Ei].
        + rewrite (surjective_pairing (sigma k' (Z.of_nat i'))), (surjective_pairing (sigma k (Z.of_nat i))). f_equal; [exact E1|lia].
        + apply Nk. subst k'. replace i with i' by lia. exact I.
      - apply IH; [intros x Hx; apply Hl; right; exact Hx|exact NL']. }
    apply M; [auto|exact ND].
  - rewrite map_length. lia.
  - intros [k i] I. apply in_map_iff in I. destruct I as ([k' i'] & E & I). apply pair_equal_spec in E. destruct E as [<- <-]. apply places_in in I. destruct I as [B1 B2].
    destruct (HS k' (Z.of_nat i') B1 (U i' B2)) as (S0 & S1 & _). unfold usable in S1. apply places_in. lia.
Qed.

Lemma copies_good inst (a fixd sigm : nat -> pol) sigma : encodes_sigma sigm sigma -> permutes sigma -> satisfies inst a fixd sigma ->
  forall be, exists Gs, length Gs = (7 * act)%nat /\ forall ga, ~ In ga Gs ->
  let up k i := (cv inst a k i + be * sv sigm k i + ga)%fr in
  let down k i := (cv inst a k i + fexp delta (Z.of_nat k) * be * fexp omega (Z.of_nat i) + ga)%fr in
  exists z1 z2 z3 z4, ((length z1 <= Z.to_nat dom_n)%nat /\ (length z2 <= Z.to_nat dom_n)%nat /\ (length z3 <= Z.to_nat dom_n)%nat /\ (length z4 <= Z.to_nat dom_n)%nat) /\
    value z1 (Z.of_nat 0) = 1%fr /\ value z2 (Z.of_nat 0) = value z1 (Z.of_nat act) /\ value z3 (Z.of_nat 0) = value z2 (Z.of_nat act) /\
    value z4 (Z.of_nat 0) = value z3 (Z.of_nat act) /\ value z4 (Z.of_nat act) = 1%fr /\
    forall i, (i < act)%nat ->
      (value z1 (Z.of_nat (S i)) * (up 0%nat i * (up 1%nat i * 1)) = value z1 (Z.of_nat i) * (down 0%nat i * (down 1%nat i * 1)))%fr /\
      (value z2 (Z.of_nat (S i)) * (up 2%nat i * (up 3%nat i * 1)) = value z2 (Z.of_nat i) * (down 2%nat i * (down 3%nat i * 1)))%fr /\
      (value z3 (Z.of_nat (S i)) * (up 4%nat i * (up 5%nat i * 1)) = value z3 (Z.of_nat i) * (down 4%nat i * (down 5%nat i * 1)))%fr /\
      (value z4 (Z.of_nat (S i)) * (up 6%nat i * 1) = value z4 (Z.of_nat i) * (down 6%nat i * 1))%fr.
Proof.
  intros HS HP (_ & HC & _) be. pose proof act_Z as AZ.
  set (L := map (fun '(k, i) => cv inst a k i + be * sv sigm k i)%fr places).
  exists (map (fun v => - v)%fr L). split; [unfold L; rewrite !map_length; apply places_length|]. intros ga Hga up down.
  assert (NU : forall k i, (k < 7)%nat -> (i < act)%nat -> up k i <> 0%fr).
  { intros k i Hk Hi. apply (in_opp 0%fr ga _ L); [|exact Hga]. unfold L. apply in_map_iff. exists (k, i). split; [reflexivity|apply places_in; auto]. }
  assert (EP : prod (map (fun '(k, i) => up k i) places) = prod (map (fun '(k, i) => down k i) places)).
  { rewrite <- (prod_perm _ _ (Permutation_map (fun '(k, i) => down k i) (sigma_perm sigma sigm HS HP))), map_map.
    apply (f_equal prod), map_ext_in. intros [k i] I. apply places_in in I. destruct I as [Hk Hi].
    assert (U : usable (Z.of_nat i)) by (unfold usable; lia). destruct (HS k (Z.of_nat i) Hk U) as (_ & S1 & S2). unfold usable in S1.
    unfold up, down, sv. rewrite S2. unfold cv. rewrite (HC k (Z.of_nat i) Hk U), Z2Nat.id by lia. ring. }
  set (A1 := fun i => (up 0%nat i * (up 1%nat i * 1))%fr). set (B1 := fun i => (down 0%nat i * (down 1%nat i * 1))%fr).
  set (A2 := fun i => (up 2%nat i * (up 3%nat i * 1))%fr). set (B2 := fun i => (down 2%nat i * (down 3%nat i * 1))%fr).
  set (A3 := fun i => (up 4%nat i * (up 5%nat i * 1))%fr). set (B3 := fun i => (down 4%nat i * (down 5%nat i * 1))%fr).
  set (A4 := fun i => (up 6%nat i * 1)%fr). set (B4 := fun i => (down 6%nat i * 1)%fr).
  assert (N1 : forall i, (i < act)%nat -> A1 i <> 0%fr) by (intros i Hi; unfold A1; repeat apply mul_nz; try exact fr_1_0; apply NU; lia).
  assert (N2 : forall i, (i < act)%nat -> A2 i <> 0%fr) by (intros i Hi; unfold A2; repeat apply mul_nz; try exact fr_1_0; apply NU; lia).
  assert (N3 : forall i, (i < act)%nat -> A3 i <> 0%fr) by (intros i Hi; unfold A3; repeat apply mul_nz; try exact fr_1_0; apply NU; lia).
  assert (N4 : forall i, (i < act)%nat -> A4 i <> 0%fr) by (intros i Hi; unfold A4; repeat apply mul_nz; try exact fr_1_0; apply NU; lia).
  set (r1 := running 1%fr A1 B1). set (r2 := running (r1 act) A2 B2). set (r3 := running (r2 act) A3 B3). set (r4 := running (r3 act) A4 B4).
  destruct (column r1) as [z1 [L1 H1]]. destruct (column r2) as [z2 [L2 H2]]. destruct (column r3) as [z3 [L3 H3]]. destruct (column r4) as [z4 [L4 H4]].
  exists z1, z2, z3, z4. split; [auto|]. pose proof act_pos as AP.
  rewrite H1, H1, H2, H2, H3, H3, H4, H4 by lia. split; [reflexivity|]. split; [reflexivity|]. split; [reflexivity|]. split; [reflexivity|]. split.
  - pose proof (telescope r1 A1 B1 act (fun i Hi => running_step _ A1 B1 i (N1 i Hi))) as T1.
    pose proof (telescope r2 A2 B2 act (fun i Hi => running_step _ A2 B2 i (N2 i Hi))) as T2.
    pose proof (telescope r3 A3 B3 act (fun i Hi => running_step _ A3 B3 i (N3 i Hi))) as T3.
    pose proof (telescope r4 A4 B4 act (fun i Hi => running_step _ A4 B4 i (N4 i Hi))) as T4.
    change (r1 0%nat) with 1%fr in T1. change (r2 0%nat) with (r1 act) in T2. change (r3 0%nat) with (r2 act) in T3. change (r4 0%nat) with (r3 act) in T4.
    assert (Q : forall g g' : nat -> Fr, prod (map (fun i => (g i * (g' i * 1))%fr) (seq 0 act)) = (prod (map g (seq 0 act)) * prod (map g' (seq 0 act)))%fr).
    { intros g g'. rewrite <- prod_map_mul. apply (f_equal prod), map_ext. intros i. ring. }
    assert (Q1 : forall g : nat -> Fr, prod (map (fun i => (g i * 1)%fr) (seq 0 act)) = prod (map g (seq 0 act))).
    { intros g. apply (f_equal prod), map_ext. intros i. ring. }
    unfold A1, B1 in T1. unfold A2, B2 in T2. unfold A3, B3 in T3. unfold A4, B4 in T4. rewrite !Q in T1, T2, T3. rewrite !Q1 in T4.
    rewrite (prod_places (fun '(k, i) => up k i)), (prod_places (fun '(k, i) => down k i)) in EP. cbv beta iota zeta in EP.
    assert (NP : forall k, (k < 7)%nat -> prod (map (up k) (seq 0 act)) <> 0%fr).
    { intros k Hk. apply prod_nz. intros i Hi. apply in_seq in Hi. apply NU; lia. }
    set (U := fun k => prod (map (up k) (seq 0 act))) in *. set (D := fun k => prod (map (down k) (seq 0 act))) in *.
    assert (EP' : (U 0%nat * (U 1%nat * (U 2%nat * (U 3%nat * (U 4%nat * (U 5%nat * (U 6%nat * 1)))))) = D 0%nat * (D 1%nat * (D 2%nat * (D 3%nat * (D 4%nat * (D 5%nat * (D 6%nat * 1)))))))%fr) by exact EP.
    assert (T1' : (r1 act * (U 0%nat * U 1%nat) = 1 * (D 0%nat * D 1%nat))%fr) by exact T1.
    assert (T2' : (r2 act * (U 2%nat * U 3%nat) = r1 act * (D 2%nat * D 3%nat))%fr) by exact T2.
    assert (T3' : (r3 act * (U 4%nat * U 5%nat) = r2 act * (D 4%nat * D 5%nat))%fr) by exact T3.
    assert (T4' : (r4 act * U 6%nat = r3 act * D 6%nat)%fr) by exact T4.
    assert (NP' : forall k, (k < 7)%nat -> U k <> 0%fr) by exact NP.
    pose proof (NP' 0%nat ltac:(lia)) as P0. pose proof (NP' 1%nat ltac:(lia)) as P1. pose proof (NP' 2%nat ltac:(lia)) as P2. pose proof (NP' 3%nat ltac:(lia)) as P3.
    pose proof (NP' 4%nat ltac:(lia)) as P4. pose proof (NP' 5%nat ltac:(lia)) as P5. pose proof (NP' 6%nat ltac:(lia)) as P6.
    clear - EP' T1' T2' T3' T4' P0 P1 P2 P3 P4 P5 P6. revert EP' T1' T2' T3' T4' P0 P1 P2 P3 P4 P5 P6. generalize (r1 act) (r2 act) (r3 act) (r4 act).
    generalize (U 0%nat) (U 1%nat) (U 2%nat) (U 3%nat) (U 4%nat) (U 5%nat) (U 6%nat).
    generalize (D 0%nat) (D 1%nat) (D 2%nat) (D 3%nat) (D 4%nat) (D 5%nat) (D 6%nat).
    intros d0 d1 d2 d3 d4 d5 d6 u0 u1 u2 u3 u4 u5 u6 s1 s2 s3 s4 EP T1 T2 T3 T4 P0 P1 P2 P3 P4 P5 P6.
    apply (mul_cancel (u0 * (u1 * (u2 * (u3 * (u4 * (u5 * (u6 * 1)))))))%fr); [repeat apply mul_nz; try assumption; exact fr_1_0|].
    transitivity ((s4 * u6) * (u4 * u5) * (u2 * u3) * (u0 * u1))%fr; [ring|]. rewrite T4.
    transitivity ((s3 * (u4 * u5)) * d6 * (u2 * u3) * (u0 * u1))%fr; [ring|]. rewrite T3.
    transitivity ((s2 * (u2 * u3)) * (d4 * d5) * d6 * (u0 * u1))%fr; [ring|]. rewrite T2.
    transitivity ((s1 * (u0 * u1)) * (d2 * d3) * (d4 * d5) * d6)%fr; [ring|]. rewrite T1. rewrite EP. ring.
  - intros i Hi. rewrite (H1 (S i)), (H1 i), (H2 (S i)), (H2 i), (H3 (S i)), (H3 i), (H4 (S i)), (H4 i) by lia.
    exact (conj (running_step _ A1 B1 i (N1 i Hi)) (conj (running_step _ A2 B2 i (N2 i Hi)) (conj (running_step _ A3 B3 i (N3 i Hi)) (running_step _ A4 B4 i (N4 i Hi))))).
Qed.

Lemma plonk_good inst (a fixd sigm : nat -> pol) sigma : encodes_sigma sigm sigma -> permutes sigma -> satisfies inst a fixd sigma ->
  forall th, exists p : nat -> pol, (forall i, (length (p i) <= Z.to_nat dom_n)%nat) /\
  exists Bs, Z.of_nat (length Bs) < 2 * dom_n /\ forall be, ~ In be Bs ->
  exists Gs, Z.of_nat (length Gs) < 9 * dom_n /\ forall ga, ~ In ga Gs ->
  forall rnd, (length rnd <= Z.to_nat dom_n)%nat ->
  exists q : nat -> pol, (forall i, (length (q i) <= Z.to_nat dom_n)%nat) /\ q 18%nat = rnd /\
  forall j, 0 <= j < dom_n -> row_ok inst (join a p q) fixd sigm th be ga j.
Proof.
  intros HS HP SAT th. pose proof act_Z as AZ. pose proof dom_6 as D6. pose proof SAT as (HG & _ & HL).
  set (t := fun i => (value (fixd 10%nat) (Z.of_nat i) * th + value (fixd 11%nat) (Z.of_nat i))%fr).
  assert (TB : forall tag v, in_table fixd tag v -> exists i', (i' < act)%nat /\ (tag * th + v)%fr = t i').
  { intros tag v (i & Hi & -> & ->). unfold usable in Hi. exists (Z.to_nat i). split; [lia|]. unfold t. rewrite Z2Nat.id by lia. reflexivity. }
  destruct (lookup_good (fun i => (value (fixd 9%nat) (Z.of_nat i) * th + value (a 6%nat) (Z.of_nat i))%fr) t) as (a1 & s1 & La1 & Ls1 & E1 & R1 & B1 & G1 & LB1 & LG1 & Z1).
  { intros i Hi. apply TB, HL. unfold usable. lia. }
  destruct (lookup_good (fun i => (fc 18 * th + value (a 7%nat) (Z.of_nat i))%fr) t) as (a2 & s2 & La2 & Ls2 & E2 & R2 & B2 & G2 & LB2 & LG2 & Z2).
  { intros i Hi. apply TB, HL. unfold usable. lia. }
  exists (fun i => match i with 8%nat => a1 | 9%nat => s1 | 10%nat => a2 | 11%nat => s2 | _ => [] end).
  split. { intros i. do 12 (destruct i as [|i]; [first [exact La1|exact Ls1|exact La2|exact Ls2|apply Nat.le_0_l]|]). apply Nat.le_0_l. }
  exists (B1 ++ B2). split; [rewrite app_length; lia|]. intros be Hbe. rewrite in_app_iff in Hbe.
  destruct (copies_good inst a fixd sigm sigma HS HP SAT be) as (G3 & LG3 & Z3).
  exists (G1 ++ G2 ++ G3). split; [rewrite !app_length; lia|]. intros ga Hga rnd Lr. rewrite !in_app_iff in Hga.
  destruct (Z1 be ga ltac:(tauto) ltac:(tauto)) as (y1 & Ly1 & Y10 & Y1m & Y1s).
  destruct (Z2 be ga ltac:(tauto) ltac:(tauto)) as (y2 & Ly2 & Y20 & Y2m & Y2s).
  destruct (Z3 ga ltac:(tauto)) as (z1 & z2 & z3 & z4 & (Lz1 & Lz2 & Lz3 & Lz4) & I1 & I2 & I3 & I4 & I5 & ST). clear Z1 Z2 Z3.
  exists (fun i => match i with 12%nat => z1 | 13%nat => z2 | 14%nat => z3 | 15%nat => z4 | 16%nat => y1 | 17%nat => y2 | 18%nat => rnd | _ => [] end).
  split. { intros i. do 19 (destruct i as [|i]; [first [exact Lz1|exact Lz2|exact Lz3|exact Lz4|exact Ly1|exact Ly2|exact Lr|apply Nat.le_0_l]|]). apply Nat.le_0_l. }
  split; [reflexivity|].
  match goal with |- context [join a ?P ?Q] => set (p := P); set (q := Q) end.
  exact (rows_intro inst (join a p q) fixd sigm th be ga HG I1 I2 I3 I4 Y10 E1 Y20 E2 (conj I5 (conj Y1m Y2m))
    (fun i Hi => proj1 (ST i Hi)) (fun i Hi => proj1 (proj2 (ST i Hi))) (fun i Hi => proj1 (proj2 (proj2 (ST i Hi)))) (fun i Hi => proj2 (proj2 (proj2 (ST i Hi))))
    (fun i Hi => conj (Y1s i Hi) (R1 i Hi)) (fun i Hi => conj (Y2s i Hi) (R2 i Hi))).
Qed.
