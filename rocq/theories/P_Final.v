(** The verification statements and the aggregation circuit in terms of the group law. *)
From Coq Require Import ZArith Lia Bool List Permutation.
From Verif Require Import Params Go Curve Api FrOps Lib Steps Agg NumThy FField FpField SpecCurve SpecHash SpecMisc SpecVerify
  P_Fr P_Str P_Curve P_Msm P_Group P_Order P_GroupSpec P_LinComb P_Misc P_Restate P_Step P_Exec P_Dom P_Eval P_Verify P_VSpec P_Acc
  P_Pipe P_Complete P_PipeOk.
Import ListNotations.
Open Scope Z_scope.

Local Opaque p_mod r_mod.
Local Opaque phi fmul fadd fsub fopp fdiv finv.

Lemma neg_gen_enc : encodes 1 (p_mod - 2) (Aff 1 (p_mod - 2)).
Proof. apply enc_from_of; [vm_compute; reflexivity|exact neg_gen_valid]. Qed.

Lemma scale_fst c l : map fst (scale c l) = map fst l.
Proof. unfold scale. rewrite map_map. apply map_ext. intros [P a]. reflexivity. Qed.
Lemma flat_scale_fst {A} (f : A -> list ((Z * Z) * Fr)) l : forall cs : list Fr, length cs = length l ->
  map fst (flat_map (fun '(c, p) => scale c (f p)) (combine cs l)) = flat_map (fun p => map fst (f p)) l.
Proof.
  induction l as [|p l IH]; intros [|c cs] E; try discriminate E; [reflexivity|]. cbn [combine flat_map].
  rewrite map_app, scale_fst, IH by (injection E; auto). reflexivity.
Qed.
Lemma powers_length c n : length (powers c n) = n.
Proof. unfold powers. rewrite map_length, rev_length, seq_length. reflexivity. Qed.
Lemma set_fst x u sets yy R ps : map fst (set_terms yy x u sets R ps) = flat_map (fun p => map fst (p_com p)) ps.
Proof. unfold set_terms. rewrite scale_fst. apply flat_scale_fst, powers_length. Qed.
Lemma com_fst yy v x u sets :
  map fst (com_terms yy v x u sets) = flat_map (fun S => flat_map (fun p => map fst (p_com p)) (snd S)) sets.
Proof.
  unfold com_terms.
  transitivity (map fst (flat_map (fun '(c, Q) => scale c (set_terms yy x u sets (fst Q) (snd Q))) (combine (powers v (length sets)) sets))).
  - f_equal. generalize (combine (powers v (length sets)) sets). intros l. apply flat_map_ext. intros [c [R ps]]. reflexivity.
  - rewrite flat_scale_fst by apply powers_length. apply flat_map_ext. intros S. apply set_fst.
Qed.

Definition coms_in (T : list Z) (ic : Z * Z) : list (Z * Z) :=
  map (com T) [12; 13; 14; 8; 10]%nat ++ [ic] ++ map (com T) [0; 1; 2; 3; 5; 9; 11]%nat ++ vk_fixed ++ vk_sigma ++
  map (com T) [19; 20; 21; 18; 4; 15; 16; 17; 6; 7; 50; 51]%nat.
Lemma final_fst T ic h x yy v u : map fst (final_terms T ic h x yy v u) = coms_in T ic.
Proof.
  unfold final_terms. rewrite map_app, com_fst. unfold coms_in, queries, W, W'.
  cbn [map fst snd flat_map app combine seq vk_fixed vk_sigma single h_poly p_com]. reflexivity.
Qed.

Definition enc (P : Z * Z) : Prop := exists Q, encodes (fst P) (snd P) Q.
Definition encb (P : Z * Z) : bool :=
  (0 <=? fst P) && (fst P <? p_mod) && (0 <=? snd P) && (snd P <? p_mod) && on_curve (fst P) (snd P).
Lemma encb_ok P : encb P = true -> enc P.
Proof.
  unfold encb. rewrite !andb_true_iff, !Z.leb_le, !Z.ltb_lt. intros ((((A & B) & C) & D) & E).
  exists (Aff (fst P) (snd P)). unfold on_curve in E. apply Z.eqb_eq in E. right. auto.
Qed.
Lemma vk_encb : forallb encb (vk_fixed ++ vk_sigma) = true.
Proof. vm_compute. reflexivity. Qed.
Lemma vk_enc : Forall enc (vk_fixed ++ vk_sigma).
Proof. apply Forall_forall. intros P H. apply encb_ok. pose proof vk_encb as F. rewrite forallb_forall in F. exact (F P H). Qed.

Lemma mod_enc a b : curve_or_zero a b -> enc (a mod p_mod, b mod p_mod).
Proof.
  assert (Np : p_mod > 0) by (vm_compute; reflexivity).
  intros [[A B]|C]; cbn [fst snd].
  - rewrite A, B. exists Inf. left. auto.
  - exists (Aff (a mod p_mod) (b mod p_mod)). right. cbn [fst snd].
    pose proof (Z_mod_lt a _ Np). pose proof (Z_mod_lt b _ Np). split; [assumption|]. split; [assumption|]. split; [|reflexivity].
    apply fq_eq in C. apply fq_eq. rewrite fq_add, !fq_mul in C. rewrite fq_add, !fq_mul, !fq_mod. exact C.
Qed.

Lemma com_enc T i : coms_on_curve T -> In i commitments -> enc (com T i).
Proof. intros HT Hi. unfold com. apply mod_enc. exact (HT i Hi). Qed.

Lemma coms_in_enc T ic : coms_on_curve T -> enc ic -> Forall enc (coms_in T ic).
Proof.
  intros HT HI.
  assert (Cs : forall l, forallb (fun i => existsb (Nat.eqb i) commitments) l = true -> Forall enc (map (com T) l)).
  { intros l H. apply Forall_map, Forall_forall. intros i Hi. rewrite forallb_forall in H. specialize (H i Hi).
    apply existsb_exists in H. destruct H as (j & Hj & E). apply Nat.eqb_eq in E. subst j. apply com_enc; assumption. }
  unfold coms_in. apply Forall_app. split; [apply Cs; reflexivity|].
  apply Forall_app. split; [constructor; [exact HI|constructor]|].
  apply Forall_app. split; [apply Cs; reflexivity|].
  rewrite app_assoc. apply Forall_app. split; [exact vk_enc|apply Cs; reflexivity].
Qed.

Lemma final_ok T ic h x yy v u : coms_on_curve T -> enc ic -> Forall term_ok (plain_terms (final_terms T ic h x yy v u)).
Proof.
  intros HT HI. pose proof (coms_in_enc T ic HT HI) as F. rewrite <- (final_fst T ic h x yy v u) in F.
  unfold plain_terms. apply Forall_map. rewrite Forall_map in F. eapply Forall_impl; [|exact F]. intros t H. exact H.
Qed.

Lemma head_ok (E : Fr) : term_ok ((1, p_mod - 2), val E).
Proof. exists (Aff 1 (p_mod - 2)). exact neg_gen_enc. Qed.
Lemma head_of : of_coords0 (1, p_mod - 2) = Aff 1 (p_mod - 2).
Proof. exact (enc_of _ _ _ neg_gen_enc). Qed.

Lemma claim_of_perm T ic h x yy v u (E : Fr) terms : coms_on_curve T -> enc ic -> Permutation terms (final_terms T ic h x yy v u) ->
  lin_comb (claim E (plain_terms (final_terms T ic h x yy v u))) (msm_from (pmul (val E) (Aff 1 (p_mod - 2))) (plain_terms terms)).
Proof.
  intros HT HI P. pose proof (final_ok T ic h x yy v u HT HI) as F.
  assert (P' : Permutation (plain_terms terms) (plain_terms (final_terms T ic h x yy v u))) by (apply Permutation_map; exact P).
  apply (lin_comb_perm (((1, p_mod - 2), val E) :: plain_terms terms)); [constructor; exact P'|].
  rewrite <- head_of. apply msm_lin_comb; [apply head_ok|]. rewrite P'. exact F.
Qed.

Lemma curve_enc_mod B0 B1 : curve_or_zero B0 B1 -> enc (B0 mod p_mod, B1 mod p_mod).
Proof. apply mod_enc. Qed.

Lemma c31_spec O T A B s s1 s2 s3 b1 b2 b3 :
  length B = 43%nat -> (forall j, (2 <= j < 10)%nat -> 0 <= nth j B 0 < r_mod) ->
  VerifyProof1 O Test (map VBig T) (map VBig A) (map VBig B) s = Done ((b1, None), s1) ->
  VerifyProof2 O Test (map VBig T) (map VBig A) b1 s1 = Done ((b2, None), s2) ->
  VerifyProof3 O Test (map VBig T) (map VBig A) b2 s2 = Done ((b3, None), s3) ->
  degen_sane O -> coms_on_curve T -> curve_or_zero (nth 0 B 0) (nth 1 B 0) ->
  let ic := (nth 0 B 0 mod p_mod, nth 1 B 0 mod p_mod) in
  let h := fc (nth 16 A 0) in
  let x := fc (nth 6 B 0) in let yy := fc (nth 7 B 0) in let v := fc (nth 8 B 0) in let u := fc (nth 9 B 0) in
  s3 = s /\ length b3 = 43%nat /\
  nth_error b3 10 = Some (VBig (fst (W' T))) /\ nth_error b3 11 = Some (VBig (snd (W' T))) /\
  exists X Y, lin_comb (claim (opening yy v x u (queries T ic h x)) (plain_terms (final_terms T ic h x yy v u))) (Aff X Y) /\
    nth_error b3 12 = Some (VBig X) /\ nth_error b3 13 = Some (VBig Y).
Proof.
  intros L C H1 H2 H3 Hd HT HB ic h x yy v u.
  destruct (c31_gen O T A B s s1 s2 s3 b1 b2 b3 L C H1 H2 H3 Hd HT HB) as (Es & L3 & N10 & N11 & terms & X & Y & P & E & _ & N12 & N13).
  split; [exact Es|]. split; [exact L3|]. split; [exact N10|]. split; [exact N11|]. exists X, Y. split; [|split; [exact N12|exact N13]].
  rewrite <- E. exact (claim_of_perm T ic h x yy v u _ terms HT (mod_enc _ _ HB) P).
Qed.

Lemma c36_spec O c zs T A s s' :
  TargetInst c ++ VerifyInst c = map VBig zs -> Proof_ c = map VBig T -> Aux c = map VBig A -> (104 <= length T)%nat ->
  degen_sane O -> Define O Test c s = Done (None, s') ->
  s' = s /\ (length zs <= 43)%nat /\ coms_on_curve T /\
  exists ix iy,
    multiple (Aff lagrange_x lagrange_y) ((o_keccak O (encoding (map (fun z => z mod p_mod) zs)) mod 2 ^ 256) mod r_mod) (Aff ix iy) /\
    let d := transcript_values O ix iy T in
    let ch i := fc (nth i d 0) in
    let th := ch 0%nat in let be := ch 1%nat in let ga := ch 2%nat in let y := ch 3%nat in
    let x := ch 4%nat in let yy := ch 5%nat in let v := ch 6%nat in let u := ch 7%nat in
    let h := fc (nth 16 A 0) in
    length d = 8%nat /\ x <> 0%fr /\ u <> rot x (-1) /\ u <> rot x 2 /\
    (fexp x dom_n <> 1%fr ->
      h = quotient (word T) th be ga x y /\
      forall i, (i < 21)%nat -> nth i A 0 = val (nth i (helpers x u (quotient (word T) th be ga x y)) 0%fr)) /\
    exists X Y,
      lin_comb (claim (opening yy v x u (queries T (ix, iy) h x)) (plain_terms (final_terms T (ix, iy) h x yy v u))) (Aff X Y) /\
      fst (W' T) <> 0 /\ snd (W' T) <> 0 /\ X <> 0 /\ Y <> 0 /\
      o_pairing O [(Aff (fst (W' T)) (snd (W' T)), g20_const); (Aff X Y, g21_const)] = true.
Proof.
  intros EZ ET EA LT Hd H. destruct (c36 O c zs T A s s' EZ ET EA LT Hd H) as (Es & Lz & HT & ix & iy & HI & R). cbv zeta in R.
  destruct R as (Ld & N0 & N1 & N2 & Q & terms & X & Y & P & E & R).
  split; [exact Es|]. split; [exact Lz|]. split; [exact HT|]. exists ix, iy.
  assert (VI : valid (Aff ix iy)) by (rewrite <- HI; apply pmul_valid, (enc_valid _ _ _ lagrange_encodes)).
  split; [rewrite <- HI; exact (pmul_multiple _ _ _ _ lagrange_encodes)|].
  cbv zeta. split; [exact Ld|]. split; [exact N0|]. split; [exact N1|]. split; [exact N2|]. split; [exact Q|]. exists X, Y. split; [|exact R]. rewrite <- E.
  apply claim_of_perm; [exact HT| |exact P]. apply point_valid in VI. exists (Aff ix iy).
  destruct VI as (a & b & [(_ & _ & VI)|(VA & VB & VC & VI)]); [discriminate|]. injection VI as -> ->. right. auto.
Qed.

(** ** Acceptance *)


Lemma one_term t : term_ok t -> lin_comb [t] (tval t).
Proof. intros H. pose proof (total_lin_comb [t] ltac:(constructor; [exact H|constructor])) as L. cbn [total] in L. rewrite padd_inf_r in L. exact L. Qed.
Lemma one_term_val t Q : lin_comb [t] Q -> Q = tval t.
Proof. intros H. apply lin_comb_total in H. destruct H as [_ ->]. cbn [total]. apply padd_inf_r. Qed.
Lemma total_snoc l t : Forall term_ok l -> term_ok t -> total (l ++ [t]) = padd (total l) (tval t).
Proof.
  intros F H. induction F as [|t' l H' F IH].
  - cbn [app total]. apply padd_inf_r.
  - cbn [app total]. rewrite IH. symmetry. apply padd_assoc; [apply tval_valid, H'|apply total_valid, F|apply tval_valid, H].
Qed.

Lemma sums_fit_spec l : forall l0, l0 <> [] -> Forall term_ok (l0 ++ l) ->
  (sums_fit (total l0) l <-> forall l1 t l2, l = l1 ++ t :: l2 ->
    fits (tval t) /\ fits (total (l0 ++ l1 ++ [t])) /\ ~ add_degenerate (total (l0 ++ l1)) (tval t)).
Proof.
  induction l as [|t l IH]; intros l0 N F.
  - split; [|intros _; exact Logic.I]. intros _ l1 t l2 E. destruct l1; discriminate.
  - pose proof (proj1 (Forall_app _ _ _) F) as [F0 F1]. inversion F1 as [|? ? F2 F3]; subst.
    assert (F' : Forall term_ok ((l0 ++ [t]) ++ l)) by (rewrite <- app_assoc; exact F).
    assert (N' : l0 ++ [t] <> []) by (destruct l0; discriminate).
    specialize (IH (l0 ++ [t]) N' F'). pose proof (total_snoc l0 t F0 F2) as TS. destruct t as [P k].
    cbn [sums_fit]. change (pmul k (of_coords0 P)) with (tval (P, k)). rewrite <- TS, IH. clear IH. split.
    + intros (A & B & C & D) l1 t l2 E. destruct l1 as [|t1 l1].
      * injection E as <- <-. rewrite app_nil_r. auto.
      * injection E as <- E. specialize (D l1 t l2 E). rewrite <- !app_assoc in D. exact D.
    + intros D. pose proof (D [] _ l eq_refl) as (A & C & B). rewrite app_nil_r in B.
      split; [exact A|]. split; [exact B|]. split; [exact C|]. intros l1 t l2 E. rewrite <- !app_assoc.
      apply (D ((P, k) :: l1) t l2). rewrite E. reflexivity.
Qed.

Lemma inf_not_degen Q : ~ add_degenerate Inf Q.
Proof. intros (a & b & c & d & E & _). discriminate. Qed.

Lemma computable_spec t l : Forall term_ok (t :: l) -> (computable (t :: l) <-> fits (tval t) /\ sums_fit (tval t) l).
Proof.
  intros F. inversion F as [|? ? F0 F1]; subst.
  assert (E1 : tval t = total [t]) by (symmetry; cbn [total]; apply padd_inf_r).
  pose proof (sums_fit_spec l [t] ltac:(discriminate) F) as S. rewrite <- E1 in S. split.
  - intros C. split.
    + destruct (C [] t l eq_refl) as (Q & R & L1 & Fq & _). rewrite <- (one_term_val _ _ L1). exact Fq.
    + apply S. intros l1 t' l2 E. destruct (C (t :: l1) t' l2) as (Q & R & L1 & Fq & L2 & Fr' & D); [rewrite E; reflexivity|].
      rewrite <- (one_term_val _ _ L1). split; [exact Fq|]. apply lin_comb_total in L2. destruct L2 as [G2 ->].
      split; [exact Fr'|]. apply D. apply total_lin_comb. change ((t :: l1) ++ [t']) with ([t] ++ (l1 ++ [t'])) in G2.
      apply (proj1 (Forall_app _ (t :: l1) [t'])). exact G2.
  - intros [A B] l1 t' l2 E. pose proof F as FF. rewrite E in FF. apply Forall_app in FF. destruct FF as [Fa Fb].
    inversion Fb as [|? ? Fc Fd]; subst. exists (tval t'), (total (l1 ++ [t'])).
    split; [apply one_term, Fc|]. destruct l1 as [|t1 l1].
    + injection E as <- <-. split; [exact A|]. cbn [app]. rewrite <- E1. split; [apply one_term, F0|]. split; [exact A|].
      intros S' L. apply lin_comb_total in L. destruct L as [_ ->]. apply inf_not_degen.
    + injection E as <- E. destruct (proj1 S B l1 t' l2 E) as (G1 & G2 & G3). split; [exact G1|].
      split; [apply total_lin_comb, Forall_app; split; [exact Fa|constructor; [exact Fc|constructor]]|]. split; [exact G2|].
      intros S' L. apply lin_comb_total in L. destruct L as [_ ->]. exact G3.
Qed.

Lemma order_perm : Permutation add_order (seq 0 45).
Proof.
  apply NoDup_Permutation_bis.
  - unfold add_order. repeat (constructor; [cbn; intuition discriminate|]). constructor.
  - reflexivity.
  - intros i Hi. apply in_seq. unfold add_order in Hi. cbn in Hi. intuition lia.
Qed.

Lemma final_length T ic h x yy v u : length (final_terms T ic h x yy v u) = 45%nat.
Proof. rewrite <- (map_length fst), final_fst. reflexivity. Qed.

Lemma ordered_perm l : length l = 45%nat -> Permutation (ordered_terms l) (plain_terms l).
Proof.
  intros L. unfold ordered_terms. rewrite order_perm. cbv zeta. unfold plain_terms.
  rewrite <- (map_map (fun i => nth i l ((0, 0), 0%fr)) (fun t => (fst t, val (snd t)))).
  replace (map (fun i => nth i l (0, 0, 0%fr)) (seq 0 45)) with l; [reflexivity|].
  rewrite <- L. clear L. induction l as [|t l IH]; [reflexivity|]. cbn [length seq map nth]. f_equal.
  rewrite <- seq_shift, map_map. exact IH.
Qed.

Lemma ordered_ok T ic h x yy v u : coms_on_curve T -> enc ic -> Forall term_ok (ordered_terms (final_terms T ic h x yy v u)).
Proof. intros HT HI. rewrite ordered_perm by apply final_length. apply final_ok; assumption. Qed.

Lemma coms_valid_on T : coms_valid T -> coms_on_curve T.
Proof. intros H i Hi. apply valid_curve, H, Hi. Qed.
Lemma valid_enc a b : valid (Aff a b) -> enc (a, b).
Proof.
  intros V. exists (Aff a b). apply valid_aff in V. destruct V as (A & B & C). unfold on_curve in C. apply Z.eqb_eq in C. right. auto.
Qed.

Lemma claim_computable T ic h x yy v u E : coms_on_curve T -> enc ic ->
  let acc := pmul (val E) (Aff 1 (p_mod - 2)) in
  (computable (claim E (ordered_terms (final_terms T ic h x yy v u))) <->
   fits acc /\ sums_fit acc (ordered_terms (final_terms T ic h x yy v u))).
Proof.
  intros HT HI acc. unfold claim. rewrite computable_spec.
  - unfold tval. cbn [fst snd]. rewrite head_of. reflexivity.
  - constructor; [apply head_ok|apply ordered_ok; assumption].
Qed.

Lemma c47_spec O T A B s :
  length B = 43%nat -> (forall j, (2 <= j < 10)%nat -> 0 <= nth j B 0 < r_mod) ->
  (104 <= length T)%nat -> (21 <= length A)%nat -> degen_sane O -> coms_valid T ->
  valid_pt (Aff (nth 0 B 0) (nth 1 B 0)) = true ->
  let ic := (nth 0 B 0, nth 1 B 0) in
  let x := fc (nth 6 B 0) in let yy := fc (nth 7 B 0) in let v := fc (nth 8 B 0) in let u := fc (nth 9 B 0) in
  let h := fc (nth 16 A 0) in
  fexp x dom_n <> 1%fr ->
  ((exists s1 s2 s3 b1 b2 b3,
    VerifyProof1 O Test (map VBig T) (map VBig A) (map VBig B) s = Done ((b1, None), s1) /\
    VerifyProof2 O Test (map VBig T) (map VBig A) b1 s1 = Done ((b2, None), s2) /\
    VerifyProof3 O Test (map VBig T) (map VBig A) b2 s2 = Done ((b3, None), s3)) <->
   x <> 0%fr /\ u <> rot x (-1) /\ u <> rot x 2 /\
   (forall i, (i < 21)%nat -> nth i A 0 = val (nth i (helpers x u
      (quotient (word T) (fc (nth 2 B 0)) (fc (nth 3 B 0)) (fc (nth 4 B 0)) x (fc (nth 5 B 0)))) 0%fr)) /\
   fits (Aff (nth 102 T 0) (nth 103 T 0)) /\
   computable (claim (opening yy v x u (queries T ic h x)) (ordered_terms (final_terms T ic h x yy v u)))).
Proof.
  intros L C HT HA Hd VT VB ic x yy v u h Hx. rewrite (c47 O T A B s L C HT HA Hd VT VB Hx).
  pose proof (claim_computable T ic h x yy v u (opening yy v x u (queries T ic h x)) (coms_valid_on _ VT) (valid_enc _ _ VB)) as E.
  cbv zeta in E. rewrite E. reflexivity.
Qed.

Lemma c48_spec O c zs T A s ix iy X Y :
  TargetInst c ++ VerifyInst c = map VBig zs -> Proof_ c = map VBig T -> Aux c = map VBig A ->
  (length zs <= 43)%nat -> (104 <= length T)%nat -> (21 <= length A)%nat ->
  degen_sane O -> coms_valid T -> Forall SpecHash.small (firstn 102 T) ->
  multiple (Aff lagrange_x lagrange_y) ((o_keccak O (encoding (map (fun z => z mod p_mod) zs)) mod 2 ^ 256) mod r_mod) (Aff ix iy) ->
  ix < r_mod -> iy < r_mod ->
  let d := transcript_values O ix iy T in
  let ch i := fc (nth i d 0) in
  let th := ch 0%nat in let be := ch 1%nat in let ga := ch 2%nat in let y := ch 3%nat in
  let x := ch 4%nat in let yy := ch 5%nat in let v := ch 6%nat in let u := ch 7%nat in
  let h := quotient (word T) th be ga x y in
  let E := opening yy v x u (queries T (ix, iy) h x) in
  let terms := final_terms T (ix, iy) h x yy v u in
  x <> 0%fr -> fexp x dom_n <> 1%fr -> u <> rot x (-1) -> u <> rot x 2 ->
  (forall i, (i < 21)%nat -> nth i A 0 = val (nth i (helpers x u h) 0%fr)) ->
  fits (Aff (nth 102 T 0) (nth 103 T 0)) -> computable (claim E (ordered_terms terms)) ->
  lin_comb (claim E (plain_terms terms)) (Aff X Y) -> nth 102 T 0 <> 0 -> nth 103 T 0 <> 0 -> X <> 0 -> Y <> 0 ->
  o_pairing O [(Aff (nth 102 T 0) (nth 103 T 0), g20_const); (Aff X Y, g21_const)] = true ->
  Define O Test c s = Done (None, s).
Proof.
  intros EZ ET EA LZ LT LA Hd VT SM HI RIx RIy d ch th be ga y x yy v u h E terms Hx0 Hx Hu1 Hu2 HH FW FS HM W0 W1 X0 Y0 HP.
  assert (VI : valid (Aff ix iy)).
  { rewrite <- (multiple_pmul _ _ _ _ _ lagrange_encodes HI). apply pmul_valid, (enc_valid _ _ _ lagrange_encodes). }
  pose proof (coms_valid_on _ VT) as HT. pose proof (valid_enc _ _ VI) as HE.
  apply claim_computable in FS; [|exact HT|exact HE]. destruct FS as [FE FS].
  apply (c48 O c zs T A s ix iy X Y EZ ET EA LZ LT LA Hd VT SM (multiple_pmul _ _ _ _ _ lagrange_encodes HI) RIx RIy Hx0 Hx Hu1 Hu2 HH FW FE FS); try assumption.
  rewrite <- head_of. apply lin_comb_msm. apply (lin_comb_perm (claim E (plain_terms terms))); [|exact HM].
  unfold claim. constructor. symmetry. apply ordered_perm, final_length.
Qed.
