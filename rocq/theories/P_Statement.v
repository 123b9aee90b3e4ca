(** The aggregation circuit and the statement of SpecPlonk.v: soundness and completeness. *)
From Coq Require Import ZArith Lia Bool List Permutation Ring Field.
From Verif Require Import Params Go Curve Api FrOps Lib Steps Agg NumThy FField FpField SpecCurve SpecHash SpecMisc SpecVerify SpecPoly SpecRows SpecPlonk
  P_Fr P_Curve P_Msm P_Group P_Order P_GroupSpec P_Misc P_Kyc P_LinComb P_Restate P_Dom P_VSpec P_Honest P_Final P_Shplonk P_Poly P_Open P_Rows P_Snark P_Circuit P_Perm P_Plonk P_Compl.
Import ListNotations.
Open Scope Z_scope.

Local Opaque p_mod r_mod.
Local Opaque phi fmul fadd fsub fopp fdiv finv.
Local Opaque rot fzpow fexp omega delta dom_n.

(** ** the accepted statement *)
Lemma statement_sound inst (a fixd sigm : nat -> pol) sigma N : encodes_sigma sigm sigma -> ~ satisfies inst a fixd sigma ->
  (Z.to_nat dom_n <= N)%nat -> (length inst <= N)%nat -> (forall i, (length (a i) <= N)%nat) ->
  (forall i, (length (fixd i) <= N)%nat) -> (forall i, (length (sigm i) <= N)%nat) ->
  exists Ths, Z.of_nat (length Ths) < dom_n /\ forall th, ~ In th Ths ->
  forall p : nat -> pol, (forall i, (length (p i) <= N)%nat) ->
  exists Bs, Z.of_nat (length Bs) < 7 * dom_n /\ forall be, ~ In be Bs ->
  exists Gs, Z.of_nat (length Gs) < 14 * dom_n /\ forall ga, ~ In ga Gs ->
  forall q : nat -> pol, (forall i, (length (q i) <= N)%nat) ->
  exists Ys, (length Ys < 23)%nat /\ forall y, ~ In y Ys ->
  forall h0 h1 h2, (length h0 <= N)%nat -> (length h1 <= N)%nat -> (length h2 <= N)%nat ->
  exists Xs, (length Xs < 4 * N)%nat /\ forall x, ~ In x Xs -> fexp x dom_n <> 1%fr ->
  forall es : nat -> Fr,
  exists YYs, (length YYs < 30)%nat /\ forall yy, ~ In yy YYs ->
  exists Vs, (length Vs < 5)%nat /\ forall v, ~ In v Vs ->
  forall w, (length w <= N)%nat ->
  exists Us, (length Us <= N + 4)%nat /\ forall u, ~ In u Us ->
  forall w', (length w' <= N)%nat ->
  exists Ts, (length Ts <= N)%nat /\ forall tau, ~ In tau Ts ->
  forall O c zs T A s s' ix iy,
    TargetInst c ++ VerifyInst c = map VBig zs -> Proof_ c = map VBig T -> Aux c = map VBig A -> (104 <= length T)%nat ->
    degen_sane O -> kzg_pairing O g20_const g21_const tau ->
    multiple (Aff lagrange_x lagrange_y) ((o_keccak O (encoding (map (fun z => z mod p_mod) zs)) mod 2 ^ 256) mod r_mod) (Aff ix iy) ->
    column_commitments tau inst (join a p q) fixd sigm T (ix, iy) -> quotient_commitments tau h0 h1 h2 T -> opening_commitments tau w w' T ->
    map fc (transcript_values O ix iy T) = [th; be; ga; y; x; yy; v; u] ->
    (forall i, (44 <= i < 100)%nat -> word T i = es i) ->
    Define O Test c s <> Done (None, s').
Proof.
  intros HS NS LN LI LA LF LS. destruct (plonk_bad inst a fixd sigm sigma HS NS) as [Ths [LT HT]]. exists Ths. split; [exact LT|].
  intros th Hth p LP. destruct (HT th Hth p) as [Bs [LB HB]]. exists Bs. split; [exact LB|].
  intros be Hbe. destruct (HB be Hbe) as [Gs [LG HG]]. exists Gs. split; [exact LG|].
  intros ga Hga q LQ. destruct (HG ga Hga q) as [j [Hj NR]]. apply (circuit_sound inst (join a p q) fixd sigm th be ga N j Hj NR LN LI); [|exact LF|exact LS].
  intros i. unfold join. destruct (i <? 8)%nat; [apply LA|]. destruct (i <? 12)%nat; [apply LP|apply LQ].
Qed.

Lemma statement_complete inst (a fixd sigm : nat -> pol) sigma : let N := Z.to_nat dom_n in
  encodes_sigma sigm sigma -> permutes sigma -> satisfies inst a fixd sigma ->
  (length inst <= N)%nat -> (forall i, (length (a i) <= N)%nat) -> (forall i, (length (fixd i) <= N)%nat) -> (forall i, (length (sigm i) <= N)%nat) ->
  forall th, exists p : nat -> pol, (forall i, (length (p i) <= N)%nat) /\
  exists Bs, Z.of_nat (length Bs) < 2 * dom_n /\ forall be, ~ In be Bs ->
  exists Gs, Z.of_nat (length Gs) < 9 * dom_n /\ forall ga, ~ In ga Gs ->
  forall rnd, (length rnd <= N)%nat ->
  exists q : nat -> pol, (forall i, (length (q i) <= N)%nat) /\ q 18%nat = rnd /\
  forall y, exists h0 h1 h2, (length h0 <= N)%nat /\ (length h1 <= N)%nat /\ (length h2 <= N)%nat /\
  forall x yy v, x <> 0%fr -> fexp x dom_n <> 1%fr -> exists w, (length w <= N)%nat /\
  forall u, u <> rot x (-1) -> u <> rot x 2 -> exists w', (length w' <= N)%nat /\
  forall tau O c zs T A s ix iy X Y,
    TargetInst c ++ VerifyInst c = map VBig zs -> Proof_ c = map VBig T -> Aux c = map VBig A ->
    (length zs <= 43)%nat -> (104 <= length T)%nat -> (21 <= length A)%nat ->
    degen_sane O -> kzg_pairing O g20_const g21_const tau -> coms_valid T -> Forall small (firstn 102 T) ->
    multiple (Aff lagrange_x lagrange_y) ((o_keccak O (encoding (map (fun z => z mod p_mod) zs)) mod 2 ^ 256) mod r_mod) (Aff ix iy) ->
    ix < r_mod -> iy < r_mod ->
    column_commitments tau inst (join a p q) fixd sigm T (ix, iy) -> quotient_commitments tau h0 h1 h2 T -> opening_commitments tau w w' T ->
    map fc (transcript_values O ix iy T) = [th; be; ga; y; x; yy; v; u] ->
    (forall i, (44 <= i < 100)%nat -> word T i = cell inst (join a p q) fixd sigm x i) ->
    let h := quotient (word T) th be ga x y in
    let E := opening yy v x u (queries T (ix, iy) h x) in
    let terms := final_terms T (ix, iy) h x yy v u in
    (forall i, (i < 21)%nat -> nth i A 0 = val (nth i (helpers x u h) 0%fr)) ->
    fits (Aff (nth 102 T 0) (nth 103 T 0)) -> computable (claim E (ordered_terms terms)) ->
    lin_comb (claim E (plain_terms terms)) (Aff X Y) -> nth 102 T 0 <> 0 -> nth 103 T 0 <> 0 -> X <> 0 -> Y <> 0 ->
    Define O Test c s = Done (None, s).
Proof.
  intros N HS HP SAT LI LA LF LS th. destruct (plonk_good inst a fixd sigm sigma HS HP SAT th) as (p & Lp & Bs & LB & HB). exists p. split; [exact Lp|].
  exists Bs. split; [exact LB|]. intros be Hbe. destruct (HB be Hbe) as (Gs & LG & HG). exists Gs. split; [exact LG|]. intros ga Hga rnd Lr.
  destruct (HG ga Hga rnd Lr) as (q & Lq & Er & ROWS). exists q. split; [exact Lq|]. split; [exact Er|].
  refine (circuit_complete inst (join a p q) fixd sigm th be ga LI _ LF LS ROWS).
  intros i. unfold join. destruct (i <? 8)%nat; [apply LA|]. destruct (i <? 12)%nat; [apply Lp|apply Lq].
Qed.
