(** The statement behind an accepted proof: gates, copy constraints and lookups on the columns (SpecPlonk.v), and their
    relation to the rows with permutation and lookup products (SpecRows.v) and to the circuit: C56 - C58. *)
From Coq Require Import ZArith Bool List.
From Verif Require Import Params Go Curve Api FrOps Lib Steps Agg FField FpField SpecCurve SpecHash SpecMisc SpecVerify SpecPoly SpecRows SpecPlonk
  P_Plonk P_Compl P_Statement P_PlonkEx.
Import ListNotations.
Open Scope Z_scope.

(** C56: columns violating the statement violate a row, whatever the permuted and product columns are, except for few
    challenges; columns satisfying it can be completed *)
Theorem C56_violated : forall (inst : pol) (a fixd sigm : nat -> pol) (sigma : nat -> Z -> nat * Z), encodes_sigma sigm sigma -> ~ satisfies inst a fixd sigma ->
  exists Ths, Z.of_nat (length Ths) < dom_n /\ forall th, ~ In th Ths ->
  forall p : nat -> pol,
  exists Bs, Z.of_nat (length Bs) < 7 * dom_n /\ forall be, ~ In be Bs ->
  exists Gs, Z.of_nat (length Gs) < 14 * dom_n /\ forall ga, ~ In ga Gs ->
  forall q : nat -> pol, exists j, 0 <= j < dom_n /\ ~ row_ok inst (join a p q) fixd sigm th be ga j.
Proof. exact plonk_bad. Qed.
Print Assumptions C56_violated.

Theorem C56_satisfied : forall (inst : pol) (a fixd sigm : nat -> pol) (sigma : nat -> Z -> nat * Z), encodes_sigma sigm sigma -> permutes sigma -> satisfies inst a fixd sigma ->
  forall th, exists p : nat -> pol, (forall i, (length (p i) <= Z.to_nat dom_n)%nat) /\
  exists Bs, Z.of_nat (length Bs) < 2 * dom_n /\ forall be, ~ In be Bs ->
  exists Gs, Z.of_nat (length Gs) < 9 * dom_n /\ forall ga, ~ In ga Gs ->
  forall rnd, (length rnd <= Z.to_nat dom_n)%nat ->
  exists q : nat -> pol, (forall i, (length (q i) <= Z.to_nat dom_n)%nat) /\ q 18%nat = rnd /\
  forall j, 0 <= j < dom_n -> row_ok inst (join a p q) fixd sigm th be ga j.
Proof. exact plonk_good. Qed.
Print Assumptions C56_satisfied.

(** columns 0 and 1 copies of each other: satisfying columns, and columns violating only the copies or only the lookups *)
Example C56_case_satisfied : encodes_sigma px_sigm px_sigma /\ permutes px_sigma /\ satisfies px_inst (px_adv 2 1) (px_fixd 0) px_sigma.
Proof. exact (conj px_encodes (conj px_permutes px_ok)). Qed.
Example C56_case_copy : (forall j, gates_hold (px_adv 1 1) (px_fixd (- 2)) j) /\ ~ satisfies px_inst (px_adv 1 1) (px_fixd (- 2)) px_sigma.
Proof. exact px_copy_bad. Qed.
Example C56_case_lookup : (forall j, gates_hold (px_adv 2 0) (px_fixd 0) j) /\ ~ satisfies px_inst (px_adv 2 0) (px_fixd 0) px_sigma.
Proof. exact px_lookup_bad. Qed.
Example C56_case_lengths : (length px_inst <= Z.to_nat dom_n)%nat /\ (forall b c i, (length (px_adv b c i) <= Z.to_nat dom_n)%nat) /\
  (forall v i, (length (px_fixd v i) <= Z.to_nat dom_n)%nat) /\ (forall i, (length (px_sigm i) <= Z.to_nat dom_n)%nat).
Proof. exact px_lengths. Qed.

(** C57: the circuit rejects every proof made from columns violating the statement, except for few challenges *)
Theorem C57_sound : forall (inst : pol) (a fixd sigm : nat -> pol) (sigma : nat -> Z -> nat * Z) (N : nat), encodes_sigma sigm sigma -> ~ satisfies inst a fixd sigma ->
  (Z.to_nat dom_n <= N)%nat -> (length inst <= N)%nat -> (forall i, (length (a i) <= N)%nat) ->
  (forall i, (length (fixd i) <= N)%nat) -> (forall i, (length (sigm i) <= N)%nat) ->
  exists Ths, Z.of_nat (length Ths) < dom_n /\ forall th, ~ In th Ths ->
  forall p : nat -> pol, (forall i, (length (p i) <= N)%nat) ->
  exists Bs, Z.of_nat (length Bs) < 7 * dom_n /\ forall be, ~ In be Bs ->
  exists Gs, Z.of_nat (length Gs) < 14 * dom_n /\ forall ga, ~ In ga Gs ->
  forall q : nat -> pol, (forall i, (length (q i) <= N)%nat) ->
  exists Ys, (length Ys < 23)%nat /\ forall y, ~ In y Ys ->
  forall h0 h1 h2, (length h0 <= N)%nat -> (length h1 <= N)%nat -> (length h2 <= N)%nat ->
  exists Xs, (length Xs < 4 * N)%nat /\ forall x, ~ In x Xs -> fexp x dom_n <> 1%fr ->
  forall es : nat -> Fr,
  exists YYs, (length YYs < 30)%nat /\ forall yy, ~ In yy YYs ->
  exists Vs, (length Vs < 5)%nat /\ forall v, ~ In v Vs ->
  forall w, (length w <= N)%nat ->
  exists Us, (length Us <= N + 4)%nat /\ forall u, ~ In u Us ->
  forall w', (length w' <= N)%nat ->
  exists Ts, (length Ts <= N)%nat /\ forall tau, ~ In tau Ts ->
  forall O c zs T A s s' ix iy,
    TargetInst c ++ VerifyInst c = map VBig zs -> Proof_ c = map VBig T -> Aux c = map VBig A -> (104 <= length T)%nat ->
    degen_sane O -> kzg_pairing O g20_const g21_const tau ->
    multiple (Aff lagrange_x lagrange_y) ((o_keccak O (encoding (map (fun z => z mod p_mod) zs)) mod 2 ^ 256) mod r_mod) (Aff ix iy) ->
    column_commitments tau inst (join a p q) fixd sigm T (ix, iy) -> quotient_commitments tau h0 h1 h2 T -> opening_commitments tau w w' T ->
    map fc (transcript_values O ix iy T) = [th; be; ga; y; x; yy; v; u] ->
    (forall i, (44 <= i < 100)%nat -> word T i = es i) ->
    Define O Test c s <> Done (None, s').
Proof. exact statement_sound. Qed.
Print Assumptions C57_sound.

(** C58: columns satisfying the statement have an accepted proof *)
Theorem C58_complete : forall (inst : pol) (a fixd sigm : nat -> pol) (sigma : nat -> Z -> nat * Z), let N := Z.to_nat dom_n in
  encodes_sigma sigm sigma -> permutes sigma -> satisfies inst a fixd sigma ->
  (length inst <= N)%nat -> (forall i, (length (a i) <= N)%nat) -> (forall i, (length (fixd i) <= N)%nat) -> (forall i, (length (sigm i) <= N)%nat) ->
  forall th, exists p : nat -> pol, (forall i, (length (p i) <= N)%nat) /\
  exists Bs, Z.of_nat (length Bs) < 2 * dom_n /\ forall be, ~ In be Bs ->
  exists Gs, Z.of_nat (length Gs) < 9 * dom_n /\ forall ga, ~ In ga Gs ->
  forall rnd, (length rnd <= N)%nat ->
  exists q : nat -> pol, (forall i, (length (q i) <= N)%nat) /\ q 18%nat = rnd /\
  forall y, exists h0 h1 h2, (length h0 <= N)%nat /\ (length h1 <= N)%nat /\ (length h2 <= N)%nat /\
  forall x yy v, x <> 0%fr -> fexp x dom_n <> 1%fr -> exists w, (length w <= N)%nat /\
  forall u, u <> rot x (-1) -> u <> rot x 2 -> exists w', (length w' <= N)%nat /\
  forall tau O c zs T A s ix iy X Y,
    TargetInst c ++ VerifyInst c = map VBig zs -> Proof_ c = map VBig T -> Aux c = map VBig A ->
    (length zs <= 43)%nat -> (104 <= length T)%nat -> (21 <= length A)%nat ->
    degen_sane O -> kzg_pairing O g20_const g21_const tau -> coms_valid T -> Forall small (firstn 102 T) ->
    multiple (Aff lagrange_x lagrange_y) ((o_keccak O (encoding (map (fun z => z mod p_mod) zs)) mod 2 ^ 256) mod r_mod) (Aff ix iy) ->
    ix < r_mod -> iy < r_mod ->
    column_commitments tau inst (join a p q) fixd sigm T (ix, iy) -> quotient_commitments tau h0 h1 h2 T -> opening_commitments tau w w' T ->
    map fc (transcript_values O ix iy T) = [th; be; ga; y; x; yy; v; u] ->
    (forall i, (44 <= i < 100)%nat -> word T i = cell inst (join a p q) fixd sigm x i) ->
    let h := quotient (word T) th be ga x y in
    let E := opening yy v x u (queries T (ix, iy) h x) in
    let terms := final_terms T (ix, iy) h x yy v u in
    (forall i, (i < 21)%nat -> nth i A 0 = val (nth i (helpers x u h) 0%fr)) ->
    fits (Aff (nth 102 T 0) (nth 103 T 0)) -> computable (claim E (ordered_terms terms)) ->
    lin_comb (claim E (plain_terms terms)) (Aff X Y) -> nth 102 T 0 <> 0 -> nth 103 T 0 <> 0 -> X <> 0 -> Y <> 0 ->
    Define O Test c s = Done (None, s).
Proof. exact statement_complete. Qed.
Print Assumptions C58_complete.
