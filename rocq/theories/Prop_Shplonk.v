(** What an accepted proof says about the polynomials behind its commitments: C51 - C55.  The polynomials, the rotation
    sets and the constraints of the rows are defined in SpecPoly.v, SpecRows.v and SpecVerify.v.  A commitment is
    f(tau) * (1,2) for a trapdoor tau; the pairing oracle is assumed to decide R = tau * W' ([kzg_pairing]). *)
From Coq Require Import ZArith Bool List.
From Verif Require Import Params Go Curve Api FrOps Lib Steps Agg FField FpField SpecCurve SpecHash SpecMisc SpecVerify SpecPoly SpecRows
  P_Open P_RunEx P_Circuit P_CircuitEx.
Import ListNotations.
Open Scope Z_scope.

(** C51: acceptance and the opening identity at the trapdoor *)
Theorem C51_accepted_opens : forall (inst : pol) (adv fixd sigm : nat -> pol) (O : oracles) c (zs T A : list Z) (s s' : cs)
    (tau : Fr) (ix iy : Z) (h0 h1 h2 w w' : pol),
  TargetInst c ++ VerifyInst c = map VBig zs -> Proof_ c = map VBig T -> Aux c = map VBig A -> (104 <= length T)%nat ->
  degen_sane O -> kzg_pairing O g20_const g21_const tau ->
  multiple (Aff lagrange_x lagrange_y) ((o_keccak O (encoding (map (fun z => z mod p_mod) zs)) mod 2 ^ 256) mod r_mod) (Aff ix iy) ->
  column_commitments tau inst adv fixd sigm T (ix, iy) -> quotient_commitments tau h0 h1 h2 T -> opening_commitments tau w w' T ->
  let d := transcript_values O ix iy T in
  let ch i := fc (nth i d 0) in
  let th := ch 0%nat in let be := ch 1%nat in let ga := ch 2%nat in let y := ch 3%nat in
  let x := ch 4%nat in let yy := ch 5%nat in let v := ch 6%nat in let u := ch 7%nat in
  fexp x dom_n <> 1%fr ->
  Define O Test c s = Done (None, s') ->
  x <> 0%fr /\ u <> rot x (-1) /\ u <> rot x 2 /\
  opens_at yy v x u (attach (queries T (ix, iy) (quotient (word T) th be ga x y) x)
    (set_polys inst adv fixd sigm (pieces x h0 h1 h2))) w w' tau.
Proof. exact accepts_opens. Qed.
Print Assumptions C51_accepted_opens.

Theorem C51_opens_accepted : forall (inst : pol) (adv fixd sigm : nat -> pol) (O : oracles) c (zs T A : list Z) (s : cs)
    (tau : Fr) (ix iy X Y : Z) (h0 h1 h2 w w' : pol),
  TargetInst c ++ VerifyInst c = map VBig zs -> Proof_ c = map VBig T -> Aux c = map VBig A ->
  (length zs <= 43)%nat -> (104 <= length T)%nat -> (21 <= length A)%nat ->
  degen_sane O -> kzg_pairing O g20_const g21_const tau -> coms_valid T -> Forall small (firstn 102 T) ->
  multiple (Aff lagrange_x lagrange_y) ((o_keccak O (encoding (map (fun z => z mod p_mod) zs)) mod 2 ^ 256) mod r_mod) (Aff ix iy) ->
  ix < r_mod -> iy < r_mod ->
  column_commitments tau inst adv fixd sigm T (ix, iy) -> quotient_commitments tau h0 h1 h2 T -> opening_commitments tau w w' T ->
  let d := transcript_values O ix iy T in
  let ch i := fc (nth i d 0) in
  let th := ch 0%nat in let be := ch 1%nat in let ga := ch 2%nat in let y := ch 3%nat in
  let x := ch 4%nat in let yy := ch 5%nat in let v := ch 6%nat in let u := ch 7%nat in
  let h := quotient (word T) th be ga x y in
  let E := opening yy v x u (queries T (ix, iy) h x) in
  let terms := final_terms T (ix, iy) h x yy v u in
  x <> 0%fr -> fexp x dom_n <> 1%fr -> u <> rot x (-1) -> u <> rot x 2 ->
  (forall i, (i < 21)%nat -> nth i A 0 = val (nth i (helpers x u h) 0%fr)) ->
  fits (Aff (nth 102 T 0) (nth 103 T 0)) -> computable (claim E (ordered_terms terms)) ->
  lin_comb (claim E (plain_terms terms)) (Aff X Y) -> nth 102 T 0 <> 0 -> nth 103 T 0 <> 0 -> X <> 0 -> Y <> 0 ->
  opens_at yy v x u (attach (queries T (ix, iy) h x) (set_polys inst adv fixd sigm (pieces x h0 h1 h2))) w w' tau ->
  Define O Test c s = Done (None, s).
Proof. exact opens_accepts. Qed.
Print Assumptions C51_opens_accepted.

(** an accepted run meeting all hypotheses of C51_accepted_opens *)
Example C51_case : forall s, exists tau inst adv fixd sigm h0 h1 h2 w w',
  kzg_pairing (run_Op (kzg_check tau)) g20_const g21_const tau /\ degen_sane (run_Op (kzg_check tau)) /\
  column_commitments tau inst adv fixd sigm run_proof (lagrange_x, lagrange_y) /\ quotient_commitments tau h0 h1 h2 run_proof /\
  opening_commitments tau w w' run_proof /\
  multiple (Aff lagrange_x lagrange_y) ((o_keccak (run_Op (kzg_check tau)) (encoding (map (fun z => z mod p_mod) [7])) mod 2 ^ 256) mod r_mod)
    (Aff lagrange_x lagrange_y) /\
  map fc (transcript_values (run_Op (kzg_check tau)) lagrange_x lagrange_y run_proof) = [fc 0; fc 0; fc 1; fc 13; fc rx; fc 1; fc 1; fc ru] /\
  fexp (fc rx) dom_n <> 1%fr /\
  Define (run_Op (kzg_check tau)) Test run_circuit s = Done (None, s).
Proof. exact run_opens. Qed.

(** C52: right evaluations can be opened, wrong ones only for few challenges *)
Theorem C52_right_evaluations_open : forall (x yy v : Fr) (osets : list oset) (N : nat), x <> 0%fr ->
  (forall R l, In (R, l) osets -> rots_ok R /\ (length R <= N)%nat) ->
  (forall R l p f, In (R, l) osets -> In (p, f) l -> (length f <= N)%nat) -> (1 <= N)%nat ->
  (forall R l p f, In (R, l) osets -> In (p, f) l -> evaluates x R p f) ->
  exists w, (length w <= N)%nat /\ (forall X, quotient_at yy v x osets w X) /\
  forall u, vanish x u (without all_rots (first_rots (sets osets))) <> 0%fr ->
  exists w', (length w' <= N)%nat /\ forall X, opens_at yy v x u osets w w' X.
Proof. exact right_openings. Qed.
Print Assumptions C52_right_evaluations_open.

Theorem C52_wrong_evaluations_fail : forall (x : Fr) (osets : list oset) (N m : nat), x <> 0%fr ->
  (forall R l, In (R, l) osets -> rots_ok R /\ (length R <= N)%nat /\ (length l <= m)%nat) ->
  (forall R l p f, In (R, l) osets -> In (p, f) l -> (length f <= N)%nat /\ length (p_evals p) = length R) -> (1 <= N)%nat ->
  (exists R l p f, In (R, l) osets /\ In (p, f) l /\ ~ evaluates x R p f) ->
  exists Ys, (length Ys < m)%nat /\ forall yy, ~ In yy Ys ->
  exists Vs, (length Vs < length osets)%nat /\ forall v, ~ In v Vs ->
  forall w, (length w <= N)%nat ->
  exists Us, (length Us <= N + 4)%nat /\ forall u, ~ In u Us -> vanish x u (without all_rots (first_rots (sets osets))) <> 0%fr ->
  forall w', (length w' <= N)%nat ->
  exists Ts, (length Ts <= N)%nat /\ forall tau, ~ In tau Ts -> ~ opens_at yy v x u osets w w' tau.
Proof. exact soundness. Qed.
Print Assumptions C52_wrong_evaluations_fail.

Example C52_case : rots_ok [0; 1] /\ forall x,
  evaluates x [0; 1] {| p_com := []; p_evals := [x; rot x 1] |} [0%fr; 1%fr] /\
  ~ evaluates x [0; 1] {| p_com := []; p_evals := [(x + 1)%fr; rot x 1] |} [0%fr; 1%fr].
Proof. exact (conj ex_rots (fun x => conj (ex_open_right x) (ex_open_wrong x))). Qed.

(** C53: the quotient value required by the verifier exists exactly when every row satisfies its constraints *)
Theorem C53_satisfied_rows : forall (inst : pol) (adv fixd sigm : nat -> pol) (th be ga : Fr), let N := Z.to_nat dom_n in
  (length inst <= N)%nat -> (forall i, (length (adv i) <= N)%nat) ->
  (forall i, (length (fixd i) <= N)%nat) -> (forall i, (length (sigm i) <= N)%nat) ->
  (forall j, 0 <= j < dom_n -> row_ok inst adv fixd sigm th be ga j) ->
  forall y, exists h0 h1 h2, (length h0 <= N)%nat /\ (length h1 <= N)%nat /\ (length h2 <= N)%nat /\
  forall x, fexp x dom_n <> 1%fr -> peval (pieces x h0 h1 h2) x = quotient (cell inst adv fixd sigm x) th be ga x y.
Proof. exact satisfied_rows. Qed.
Print Assumptions C53_satisfied_rows.

Theorem C53_violated_row : forall (inst : pol) (adv fixd sigm : nat -> pol) (th be ga : Fr) (N : nat) (j : Z),
  0 <= j < dom_n -> ~ row_ok inst adv fixd sigm th be ga j ->
  (Z.to_nat dom_n <= N)%nat -> (length inst <= N)%nat -> (forall i, (length (adv i) <= N)%nat) ->
  (forall i, (length (fixd i) <= N)%nat) -> (forall i, (length (sigm i) <= N)%nat) ->
  exists Ys, (length Ys < 23)%nat /\ forall y, ~ In y Ys ->
  forall h0 h1 h2, (length h0 <= N)%nat -> (length h1 <= N)%nat -> (length h2 <= N)%nat ->
  exists Xs, (length Xs < 4 * N)%nat /\ forall x, ~ In x Xs -> fexp x dom_n <> 1%fr ->
    peval (pieces x h0 h1 h2) x <> quotient (cell inst adv fixd sigm x) th be ga x y.
Proof. exact violated_rows. Qed.
Print Assumptions C53_violated_row.

(** columns with 3 * 5 - 15 = 0 on every row, and with 3 * 4 - 15 *)
Example C53_case : forall theta beta gamma j,
  row_ok ex_inst (ex_adv (fc 5) theta) ex_fixd ex_sigm theta beta gamma j /\
  ~ row_ok ex_inst (ex_adv (fc 4) theta) ex_fixd ex_sigm theta beta gamma j.
Proof. exact (fun th be ga j => conj (ex_rows_ok th be ga j) (ex_row_bad th be ga j)). Qed.
Example C53_case_lengths : forall b theta, (length ex_inst <= 2)%nat /\ (forall i, (length (ex_adv b theta i) <= 2)%nat) /\
  (forall i, (length (ex_fixd i) <= 2)%nat) /\ (forall i, (length (ex_sigm i) <= 2)%nat).
Proof. exact ex_lengths. Qed.

(** C54: soundness.  If a row is violated, the circuit rejects unless a challenge falls into a small set fixed before it
    is drawn.  [es] are the claimed evaluations, [N] bounds the degrees of the committed polynomials; the trapdoor is
    treated as the last challenge. *)
Theorem C54_sound : forall (inst : pol) (adv fixd sigm : nat -> pol) (th be ga : Fr) (N : nat) (j : Z),
  0 <= j < dom_n -> ~ row_ok inst adv fixd sigm th be ga j ->
  (Z.to_nat dom_n <= N)%nat -> (length inst <= N)%nat -> (forall i, (length (adv i) <= N)%nat) ->
  (forall i, (length (fixd i) <= N)%nat) -> (forall i, (length (sigm i) <= N)%nat) ->
  exists Ys, (length Ys < 23)%nat /\ forall y, ~ In y Ys ->
  forall h0 h1 h2, (length h0 <= N)%nat -> (length h1 <= N)%nat -> (length h2 <= N)%nat ->
  exists Xs, (length Xs < 4 * N)%nat /\ forall x, ~ In x Xs -> fexp x dom_n <> 1%fr ->
  forall es : nat -> Fr,
  exists YYs, (length YYs < 30)%nat /\ forall yy, ~ In yy YYs ->
  exists Vs, (length Vs < 5)%nat /\ forall v, ~ In v Vs ->
  forall w, (length w <= N)%nat ->
  exists Us, (length Us <= N + 4)%nat /\ forall u, ~ In u Us ->
  forall w', (length w' <= N)%nat ->
  exists Ts, (length Ts <= N)%nat /\ forall tau, ~ In tau Ts ->
  forall (O : oracles) c (zs T A : list Z) (s s' : cs) (ix iy : Z),
    TargetInst c ++ VerifyInst c = map VBig zs -> Proof_ c = map VBig T -> Aux c = map VBig A -> (104 <= length T)%nat ->
    degen_sane O -> kzg_pairing O g20_const g21_const tau ->
    multiple (Aff lagrange_x lagrange_y) ((o_keccak O (encoding (map (fun z => z mod p_mod) zs)) mod 2 ^ 256) mod r_mod) (Aff ix iy) ->
    column_commitments tau inst adv fixd sigm T (ix, iy) -> quotient_commitments tau h0 h1 h2 T -> opening_commitments tau w w' T ->
    map fc (transcript_values O ix iy T) = [th; be; ga; y; x; yy; v; u] ->
    (forall i, (44 <= i < 100)%nat -> word T i = es i) ->
    Define O Test c s <> Done (None, s').
Proof. exact circuit_sound. Qed.
Print Assumptions C54_sound.

(** C55: completeness.  If every row is satisfied, there are quotient pieces, and for every x, y', v an opening w, and for
    every u a second opening w', with which the circuit accepts (in the computable range of C48). *)
Theorem C55_complete : forall (inst : pol) (adv fixd sigm : nat -> pol) (th be ga : Fr), let N := Z.to_nat dom_n in
  (length inst <= N)%nat -> (forall i, (length (adv i) <= N)%nat) ->
  (forall i, (length (fixd i) <= N)%nat) -> (forall i, (length (sigm i) <= N)%nat) ->
  (forall j, 0 <= j < dom_n -> row_ok inst adv fixd sigm th be ga j) ->
  forall y, exists h0 h1 h2, (length h0 <= N)%nat /\ (length h1 <= N)%nat /\ (length h2 <= N)%nat /\
  forall x yy v, x <> 0%fr -> fexp x dom_n <> 1%fr -> exists w, (length w <= N)%nat /\
  forall u, u <> rot x (-1) -> u <> rot x 2 -> exists w', (length w' <= N)%nat /\
  forall (tau : Fr) (O : oracles) c (zs T A : list Z) (s : cs) (ix iy X Y : Z),
    TargetInst c ++ VerifyInst c = map VBig zs -> Proof_ c = map VBig T -> Aux c = map VBig A ->
    (length zs <= 43)%nat -> (104 <= length T)%nat -> (21 <= length A)%nat ->
    degen_sane O -> kzg_pairing O g20_const g21_const tau -> coms_valid T -> Forall small (firstn 102 T) ->
    multiple (Aff lagrange_x lagrange_y) ((o_keccak O (encoding (map (fun z => z mod p_mod) zs)) mod 2 ^ 256) mod r_mod) (Aff ix iy) ->
    ix < r_mod -> iy < r_mod ->
    column_commitments tau inst adv fixd sigm T (ix, iy) -> quotient_commitments tau h0 h1 h2 T -> opening_commitments tau w w' T ->
    map fc (transcript_values O ix iy T) = [th; be; ga; y; x; yy; v; u] ->
    (forall i, (44 <= i < 100)%nat -> word T i = cell inst adv fixd sigm x i) ->
    let h := quotient (word T) th be ga x y in
    let E := opening yy v x u (queries T (ix, iy) h x) in
    let terms := final_terms T (ix, iy) h x yy v u in
    (forall i, (i < 21)%nat -> nth i A 0 = val (nth i (helpers x u h) 0%fr)) ->
    fits (Aff (nth 102 T 0) (nth 103 T 0)) -> computable (claim E (ordered_terms terms)) ->
    lin_comb (claim E (plain_terms terms)) (Aff X Y) -> nth 102 T 0 <> 0 -> nth 103 T 0 <> 0 -> X <> 0 -> Y <> 0 ->
    Define O Test c s = Done (None, s).
Proof. exact circuit_complete. Qed.
Print Assumptions C55_complete.
