(** The whole aggregation circuit: C36, C48. *)
From Coq Require Import ZArith String Bool List Permutation.
From Verif Require Import Params Go Curve Api FrOps Lib Steps Agg FField FpField SpecCurve SpecHash SpecMisc SpecVerify P_Pipe P_PipeOk P_Final P_RunEx.
Import ListNotations.
Open Scope Z_scope.

Theorem C36_pipeline : forall (O : oracles) c (zs T A : list Z) (s s' : cs),
  TargetInst c ++ VerifyInst c = map VBig zs -> Proof_ c = map VBig T -> Aux c = map VBig A -> (104 <= length T)%nat ->
  degen_sane O -> Define O Test c s = Done (None, s') ->
  s' = s /\ (length zs <= 43)%nat /\ coms_on_curve T /\
  exists ix iy,
    multiple (Aff lagrange_x lagrange_y) ((o_keccak O (encoding (map (fun z => z mod p_mod) zs)) mod 2 ^ 256) mod r_mod) (Aff ix iy) /\
    let d := transcript_values O ix iy T in
    let ch i := fc (nth i d 0) in
    let th := ch 0%nat in let be := ch 1%nat in let ga := ch 2%nat in let y := ch 3%nat in
    let x := ch 4%nat in let yy := ch 5%nat in let v := ch 6%nat in let u := ch 7%nat in
    let h := fc (nth 16 A 0) in
    length d = 8%nat /\ x <> 0%fr /\ u <> rot x (-1) /\ u <> rot x 2 /\
    (fexp x dom_n <> 1%fr ->
      h = quotient (word T) th be ga x y /\
      forall i, (i < 21)%nat -> nth i A 0 = val (nth i (helpers x u (quotient (word T) th be ga x y)) 0%fr)) /\
    exists X Y,
      lin_comb (claim (opening yy v x u (queries T (ix, iy) h x)) (plain_terms (final_terms T (ix, iy) h x yy v u))) (Aff X Y) /\
      fst (W' T) <> 0 /\ snd (W' T) <> 0 /\ X <> 0 /\ Y <> 0 /\
      o_pairing O [(Aff (fst (W' T)) (snd (W' T)), g20_const); (Aff X Y, g21_const)] = true.
Proof. exact c36_spec. Qed.
Print Assumptions C36_pipeline.

(** C48: an honest proof in the computable range is accepted *)
Theorem C48_complete : forall (O : oracles) c (zs T A : list Z) (s : cs) (ix iy X Y : Z),
  TargetInst c ++ VerifyInst c = map VBig zs -> Proof_ c = map VBig T -> Aux c = map VBig A ->
  (length zs <= 43)%nat -> (104 <= length T)%nat -> (21 <= length A)%nat ->
  degen_sane O -> coms_valid T -> Forall small (firstn 102 T) ->
  multiple (Aff lagrange_x lagrange_y) ((o_keccak O (encoding (map (fun z => z mod p_mod) zs)) mod 2 ^ 256) mod r_mod) (Aff ix iy) ->
  ix < r_mod -> iy < r_mod ->
  let d := transcript_values O ix iy T in
  let ch i := fc (nth i d 0) in
  let th := ch 0%nat in let be := ch 1%nat in let ga := ch 2%nat in let y := ch 3%nat in
  let x := ch 4%nat in let yy := ch 5%nat in let v := ch 6%nat in let u := ch 7%nat in
  let h := quotient (word T) th be ga x y in
  let E := opening yy v x u (queries T (ix, iy) h x) in
  let terms := final_terms T (ix, iy) h x yy v u in
  x <> 0%fr -> fexp x dom_n <> 1%fr -> u <> rot x (-1) -> u <> rot x 2 ->
  (forall i, (i < 21)%nat -> nth i A 0 = val (nth i (helpers x u h) 0%fr)) ->
  fits (Aff (nth 102 T 0) (nth 103 T 0)) -> computable (claim E (ordered_terms terms)) ->
  lin_comb (claim E (plain_terms terms)) (Aff X Y) -> nth 102 T 0 <> 0 -> nth 103 T 0 <> 0 -> X <> 0 -> Y <> 0 ->
  o_pairing O [(Aff (nth 102 T 0) (nth 103 T 0), g20_const); (Aff X Y, g21_const)] = true ->
  Define O Test c s = Done (None, s).
Proof. exact c48_spec. Qed.
Print Assumptions C48_complete.

(** a proof accepted by the whole circuit *)
Example C48_run_case : forall s, Define run_O Test run_circuit s = Done (None, s).
Proof. exact run_accepted. Qed.
Print Assumptions C48_run_case.
