(** What the scalar part of the verifier steps computes. *)
From Coq Require Import ZArith Zpow_facts String Bool List Lia Arith Ring Field.
From Verif Require Import Params Go Curve Api FrOps Lib Steps NumThy FField FpField P_Fr P_Str SpecCurve SpecVerify
  P_Msm P_Flow P_Misc P_Step P_Exec P_Dom.
Import ListNotations.
Open Scope Z_scope.

(** ** Constants of the code *)
Notation c_m6 := 21710372849001950800533397158415938114909991150039389063546734567764856596059.
Notation c_m5 := 1887003188133998471169152042388914354640772748308168868301418279904560637395.
Notation c_m4 := 2785514556381676080176937710880804108647911392478702105860685610379369825016.
Notation c_m3 := 14655294445420895451632927078981340937842238432098198055057679026789553137428.
Notation c_m2 := 8734126352828345679573237859165904705806588461301144420590422589042130041188.
Notation c_m1 := 9741553891420464328295280489650144566903017206473301385034033384879943874347.
Notation c_1 := 8374374965308410102411073611984011876711565317741801500439755773472076597347.
Notation c_2 := 11211301017135681023579411905410872569206244553457844956874280139879520583390.

Lemma neg_power c k : 0 < k -> 0 <= c -> (c * c_1 ^ k) mod r_mod = 1 -> fc c = fzpow omega (- k).
Proof.
  intros Hk Hc H. unfold fzpow. destruct (Z.ltb_spec (- k) 0) as [_|]; [|lia]. rewrite Z.opp_involutive.
  apply inv_unique. unfold omega. rewrite <- fexp_fc by lia. rewrite <- phi_mul, Z.mul_comm.
  change 1%fr with (fc 1). apply phi_eq_iff. exact H.
Qed.
Lemma k_m6 : fc c_m6 = fzpow omega (-6). Proof. apply (neg_power _ 6); [reflexivity | discriminate | vm_compute; reflexivity]. Qed.
Lemma k_m5 : fc c_m5 = fzpow omega (-5). Proof. apply (neg_power _ 5); [reflexivity | discriminate | vm_compute; reflexivity]. Qed.
Lemma k_m4 : fc c_m4 = fzpow omega (-4). Proof. apply (neg_power _ 4); [reflexivity | discriminate | vm_compute; reflexivity]. Qed.
Lemma k_m3 : fc c_m3 = fzpow omega (-3). Proof. apply (neg_power _ 3); [reflexivity | discriminate | vm_compute; reflexivity]. Qed.
Lemma k_m2 : fc c_m2 = fzpow omega (-2). Proof. apply (neg_power _ 2); [reflexivity | discriminate | vm_compute; reflexivity]. Qed.
Lemma k_m1 : fc c_m1 = fzpow omega (-1). Proof. apply (neg_power _ 1); [reflexivity | discriminate | vm_compute; reflexivity]. Qed.
Lemma k_0 : 1%fr = fzpow omega 0. Proof. reflexivity. Qed.
Lemma k_1 : fc c_1 = fzpow omega 1. Proof. unfold fzpow. cbn [Z.ltb Z.compare]. rewrite fexp_1. reflexivity. Qed.
Lemma k_2 : fc c_2 = fzpow omega 2.
Proof.
  unfold fzpow. cbn [Z.ltb Z.compare]. unfold omega. rewrite <- fexp_fc by discriminate.
  apply phi_eq_iff. vm_compute. reflexivity.
Qed.
Lemma rot_0 x : rot x 0 = x. Proof. unfold rot. rewrite <- k_0. ring. Qed.
Lemma rot_m6 x : (fc c_m6 * x)%fr = rot x (-6). Proof. unfold rot. rewrite k_m6. reflexivity. Qed.
Lemma rot_m1 x : (fc c_m1 * x)%fr = rot x (-1). Proof. unfold rot. rewrite k_m1. reflexivity. Qed.
Lemma rot_1 x : (fc c_1 * x)%fr = rot x 1. Proof. unfold rot. rewrite k_1. reflexivity. Qed.
Lemma rot_2 x : (fc c_2 * x)%fr = rot x 2. Proof. unfold rot. rewrite k_2. reflexivity. Qed.

Lemma lag_const c w k : fc w = fzpow omega k -> (c * dom_n) mod r_mod = w mod r_mod ->
  fc c = (fzpow omega k / fc dom_n)%fr.
Proof.
  intros <- H. apply fdiv_unique; [apply n_nz|]. rewrite <- phi_mul. apply phi_eq_iff. rewrite Z.mul_comm. exact H.
Qed.
Notation l_c0 := 21888240262557392955334514970720457388010314637169927192662615958087340972065.
Notation l_m6 := 4976187549286291281196346419790865785215437125361463174887299780224677482739.
Notation l_m5 := 17545179510056424625657753961500172777187948487824275719647175633757629801999.
Notation l_m4 := 12181902470161097505840471953356915228510866946798053228669051859673065660797.
Notation l_m3 := 3094683119308499972127188652296432785995218440930254516456812473854441617488.
Notation l_m2 := 17403859010271654340651602860211012227656903909453797585120745724534928821531.
Notation l_m1 := 7444483286096152693477325065105185543054922671492455540957072536952082259082.
Lemma q_0 : fc l_c0 = (fzpow omega 0 / fc dom_n)%fr. Proof. apply (lag_const _ 1); [reflexivity | vm_compute; reflexivity]. Qed.
Lemma q_m6 : fc l_m6 = (fzpow omega (-6) / fc dom_n)%fr. Proof. apply (lag_const _ c_m6); [exact k_m6 | vm_compute; reflexivity]. Qed.
Lemma q_m5 : fc l_m5 = (fzpow omega (-5) / fc dom_n)%fr. Proof. apply (lag_const _ c_m5); [exact k_m5 | vm_compute; reflexivity]. Qed.
Lemma q_m4 : fc l_m4 = (fzpow omega (-4) / fc dom_n)%fr. Proof. apply (lag_const _ c_m4); [exact k_m4 | vm_compute; reflexivity]. Qed.
Lemma q_m3 : fc l_m3 = (fzpow omega (-3) / fc dom_n)%fr. Proof. apply (lag_const _ c_m3); [exact k_m3 | vm_compute; reflexivity]. Qed.
Lemma q_m2 : fc l_m2 = (fzpow omega (-2) / fc dom_n)%fr. Proof. apply (lag_const _ c_m2); [exact k_m2 | vm_compute; reflexivity]. Qed.
Lemma q_m1 : fc l_m1 = (fzpow omega (-1) / fc dom_n)%fr. Proof. apply (lag_const _ c_m1); [exact k_m1 | vm_compute; reflexivity]. Qed.

Lemma m_1 : fc 21888242871839275222246405745257275088548364400416034343698204186575808495616 = (- fc 1)%fr.
Proof. rewrite <- phi_opp. apply phi_eq_iff. reflexivity. Qed.
Lemma m_2 : fc 21888242871839275222246405745257275088548364400416034343698204186575808495615 = (- fc 2)%fr.
Proof. rewrite <- phi_opp. apply phi_eq_iff. reflexivity. Qed.
Lemma m_3 : fc 21888242871839275222246405745257275088548364400416034343698204186575808495614 = (- fc 3)%fr.
Proof. rewrite <- phi_opp. apply phi_eq_iff. reflexivity. Qed.

(** ** Segments *)
Definition sub (a b : nat) (l : list mop) : list mop := firstn (b - a) (skipn a l).
Definition sA := Eval vm_compute in sub 0 30 (group prog1).
Definition sB := Eval vm_compute in sub 30 37 (group prog1).
Definition sC := Eval vm_compute in sub 37 44 (group prog1).
Definition sD := Eval vm_compute in sub 44 55 (group prog1).
Definition sE := Eval vm_compute in sub 55 64 (group prog1).
Definition sF := Eval vm_compute in sub 64 72 (group prog1).
Definition sG := Eval vm_compute in sub 72 80 (group prog1).
Definition sH := Eval vm_compute in sub 80 95 (group prog1).
Definition sI := Eval vm_compute in sub 95 97 (group prog1) ++ sub 0 10 (group prog2).
Definition sJ := Eval vm_compute in sub 10 20 (group prog2).
Definition sK := Eval vm_compute in sub 20 43 (group prog2).
Definition sL := Eval vm_compute in sub 43 85 (group prog2) ++ group prog3.

Lemma segments : group prog1 ++ group prog2 ++ group prog3 =
  sA ++ sB ++ sC ++ sD ++ sE ++ sF ++ sG ++ sH ++ sI ++ sJ ++ sK ++ sL.
Proof. vm_compute. reflexivity. Qed.

(** name the rotated points *)
Ltac name_rot g c k lem :=
  try (let w := fresh "w" in set (w := (fc c * g 6%nat)%fr) in *;
       let E := fresh "E" in assert (E : w = rot (g 6%nat) k) by apply lem; clearbody w; subst w).
Ltac rots g := name_rot g constr:(c_m6) constr:(-6) rot_m6; name_rot g constr:(c_m1) constr:(-1) rot_m1;
  name_rot g constr:(c_1) constr:(1) rot_1; name_rot g constr:(c_2) constr:(2) rot_2.
Ltac parts := repeat match goal with
  | H : True |- _ => clear H
  | H : 0 <= nth ?i ?l 0 |- 0 <= nth ?i ?l 0 => exact H
  | H : nth ?i ?l 0 < r_mod |- nth ?i ?l 0 < r_mod => exact H
  | |- _ /\ _ => split end.
Ltac div_fact := match goal with H : (?l * fw ?A ?i)%fr = ?z |- (?r * fw ?A ?i)%fr = ?w =>
  transitivity (l * fw A i)%fr; [ring | transitivity z; [exact H | ring]] end.
(** the divisions of a segment from the facts about the helpers *)
Ltac parts' := repeat match goal with
  | |- True => exact I
  | H : 0 <= nth ?i ?l 0 |- 0 <= nth ?i ?l 0 => exact H
  | H : nth ?i ?l 0 < r_mod |- nth ?i ?l 0 < r_mod => exact H
  | |- _ /\ _ => split end.
Ltac run := cbv [exec oks efok ef upd sA sB sC sD sE sF sG sH sI sJ sK Nat.eqb].

Local Opaque phi fmul fadd fsub fopp fdiv finv rot fzpow fexp omega delta.

Section Segments.
  Variables (T A : list Z).
  Notation t := (fw T).
  Notation a := (fw A).
  Notation ex := (exec T A).

  Local Open Scope fr_scope.
  (** interpolation with given inverses of differences *)
  Definition i3 (u p q s : Fr) (cp cq cs : Fr) (e0 e1 e2 : Fr) : Fr :=
    e0 * (cp * ((u - q) * (u - s))) + e1 * (cq * ((u - p) * (u - s))) + e2 * (cs * ((u - p) * (u - q))).
  Definition i2 (u p q : Fr) (cp cq : Fr) (e0 e1 : Fr) : Fr := e0 * (cp * (u - q)) + e1 * (cq * (u - p)).

  Lemma segA g : let x := g 6%nat in let u := g 9%nat in let g' := ex sA g in
    g' 17%nat = rot x (-6) /\ g' 19%nat = rot x 1 /\ g' 23%nat = a 3 /\ g' 26%nat = a 5 /\
    g' 30%nat = a 3 * rot x 1 /\ g' 32%nat = a 5 * x /\
    g' 18%nat = horner (g 7%nat) (map (fun '(i, j, k) => i3 u (rot x (-6)) x (rot x 1) (a 0 * a 1) (a 2 * a 3) (a 4 * a 5) (t i) (t j) (t k))
                              [(81, 79, 80); (84, 82, 83); (87, 85, 86)]%nat).
  Proof.
    cbv zeta. run. rots g. generalize (rot (g 6%nat) (-6)) (rot (g 6%nat) 1). intros w6 w1.
    repeat (split; [reflexivity|]). cbv [horner fold_left map i3]. ring.
  Qed.

  Definition rng (i : nat) : Prop := (0 <= nth i A 0 < r_mod)%Z.
  (** c is the inverse of d, and canonical *)
  Definition isinv (d : Fr) (i : nat) : Prop := d * a i = 1 /\ rng i.

  Lemma okA g : let x := g 6%nat in oks T A sA g <->
    isinv (rot x (-6) - x) 0 /\ isinv (rot x (-6) - rot x 1) 1 /\ isinv (x - rot x (-6)) 2 /\ isinv (x - rot x 1) 3 /\
    isinv (rot x 1 - rot x (-6)) 4 /\ isinv (rot x 1 - x) 5.
  Proof.
    cbv zeta. run. rots g. generalize (rot (g 6%nat) (-6)) (rot (g 6%nat) 1). intros w6 w1.
    unfold isinv, rng. change (fc 1) with 1. split; intros H; decompose [and] H; clear H; [parts | parts']; div_fact.
  Qed.

  Lemma segB g : let x := g 6%nat in let u := g 9%nat in let g' := ex sB g in
    g' 20%nat = rot x (-1) /\
    g' 21%nat = horner (g 7%nat) (map (fun '(i, j) => i2 u x (rot x (-1)) (a 7) (a 6) (t i) (t j)) [(92, 93); (97, 98)]%nat).
  Proof.
    cbv zeta. run. rots g. generalize (rot (g 6%nat) (-1)). intros w.
    repeat (split; [reflexivity|]). cbv [horner fold_left map i2]. ring.
  Qed.
  Lemma okB g : let x := g 6%nat in oks T A sB g <-> isinv (rot x (-1) - x) 6 /\ isinv (x - rot x (-1)) 7.
  Proof.
    cbv zeta. run. rots g. generalize (rot (g 6%nat) (-1)). intros w.
    unfold isinv, rng. change (fc 1) with 1. split; intros H; decompose [and] H; clear H; [parts | parts']; div_fact.
  Qed.

  Lemma segC g : let x := g 6%nat in let u := g 9%nat in g 17%nat = rot x (-6) -> g 19%nat = rot x 1 -> g 20%nat = rot x (-1) ->
    let g' := ex sC g in
    g' 17%nat = u - rot x (-6) /\ g' 22%nat = u - rot x 1 /\ g' 24%nat = rot x 2 /\ g' 25%nat = u - rot x 2 /\
    g' 20%nat = u - rot x (-1) /\ g' 27%nat = a 8 /\
    g' 28%nat = (u - rot x (-6)) * (u - rot x 1) * (u - rot x 2) * a 8.
  Proof.
    cbv zeta. intros H17 H19 H20. run. rewrite H17, H19, H20. rots g.
    generalize (rot (g 6%nat) (-6)) (rot (g 6%nat) 1) (rot (g 6%nat) (-1)) (rot (g 6%nat) 2). intros w6 w1 wm w2.
    repeat match goal with |- _ /\ _ => split end; try reflexivity; ring.
  Qed.
  Lemma okC g : let x := g 6%nat in let u := g 9%nat in g 20%nat = rot x (-1) -> oks T A sC g <->
    isinv ((u - rot x (-1)) * (u - rot x 2)) 8.
  Proof.
    cbv zeta. intros H20. run. rewrite H20. rots g.
    generalize (rot (g 6%nat) (-1)) (rot (g 6%nat) 2). intros wm w2.
    unfold isinv, rng. change (fc 1) with 1. split; intros H; decompose [and] H; clear H; [parts | parts']; div_fact.
  Qed.

  Definition single_evals : list nat := ([44; 45; 46; 47; 48; 51; 94; 99] ++ seq 58 13 ++ seq 72 7)%nat.
  Lemma segD g : ex sD g 29%nat = g 7%nat * horner (g 7%nat) (map t single_evals).
  Proof. run. cbv [horner fold_left map single_evals app seq]. ring. Qed.

  (** one step of the y-combination *)
  Definition comb (y : Fr) (l : list Fr) (h : Fr) : Fr := fold_left (fun h e => h * y + e) l h.

  Lemma pick_1 : pick t 1 = t 70%nat * (t 70%nat - fc 2) * (t 70%nat - fc 3).
  Proof. cbv [pick prod fold_right map filter negb Z.eqb Pos.eqb]. ring. Qed.
  Lemma pick_2 : pick t 2 = t 70%nat * (t 70%nat - fc 1) * (t 70%nat - fc 3).
  Proof. cbv [pick prod fold_right map filter negb Z.eqb Pos.eqb]. ring. Qed.
  Lemma pick_3 : pick t 3 = t 70%nat * (t 70%nat - fc 1) * (t 70%nat - fc 2).
  Proof. cbv [pick prod fold_right map filter negb Z.eqb Pos.eqb]. ring. Qed.
  Lemma limbs_1 : limbs t [52]%nat = t 52%nat.
  Proof. cbv [limbs sum fold_right map combine seq length Z.of_nat Z.mul Z.pow Z.pow_pos Pos.iter]. ring. Qed.
  Lemma limbs_2 : limbs t [53; 54; 52; 55]%nat =
    t 53%nat + t 54%nat * fc 262144 + t 52%nat * fc 68719476736 + t 55%nat * fc 18014398509481984.
  Proof.
    unfold limbs. cbn [length seq combine map sum fold_right].
    change (2 ^ (18 * Z.of_nat 0))%Z with 1%Z. change (2 ^ (18 * Z.of_nat 1))%Z with 262144%Z.
    change (2 ^ (18 * Z.of_nat 2))%Z with 68719476736%Z. change (2 ^ (18 * Z.of_nat 3))%Z with 18014398509481984%Z. ring.
  Qed.
  Lemma limbs_3 : limbs t [53; 54; 56; 52; 55; 57]%nat =
    t 53%nat + t 54%nat * fc 262144 + t 56%nat * fc 68719476736 + t 52%nat * fc 18014398509481984 +
    t 55%nat * fc 4722366482869645213696 + t 57%nat * fc 1237940039285380274899124224.
  Proof.
    unfold limbs. cbn [length seq combine map sum fold_right].
    change (2 ^ (18 * Z.of_nat 0))%Z with 1%Z. change (2 ^ (18 * Z.of_nat 1))%Z with 262144%Z.
    change (2 ^ (18 * Z.of_nat 2))%Z with 68719476736%Z. change (2 ^ (18 * Z.of_nat 3))%Z with 18014398509481984%Z.
    change (2 ^ (18 * Z.of_nat 4))%Z with 4722366482869645213696%Z.
    change (2 ^ (18 * Z.of_nat 5))%Z with 1237940039285380274899124224%Z. ring.
  Qed.

  Lemma segE g : let y := g 5%nat in let g' := ex sE g in
    g' 33%nat = t 70%nat - fc 2 /\ g' 36%nat = t 51%nat - (t 53%nat + t 54%nat * fc 262144) /\ g' 38%nat = t 70%nat - fc 1 /\
    g' 31%nat = comb y [gate_main t; (t 51%nat - limbs t [52]%nat) * pick t 1;
                        (t 51%nat - limbs t [53; 54; 52; 55]%nat) * pick t 2] 0 * y.
  Proof.
    cbv zeta. rewrite pick_1, pick_2, limbs_1, limbs_2. run. rewrite !m_1, !m_2, !m_3.
    repeat match goal with |- _ /\ _ => split end; try ring. cbv [comb fold_left gate_main]. ring.
  Qed.

  Lemma segF g h : let y := g 5%nat in let x := g 6%nat in let g' := ex sF g in
    g 33%nat = t 70%nat - fc 2 -> g 36%nat = t 51%nat - (t 53%nat + t 54%nat * fc 262144) -> g 38%nat = t 70%nat - fc 1 ->
    g 31%nat = h * y ->
    g' 33%nat = a 10 /\ g' 35%nat = fexp x dom_n /\ g' 36%nat = fexp x dom_n - 1 /\ g' 37%nat = a 9 /\
    g' 31%nat = comb y [(t 51%nat - limbs t [53; 54; 56; 52; 55; 57]%nat) * pick t 3;
                        a 9 * (1 - t 79%nat); a 10 * (t 88%nat * t 88%nat - t 88%nat)] h * y.
  Proof.
    cbv zeta. intros H33 H36 H38 H31. rewrite pick_3, limbs_3. run. rewrite H33, H36, H38, H31.
    change 8388608%Z with dom_n. change (fc 1) with 1.
    repeat match goal with |- _ /\ _ => split end; try reflexivity; try ring. cbv [comb fold_left]. ring.
  Qed.

  Definition islag (x : Fr) (k : Z) (i : nat) : Prop :=
    (x - fzpow omega k) * a i = fzpow omega k / fc dom_n * (fexp x dom_n - 1) /\ rng i.
  Lemma okF g : let x := g 6%nat in oks T A sF g <-> islag x 0 9 /\ islag x (-6) 10.
  Proof.
    cbv zeta. run. change 8388608%Z with dom_n. unfold islag, rng. rewrite q_0, q_m6, k_m6. change (fc 1) with 1.
    rewrite <- k_0. split; intros H; decompose [and] H; clear H; [parts | parts']; div_fact.
  Qed.

  Definition act (i10 i11 i12 i13 i14 i15 : Fr) : Fr := 1 - (i10 + (i11 + i12 + i13 + i14 + i15)).
  Definition chunkp (beta gamma x L z zw : Fr) (cols : list (Z * Fr * Fr)) : Fr :=
    (zw * prod (map (fun '(_, c, s) => c + beta * s + gamma) cols) -
     z * prod (map (fun '(k, c, _) => c + fexp delta k * beta * x + gamma) cols)) * L.

  Lemma segG g h : let y := g 5%nat in let x := g 6%nat in let be := g 3%nat in let ga := g 4%nat in let g' := ex sG g in
    let L := act (a 10) (a 11) (a 12) (a 13) (a 14) (a 15) in
    g 33%nat = a 10 -> g 37%nat = a 9 -> g 31%nat = h * y ->
    g' 38%nat = L /\ g' 39%nat = be * x /\
    g' 31%nat = comb y [a 9 * (t 82%nat - t 81%nat); a 9 * (t 85%nat - t 84%nat); a 9 * (t 88%nat - t 87%nat);
        chunkp be ga x L (t 79%nat) (t 80%nat) [(0, t 45%nat, t 72%nat); (1, t 46%nat, t 73%nat)]%Z] h.
  Proof.
    cbv zeta. intros H33 H37 H31. unfold chunkp. cbn [prod fold_right map]. rewrite fexp_0, fexp_1.
    run. rewrite H33, H37, H31. change (fc 4131629893567559867359510883348571134090853742863529169391034518566172092834) with delta.
    change (fc 1) with 1. generalize delta. intros de.
    repeat match goal with |- _ /\ _ => split end; try reflexivity; unfold act; [ring|].
    cbv [comb fold_left]. ring.
  Qed.
  Lemma okG g : let x := g 6%nat in g 36%nat = fexp x dom_n - 1 -> oks T A sG g <->
    islag x (-5) 11 /\ islag x (-4) 12 /\ islag x (-3) 13 /\ islag x (-2) 14 /\ islag x (-1) 15.
  Proof.
    cbv zeta. intros H36. run. rewrite !H36. unfold islag, rng. rewrite q_m5, k_m5, q_m4, k_m4, q_m3, k_m3, q_m2, k_m2, q_m1, k_m1.
    split; intros H; decompose [and] H; clear H; [parts | parts']; div_fact.
  Qed.

  Lemma delta_2 : fexp delta 2 = delta * delta. Proof. apply fexp_2. Qed.
  Lemma delta_add i : (0 <= i)%Z -> fexp delta (i + 2) = fexp delta i * (delta * delta).
  Proof. intros. rewrite fexp_add, fexp_2 by lia. reflexivity. Qed.
  Lemma delta_3 : fexp delta 3 = delta * (delta * delta). Proof. change 3%Z with (1 + 2)%Z. rewrite delta_add, fexp_1 by lia. reflexivity. Qed.
  Lemma delta_4 : fexp delta 4 = delta * delta * (delta * delta). Proof. change 4%Z with (2 + 2)%Z. rewrite delta_add, delta_2 by lia. reflexivity. Qed.
  Lemma delta_5 : fexp delta 5 = delta * (delta * delta) * (delta * delta). Proof. change 5%Z with (3 + 2)%Z. rewrite delta_add, delta_3 by lia. reflexivity. Qed.
  Lemma delta_6 : fexp delta 6 = delta * delta * (delta * delta) * (delta * delta). Proof. change 6%Z with (4 + 2)%Z. rewrite delta_add, delta_4 by lia. reflexivity. Qed.

  Lemma segH g h : let y := g 5%nat in let x := g 6%nat in let be := g 3%nat in let ga := g 4%nat in let g' := ex sH g in
    let L := g 38%nat in
    g 33%nat = a 10 -> g 37%nat = a 9 -> g 39%nat = be * x -> g 31%nat = h ->
    g' 31%nat = comb y [
        chunkp be ga x L (t 82%nat) (t 83%nat) [(2, t 47%nat, t 74%nat); (3, t 48%nat, t 75%nat)]%Z;
        chunkp be ga x L (t 85%nat) (t 86%nat) [(4, t 49%nat, t 76%nat); (5, t 51%nat, t 77%nat)]%Z;
        chunkp be ga x L (t 88%nat) (t 89%nat) [(6, t 44%nat, t 78%nat)]%Z;
        a 9 * (1 - t 90%nat); a 10 * (t 90%nat * t 90%nat - t 90%nat)] h.
  Proof.
    cbv zeta. intros H33 H37 H39 H31. unfold chunkp. cbn [prod fold_right map].
    run. rewrite H33, H37, H39, H31. change (fc 4131629893567559867359510883348571134090853742863529169391034518566172092834) with delta.
    rewrite ?delta_2, ?delta_3, ?delta_4, ?delta_5, ?delta_6.
    change (fc 1) with 1. generalize delta. intros de. cbv [comb fold_left]. ring.
  Qed.

  Definition lkp (L0 LL L be ga : Fr) (z zw b b' s input table : Fr) : list Fr :=
    [L0 * (1 - z); LL * (z * z - z);
     (zw * (b + be) * (s + ga) - z * (input + be) * (table + ga)) * L;
     L0 * (b - s); (b - s) * (b - b') * L].
  Definition tbl (th : Fr) : Fr := t 68%nat * th + t 69%nat.

  (** the last expressions, and the check of the quotient *)
  Lemma okI g h : let y := g 5%nat in let x := g 6%nat in let be := g 3%nat in let ga := g 4%nat in let th := g 2%nat in
    let L := g 38%nat in
    g 33%nat = a 10 -> g 37%nat = a 9 -> g 31%nat = h -> oks T A sI g <->
    g 36%nat * a 16 =
      comb y (skipn 2 (lkp (a 9) (a 10) L be ga (t 90%nat) (t 91%nat) (t 92%nat) (t 93%nat) (t 94%nat) (t 67%nat * th + t 52%nat) (tbl th)) ++
              lkp (a 9) (a 10) L be ga (t 95%nat) (t 96%nat) (t 97%nat) (t 98%nat) (t 99%nat) (fc 18 * th + t 53%nat) (tbl th)) h
    /\ rng 16.
  Proof.
    cbv zeta. intros H33 H37 H31. run. rewrite H33, H37, H31. change (fc 1) with 1. unfold rng. cbv [comb fold_left app skipn lkp tbl].
    split; intros H; decompose [and] H; clear H; [parts | parts'];
    match goal with H : g 36%nat * a 16 = _ |- _ => rewrite H end; ring.
  Qed.
  Lemma segI g : ex sI g 31%nat = a 16 /\ ex sI g 36%nat = g 36%nat.
  Proof. run. split; reflexivity. Qed.

  Lemma segJ g : let x := g 6%nat in let u := g 9%nat in let yy := g 7%nat in let v := g 8%nat in
    g 17%nat = u - rot x (-6) -> g 20%nat = u - rot x (-1) -> g 22%nat = u - rot x 1 -> g 25%nat = u - rot x 2 ->
    g 27%nat = a 8 -> g 30%nat = a 3 * rot x 1 -> g 32%nat = a 5 * x -> g 23%nat = a 3 -> g 26%nat = a 5 ->
    let g' := ex sJ g in
    g' 20%nat = (u - rot x (-6)) * (u - rot x (-1)) /\
    g' 33%nat = (u - rot x (-6)) * (u - rot x (-1)) * (u - rot x 1) * (u - rot x 2) * a 8 /\
    g' 25%nat = (u - rot x (-6)) * (u - rot x (-1)) * (u - rot x 2) * a 8 /\
    g' 21%nat = - (a 3 * rot x 1) /\ g' 29%nat = - (a 5 * x) /\
    g' 18%nat = v * (v * g 18%nat + g 21%nat * g 28%nat) +
                (yy * (g 29%nat + g 31%nat) + t 71%nat) * ((u - rot x (-6)) * (u - rot x (-1)) * (u - rot x 1) * (u - rot x 2) * a 8) /\
    g' 30%nat = horner yy (map (fun '(i, j) => i2 u x (rot x 1) (a 3) (a 5) (t i) (t j)) [(49, 50); (88, 89); (90, 91); (95, 96)]%nat).
  Proof.
    cbv zeta. intros H17 H20 H22 H25 H27 H30 H32 H23 H26. run. rewrite H17, H20, H22, H25, H27, H30, H32, H23, H26.
    generalize (rot (g 6%nat) (-6)) (rot (g 6%nat) 1) (rot (g 6%nat) (-1)) (rot (g 6%nat) 2). intros w6 w1 wm w2.
    repeat match goal with |- _ /\ _ => split end; try reflexivity.
    cbv [horner fold_left map i2]. ring.
  Qed.

  Lemma segK g : let x := g 6%nat in let u := g 9%nat in let yy := g 7%nat in let v := g 8%nat in
    g 19%nat = rot x 1 -> g 24%nat = rot x 2 -> g 23%nat = a 3 -> g 26%nat = a 5 ->
    g 21%nat = - (a 3 * rot x 1) -> g 29%nat = - (a 5 * x) -> g 27%nat = a 8 ->
    let g' := ex sK g in
    g' 20%nat = g 20%nat * a 8 /\
    g' 18%nat = v * (v * g 18%nat + g 30%nat * g 25%nat) +
      horner yy (map (fun '(i, j, k) => i3 u x (rot x 1) (rot x 2) (a 3 * a 17) (a 5 * a 18) (a 19 * a 20) (t i) (t j) (t k))
                   [(52, 55, 57); (53, 54, 56)]%nat) * (g 20%nat * a 8).
  Proof.
    cbv zeta. intros H19 H24 H23 H26 H21 H29 H27. run. rewrite H19, H24, H23, H26, H21, H29, H27.
    generalize (rot (g 6%nat) 1) (rot (g 6%nat) 2). intros w1 w2.
    split; [reflexivity|]. cbv [horner fold_left map i3]. ring.
  Qed.
  Lemma okK g : let x := g 6%nat in g 19%nat = rot x 1 -> g 24%nat = rot x 2 -> oks T A sK g <->
    isinv (x - rot x 2) 17 /\ isinv (rot x 1 - rot x 2) 18 /\ isinv (rot x 2 - x) 19 /\ isinv (rot x 2 - rot x 1) 20.
  Proof.
    cbv zeta. intros H19 H24. run. rewrite H19, H24.
    generalize (rot (g 6%nat) 1) (rot (g 6%nat) 2). intros w1 w2.
    unfold isinv, rng. change (fc 1) with 1. split; intros H; decompose [and] H; clear H; [parts | parts']; div_fact.
  Qed.

  (** the other segments contain no division *)
  Lemma okD g : oks T A sD g. Proof. run. parts'. Qed.
  Lemma okE g : oks T A sE g. Proof. run. parts'. Qed.
  Lemma okH g : oks T A sH g. Proof. run. parts'. Qed.
  Lemma okJ g : oks T A sJ g. Proof. run. parts'. Qed.
End Segments.
