(** Checking the order of a point of the twist on machine integers: double and add with the slopes given. *)
From Coq Require Import ZArith Znumtheory Bool List Lia Uint63 Ring Field.
From Verif Require Import Params Go Curve Agg NumThy FField FpField P_Fr P_Curve SpecCurve SpecMisc SpecPairing SpecTwist P_Limb P_Mont P_Jac P_Tower P_Weier P_Tw P_Pairing.
Import ListNotations.
Open Scope Z_scope.

Local Opaque p_mod.
Local Opaque phi fmul fadd fsub fopp fdiv finv.

Definition m2 : Type := (list int * list int)%type.
Definition tnext (l x1 y1 x2 : m2) : m2 * m2 :=
  let x3 := osub mo2 (osub mo2 (omul mo2 l l) x1) x2 in (x3, osub mo2 (omul mo2 l (osub mo2 x1 x3)) y1).
Definition tdbl (l : m2) (T : m2 * m2) : option (m2 * m2) :=
  let '(x, y) := T in let xx := omul mo2 x x in
  if sane2 l then if eq2 (omul mo2 (oadd mo2 y y) l) (oadd mo2 (oadd mo2 xx xx) xx) then Some (tnext l x y x) else None else None.
Definition tadd (l : m2) (Q T : m2 * m2) : option (m2 * m2) :=
  let '(x1, y1) := Q in let '(x2, y2) := T in
  if sane2 l then if eq2 (osub mo2 y2 y1) (omul mo2 l (osub mo2 x2 x1)) then
    if eq2 (omul mo2 (oadd mo2 y1 y2) l) (oadd mo2 (oadd mo2 (omul mo2 x1 x1) (omul mo2 x1 x2)) (omul mo2 x2 x2))
    then Some (tnext l x1 y1 x2) else None else None else None.
Fixpoint tchain (k : positive) (Q : m2 * m2) (ls : list m2) : option ((m2 * m2) * list m2) :=
  match k with
  | xH => Some (Q, ls)
  | xO k =>
      match tchain k Q ls with
      | Some (T, l :: ls) => match tdbl l T with Some T => Some (T, ls) | None => None end
      | _ => None
      end
  | xI k =>
      match tchain k Q ls with
      | Some (T, l :: m :: ls) =>
          match tdbl l T with Some T => match tadd m Q T with Some T => Some (T, ls) | None => None end | None => None end
      | _ => None
      end
  end.

Notation kad := (kadd (o0 F2) (oadd F2) (omul F2) (osub F2) kdiv K_dec).
Notation kli := (kline (omul F2) (osub F2)).
Definition rk (T : m2 * m2) (P : option (Fp * Fp * (Fp * Fp))) : Prop :=
  exists x y, P = Some (x, y) /\ Rq (rp 2) (fst T) x /\ Rq (rp 2) (snd T) y.
Lemma tnext_ok l x1 y1 x2 L X1 Y1 X2 : Rq (rp 2) l L -> Rq (rp 2) x1 X1 -> Rq (rp 2) y1 Y1 -> Rq (rp 2) x2 X2 ->
  rk (tnext l x1 y1 x2) (kli L X1 Y1 X2).
Proof. intros HL H1 H2 H3. unfold rk, tnext, kline. do 2 eexists. split; [reflexivity|]. cbv zeta. cbn [fst snd]. split; hgo mo2_hom. Qed.
Lemma tdbl_ok l T T' P : rk T P -> onk P -> tdbl l T = Some T' -> rk T' (kad P P).
Proof.
  destruct T as [x y]. intros (X & Y & -> & HX & HY) V H. cbn [fst snd] in *. unfold tdbl in H.
  destruct (sane2 l) eqn:S; [|discriminate H]. destruct (sane2_ok _ S) as [L HL].
  match type of H with (if ?e then _ else _) = _ => destruct e eqn:C; [|discriminate H] end.
  assert (A : omul F2 (oadd F2 Y Y) L = oadd F2 (oadd F2 (omul F2 X X) (omul F2 X X)) (omul F2 X X)).
  { refine (eq2_ok _ _ _ _ _ _ C); hgo mo2_hom. }
  rewrite (kadd_intro _ _ _ _ _ _ _ _ F2_field K_dec kb N2 N3 Nb L X Y X Y V V).
  - assert (E : T' = tnext l x y x) by congruence. rewrite E. apply tnext_ok; assumption.
  - split; [ring|exact A].
Qed.
Lemma tadd_ok l Q T T' P R : rk Q P -> rk T R -> onk P -> onk R -> tadd l Q T = Some T' -> rk T' (kad P R).
Proof.
  destruct T as [x y], Q as [x1 y1]. intros (X1 & Y1 & -> & HX1 & HY1) (X & Y & -> & HX & HY) V W H. cbn [fst snd] in *. unfold tadd in H.
  destruct (sane2 l) eqn:S; [|discriminate H]. destruct (sane2_ok _ S) as [L HL].
  match type of H with (if ?e then _ else _) = _ => destruct e eqn:C; [|discriminate H] end.
  match type of H with (if ?e then _ else _) = _ => destruct e eqn:D; [|discriminate H] end.
  assert (A : osub F2 Y Y1 = omul F2 L (osub F2 X X1)) by (refine (eq2_ok _ _ _ _ _ _ C); hgo mo2_hom).
  assert (B : omul F2 (oadd F2 Y1 Y) L = oadd F2 (oadd F2 (omul F2 X1 X1) (omul F2 X1 X)) (omul F2 X X)) by (refine (eq2_ok _ _ _ _ _ _ D); hgo mo2_hom).
  rewrite (kadd_intro _ _ _ _ _ _ _ _ F2_field K_dec kb N2 N3 Nb L X1 Y1 X Y V W).
  - assert (E : T' = tnext l x1 y1 x) by congruence. rewrite E. apply tnext_ok; assumption.
  - split; [exact A|exact B].
Qed.
Lemma kz_on k P : onk P -> onk (zmk k P).
Proof. exact (zmul_on _ _ _ _ _ _ _ _ F2_field K_dec kb k P). Qed.
Lemma kz_add a b P : onk P -> zmk (a + b) P = kad (zmk a P) (zmk b P).
Proof. exact (zmul_add _ _ _ _ _ _ _ _ F2_field K_dec kb N2 N3 Nb a b P). Qed.
Lemma kz_1 P : zmk 1 P = P.
Proof. apply zmul_1. Qed.
Lemma tchain_ok k Q P : rk Q P -> onk P -> forall ls T rest, tchain k Q ls = Some (T, rest) -> rk T (zmk (Zpos k) P).
Proof.
  intros HQ V. induction k as [k IH|k IH|]; intros ls T rest H; cbn [tchain] in H.
  - destruct (tchain k Q ls) as [[T1 [|l [|m ls1]]]|] eqn:E1; try discriminate H.
    destruct (tdbl l T1) as [T2|] eqn:E2; [|discriminate H]. destruct (tadd m Q T2) as [T3|] eqn:E3; [|discriminate H].
    assert (T3 = T) as -> by congruence. pose proof (IH _ _ _ E1) as H1.
    pose proof (tdbl_ok _ _ _ _ H1 (kz_on _ _ V) E2) as H2. rewrite <- kz_add in H2 by exact V.
    pose proof (tadd_ok _ _ _ _ _ _ HQ H2 V (kz_on _ _ V) E3) as H3.
    replace (Zpos k~1) with (1 + (Zpos k + Zpos k)) by lia. rewrite kz_add, kz_1 by exact V. exact H3.
  - destruct (tchain k Q ls) as [[T1 [|l ls1]]|] eqn:E1; try discriminate H.
    destruct (tdbl l T1) as [T2|] eqn:E2; [|discriminate H]. assert (T2 = T) as -> by congruence. pose proof (IH _ _ _ E1) as H1.
    pose proof (tdbl_ok _ _ _ _ H1 (kz_on _ _ V) E2) as H2. rewrite <- kz_add in H2 by exact V.
    replace (Zpos k~0) with (Zpos k + Zpos k) by lia. exact H2.
  - assert (Q = T) as <- by congruence. rewrite kz_1. exact HQ.
Qed.

Definition r_pred : positive := Eval vm_compute in Z.to_pos (r_mod - 1).
(** (r-1) Q has the abscissa of Q and the opposite ordinate *)
Definition ord_chk (q : lpt * lpt) (ls : list m2) : bool :=
  if goodb (fst q) then if goodb (snd q) then
    let Q := (monp (fst q), monp (snd q)) in
    match tchain r_pred Q ls with
    | Some (T, _) => if eq2 (fst T) (fst Q) then eq2 (oadd mo2 (snd T) (snd Q)) (o0 mo2) else false
    | None => false
    end
  else false else false.
Lemma ord_ok q ls : twist_point (Some (tog q)) -> ord_chk q ls = true -> forall k, twist_multiple (Some (tog q)) k None <-> (r_mod | k).
Proof.
  intros V H k. apply order_k; [exact V|]. unfold ord_chk in H.
  destruct (goodb (fst q)) eqn:G1; [|discriminate H]. destruct (goodb (snd q)) eqn:G2; [|discriminate H]. apply goodb_ok in G1, G2.
  pose proof (monp_isq _ G1 G2) as Hq. apply twist_point_k in V. destruct V as [_ V]. cbv zeta in H.
  remember (monp (fst q), monp (snd q)) as Q eqn:EQ. clear EQ.
  destruct (tchain r_pred Q ls) as [[T rest]|] eqn:E1; [|discriminate H].
  remember (E (Some (tog q))) as P eqn:EP. destruct (tog q) as [x y]. cbn [E] in EP. unfold isq in Hq. cbn [fst snd] in Hq.
  assert (HQ : rk Q P). { do 2 eexists. split; [exact EP|exact Hq]. }
  pose proof (tchain_ok _ _ _ HQ V _ _ _ E1) as (X & Y & EZ & HX & HY).
  destruct Hq as [Hx Hy]. cbn [fst snd] in Hx, Hy.
  destruct (eq2 (fst T) (fst Q)) eqn:C; [|discriminate H].
  assert (EX : X = P_Tw.e2 x) by (exact (eq2_ok _ _ _ _ HX Hx C)).
  assert (EY : oadd F2 Y (P_Tw.e2 y) = o0 F2) by (refine (eq2_ok _ _ _ _ _ _ H); [apply (h_add _ _ _ mo2_hom); assumption|apply (h_0 _ _ _ mo2_hom)]).
  assert (R : r_mod = Zpos r_pred + 1) by (vm_compute; reflexivity).
  rewrite R, kz_add, kz_1 by exact V. rewrite EZ, EX, EP. cbn [kadd].
  destruct (K_dec (P_Tw.e2 x) (P_Tw.e2 x)) as [_|N]; [|contradiction N; reflexivity].
  destruct (K_dec (oadd F2 Y (P_Tw.e2 y)) (o0 F2)) as [_|N]; [reflexivity|contradiction N; exact EY].
Qed.
(** (r-1) Q has another abscissa *)
Definition stray_chk (q : lpt * lpt) (ls : list m2) : bool :=
  if goodb (fst q) then if goodb (snd q) then
    let Q := (monp (fst q), monp (snd q)) in
    match tchain r_pred Q ls with
    | Some (T, _) => nonzero pl (msub (fst (fst T)) (fst (fst Q)))
    | None => false
    end
  else false else false.
Lemma stray_ok q ls : twist_point (Some (tog q)) -> stray_chk q ls = true -> ~ twist_multiple (Some (tog q)) r_mod None.
Proof.
  intros V H M. apply mult_e in M. destruct M as (_ & _ & M). apply (kmult_zmul _ _ _ _ _ _ _ _ F2_field K_dec kb N2 N3 Nb) in M. unfold stray_chk in H.
  destruct (goodb (fst q)) eqn:G1; [|discriminate H]. destruct (goodb (snd q)) eqn:G2; [|discriminate H]. apply goodb_ok in G1, G2.
  pose proof (monp_isq _ G1 G2) as Hq. apply twist_point_k in V. destruct V as [_ V]. cbv zeta in H.
  remember (monp (fst q), monp (snd q)) as Q eqn:EQ. clear EQ.
  destruct (tchain r_pred Q ls) as [[T rest]|] eqn:E1; [|discriminate H].
  remember (E (Some (tog q))) as P eqn:EP. destruct (tog q) as [x y]. cbn [E] in EP. unfold isq in Hq. cbn [fst snd] in Hq.
  assert (HQ : rk Q P). { do 2 eexists. split; [exact EP|exact Hq]. }
  pose proof (tchain_ok _ _ _ HQ V _ _ _ E1) as (X & Y & EZ & HX & HY).
  destruct Hq as [[Hx _] _]. cbn [fst snd] in Hx. pose proof (nzm _ _ (msub_ok _ _ _ _ (proj1 HX) Hx) H) as N.
  assert (R : r_mod = Zpos r_pred + 1) by (vm_compute; reflexivity).
  rewrite R, kz_add, kz_1 in M by exact V. rewrite EZ, EP in M. cbn [E kadd] in M.
  destruct (K_dec X (P_Tw.e2 x)) as [EX|_]; [|discriminate M].
  apply N. rewrite EX. cbn [P_Tw.e2 e2 fst]. ring.
Qed.
