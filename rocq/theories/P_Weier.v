(** The curves y^2 = x^3 + b over a field of characteristic other than 2 and 3, b not zero: the three points of
    a line add up to zero defines an abelian group.  Used for the twist (C69). *)
From Coq Require Import ZArith Znumtheory Lia Bool List Ring Field.
Import ListNotations.

Section Curve.
  Context {K : Type} (k0 k1 : K) (ka km ks : K -> K -> K) (ko : K -> K) (kd : K -> K -> K) (ki : K -> K).
  Context (FT : field_theory k0 k1 ka km ks ko kd ki eq) (Kdec : forall a b : K, {a = b} + {a <> b}) (b : K).
  Notation "0" := k0. Notation "1" := k1.
  Infix "+" := ka. Infix "*" := km. Infix "-" := ks. Infix "/" := kd. Notation "- x" := (ko x).
  Notation k2 := (1 + 1). Notation k3 := (1 + 1 + 1).
  Context (N2 : k2 <> 0) (N3 : k3 <> 0) (Nb : b <> 0).
  Add Field Kf : FT.

  Definition point : Type := option (K * K).
  Definition onc (P : point) : Prop := match P with None => True | Some (x, y) => y * y = x * x * x + b end.
  (** R is the sum of P and Q *)
  Inductive ksum : point -> point -> point -> Prop :=
  | ks_zero_l Q : onc Q -> ksum None Q Q
  | ks_zero_r P : onc P -> ksum P None P
  | ks_opposite x y y' : onc (Some (x, y)) -> onc (Some (x, y')) -> y + y' = 0 -> ksum (Some (x, y)) (Some (x, y')) None
  | ks_line x1 y1 x2 y2 x3 y3 l c :
      onc (Some (x1, y1)) -> onc (Some (x2, y2)) -> onc (Some (x3, y3)) ->
      y1 = l * x1 + c -> y2 = l * x2 + c -> - y3 = l * x3 + c ->
      (forall t, t * t * t + b - (l * t + c) * (l * t + c) = (t - x1) * (t - x2) * (t - x3)) ->
      ksum (Some (x1, y1)) (Some (x2, y2)) (Some (x3, y3)).

  Lemma sub0 x y : x - y = 0 -> x = y.
  Proof. intros H. transitivity (x - y + y); [ring|]. rewrite H. ring. Qed.
  Lemma eq0 x y : x = y -> x - y = 0.
  Proof. intros ->. ring. Qed.
  Lemma mul0 x y : x * y = 0 -> x = 0 \/ y = 0.
  Proof.
    intros H. destruct (Kdec x 0) as [E|E]; [auto|]. right. transitivity (x * y / x); [field; exact E|].
    rewrite H. field. exact E.
  Qed.
  Lemma cancelk x y z : z <> 0 -> z * x = z * y -> x = y.
  Proof.
    intros N H. apply sub0. assert (E : z * (x - y) = 0) by (transitivity (z * x - z * y); [ring|]; rewrite H; ring).
    apply mul0 in E. tauto.
  Qed.

  Definition kneg (P : point) : point := match P with None => None | Some (x, y) => Some (x, - y) end.
  Definition kline (l x1 y1 x2 : K) : point := let x3 := l * l - x1 - x2 in Some (x3, l * (x1 - x3) - y1).
  Definition kadd (P Q : point) : point :=
    match P, Q with
    | None, _ => Q
    | _, None => P
    | Some (x1, y1), Some (x2, y2) =>
        if Kdec x1 x2 then
          if Kdec (y1 + y2) 0 then None
          else kline ((x1 * x1 + x1 * x2 + x2 * x2) / (y1 + y2)) x1 y1 x2
        else kline ((y2 - y1) / (x2 - x1)) x1 y1 x2
    end.

  Definition slp (l x1 y1 x2 y2 : K) : Prop :=
    y2 - y1 = l * (x2 - x1) /\ (y1 + y2) * l = x1 * x1 + x1 * x2 + x2 * x2.
  Lemma slp_sym l x1 y1 x2 y2 : slp l x1 y1 x2 y2 -> slp l x2 y2 x1 y1.
  Proof.
    intros [A B]. split.
    - transitivity (- (y2 - y1)); [ring|]. rewrite A. ring.
    - transitivity ((y1 + y2) * l); [ring|]. rewrite B. ring.
  Qed.
  Lemma slp_unique l m x1 y1 x2 y2 : slp l x1 y1 x2 y2 -> slp m x1 y1 x2 y2 -> (x1 <> x2 \/ y1 + y2 <> 0) -> l = m.
  Proof.
    intros [A B] [A' B'] [N|N].
    - apply (cancelk _ _ (x2 - x1)); [intros H; apply N; symmetry; apply sub0; exact H|].
      transitivity (l * (x2 - x1)); [ring|]. rewrite <- A, A'. ring.
    - apply (cancelk _ _ (y1 + y2)); [exact N|]. rewrite B, B'. reflexivity.
  Qed.
  (** a slope rules out opposite points *)
  Lemma slp_not_opp l x1 y1 x2 y2 : onc (Some (x1, y1)) -> slp l x1 y1 x2 y2 -> x1 <> x2 \/ y1 + y2 <> 0.
  Proof.
    intros C [A B]. destruct (Kdec x1 x2) as [<-|N]; [right|left; exact N]. intros H. cbn [onc] in C.
    assert (E : y1 = y2). { symmetry. apply sub0. rewrite A. ring. } subst y2.
    assert (Y : y1 = 0). { assert (E : k2 * y1 = 0) by (rewrite <- H; ring). apply mul0 in E. destruct E; [contradiction|assumption]. }
    subst y1. assert (E : k3 * (x1 * x1) = 0) by (transitivity (x1 * x1 + x1 * x1 + x1 * x1); [ring|]; rewrite <- B; ring).
    apply mul0 in E. destruct E as [E|E]; [contradiction|].
    apply Nb. transitivity (x1 * x1 * x1 + b - (x1 * x1) * x1); [ring|]. rewrite <- C, E. ring.
  Qed.
  Lemma slope_DC l m k x1 y1 x2 y2 x3 y3 x4 y4 :
    slp l x1 y1 x2 y2 -> slp m x2 y2 x3 y3 -> m - l <> 0 -> k * (m - l) = x3 - x1 ->
    x4 = l * l - x1 - x2 -> y4 = l * (x1 - x4) - y1 -> slp (k - l) x4 y4 x3 y3.
  Proof.
    intros [S1 R1] [S2 R2] N Hk X4 Y4.
    assert (Y2 : y2 = y1 + l * (x2 - x1)) by (transitivity (y1 + (y2 - y1)); [ring|]; rewrite S1; reflexivity).
    assert (Y3 : y3 = y1 + l * (x2 - x1) + m * (x3 - x2)) by (transitivity (y2 + (y3 - y2)); [ring|]; rewrite S2, Y2; reflexivity).
    apply eq0 in R1. apply eq0 in R2. apply eq0 in Hk. rewrite Y3, Y2 in R2. rewrite Y2 in R1.
    assert (A : y3 - y4 = (k - l) * (x3 - x4)).
    { apply (cancelk _ _ (m - l)); [exact N|]. apply sub0.
      transitivity
       (((y1 + l * (x2 - x1) + (y1 + l * (x2 - x1) + m * (x3 - x2))) * m - (x2 * x2 + x2 * x3 + x3 * x3))
        - ((y1 + (y1 + l * (x2 - x1))) * l - (x1 * x1 + x1 * x2 + x2 * x2)) - (k * (m - l) - (x3 - x1)) * (x3 - x4)).
      - rewrite Y3, Y4, X4. ring.
      - rewrite R1, R2, Hk. ring. }
    split; [exact A|]. apply sub0.
    assert (E : y4 + y3 = l * (x3 - x4) + (m - l) * (x3 - x2)) by (rewrite Y3, Y4; ring).
    transitivity
     (- l * (y3 - y4 - (k - l) * (x3 - x4)) + (k * (m - l) - (x3 - x1)) * (x3 - x2)
      + ((y1 + (y1 + l * (x2 - x1))) * l - (x1 * x1 + x1 * x2 + x2 * x2))).
    - rewrite E, Y3, Y4, X4. ring.
    - rewrite (eq0 _ _ A), Hk, R1. ring.
  Qed.

  Lemma kneg_on P : onc P -> onc (kneg P).
  Proof. destruct P as [[x y]|]; cbn [onc kneg]; auto. intros <-. ring. Qed.
  Lemma kneg_invol P : kneg (kneg P) = P.
  Proof. destruct P as [[x y]|]; cbn [kneg]; auto. do 2 f_equal. ring. Qed.
  Lemma not_opp x1 y1 x2 y2 : Some (x2, y2) <> kneg (Some (x1, y1)) -> x1 <> x2 \/ y1 + y2 <> 0.
  Proof.
    intros N. destruct (Kdec x1 x2) as [<-|]; [right|auto]. intros H. apply N. cbn [kneg]. do 2 f_equal.
    transitivity (y1 + y2 - y1); [ring|]. rewrite H. ring.
  Qed.
  Lemma kneg_add P : kadd P (kneg P) = None.
  Proof.
    destruct P as [[x y]|]; [|reflexivity]. cbn [kneg kadd]. destruct (Kdec x x); [|contradiction].
    destruct (Kdec (y + - y) 0) as [|N]; [reflexivity|]. destruct N. ring.
  Qed.
  Lemma kadd_none_r P : kadd P None = P.
  Proof. destruct P as [[x y]|]; reflexivity. Qed.

  Lemma line_on l x1 y1 x2 y2 : onc (Some (x1, y1)) -> slp l x1 y1 x2 y2 -> onc (kline l x1 y1 x2).
  Proof.
    intros C [A B]. cbn [kline onc] in *.
    assert (Ey : y2 = y1 + l * (x2 - x1)) by (transitivity (y1 + (y2 - y1)); [ring|]; rewrite A; reflexivity).
    rewrite Ey in B. apply eq0 in B. apply eq0 in C. apply sub0.
    match type of B with ?u = _ => match type of C with ?v = _ =>
      transitivity ((l * l - x1 - x2 - x1) * u + v); [ring | rewrite B, C; ring] end end.
  Qed.
  Lemma kadd_cases x1 y1 x2 y2 : onc (Some (x1, y1)) -> onc (Some (x2, y2)) -> (x1 <> x2 \/ y1 + y2 <> 0) ->
    exists l, kadd (Some (x1, y1)) (Some (x2, y2)) = kline l x1 y1 x2 /\ slp l x1 y1 x2 y2.
  Proof.
    intros C1 C2 N. cbn [kadd]. cbn [onc] in C1, C2. destruct (Kdec x1 x2) as [<-|Nx].
    - destruct (Kdec (y1 + y2) 0) as [H|Ny]; [destruct N; contradiction|].
      eexists. split; [reflexivity|].
      assert (E : y1 = y2).
      { apply sub0. assert (E : (y1 - y2) * (y1 + y2) = 0) by (transitivity (y1 * y1 - y2 * y2); [ring|]; rewrite C1, C2; ring).
        apply mul0 in E. tauto. }
      subst y2. split; [ring|]. field. exact Ny.
    - assert (D : x2 - x1 <> 0) by (intros H; apply Nx; symmetry; apply sub0; exact H).
      eexists. split; [reflexivity|]. split; [field; exact D|].
      apply (cancelk _ _ (x2 - x1)); [exact D|]. transitivity (y2 * y2 - y1 * y1); [field; exact D|]. rewrite C1, C2. ring.
  Qed.
  Lemma kadd_intro l x1 y1 x2 y2 : onc (Some (x1, y1)) -> onc (Some (x2, y2)) -> slp l x1 y1 x2 y2 ->
    kadd (Some (x1, y1)) (Some (x2, y2)) = kline l x1 y1 x2.
  Proof.
    intros C1 C2 S. pose proof (slp_not_opp _ _ _ _ _ C1 S) as N.
    destruct (kadd_cases _ _ _ _ C1 C2 N) as (m & E & S'). rewrite E, (slp_unique _ _ _ _ _ _ S S' N). reflexivity.
  Qed.
  Lemma kadd_on P Q : onc P -> onc Q -> onc (kadd P Q).
  Proof.
    destruct P as [[x1 y1]|]; [|auto]. destruct Q as [[x2 y2]|]; [|auto]. intros C1 C2.
    destruct (Kdec x1 x2) as [E|N]; [destruct (Kdec (y1 + y2) 0) as [E'|N]|].
    - cbn [kadd]. destruct (Kdec x1 x2); [|contradiction]. destruct (Kdec (y1 + y2) 0); [exact I|contradiction].
    - destruct (kadd_cases _ _ _ _ C1 C2 (or_intror N)) as (l & -> & S). eapply line_on; eassumption.
    - destruct (kadd_cases _ _ _ _ C1 C2 (or_introl N)) as (l & -> & S). eapply line_on; eassumption.
  Qed.
  Lemma pdec (P Q : point) : {P = Q} + {P <> Q}.
  Proof.
    destruct P as [[x y]|], Q as [[x' y']|]; try (right; congruence); try (left; reflexivity).
    destruct (Kdec x x') as [->|]; [destruct (Kdec y y') as [->|]|]; [left; reflexivity|right; congruence|right; congruence].
  Qed.
  Lemma some2 (x y x' y' : K) : x = x' -> y = y' -> Some (x, y) = Some (x', y').
  Proof. intros -> ->. reflexivity. Qed.
  Lemma kadd_comm P Q : onc P -> onc Q -> kadd P Q = kadd Q P.
  Proof.
    intros C1 C2. destruct P as [[x1 y1]|]; [|symmetry; apply kadd_none_r]. destruct Q as [[x2 y2]|]; [|reflexivity].
    destruct (pdec (Some (x2, y2)) (kneg (Some (x1, y1)))) as [E|N].
    - rewrite E at 1. rewrite kneg_add. rewrite <- (kneg_invol (Some (x1, y1))), <- E. symmetry. apply kneg_add.
    - destruct (kadd_cases _ _ _ _ C1 C2 (not_opp _ _ _ _ N)) as (l & E & S). rewrite E. symmetry.
      rewrite (kadd_intro l _ _ _ _ C2 C1 (slp_sym _ _ _ _ _ S)). destruct S as [S _]. unfold kline. cbv zeta.
      apply some2; [ring|]. transitivity (l * (x1 - (l * l - x1 - x2)) + l * (x2 - x1) - y2); [ring|]. rewrite <- S. ring.
  Qed.
  Lemma cancel_l P Q : onc P -> onc Q -> kadd (kneg P) (kadd P Q) = Q.
  Proof.
    intros C1 C2. destruct P as [[x1 y1]|]; [|reflexivity]. destruct Q as [[x2 y2]|].
    2: { rewrite kadd_none_r, kadd_comm by (try apply kneg_on; assumption). apply kneg_add. }
    destruct (pdec (Some (x2, y2)) (kneg (Some (x1, y1)))) as [E|N].
    - rewrite E, kneg_add. apply kadd_none_r.
    - destruct (kadd_cases _ _ _ _ C1 C2 (not_opp _ _ _ _ N)) as (l & E & S). rewrite E.
      pose proof (line_on _ _ _ _ _ C1 S) as C3. pose proof (kneg_on _ C1) as C1'. destruct S as [S R].
      unfold kline in *. cbv zeta in *. cbn [kneg] in *.
      assert (Ey : y2 = y1 + l * (x2 - x1)) by (transitivity (y1 + (y2 - y1)); [ring|]; rewrite S; reflexivity).
      rewrite (kadd_intro (- l)); try assumption.
      + unfold kline. cbv zeta. apply some2; [ring|]. rewrite Ey. ring.
      + split; [ring|]. rewrite Ey in R. apply sub0. apply eq0 in R.
        match type of R with ?u = _ => transitivity u; [ring | exact R] end.
  Qed.
  Lemma kneg_kadd P Q : onc P -> onc Q -> kneg (kadd P Q) = kadd (kneg P) (kneg Q).
  Proof.
    intros C1 C2. destruct P as [[x1 y1]|]; [|reflexivity]. destruct Q as [[x2 y2]|]; [|reflexivity].
    destruct (pdec (Some (x2, y2)) (kneg (Some (x1, y1)))) as [E|N].
    - rewrite E, !kneg_add. reflexivity.
    - destruct (kadd_cases _ _ _ _ C1 C2 (not_opp _ _ _ _ N)) as (l & E & [S R]). rewrite E.
      pose proof (kneg_on _ C1) as C1'. pose proof (kneg_on _ C2) as C2'. cbn [kneg] in *.
      rewrite (kadd_intro (- l)); try assumption.
      + unfold kline. cbv zeta. apply some2; ring.
      + split; [transitivity (- (y2 - y1)); [ring|]; rewrite S; ring|]. rewrite <- R. ring.
  Qed.
  Lemma assoc_generic x1 y1 x2 y2 x3 y3 :
    let A := Some (x1, y1) in let B := Some (x2, y2) in let C := Some (x3, y3) in
    onc A -> onc B -> onc C -> B <> kneg A -> C <> kneg B -> A <> C -> kadd (kadd A B) C = kadd A (kadd B C).
  Proof.
    cbv zeta. intros VA VB VC NAB NBC NAC.
    destruct (pdec (Some (x3, y3)) (kneg (kadd (Some (x1, y1)) (Some (x2, y2))))) as [H|ND].
    { rewrite H at 1. rewrite kneg_add. rewrite H, kneg_kadd, (kadd_comm (kneg (Some (x1, y1)))) by (try apply kneg_on; assumption).
      rewrite <- (kneg_invol (Some (x2, y2))) at 1. rewrite cancel_l by (apply kneg_on; assumption). symmetry. apply kneg_add. }
    destruct (pdec (kadd (Some (x2, y2)) (Some (x3, y3))) (kneg (Some (x1, y1)))) as [H|NE].
    { exfalso. apply ND. rewrite kneg_kadd by assumption. rewrite <- H.
      rewrite kadd_comm by (try apply kadd_on; try apply kneg_on; assumption). symmetry. apply cancel_l; assumption. }
    destruct (kadd_cases _ _ _ _ VA VB (not_opp _ _ _ _ NAB)) as (l & ED & SD).
    destruct (kadd_cases _ _ _ _ VB VC (not_opp _ _ _ _ NBC)) as (m & EE & SE).
    pose proof (line_on _ _ _ _ _ VA SD) as VD. pose proof (line_on _ _ _ _ _ VB SE) as VE.
    rewrite ED in *. rewrite EE in *. unfold kline in *. cbv zeta in *.
    remember (l * l - x1 - x2) as x4 eqn:X4. remember (l * (x1 - x4) - y1) as y4 eqn:Y4.
    remember (m * m - x2 - x3) as x5 eqn:X5. remember (m * (x2 - x5) - y2) as y5 eqn:Y5.
    pose proof (proj1 SD) as SD1. pose proof (proj1 SE) as SE1.
    assert (Nm : m - l <> 0).
    { intros H. apply sub0 in H. subst m.
      assert (Y31 : y3 - y1 = l * (x3 - x1)) by (transitivity ((y3 - y2) + (y2 - y1)); [ring|]; rewrite SD1, SE1; ring).
      assert (Hp : (x3 - x1) * (l * l - x1 - x2 - x3) = 0).
      { pose proof (eq0 _ _ (proj2 SD)) as R1. pose proof (eq0 _ _ (proj2 SE)) as R2. apply eq0 in Y31.
        transitivity (((y2 + y3) * l - (x2 * x2 + x2 * x3 + x3 * x3)) - ((y1 + y2) * l - (x1 * x1 + x1 * x2 + x2 * x2))
           - l * (y3 - y1 - l * (x3 - x1))); [ring|]. rewrite R1, R2, Y31. ring. }
      apply mul0 in Hp. destruct Hp as [Hp|Hp].
      - apply NAC. pose proof (sub0 _ _ Hp) as Hx. apply some2; [congruence|].
        apply sub0. transitivity (- (y3 - y1)); [ring|]. rewrite Y31, Hp. ring.
      - assert (E4 : x3 = x4).
        { rewrite X4. apply sub0. transitivity (- (l * l - x1 - x2 - x3)); [ring|]. rewrite Hp. ring. }
        apply ND. cbn [kneg]. apply some2; [exact E4|].
        rewrite Y4, <- E4. transitivity (y1 + (y3 - y1)); [ring|]. rewrite Y31. ring. }
    set (k := (x3 - x1) / (m - l)).
    assert (Hk : k * (m - l) = x3 - x1) by (subst k; field; exact Nm).
    assert (Nm' : l - m <> 0) by (intros H; apply Nm; transitivity (- (l - m)); [ring|]; rewrite H; ring).
    assert (Hk' : k * (l - m) = x1 - x3) by (transitivity (- (k * (m - l))); [ring|]; rewrite Hk; ring).
    pose proof (slope_DC _ _ _ _ _ _ _ _ _ _ _ SD SE Nm Hk X4 Y4) as T1.
    assert (X5' : x5 = m * m - x3 - x2) by (rewrite X5; ring).
    assert (Y5' : y5 = m * (x3 - x5) - y3).
    { rewrite Y5. transitivity (m * (x3 - x5) - y2 - m * (x3 - x2)); [ring|]. rewrite <- SE1. ring. }
    pose proof (slope_DC _ _ _ _ _ _ _ _ _ _ _ (slp_sym _ _ _ _ _ SE) (slp_sym _ _ _ _ _ SD) Nm' Hk' X5' Y5') as T2.
    rewrite (kadd_intro _ _ _ _ _ VD VC T1), (kadd_intro _ _ _ _ _ VA VE (slp_sym _ _ _ _ _ T2)).
    destruct T1 as [T1 _]. unfold kline. cbv zeta.
    assert (EX : (k - l) * (k - l) - x4 - x3 = (k - m) * (k - m) - x1 - x5).
    { rewrite X4, X5. apply sub0. apply eq0 in Hk.
      transitivity (k2 * (k * (m - l) - (x3 - x1))); [ring|]. rewrite Hk. ring. }
    apply some2; [exact EX|]. rewrite <- EX. remember ((k - l) * (k - l) - x4 - x3) as x6 eqn:X6.
    transitivity ((k - l) * (x3 - x6) - y3).
    { transitivity ((k - l) * (x3 - x6) - y4 - (k - l) * (x3 - x4)); [ring|]. rewrite <- T1. ring. }
    assert (Y3 : y3 = y1 + l * (x2 - x1) + m * (x3 - x2)) by (transitivity (y1 + (y2 - y1) + (y3 - y2)); [ring|]; rewrite SD1, SE1; ring).
    rewrite Y3, X6, X4. apply sub0. apply eq0 in Hk.
    transitivity ((k2 * l - k) * (k * (m - l) - (x3 - x1))); [ring|]. rewrite Hk. ring.
  Qed.
  Lemma kadd_assoc P Q R : onc P -> onc Q -> onc R -> kadd (kadd P Q) R = kadd P (kadd Q R).
  Proof.
    intros VP VQ VR.
    destruct P as [[x1 y1]|]; [|reflexivity]. destruct Q as [[x2 y2]|]; [|rewrite kadd_none_r; reflexivity].
    destruct R as [[x3 y3]|]; [|rewrite !kadd_none_r; reflexivity].
    destruct (pdec (Some (x1, y1)) (Some (x3, y3))) as [E|NAC].
    { rewrite <- E. rewrite (kadd_comm (kadd _ _)), (kadd_comm (Some (x2, y2))) by (try apply kadd_on; assumption). reflexivity. }
    destruct (pdec (Some (x2, y2)) (kneg (Some (x1, y1)))) as [E|NAB].
    { rewrite E, kneg_add. pose proof (cancel_l _ _ (kneg_on _ VP) VR) as H. rewrite kneg_invol in H. rewrite H. reflexivity. }
    destruct (pdec (Some (x3, y3)) (kneg (Some (x2, y2)))) as [E|NBC].
    { rewrite E, kneg_add, kadd_none_r.
      rewrite kadd_comm, kadd_comm with (P := Some (x1, y1)) by (try apply kadd_on; try apply kneg_on; assumption).
      apply cancel_l; assumption. }
    apply assoc_generic; assumption.
  Qed.

  (** ** The sum of the specification *)
  Lemma ksum_on P Q R : ksum P Q R -> onc P /\ onc Q /\ onc R.
  Proof. destruct 1; repeat split; try assumption; exact I. Qed.
  Lemma ksum_kadd P Q R : ksum P Q R -> kadd P Q = R.
  Proof.
    destruct 1 as [Q C|P C|x y y' C C' E|x1 y1 x2 y2 x3 y3 l c C1 C2 C3 L1 L2 L3 H].
    - reflexivity.
    - apply kadd_none_r.
    - cbn [kadd]. destruct (Kdec x x); [|contradiction]. destruct (Kdec (y + y') 0); [reflexivity|contradiction].
    - pose proof (H 0) as K0. pose proof (H 1) as K1. pose proof (H (- (1))) as K2. clear H.
      assert (X3 : x3 = l * l - x1 - x2).
      { apply (cancelk _ _ k2); [exact N2|]. apply sub0. apply eq0 in K0. apply eq0 in K1. apply eq0 in K2.
        match type of K0 with ?u = _ => match type of K1 with ?v = _ => match type of K2 with ?w = _ =>
          transitivity (v + w - k2 * u); [ring|rewrite K0, K1, K2; ring] end end end. }
      assert (E1 : k2 * l * c = - (x1 * x2 + x1 * x3 + x2 * x3)).
      { apply (cancelk _ _ k2); [exact N2|]. apply sub0. apply eq0 in K1. apply eq0 in K2.
        match type of K1 with ?v = _ => match type of K2 with ?w = _ =>
          transitivity (w - v); [ring|rewrite K1, K2; ring] end end. }
      rewrite (kadd_intro l); try assumption.
      + unfold kline. cbv zeta. apply some2; [symmetry; exact X3|]. rewrite <- X3, L1.
        transitivity (- (l * x3 + c)); [ring|]. rewrite <- L3. ring.
      + split; [rewrite L1, L2; ring|]. rewrite L1, L2. apply sub0. apply eq0 in E1.
        match type of E1 with ?u = _ => transitivity u; [|exact E1] end. rewrite X3. ring.
  Qed.
  Lemma kadd_ksum P Q : onc P -> onc Q -> ksum P Q (kadd P Q).
  Proof.
    intros C1 C2. destruct P as [[x1 y1]|]; [|apply ks_zero_l, C2]. destruct Q as [[x2 y2]|]; [|apply ks_zero_r, C1].
    destruct (pdec (Some (x2, y2)) (kneg (Some (x1, y1)))) as [E|N].
    - rewrite E at 2. rewrite kneg_add. cbn [kneg] in E. injection E as -> ->. apply ks_opposite; try assumption. ring.
    - destruct (kadd_cases _ _ _ _ C1 C2 (not_opp _ _ _ _ N)) as (l & E & S). pose proof (line_on _ _ _ _ _ C1 S) as C3.
      rewrite E. unfold kline in *. cbv zeta in *. destruct S as [S R].
      assert (Y2 : y2 = y1 + l * (x2 - x1)) by (transitivity (y1 + (y2 - y1)); [ring|]; rewrite S; reflexivity).
      apply (ks_line _ _ _ _ _ _ l (y1 - l * x1)); try assumption.
      + ring.
      + rewrite Y2. ring.
      + ring.
      + intros t. cbn [onc] in C1. rewrite Y2 in R. apply eq0 in R. apply eq0 in C1. apply sub0.
        match type of R with ?u = _ => match type of C1 with ?v = _ =>
          transitivity (- (t - x1) * u - v); [ring|rewrite R, C1; ring] end end.
  Qed.

  (** ** Multiples *)
  Local Open Scope Z_scope.
  Inductive kmult (P : point) : Z -> point -> Prop :=
  | km_zero : onc P -> kmult P 0 None
  | km_succ k Q R : kmult P k Q -> ksum P Q R -> kmult P (k + 1) R
  | km_pred k Q R : kmult P k Q -> ksum P R Q -> kmult P (k - 1) R.
  Fixpoint times (n : nat) (P : point) : point := match n with O => None | S m => kadd P (times m P) end.
  Lemma times_on n P : onc P -> onc (times n P).
  Proof. intros V. induction n; [exact I|]. apply kadd_on; assumption. Qed.
  Definition zmul (k : Z) (P : point) : point :=
    match k with Z0 => None | Zpos q => times (Pos.to_nat q) P | Zneg q => kneg (times (Pos.to_nat q) P) end.
  Lemma zmul_on k P : onc P -> onc (zmul k P).
  Proof. intros V. destruct k; [exact I|apply times_on, V|apply kneg_on, times_on, V]. Qed.
  Lemma zmul_nonneg k P : 0 <= k -> zmul k P = times (Z.to_nat k) P.
  Proof. intros H. destruct k; [reflexivity|reflexivity|lia]. Qed.
  Lemma zmul_opp k P : zmul (- k) P = kneg (zmul k P).
  Proof. destruct k; [reflexivity|reflexivity|]. cbn [Z.opp zmul]. symmetry. apply kneg_invol. Qed.
  Lemma zmul_succ k P : onc P -> zmul (k + 1) P = kadd P (zmul k P).
  Proof.
    intros V. destruct (Z_le_gt_dec 0 k) as [H|H].
    - rewrite !zmul_nonneg by lia. rewrite Z2Nat.inj_add by lia. change (Z.to_nat 1) with 1%nat. rewrite Nat.add_comm. reflexivity.
    - rewrite <- (Z.opp_involutive (k + 1)), <- (Z.opp_involutive k), !(zmul_opp (- _)).
      rewrite !zmul_nonneg by lia.
      replace (Z.to_nat (- k)) with (S (Z.to_nat (- (k + 1)))) by lia. replace (- - k + 1) with (k + 1) by lia.
      cbn [times]. rewrite kneg_kadd by first [exact V | apply times_on; exact V].
      pose proof (kneg_on _ (times_on (Z.to_nat (- (k + 1))) _ V)) as W.
      rewrite <- kadd_assoc by first [exact V | exact W | apply kneg_on; exact V]. rewrite kneg_add. reflexivity.
  Qed.
  Lemma zmul_pred k P : onc P -> zmul (k - 1) P = kadd (kneg P) (zmul k P).
  Proof.
    intros V. replace (zmul k P) with (kadd P (zmul (k - 1) P)).
    - symmetry. apply cancel_l; [exact V|apply zmul_on; exact V].
    - rewrite <- zmul_succ by exact V. f_equal. lia.
  Qed.
  Lemma zmul_add a c P : onc P -> zmul (a + c) P = kadd (zmul a P) (zmul c P).
  Proof.
    intros V. revert a. apply Z.bi_induction.
    - intros x y E. rewrite E. reflexivity.
    - reflexivity.
    - intros a. unfold Z.succ. replace (a + 1 + c) with (a + c + 1) by lia. rewrite !zmul_succ by exact V.
      pose proof (zmul_on a _ V) as Va. pose proof (zmul_on c _ V) as Vb. rewrite kadd_assoc by assumption. split; [intros ->; reflexivity|].
      intros H. apply (f_equal (kadd (kneg P))) in H.
      rewrite !cancel_l in H by (try apply kadd_on; try apply zmul_on; assumption). exact H.
  Qed.
  Lemma zmul_mul a c P : onc P -> zmul (a * c) P = zmul a (zmul c P).
  Proof.
    intros V. pose proof (zmul_on c _ V) as Vb. revert a. apply Z.bi_induction.
    - intros x y E. rewrite E. reflexivity.
    - reflexivity.
    - intros a. unfold Z.succ. rewrite Z.mul_add_distr_r, Z.mul_1_l.
      rewrite zmul_add, zmul_succ by assumption.
      rewrite (kadd_comm (zmul (a * c) P)) by (apply zmul_on; assumption).
      split; [intros ->; reflexivity|]. intros H. apply (f_equal (kadd (kneg (zmul c P)))) in H.
      rewrite !cancel_l in H by (repeat apply zmul_on; assumption). exact H.
  Qed.
  Lemma zmul_none k : zmul k None = None.
  Proof.
    revert k. apply Z.bi_induction.
    - intros x y E. rewrite E. reflexivity.
    - reflexivity.
    - intros a. unfold Z.succ. rewrite zmul_succ by exact I. reflexivity.
  Qed.
  Lemma zmul_1 P : zmul 1 P = P.
  Proof. cbn [zmul]. change (Pos.to_nat 1) with 1%nat. cbn [times]. apply kadd_none_r. Qed.
  Lemma kmult_on P k Q : kmult P k Q -> onc P.
  Proof. induction 1; assumption. Qed.
  Lemma kmult_zmul P k Q : kmult P k Q -> Q = zmul k P.
  Proof.
    intros H. pose proof (kmult_on _ _ _ H) as V. induction H as [|k Q R H IH S|k Q R H IH S].
    - reflexivity.
    - rewrite zmul_succ by exact V. rewrite <- IH. symmetry. apply ksum_kadd. exact S.
    - rewrite zmul_pred by exact V. rewrite <- IH. pose proof (ksum_on _ _ _ S) as (_ & W & _).
      rewrite <- (ksum_kadd _ _ _ S). symmetry. apply cancel_l; assumption.
  Qed.
  Lemma zmul_kmult P k : onc P -> kmult P k (zmul k P).
  Proof.
    intros V. revert k. apply Z.bi_induction.
    - intros x y E. rewrite E. reflexivity.
    - apply km_zero, V.
    - intros k. unfold Z.succ. split; intros H.
      + apply (km_succ _ _ _ _ H). rewrite zmul_succ by exact V. apply kadd_ksum; [exact V|apply zmul_on, V].
      + replace k with (k + 1 - 1) at 1 by lia. apply (km_pred _ _ _ _ H). rewrite zmul_succ by exact V.
        apply kadd_ksum; [exact V|apply zmul_on, V].
  Qed.
  (** a finite point annihilated by a prime has that order *)
  Lemma prime_order P q k : prime q -> onc P -> P <> None -> zmul q P = None -> (kmult P k None <-> (q | k)).
  Proof.
    intros Hq V N Z. split.
    - intros H. apply kmult_zmul in H. destruct (Zdivide_dec q k) as [D|D]; [exact D|]. exfalso. apply N.
      destruct (rel_prime_bezout _ _ (prime_rel_prime _ Hq _ D)) as [u v E].
      rewrite <- (zmul_1 P), <- E, zmul_add, !zmul_mul, Z, <- H by exact V. rewrite !zmul_none. reflexivity.
    - intros [c ->]. replace (@None (K * K)) with (zmul (c * q) P) by (rewrite zmul_mul, Z by exact V; apply zmul_none).
      apply zmul_kmult, V.
  Qed.

  Lemma ksum_total P Q : onc P -> onc Q -> exists R, ksum P Q R.
  Proof. intros A B. exists (kadd P Q). apply kadd_ksum; assumption. Qed.
  Lemma ksum_unique P Q R R' : ksum P Q R -> ksum P Q R' -> R = R'.
  Proof. intros H H'. rewrite <- (ksum_kadd _ _ _ H). apply ksum_kadd. exact H'. Qed.
  Lemma ksum_comm P Q R : ksum P Q R -> ksum Q P R.
  Proof.
    intros H. pose proof (ksum_on _ _ _ H) as (V & W & _). rewrite <- (ksum_kadd _ _ _ H).
    rewrite kadd_comm by assumption. apply kadd_ksum; assumption.
  Qed.
  Lemma ksum_assoc P Q R S T U : ksum P Q S -> ksum S R T -> ksum Q R U -> ksum P U T.
  Proof.
    intros H1 H2 H3. pose proof (ksum_on _ _ _ H1) as (VP & VQ & _).
    pose proof (ksum_on _ _ _ H2) as (_ & VR & _). pose proof (ksum_on _ _ _ H3) as (_ & _ & VU).
    apply ksum_kadd in H1, H2, H3. subst S T U. rewrite kadd_assoc by assumption. apply kadd_ksum; assumption.
  Qed.
End Curve.
