(** The hard-coded points of G2 and two small multiples of the generator (C69). *)
From Coq Require Import ZArith Bool List.
From Verif Require Import Params Go Curve Agg SpecMisc SpecPairing SpecTwist FField FpField P_Curve P_Tower P_Weier P_Twist P_Tw P_TwEx.
Import ListNotations.
Open Scope Z_scope.

Local Opaque phi fmul fadd fsub fopp fdiv finv.
Lemma on_by_check P : canon2 (fst P) -> canon2 (snd P) -> g2_is_on_curve P = true -> twist_point (Some P).
Proof. destruct P as [x y]. intros A B H. split; [exact A|]. split; [exact B|]. apply c34_check. exact H. Qed.
Lemma gen_point : twist_point (Some g2_generator).
Proof. apply on_by_check; [vm_compute; repeat split; intros Q; discriminate Q..|vm_compute; reflexivity]. Qed.
Lemma c69_generator : twist_sum (Some g21_const) (Some g2_generator) None.
Proof.
  assert (F : fst g2_generator = fst g21_const) by reflexivity.
  assert (S : (snd g21_const + snd g2_generator)%f2 = (0, 0)) by (vm_compute; reflexivity).
  pose proof g21_point as V. pose proof gen_point as W.
  destruct g21_const as [x y], g2_generator as [x' y']. cbn [fst snd] in F, S. subst x'. apply ts_opposite; assumption.
Qed.
Lemma c69_points : exists s t, GetVerifyCircuitsG2Jac = Done (s, t) /\
  twist_point (Some s) /\ (forall k, twist_multiple (Some s) k None <-> (r_mod | k)) /\
  twist_point (Some t) /\ (forall k, twist_multiple (Some t) k None <-> (r_mod | k)) /\
  twist_sum (Some t) (Some g2_generator) None.
Proof.
  exists g20_const, g21_const. split; [vm_compute; reflexivity|]. split; [exact g20_point|]. split; [exact order_g20|].
  split; [exact g21_point|]. split; [exact order_g21|]. exact c69_generator.
Qed.
Lemma c69_neg P : twist_point P -> exists Q, twist_sum P Q None.
Proof.
  destruct P as [[x y]|]; [|exists None; apply ts_zero_l; exact I]. intros V. exists (Some (x, ((0, 0) - y)%f2)).
  pose proof V as V'. apply twist_point_k in V'. destruct V' as [[C1 C2] V'].
  apply ts_opposite; [exact V| |].
  - apply twist_point_k. split; [split; [exact C1|apply can_sub]|]. cbn [E onc] in *. rewrite e2_sub, e2_zero, <- V'. ring.
  - apply e2_inj; [apply can_add|exact zero_can|]. rewrite e2_add, e2_sub, e2_zero. ring.
Qed.
(** a sum from a slope *)
Lemma sum_slope x1 y1 x2 y2 l (x3 : Z * Z) y3 : twist_point (Some (x1, y1)) -> twist_point (Some (x2, y2)) -> canon2 x3 -> canon2 y3 ->
  (y2 - y1)%f2 = (l * (x2 - x1))%f2 -> ((y1 + y2) * l)%f2 = (x1 * x1 + x1 * x2 + x2 * x2)%f2 ->
  x3 = (l * l - x1 - x2)%f2 -> y3 = (l * (x1 - x3) - y1)%f2 -> twist_sum (Some (x1, y1)) (Some (x2, y2)) (Some (x3, y3)).
Proof.
  intros V W C3 C4 A B X Y. pose proof V as V'. pose proof W as W'. apply twist_point_k in V', W'. destruct V' as [C1 V'], W' as [C2 W'].
  apply sum_k; [exact C1|exact C2|split; assumption|]. cbn [E] in *.
  assert (S : slp (oadd F2) (omul F2) (osub F2) (e2 l) (e2 x1) (e2 y1) (e2 x2) (e2 y2)).
  { split; [rewrite <- !e2_sub, <- e2_mul, A; reflexivity|]. rewrite <- !e2_mul, <- !e2_add, <- e2_mul, B. reflexivity. }
  pose proof (kadd_ksum _ _ _ _ _ _ _ _ F2_field K_dec kb _ _ V' W') as K.
  rewrite (kadd_intro _ _ _ _ _ _ _ _ F2_field K_dec kb N2 N3 Nb _ _ _ _ _ V' W' S) in K. unfold kline in K. cbv zeta in K.
  assert (EX : e2 x3 = osub F2 (osub F2 (omul F2 (e2 l) (e2 l)) (e2 x1)) (e2 x2)) by (rewrite X, !e2_sub, e2_mul; reflexivity).
  assert (EY : e2 y3 = osub F2 (omul F2 (e2 l) (osub F2 (e2 x1) (e2 x3))) (e2 y1)) by (rewrite Y, e2_sub, e2_mul, e2_sub; reflexivity).
  rewrite EY, EX. exact K.
Qed.
(** twice and three times the generator *)
Definition gen2 : g2 :=
  ((18029695676650738226693292988307914797657423701064905010927197838374790804409,
    14583779054894525174450323658765874724019480979794335525732096752006891875705),
   (2140229616977736810657479771656733941598412651537078903776637920509952744750,
    11474861747383700316476719153975578001603231366361248090558603872215261634898)).
Definition gen3 : g2 :=
  ((2725019753478801796453339367788033689375851816420509565303521482350756874229,
    7273165102799931111715871471550377909735733521218303035754523677688038059653),
   (2512659008974376214222774206987427162027254181373325676825515531566330959255,
    957874124722006818841961785324909313781880061366718538693995380805373202866)).
Lemma gen2_point : twist_point (Some gen2).
Proof. apply on_by_check; [vm_compute; repeat split; intros Q; discriminate Q..|vm_compute; reflexivity]. Qed.
Ltac can2 := vm_compute; repeat split; intros Q; discriminate Q.
Lemma ex69 : twist_sum (Some g2_generator) (Some g2_generator) (Some gen2) /\ twist_multiple (Some g2_generator) 3 (Some gen3) /\
  twist_point (Some g20_const) /\ ~ twist_multiple (Some g20_const) 12345 None.
Proof.
  assert (D : twist_sum (Some g2_generator) (Some g2_generator) (Some gen2)).
  { apply (sum_slope _ _ _ _ (16053038067190296367468596356094192129022731063914732179120945019446884619221,
      8255536868292620944764013913115571796604549141481799957648719094616980280887)); try exact gen_point; try can2; vm_compute; reflexivity. }
  assert (T : twist_sum (Some g2_generator) (Some gen2) (Some gen3)).
  { apply (sum_slope _ _ _ _ (2866671387143057312758457891194409217641192444825929176264257573564190519667,
      3890232258320546922215479227857414964620855826958773252291666032355197288862)); try exact gen_point; try exact gen2_point; try can2; vm_compute; reflexivity. }
  split; [exact D|]. split.
  - refine (tm_succ _ 2 _ _ _ T). refine (tm_succ _ 1 _ _ _ D). refine (tm_succ _ 0 None _ _ _); [apply tm_zero, gen_point|].
    apply ts_zero_r, gen_point.
  - split; [exact g20_point|]. intros H. apply order_g20 in H. apply Z.divide_pos_le in H; [|reflexivity]. revert H. vm_compute. auto.
Qed.
