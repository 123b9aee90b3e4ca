(** Powers modulo n with supplied quotients: every reduction is checked by one multiplication instead of being
    computed by division. *)
From Coq Require Import ZArith Zpow_facts Bool List Lia.
Import ListNotations.
Open Scope Z_scope.

(** y reduced with quotient [q] *)
Definition redq (y q n : Z) : option Z :=
  let z := y - q * n in if (0 <=? z) && (z <? n) then Some z else None.
Lemma redq_mod y q n z : redq y q n = Some z -> z = y mod n.
Proof.
  unfold redq. cbv zeta. destruct (0 <=? y - q * n) eqn:E1; [|discriminate]. destruct (y - q * n <? n) eqn:E2; [|discriminate].
  apply Z.leb_le in E1. apply Z.ltb_lt in E2. cbn [andb]. intros H. apply (f_equal (fun o => match o with Some v => v | None => 0 end)) in H.
  rewrite <- H. apply (Z.mod_unique _ _ q); lia.
Qed.

(** square and multiply from the leading bit; [qs] are the quotients in the order of use *)
Fixpoint powq (a : Z) (e : positive) (n : Z) (qs : list Z) : option (Z * list Z) :=
  match e with
  | xH => if (0 <=? a) && (a <? n) then Some (a, qs) else None
  | xO e' => match powq a e' n qs with
      | Some (z, q :: t) => match redq (Z.square z) q n with Some y => Some (y, t) | None => None end
      | _ => None end
  | xI e' => match powq a e' n qs with
      | Some (z, q :: q' :: t) => match redq (Z.square z) q n with
          | Some y => match redq (y * a) q' n with Some x => Some (x, t) | None => None end
          | None => None end
      | _ => None end
  end.

Lemma some_val {X} (a b : X) : Some a = Some b -> a = b.
Proof. intros H. injection H. auto. Qed.

Lemma powq_mod a n e : 0 < n -> forall qs z t, powq a e n qs = Some (z, t) -> z = a ^ Zpos e mod n.
Proof.
  intros Hn. induction e as [e IH|e IH|]; intros qs z t; cbn [powq].
  - destruct (powq a e n qs) as [[w [|q [|q' l]]]|] eqn:E; try discriminate. apply IH in E.
    destruct (redq (Z.square w) q n) as [y|] eqn:E1; [|discriminate].
    destruct (redq (y * a) q' n) as [x|] eqn:E2; [|discriminate]. intros H.
    apply some_val, (f_equal fst) in H. cbn [fst] in H. subst z.
    apply redq_mod in E1, E2. rewrite Z.square_spec in E1. subst w y x.
    rewrite Zmult_mod_idemp_l, <- Zmult_mod_idemp_l, <- Zmult_mod, Zmult_mod_idemp_l.
    rewrite <- Z.pow_add_r by lia. rewrite Z.mul_comm, <- Z.pow_succ_r by lia. f_equal. f_equal. lia.
  - destruct (powq a e n qs) as [[w [|q l]]|] eqn:E; try discriminate. apply IH in E.
    destruct (redq (Z.square w) q n) as [y|] eqn:E1; [|discriminate]. intros H.
    apply some_val, (f_equal fst) in H. cbn [fst] in H. subst z.
    apply redq_mod in E1. rewrite Z.square_spec in E1. subst w y.
    rewrite <- Zmult_mod, <- Z.pow_add_r by lia. f_equal. f_equal. lia.
  - destruct (0 <=? a) eqn:E1; [|discriminate]. destruct (a <? n) eqn:E2; [|discriminate].
    apply Z.leb_le in E1. apply Z.ltb_lt in E2. cbn [andb]. intros H.
    apply some_val, (f_equal fst) in H. cbn [fst] in H. subst z. rewrite Z.pow_1_r. symmetry. apply Z.mod_small. lia.
Qed.
