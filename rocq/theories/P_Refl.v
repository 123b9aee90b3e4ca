(** Evaluation of closed expressions over Z/r on machine integers.  Only used to exhibit a concrete accepted run. *)
From Coq Require Import ZArith Znumtheory Bool List Lia Uint63 Ring Field.
From Verif Require Import Params Curve NumThy FField FpField P_Curve SpecCurve SpecMisc SpecVerify P_Limb P_Mont P_Jac.
Import ListNotations.
Open Scope Z_scope.

Definition ri_ : int := Eval vm_compute in of_Z ((- inv_mod base (r_mod mod base)) mod base).
Lemma ri_ok : (to_Z (h0 rl) * to_Z ri_ + 1) mod base = 0. Proof. vm_compute. reflexivity. Qed.
Lemma r_small : 169 * r_mod < RR. Proof. reflexivity. Qed.
Lemma Rr_n0 : RR mod r_mod <> 0. Proof. vm_compute. discriminate. Qed.
Definition r2r : list int := Eval vm_compute in limbs 9 (RR * RR mod r_mod).
Lemma r2r_ok : elem r2r /\ lval r2r = RR * RR mod r_mod.
Proof. split; [apply elemb_ok; vm_compute; reflexivity | vm_compute; reflexivity]. Qed.
Definition kr2 : list int := Eval vm_compute in fatten (limbs 9 (3 * r_mod)).
Lemma kr2_ok : dom r_mod 2 kr2 = true. Proof. vm_compute. reflexivity. Qed.
Definition one_r : list int := Eval vm_compute in limbs 9 (RR mod r_mod).

Definition rr : Z -> list int -> Fr -> Prop := rep r_mod r_gt1.
Definition mr : list int -> list int -> list int := mm rl ri_.
Lemma mr_ok c1 c2 a b x y : rr c1 a x -> rr c2 b y -> 0 <= c1 -> 0 <= c2 -> c1 * c2 <= 168 -> rr 2 (mr a b) (x * y)%fr.
Proof. exact (mm_ok r_mod r_gt1 prime_r rl ri_ rl_elem rl_val ri_ok r_small Rr_n0 a b c1 c2 x y). Qed.
Lemma one_r_ok : rr 2 one_r 1%fr.
Proof.
  split; [apply elemb_ok; vm_compute; reflexivity|]. split; [vm_compute; reflexivity|].
  assert (E : lval one_r = RR mod r_mod) by (vm_compute; reflexivity). rewrite E, phi_mod. ring.
Qed.
Lemma red_ok c a x : rr c a x -> 0 <= c <= 84 -> rr 2 (mr a one_r) x.
Proof.
  intros H Hc. pose proof (mr_ok c 2 a one_r x 1%fr H one_r_ok ltac:(lia) ltac:(lia) ltac:(lia)) as K.
  replace (x * 1)%fr with x in K by ring. exact K.
Qed.

Inductive ex := EC (l : list int) | E0 | E1 | EA (a b : ex) | ES (a b : ex) | EM (a b : ex) | EO (a : ex).
Fixpoint den (e : ex) : Fr :=
  match e with
  | EC l => fc (lval l) | E0 => 0%fr | E1 => 1%fr
  | EA a b => (den a + den b)%fr | ES a b => (den a - den b)%fr | EM a b => (den a * den b)%fr | EO a => (- den a)%fr
  end.
Definition zero_r : list int := Eval vm_compute in limbs 9 0.
Lemma zero_r_ok : rr 2 zero_r 0%fr.
Proof.
  split; [apply elemb_ok; vm_compute; reflexivity|]. split; [vm_compute; reflexivity|].
  assert (E : lval zero_r = 0) by (vm_compute; reflexivity). rewrite E. change (fc 0) with 0%fr. ring.
Qed.
(** None on a constant that is not reduced *)
Fixpoint ev (e : ex) : option (list int) :=
  match e with
  | EC l => if elemb l && ltr l then Some (mr l r2r) else None
  | E0 => Some zero_r | E1 => Some one_r
  | EA a b => match ev a, ev b with Some x, Some y => Some (mr (lad x y) one_r) | _, _ => None end
  | ES a b => match ev a, ev b with Some x, Some y => Some (mr (lsu kr2 x y) one_r) | _, _ => None end
  | EM a b => match ev a, ev b with Some x, Some y => Some (mr x y) | _, _ => None end
  | EO a => match ev a with Some x => Some (mr (lsu kr2 zero_r x) one_r) | None => None end
  end.

Lemma ev_ok e : forall l, ev e = Some l -> rr 2 l (den e).
Proof.
  induction e as [c| | |a IHa b IHb|a IHa b IHb|a IHa b IHb|a IHa]; cbn [ev den]; intros l H.
  - destruct (elemb c && ltr c) eqn:C; [|discriminate]. apply andb_true_iff in C. destruct C as [C1 C2]. apply elemb_ok in C1.
    apply ltr_ok in C2; [|exact C1]. destruct r2r_ok as [E2 V2].
    pose proof (of_plain r_mod r_gt1 prime_r rl ri_ rl_elem rl_val ri_ok r_small Rr_n0 (lval c) c r2r C1 eq_refl C2 E2 V2) as K.
    injection H as <-. exact K.
  - injection H as <-. exact zero_r_ok.
  - injection H as <-. exact one_r_ok.
  - destruct (ev a) as [x|]; [|discriminate]. destruct (ev b) as [y|]; [|discriminate]. injection H as <-.
    apply (red_ok 4); [|lia]. exact (lad_ok r_mod r_gt1 prime_r r_small x y 2 2 _ _ (IHa _ eq_refl) (IHb _ eq_refl) ltac:(lia)).
  - destruct (ev a) as [x|]; [|discriminate]. destruct (ev b) as [y|]; [|discriminate]. injection H as <-.
    apply (red_ok 5); [|lia]. exact (lsu_ok r_mod r_gt1 prime_r ri_ r_small kr2 x y 2 2 _ _ (IHa _ eq_refl) (IHb _ eq_refl) kr2_ok ltac:(lia)).
  - destruct (ev a) as [x|]; [|discriminate]. destruct (ev b) as [y|]; [|discriminate]. injection H as <-.
    exact (mr_ok 2 2 x y _ _ (IHa _ eq_refl) (IHb _ eq_refl) ltac:(lia) ltac:(lia) ltac:(lia)).
  - destruct (ev a) as [x|]; [|discriminate]. injection H as <-.
    apply (red_ok 5); [|lia].
    pose proof (lsu_ok r_mod r_gt1 prime_r ri_ r_small kr2 zero_r x 2 2 _ _ zero_r_ok (IHa _ eq_refl) kr2_ok ltac:(lia)) as K.
    replace (- den a)%fr with (0 - den a)%fr by ring. exact K.
Qed.
(** both sides evaluate to the same residue *)
Definition same (a b : ex) : bool :=
  match ev a, ev b with Some x, Some y => eqmod rl x y | _, _ => false end.
Lemma same_ok a b : same a b = true -> den a = den b.
Proof.
  unfold same. pose proof (ev_ok a) as A. pose proof (ev_ok b) as B.
  destruct (ev a) as [x|]; [|discriminate]. destruct (ev b) as [y|]; [|discriminate].
  exact (eqmod_ok r_mod r_gt1 prime_r rl rl_elem rl_val Rr_n0 2 2 x y _ _ (A _ eq_refl) (B _ eq_refl)).
Qed.
Definition nonz (a : ex) : bool := match ev a with Some x => nonzero rl x | None => false end.
Lemma nonz_ok a : nonz a = true -> den a <> 0%fr.
Proof.
  unfold nonz. pose proof (ev_ok a) as A. destruct (ev a) as [x|]; [|discriminate].
  exact (nonzero_ok r_mod r_gt1 prime_r rl rl_elem rl_val r_small x _ (A _ eq_refl)).
Qed.

Ltac reify t :=
  lazymatch t with
  | fzero _ _ => constr:(E0)
  | fone _ _ => constr:(E1)
  | fadd _ _ ?a ?b => let x := reify a in let y := reify b in constr:(EA x y)
  | fsub _ _ ?a ?b => let x := reify a in let y := reify b in constr:(ES x y)
  | fmul _ _ ?a ?b => let x := reify a in let y := reify b in constr:(EM x y)
  | fopp _ _ ?a => let x := reify a in constr:(EO x)
  | phi _ _ ?z => let l := eval vm_compute in (limbs 9 z) in constr:(EC l)
  end.
(** closed equations over Z/r between constants below r *)
Ltac freq := match goal with |- ?a = ?b => let x := reify a in let y := reify b in
  refine (same_ok x y _); vm_compute; reflexivity end.
Ltac frne := match goal with |- ?a <> _ => let x := reify a in refine (nonz_ok x _); vm_compute; reflexivity end.
