(** Specifications for the pairing inputs, the KYC circuit, multi-scalar multiplication and the frame of
    the verifier steps. *)
From Coq Require Import ZArith Bool List.
From Verif Require Import Params Go Curve Api FrOps Lib Steps Agg SpecCurve.
Import ListNotations.
Open Scope Z_scope.

(** (x0 + x1 u, y0 + y1 u) with u^2 = -1 satisfies (9 + u) (y^2 - x^3) = 3 over Z/p *)
Definition on_twist (P : (Z * Z) * (Z * Z)) : Prop :=
  let '((x0, x1), (y0, y1)) := P in
  let d0 := (y0 * y0 - y1 * y1) - (x0 * x0 * x0 - 3 * x0 * x1 * x1) in
  let d1 := 2 * y0 * y1 - (3 * x0 * x0 * x1 - x1 * x1 * x1) in
  eqp (9 * d0 - d1) 3 /\ eqp (d0 + 9 * d1) 0.

(** the sum of scalar multiples, left to right *)
Fixpoint msm_from (acc : pt) (l : list ((Z * Z) * Z)) : pt :=
  match l with
  | [] => acc
  | (P, s) :: t => msm_from (padd acc (pmul s (of_coords0 P))) t
  end.

(** no partial sum meets a term with the same abscissa, and nothing is at infinity *)
Fixpoint general (acc : pt) (l : list ((Z * Z) * Z)) : Prop :=
  match l with
  | [] => True
  | (P, s) :: t =>
      (exists x y x' y', acc = Aff x y /\ pmul s (of_coords0 P) = Aff x' y' /\ x <> x') /\
      general (padd acc (pmul s (of_coords0 P))) t
  end.

(** the same in terms of the group law: whenever the combination of a non-empty prefix is added to the next
    term, both are finite and have different abscissas *)
Definition apart (l : list ((Z * Z) * Z)) : Prop :=
  forall l1 t l2, l = l1 ++ t :: l2 -> l1 <> [] ->
  exists x y x' y', lin_comb l1 (Aff x y) /\ lin_comb [t] (Aff x' y') /\ x <> x'.

(** a finite canonical curve point with a scalar in (0,r) *)
Definition good_term (t : (Z * Z) * Z) : Prop :=
  valid_pt (Aff (fst (fst t)) (snd (fst t))) = true /\ 0 < snd t < r_mod.

(** a country list contains the value modulo r *)
Definition listed (c : Z) (l : list Z) : Prop := exists x, In x l /\ c mod r_mod = x mod r_mod.

(** the KYC requirements: valid signature, age within the bounds, country in the list *)
Definition kyc_ok (O : oracles) (px py h r s : Z) (age mn mx country : Z) (countries : list Z) : Prop :=
  o_ecdsa O px py h r s = true /\ 0 <= age /\ mn <= age <= mx /\ listed country countries.

(** the same KYC witness with other attributes; with other Level and Time data *)
Definition with_attrs (c : KycCircuit) (k : KycType) : KycCircuit :=
  {| kyc_sig := kyc_sig c; kyc_hash := kyc_hash c; kyc := k; kyc_cond := kyc_cond c |}.
Definition with_level_time (c : KycCircuit) (l t : var) (ls ts : list var) : KycCircuit :=
  {| kyc_sig := kyc_sig c; kyc_hash := kyc_hash c;
     kyc := {| k_age := k_age (kyc c); k_country := k_country (kyc c); k_level := l; k_time := t |};
     kyc_cond := {| c_age := c_age (kyc_cond c); c_country := c_country (kyc_cond c); c_level := ls; c_time := ts |} |}.

(** the hint [h] is called by the constraint system *)
Definition calls (h : hintid) (s : cs) : Prop := exists ins outs, In (h, ins, outs) (cs_hints s).

(** a verifier step keeps slots 0..9 and the length of the buffer; an error comes with the zero array *)
Definition step_frame (f : oracles -> engine -> list var -> list var -> list var -> M (list var * option goerr)) : Prop :=
  forall O en tr aux b s b' e s', f O en tr aux b s = Done ((b', e), s') ->
  (e = None -> length b' = length b /\ forall j, (j < 10)%nat -> nth_error b' j = nth_error b j) /\
  (e <> None -> b' = repeat VNil 43).
