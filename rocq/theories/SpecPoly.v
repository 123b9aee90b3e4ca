(** Specification of polynomial commitments: polynomials over Z/r, KZG commitments for a trapdoor tau, and the
    SHPLONK opening identities.  Nothing here refers to the Go code or its model. *)
From Coq Require Import ZArith Bool List.
From Verif Require Import Params Curve FField FpField SpecCurve SpecVerify.
Import ListNotations.
Open Scope Z_scope.

(** polynomials by their coefficients, lowest first *)
Definition pol := list Fr.
Definition peval (f : pol) (X : Fr) : Fr := fold_right (fun c a => (c + X * a)%fr) 0%fr f.

(** the commitment of f is f(tau) times the generator (1,2) *)
Definition commits (tau : Fr) (f : pol) (P : Z * Z) : Prop :=
  exists Q, encodes (fst P) (snd P) Q /\ multiple (Aff 1 2) (val (peval f tau)) Q.
(** the same for a polynomial whose commitment is given as a combination of points *)
Definition committed (tau : Fr) (p : poly) (f : pol) : Prop :=
  exists Q, lin_comb (plain_terms (p_com p)) Q /\ multiple (Aff 1 2) (val (peval f tau)) Q.

(** a rotation set with the polynomials behind the commitments *)
Definition oset := (list Z * list (poly * pol))%type.
Definition forget (s : oset) : rotset := (fst s, map fst (snd s)).

(** the claimed evaluations are those of the polynomial *)
Definition evaluates (x : Fr) (R : list Z) (p : poly) (f : pol) : Prop :=
  p_evals p = map (fun k => peval f (rot x k)) R.

Section Identities.
  Variables (yy v x u : Fr) (osets : list oset).
  Local Open Scope fr_scope.
  Definition sets : list rotset := map forget osets.
  (** the polynomial opened at 0 in u, at X; w is the quotient polynomial *)
  Definition opened (w : pol) (X : Fr) : Fr :=
    horner v (map (fun '(R, l) => factor x u sets R *
                     horner yy (map (fun '(p, f) => peval f X - interpolate x u R (p_evals p)) l)) osets)
    - vanish x u (first_rots sets) * peval w X.
  (** w' opens it *)
  Definition opens_at (w w' : pol) (X : Fr) : Prop := (X - u) * peval w' X = opened w X.
  (** w is the quotient of the differences between the polynomials and the interpolations of their claimed
      evaluations by the polynomials vanishing on the points, at X *)
  Definition differences (X : Fr) : Fr :=
    horner v (map (fun '(R, l) => vanish x X (without all_rots R) *
                     horner yy (map (fun '(p, f) => peval f X - interpolate x X R (p_evals p)) l)) osets).
  Definition quotient_at (w : pol) (X : Fr) : Prop := vanish x X all_rots * peval w X = differences X.
End Identities.

(** well-formed rotation sets *)
Definition rots_ok (R : list Z) : Prop := R <> [] /\ NoDup R /\ incl R all_rots.
