(** The reduced Tate pairing on BN254, written out on integers.  pairing_circuit.go:28-46 hands two pairs of
    points to gnark's PairingCheck, which asks whether a product of pairings is one.  gnark computes the
    optimal ate pairing; the reduced Tate pairing is a fixed power of it with exponent prime to r, so the two
    products are one for the same inputs.  (This last fact is textbook material and is not proved here.) *)
From Coq Require Import ZArith Bool List.
From Verif Require Import Params Curve.
Import ListNotations.
Open Scope Z_scope.

(** arithmetic of a commutative ring *)
Record ops (A : Type) := { o0 : A; o1 : A; oadd : A -> A -> A; osub : A -> A -> A; omul : A -> A -> A }.
Arguments o0 {A}. Arguments o1 {A}. Arguments oadd {A}. Arguments osub {A}. Arguments omul {A}.

(** A[t]/(t^2 - n) and A[t]/(t^3 - n) *)
Definition quad {A} (o : ops A) (n : A) : ops (A * A) :=
  {| o0 := (o0 o, o0 o); o1 := (o1 o, o0 o);
     oadd := fun x y => (oadd o (fst x) (fst y), oadd o (snd x) (snd y));
     osub := fun x y => (osub o (fst x) (fst y), osub o (snd x) (snd y));
     omul := fun x y => (oadd o (omul o (fst x) (fst y)) (omul o n (omul o (snd x) (snd y))),
                         oadd o (omul o (fst x) (snd y)) (omul o (snd x) (fst y))) |}.
Definition cubic {A} (o : ops A) (n : A) : ops (A * A * A) :=
  {| o0 := (o0 o, o0 o, o0 o); o1 := (o1 o, o0 o, o0 o);
     oadd := fun '(a, b, c) '(d, e, f) => (oadd o a d, oadd o b e, oadd o c f);
     osub := fun '(a, b, c) '(d, e, f) => (osub o a d, osub o b e, osub o c f);
     omul := fun '(a, b, c) '(d, e, f) =>
       (oadd o (omul o a d) (omul o n (oadd o (omul o b f) (omul o c e))),
        oadd o (oadd o (omul o a e) (omul o b d)) (omul o n (omul o c f)),
        oadd o (oadd o (omul o a f) (omul o b e)) (omul o c d)) |}.
Fixpoint opow {A} (o : ops A) (x : A) (k : positive) : A :=
  match k with
  | xH => x
  | xO k' => let y := opow o x k' in omul o y y
  | xI k' => let y := opow o x k' in omul o (omul o y y) x
  end.

(** Fp, Fp2 = Fp[u]/(u^2+1), Fp6 = Fp2[v]/(v^3 - (9+u)), Fp12 = Fp6[w]/(w^2 - v) *)
Definition zp : ops Z := {| o0 := 0; o1 := 1; oadd := padd_mod; osub := psub_mod; omul := pmul_mod |}.
Definition zp2 : ops (Z * Z) := quad zp (p_mod - 1).
Definition zp6 := cubic zp2 (9, 1).
Definition zp12 := quad zp6 ((0, 0), (1, 0), (0, 0)).
Definition fp12 : Type := ((Z * Z) * (Z * Z) * (Z * Z)) * ((Z * Z) * (Z * Z) * (Z * Z)).

(** A point (x, y) of the twist stands for the point (x w^2, y w^3) of y^2 = x^3 + 3 over Fp12.  The line
    through the G1 points T and S (the tangent if they are equal), evaluated at that point: first the line of
    slope [l] through (x, y), then the vertical line through (x, .). *)
Definition sloped {A} (o : ops A) (l x y : A) (Q : (A * A) * (A * A)) :=
  let z := (o0 o, o0 o) in let m := osub o (o0 o) l in
  (((osub o (omul o l x) y, o0 o), (omul o m (fst (fst Q)), omul o m (snd (fst Q))), z), (z, snd Q, z)).
Definition vertical {A} (o : ops A) (x : A) (Q : (A * A) * (A * A)) :=
  let z := (o0 o, o0 o) in (((osub o (o0 o) x, o0 o), fst Q, z), (z, z, z)).
Definition line_at (T S : pt) (Q : g2) : fp12 :=
  match T, S with
  | Aff x1 y1, Aff x2 y2 =>
      if x1 =? x2 then
        if (y1 =? y2) && negb (y1 =? 0) then sloped zp (pdiv_mod (3 * x1 * x1) (2 * y1)) x1 y1 Q else vertical zp x1 Q
      else sloped zp (pdiv_mod (y2 - y1) (x2 - x1)) x1 y1 Q
  | _, _ => o1 zp12
  end.

(** Miller's algorithm: the function with divisor k(P) - (kP) - (k-1)(infinity), at Q, up to factors of Fp6
    (the vertical lines in the denominators, which the final exponentiation maps to one), and kP. *)
Fixpoint miller (k : positive) (P : pt) (Q : g2) : fp12 * pt :=
  match k with
  | xH => (o1 zp12, P)
  | xO k' =>
      let (f, T) := miller k' P Q in
      (omul zp12 (omul zp12 f f) (line_at T T Q), padd T T)
  | xI k' =>
      let (f, T) := miller k' P Q in
      let f2 := omul zp12 (omul zp12 f f) (line_at T T Q) in
      let T2 := padd T T in
      (omul zp12 f2 (line_at P T2 Q), padd P T2)
  end.

(** the pairing is one for a point at infinity (a G2 point is always finite here) *)
Definition tate_f (PQ : pt * g2) : fp12 :=
  match fst PQ with
  | Inf => o1 zp12
  | Aff _ _ => fst (miller (Z.to_pos r_mod) (fst PQ) (snd PQ))
  end.
Definition final_exp (f : fp12) : fp12 := opow zp12 f (Z.to_pos ((p_mod ^ 12 - 1) / r_mod)).
(** the product of the pairings *)
Definition tate_product (l : list (pt * g2)) : fp12 :=
  final_exp (fold_right (fun PQ f => omul zp12 (tate_f PQ) f) (o1 zp12) l).
