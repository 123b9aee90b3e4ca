(** Specification of the statement behind the proof: which constraints the columns of the aggregation circuit's
    inner proof satisfy on the rows 0 .. n-1 of the domain, and how the polynomials of the columns, the quotient pieces
    and the claimed evaluations are opened.  Nothing here refers to the Go code or its model. *)
From Coq Require Import ZArith Bool List.
From Verif Require Import Params Curve Api FField FpField SpecCurve SpecVerify SpecPoly.
Import ListNotations.
Open Scope Z_scope.

(** the pairing oracle accepts exactly the pairs (P, tau P), for the two G2 points of the verifying key *)
Definition kzg_pairing (O : oracles) (g2a g2b : g2) (tau : Fr) : Prop := forall a b X Y,
  valid_pt (Aff a b) = true -> valid_pt (Aff X Y) = true ->
  (o_pairing O [(Aff a b, g2a); (Aff X Y, g2b)] = true <-> multiple (Aff a b) (val tau) (Aff X Y)).

Section Columns.
  (** instance, committed columns 0..18 (advice, permuted lookups, products, random), fixed and permutation columns *)
  Variables (inst : pol) (adv fixd sigm : nat -> pol).
  Local Open Scope fr_scope.

  (** which column and rotation each evaluation of the proof belongs to *)
  Definition cells : list (nat * (pol * Z)) :=
    [(44%nat, (inst, 0%Z));
     (45%nat, (adv 0%nat, 0%Z)); (46%nat, (adv 1%nat, 0%Z)); (47%nat, (adv 2%nat, 0%Z)); (48%nat, (adv 3%nat, 0%Z));
     (49%nat, (adv 4%nat, 0%Z)); (50%nat, (adv 4%nat, 1%Z)); (51%nat, (adv 5%nat, 0%Z));
     (52%nat, (adv 6%nat, 0%Z)); (53%nat, (adv 7%nat, 0%Z)); (54%nat, (adv 7%nat, 1%Z)); (55%nat, (adv 6%nat, 1%Z));
     (56%nat, (adv 7%nat, 2%Z)); (57%nat, (adv 6%nat, 2%Z))] ++
    map (fun k => ((58 + k)%nat, (fixd k, 0%Z))) (seq 0 13) ++
    [(71%nat, (adv 18%nat, 0%Z))] ++
    map (fun k => ((72 + k)%nat, (sigm k, 0%Z))) (seq 0 7) ++
    [(79%nat, (adv 12%nat, 0%Z)); (80%nat, (adv 12%nat, 1%Z)); (81%nat, (adv 12%nat, (-6)%Z));
     (82%nat, (adv 13%nat, 0%Z)); (83%nat, (adv 13%nat, 1%Z)); (84%nat, (adv 13%nat, (-6)%Z));
     (85%nat, (adv 14%nat, 0%Z)); (86%nat, (adv 14%nat, 1%Z)); (87%nat, (adv 14%nat, (-6)%Z));
     (88%nat, (adv 15%nat, 0%Z)); (89%nat, (adv 15%nat, 1%Z)); (90%nat, (adv 16%nat, 0%Z)); (91%nat, (adv 16%nat, 1%Z));
     (92%nat, (adv 8%nat, 0%Z)); (93%nat, (adv 8%nat, (-1)%Z)); (94%nat, (adv 9%nat, 0%Z));
     (95%nat, (adv 17%nat, 0%Z)); (96%nat, (adv 17%nat, 1%Z));
     (97%nat, (adv 10%nat, 0%Z)); (98%nat, (adv 10%nat, (-1)%Z)); (99%nat, (adv 11%nat, 0%Z))].
  (** the true evaluation number i at X *)
  Definition cell (X : Fr) (i : nat) : Fr :=
    match find (fun c => Nat.eqb (fst c) i) cells with Some (_, (f, k)) => peval f (rot X k) | None => 0 end.

  (** the constraints of row j *)
  Section Row.
    Variables (theta beta gamma : Fr) (j : Z).
    Notation X := (fexp omega j).
    Notation t := (cell (fexp omega j)).
    (** one step of a grand product over columns (position, value, sigma) *)
    Definition product_step (z zw : Fr) (cols : list (Z * Fr * Fr)) : Prop :=
      zw * prod (map (fun '(_, c, s) => c + beta * s + gamma) cols) =
      z * prod (map (fun '(k, c, _) => c + fexp delta k * beta * X + gamma) cols).
    Definition lookup_step (z zw a a' s input : Fr) : Prop :=
      zw * (a + beta) * (s + gamma) = z * (input + beta) * (t 68%nat * theta + t 69%nat + gamma) /\ (a = s \/ a = a').
    Definition row_ok : Prop :=
      (* gates: the arithmetic identity, and the limb decomposition selected by column 70 *)
      gate_main t = 0 /\
      (~ In (t 70%nat) [0; fc 2; fc 3] -> t 51%nat = limbs t [52%nat]) /\
      (~ In (t 70%nat) [0; fc 1; fc 3] -> t 51%nat = limbs t [53; 54; 52; 55]%nat) /\
      (~ In (t 70%nat) [0; fc 1; fc 2] -> t 51%nat = limbs t [53; 54; 56; 52; 55; 57]%nat) /\
      (* the first row *)
      (j = 0%Z -> t 79%nat = 1 /\ t 82%nat = t 81%nat /\ t 85%nat = t 84%nat /\ t 88%nat = t 87%nat /\
         t 90%nat = 1 /\ t 92%nat = t 94%nat /\ t 95%nat = 1 /\ t 97%nat = t 99%nat) /\
      (* the last row before the blinding rows *)
      (j = (dom_n - 6)%Z -> Forall (fun z => z = 0 \/ z = 1) [t 88%nat; t 90%nat; t 95%nat]) /\
      (* the rows before *)
      ((j < dom_n - 6)%Z ->
         product_step (t 79%nat) (t 80%nat) [(0%Z, t 45%nat, t 72%nat); (1%Z, t 46%nat, t 73%nat)] /\
         product_step (t 82%nat) (t 83%nat) [(2%Z, t 47%nat, t 74%nat); (3%Z, t 48%nat, t 75%nat)] /\
         product_step (t 85%nat) (t 86%nat) [(4%Z, t 49%nat, t 76%nat); (5%Z, t 51%nat, t 77%nat)] /\
         product_step (t 88%nat) (t 89%nat) [(6%Z, t 44%nat, t 78%nat)] /\
         lookup_step (t 90%nat) (t 91%nat) (t 92%nat) (t 93%nat) (t 94%nat) (t 67%nat * theta + t 52%nat) /\
         lookup_step (t 95%nat) (t 96%nat) (t 97%nat) (t 98%nat) (t 99%nat) (fc 18 * theta + t 53%nat)).
  End Row.

  (** the polynomials of the rotation sets, in the order of [queries]; h is the combined quotient *)
  Definition set_polys (h : pol) : list (list pol) :=
    [[adv 12%nat; adv 13%nat; adv 14%nat];
     [adv 8%nat; adv 10%nat];
     [inst; adv 0%nat; adv 1%nat; adv 2%nat; adv 3%nat; adv 5%nat; adv 9%nat; adv 11%nat] ++
       map fixd (seq 0 13) ++ map sigm (seq 0 7) ++ [h; adv 18%nat];
     [adv 4%nat; adv 15%nat; adv 16%nat; adv 17%nat];
     [adv 6%nat; adv 7%nat]].
End Columns.

(** polynomial arithmetic and the quotient from its three pieces: h0 + x^n h1 + x^2n h2 *)
Fixpoint padd_pol (f g : pol) : pol :=
  match f, g with [], _ => g | _, [] => f | a :: f, b :: g => (a + b)%fr :: padd_pol f g end.
Definition pscal (c : Fr) (f : pol) : pol := map (fun a => c * a)%fr f.
Definition pieces (x : Fr) (h0 h1 h2 : pol) : pol :=
  padd_pol h0 (padd_pol (pscal (fexp x dom_n) h1) (pscal (fexp x dom_n * fexp x dom_n)%fr h2)).

(** rotation sets with their polynomials *)
Definition attach (qs : list rotset) (fs : list (list pol)) : list oset :=
  map (fun '((R, ps), l) => (R, combine ps l)) (combine qs fs).

(** the commitments of a proof [T] (instance commitment [ic]) are those of the given polynomials *)
Definition column_commitments (tau : Fr) (inst : pol) (adv fixd sigm : nat -> pol) (T : list Z) (ic : Z * Z) : Prop :=
  commits tau inst ic /\ (forall i, (i < 19)%nat -> commits tau (adv i) (com T i)) /\
  (forall i, (i < 13)%nat -> commits tau (fixd i) (nth i vk_fixed (0, 0))) /\
  (forall i, (i < 7)%nat -> commits tau (sigm i) (nth i vk_sigma (0, 0))).
Definition quotient_commitments (tau : Fr) (h0 h1 h2 : pol) (T : list Z) : Prop :=
  commits tau h0 (com T 19) /\ commits tau h1 (com T 20) /\ commits tau h2 (com T 21).
Definition opening_commitments (tau : Fr) (w w' : pol) (T : list Z) : Prop := commits tau w (W T) /\ commits tau w' (W' T).
