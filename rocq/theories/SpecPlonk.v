(** Specification of the statement proved by the inner proof: gates, copy constraints and lookups on the rows of the
    domain.  Nothing here refers to the Go code or its model, nor to challenges or grand products. *)
From Coq Require Import ZArith Bool List.
From Verif Require Import Params FField FpField SpecVerify SpecPoly SpecRows.
Import ListNotations.
Open Scope Z_scope.

(** the value of a column on row j *)
Definition value (f : pol) (j : Z) : Fr := peval f (fexp omega j).
(** rows 0 .. n-7 are usable, the last 6 are for blinding *)
Definition usable (j : Z) : Prop := 0 <= j < dom_n - 6.

Section Plonk.
  (** instance, advice (0..7) and fixed columns *)
  Variables (inst : pol) (adv fixd : nat -> pol).
  Notation X j := (fexp omega j).

  (** columns under copy constraints *)
  Definition copied (k : nat) : pol := nth k [adv 0%nat; adv 1%nat; adv 2%nat; adv 3%nat; adv 4%nat; adv 5%nat; inst] [].

  (** the arithmetic gate, and the decomposition of column 5 into 18-bit limbs selected by fixed column 12 *)
  Definition gates_hold (j : Z) : Prop :=
    let a k := value (adv k) j in
    let a' k i := value (adv k) (j + i) in
    let f k := value (fixd k) j in
    let limbs l := sum (map (fun '(i, v) => v * fc (2 ^ (18 * Z.of_nat i)))%fr (combine (seq 0 (length l)) l)) in
    (f 0%nat + a' 4%nat 1%Z * f 1%nat + a 0%nat * f 2%nat + a 1%nat * f 3%nat + a 2%nat * f 4%nat + a 3%nat * f 5%nat + a 4%nat * f 6%nat +
       a 0%nat * a 1%nat * f 7%nat + a 2%nat * a 3%nat * f 8%nat = 0)%fr /\
    (~ In (f 12%nat) [0; fc 2; fc 3]%fr -> a 5%nat = limbs [a 6%nat]) /\
    (~ In (f 12%nat) [0; fc 1; fc 3]%fr -> a 5%nat = limbs [a 7%nat; a' 7%nat 1; a 6%nat; a' 6%nat 1]) /\
    (~ In (f 12%nat) [0; fc 1; fc 2]%fr -> a 5%nat = limbs [a 7%nat; a' 7%nat 1; a' 7%nat 2; a 6%nat; a' 6%nat 1; a' 6%nat 2]).

  (** the lookup table of tagged values *)
  Definition in_table (tag v : Fr) : Prop := exists i, usable i /\ tag = value (fixd 10%nat) i /\ v = value (fixd 11%nat) i.

  (** sigma maps a cell (column, row) to the next cell of its copy cycle *)
  Definition satisfies (sigma : nat -> Z -> nat * Z) : Prop :=
    (forall j, 0 <= j < dom_n -> gates_hold j) /\
    (forall k j, (k < 7)%nat -> usable j -> value (copied k) j = value (copied (fst (sigma k j))) (snd (sigma k j))) /\
    (forall j, usable j -> in_table (value (fixd 9%nat) j) (value (adv 6%nat) j) /\ in_table (fc 18) (value (adv 7%nat) j)).
End Plonk.

(** the permutation columns encode sigma by the labels delta^k omega^j *)
Definition encodes_sigma (sigm : nat -> pol) (sigma : nat -> Z -> nat * Z) : Prop := forall k j, (k < 7)%nat -> usable j ->
  (fst (sigma k j) < 7)%nat /\ usable (snd (sigma k j)) /\
  value (sigm k) j = (fexp delta (Z.of_nat (fst (sigma k j))) * fexp omega (snd (sigma k j)))%fr.

(** columns 0..7 are advice, 8..11 the permuted lookups, 12..18 products and the random column *)
Definition join (a p q : nat -> pol) (i : nat) : pol := if (i <? 8)%nat then a i else if (i <? 12)%nat then p i else q i.

(** sigma maps distinct cells to distinct cells *)
Definition permutes (sigma : nat -> Z -> nat * Z) : Prop := forall k j k' j', (k < 7)%nat -> usable j -> (k' < 7)%nat -> usable j' ->
  sigma k j = sigma k' j' -> k = k' /\ j = j'.
