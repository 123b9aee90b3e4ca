(** The inputs the aggregation circuit accepts, with no assumption on the evaluation point: C72. *)
From Coq Require Import ZArith List.
From Verif Require Import Params Curve Api Lib Steps Agg FField FpField SpecCurve SpecHash SpecMisc SpecVerify SpecExact.
Import ListNotations.
Open Scope Z_scope.

(** ** The constraint expressions for given values L0, LL, LA of the first, last and active-row selectors *)
Section With.
  Variables (t : nat -> Fr) (theta beta gamma x L0 LL LA : Fr).
  Local Open Scope fr_scope.
  Definition chunk_at (z zw : Fr) (cols : list (Z * Fr * Fr)) : Fr :=
    (zw * prod (map (fun '(_, c, s) => c + beta * s + gamma) cols) -
     z * prod (map (fun '(k, c, _) => c + fexp delta k * beta * x + gamma) cols)) * LA.
  Definition permutation_at : list Fr :=
    [L0 * (1 - t 79%nat);
     LL * (t 88%nat * t 88%nat - t 88%nat);
     L0 * (t 82%nat - t 81%nat);
     L0 * (t 85%nat - t 84%nat);
     L0 * (t 88%nat - t 87%nat);
     chunk_at (t 79%nat) (t 80%nat) [(0, t 45%nat, t 72%nat); (1, t 46%nat, t 73%nat)]%Z;
     chunk_at (t 82%nat) (t 83%nat) [(2, t 47%nat, t 74%nat); (3, t 48%nat, t 75%nat)]%Z;
     chunk_at (t 85%nat) (t 86%nat) [(4, t 49%nat, t 76%nat); (5, t 51%nat, t 77%nat)]%Z;
     chunk_at (t 88%nat) (t 89%nat) [(6, t 44%nat, t 78%nat)]%Z].
  Definition lookup_at (z zw a a' s input table : Fr) : list Fr :=
    [L0 * (1 - z);
     LL * (z * z - z);
     (zw * (a + beta) * (s + gamma) - z * (input + beta) * (table + gamma)) * LA;
     L0 * (a - s);
     (a - s) * (a - a') * LA].
  Definition expressions_at : list Fr :=
    gates t ++ permutation_at ++
    lookup_at (t 90%nat) (t 91%nat) (t 92%nat) (t 93%nat) (t 94%nat) (t 67%nat * theta + t 52%nat) (t 68%nat * theta + t 69%nat) ++
    lookup_at (t 95%nat) (t 96%nat) (t 97%nat) (t 98%nat) (t 99%nat) (fc 18 * theta + t 53%nat) (t 68%nat * theta + t 69%nat).
End With.

(** ** What each helper word claims to be: (index, denominator, numerator) *)
Definition divisions (x u : Fr) : list (nat * Fr * Fr) :=
  let inv (i : nat) (j k : Z) := (i, rot x j - rot x k, 1)%fr in
  let lag (i : nat) (k : Z) := (i, x - fzpow omega k, fzpow omega k / fc dom_n * (fexp x dom_n - 1))%fr in
  [inv 0%nat (-6) 0; inv 1%nat (-6) 1; inv 2%nat 0 (-6); inv 3%nat 0 1; inv 4%nat 1 (-6); inv 5%nat 1 0;
   inv 6%nat (-1) 0; inv 7%nat 0 (-1); (8%nat, vanish x u [-1; 2], 1%fr);
   lag 9%nat 0; lag 10%nat (-6); lag 11%nat (-5); lag 12%nat (-4); lag 13%nat (-3); lag 14%nat (-2); lag 15%nat (-1);
   inv 17%nat 0 2; inv 18%nat 1 2; inv 19%nat 2 0; inv 20%nat 2 1].

(** Every helper word is a canonical scalar that satisfies its division; word 16 times (x^n - 1) is the
    combined constraint expression evaluated with the Lagrange words 9 to 15. *)
Definition helper_words (T A : list Z) (th be ga y x u : Fr) : Prop :=
  let a i := fc (nth i A 0) in
  (forall i, (i < 21)%nat -> 0 <= nth i A 0 < r_mod) /\
  (forall i den num, In (i, den, num) (divisions x u) -> (den * a i = num)%fr) /\
  ((fexp x dom_n - 1) * a 16%nat =
    horner y (expressions_at (word T) th be ga x (a 9%nat) (a 10%nat) (1 - sum (map a [10; 11; 12; 13; 14; 15]%nat))))%fr.

(** The acceptable inputs for every evaluation point, also one inside the domain. *)
Definition acceptable_all (O : oracles) (zs T A : list Z) : Prop :=
  (length zs <= 43)%nat /\ (104 <= length T)%nat /\ (21 <= length A)%nat /\
  coms_valid T /\ Forall SpecHash.small (firstn 102 T) /\
  exists ix iy X Y,
    instance_commitment O zs ix iy /\ ix < r_mod /\ iy < r_mod /\
    let ch i := fc (nth i (transcript_values O ix iy T) 0) in
    let th := ch 0%nat in let be := ch 1%nat in let ga := ch 2%nat in let y := ch 3%nat in
    let x := ch 4%nat in let yy := ch 5%nat in let v := ch 6%nat in let u := ch 7%nat in
    let h := fc (nth 16 A 0) in
    let E := opening yy v x u (queries T (ix, iy) h x) in
    let terms := final_terms T (ix, iy) h x yy v u in
    helper_words T A th be ga y x u /\
    fits (Aff (nth 102 T 0) (nth 103 T 0)) /\ computable (claim E (ordered_terms terms)) /\
    lin_comb (claim E (plain_terms terms)) (Aff X Y) /\
    nth 102 T 0 <> 0 /\ nth 103 T 0 <> 0 /\ X <> 0 /\ Y <> 0 /\
    o_pairing O [(Aff (nth 102 T 0) (nth 103 T 0), g20_const); (Aff X Y, g21_const)] = true.
