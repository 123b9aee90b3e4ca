(** The inputs the aggregation circuit is meant to accept, as one predicate: C70. *)
From Coq Require Import ZArith List.
From Verif Require Import Params Curve Api Lib Steps Agg FField FpField SpecCurve SpecHash SpecMisc SpecVerify.
Import ListNotations.
Open Scope Z_scope.

(** The scalar that commits to the public inputs. *)
Definition instance_scalar (O : oracles) (zs : list Z) : Z :=
  (o_keccak O (encoding (map (fun z => z mod p_mod) zs)) mod 2 ^ 256) mod r_mod.
Definition instance_commitment (O : oracles) (zs : list Z) (ix iy : Z) : Prop :=
  multiple (Aff lagrange_x lagrange_y) (instance_scalar O zs) (Aff ix iy).

(** Public inputs [zs], proof words [T] and helper words [A] form an acceptable input: the lists are long
    enough, every commitment of the proof is a finite curve point in canonical form, the absorbed words fit
    in 256 bits, and with the instance commitment (ix, iy) and the challenges of the transcript
      - the evaluation point and the opening challenge avoid the exceptional values,
      - the helper words are the inverses, Lagrange values and quotient the protocol prescribes,
      - the opening proof W' and every term and partial sum of the final combination are finite with both
        coordinates below the scalar modulus,
      - the final combination is a point with non-zero coordinates that passes the pairing check with W'. *)
Definition acceptable (O : oracles) (zs T A : list Z) : Prop :=
  (length zs <= 43)%nat /\ (104 <= length T)%nat /\ (21 <= length A)%nat /\
  coms_valid T /\ Forall SpecHash.small (firstn 102 T) /\
  exists ix iy X Y,
    instance_commitment O zs ix iy /\ ix < r_mod /\ iy < r_mod /\
    let ch i := fc (nth i (transcript_values O ix iy T) 0) in
    let th := ch 0%nat in let be := ch 1%nat in let ga := ch 2%nat in let y := ch 3%nat in
    let x := ch 4%nat in let yy := ch 5%nat in let v := ch 6%nat in let u := ch 7%nat in
    let h := quotient (word T) th be ga x y in
    let E := opening yy v x u (queries T (ix, iy) h x) in
    let terms := final_terms T (ix, iy) h x yy v u in
    x <> 0%fr /\ u <> rot x (-1) /\ u <> rot x 2 /\
    (forall i, (i < 21)%nat -> nth i A 0 = val (nth i (helpers x u h) 0%fr)) /\
    fits (Aff (nth 102 T 0) (nth 103 T 0)) /\ computable (claim E (ordered_terms terms)) /\
    lin_comb (claim E (plain_terms terms)) (Aff X Y) /\
    nth 102 T 0 <> 0 /\ nth 103 T 0 <> 0 /\ X <> 0 /\ Y <> 0 /\
    o_pairing O [(Aff (nth 102 T 0) (nth 103 T 0), g20_const); (Aff X Y, g21_const)] = true.
(** the evaluation point is not in the domain (x^n is not 1) *)
Definition outside_domain (O : oracles) (zs T : list Z) : Prop :=
  forall ix iy, instance_commitment O zs ix iy -> fexp (fc (nth 4 (transcript_values O ix iy T) 0)) dom_n <> 1%fr.
