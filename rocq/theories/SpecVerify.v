(** Specification of the halo2 / SHPLONK verifier of the aggregation circuit: evaluation domain,
    constraint expressions, quotient, multi-opening and the commitment terms.  Written from the
    protocol, over the field Z/r; nothing here refers to the Go code or its model. *)
From Coq Require Import ZArith Bool List.
From Verif Require Import Params Curve Api FField FpField SpecCurve.
Import ListNotations.
Open Scope Z_scope.

(** a^k, k >= 0; and for any integer k *)
Definition fexp (a : Fr) (k : Z) : Fr := fc (val a ^ k).
Definition fzpow (a : Fr) (k : Z) : Fr := if k <? 0 then frinv (fexp a (- k)) else fexp a k.

(** Horner: c^(m-1) l_0 + ... + l_(m-1) *)
Definition horner (c : Fr) (l : list Fr) : Fr := fold_left (fun a e => (a * c + e)%fr) l 0%fr.
Definition sum (l : list Fr) : Fr := fold_right (fun a b => (a + b)%fr) 0%fr l.
Definition prod (l : list Fr) : Fr := fold_right (fun a b => (a * b)%fr) 1%fr l.

(** ** Verifying key: domain, coset shift, fixed and permutation commitments *)
Definition dom_n : Z := 2 ^ 23.
Definition omega : Fr := fc 8374374965308410102411073611984011876711565317741801500439755773472076597347.
Definition delta : Fr := fc 4131629893567559867359510883348571134090853742863529169391034518566172092834.
Definition vk_fixed : list (Z * Z) :=
  [(14938380413158645463746726818663993049411440720262319458512240364576743949172,
    612698444000497655149316219443956538920213548045757527589465098726453410217);
   (1602442613231540506062434465510844080484629772386483161935289973450738328411,
    8632200768118172237953570969696965645934378330803102067059028669153881824687);
   (7302810833326292183657845455542786945088085612690237136517265240120492143686,
    12265020872042776853325862543934338413628778238311540007481750568301839403357);
   (15714457855017303792793529634633875645702708944223275612000098593544931343989,
    15257349176403661815620892222123615612513039066905856829097618251943836626674);
   (6588502116763777047662055789514359601800459134197048587585162560883404012798,
    11714447983073049655392713639630119352182916653299642193786804830268642535746);
   (9125246457194062079192598275178850075343678690105278369118112655547944406336,
    294075161521838319967190643963225379772318561607769296285010787743709643736);
   (21619461572256759847460179508152708219554585855297084173283796582786124555803,
    4345524860916738024637605707697977254152854672257192099656709386158566955621);
   (17258678549324502889708499924818360135272319280666991023610380123832805047961,
    5334989116053542497869652553010890811115308152577125353854023583257775982812);
   (5308159394739710035241344480420553410175387652800783904684585252715061491340,
    3019131547261358901530790449779825851153791728474681515444029058543922522335);
   (15488644080723619432119612346004359086916581306660788742559926675716559909239,
    8754616038193501373921013994731307318251353370144049595366428636287857472101);
   (9621060932553241457331309181312468446375012848693562416915297961501104714797,
    18774224011527979955178720803820949077824414817387957068075380161701868796982);
   (7332275780326935691999111227339181700750973508937555651107089016408829877447,
    10101962784746658718602667114782992736503033294933308373536577801383886245995);
   (18180235640340843615912844522870848024440129915340282133294923228193557588624,
    16150223963193906991297402627411591966306440109235686551266596870812093013098)].
Definition vk_sigma : list (Z * Z) :=
  [(14330957265734295635487529150089503047509680887155412481838936779763595454159,
    11657029790297552620042403612079612021781553164410884915460958808861335447799);
   (3217632689962165131030083420553195932069690674124201615821228288158667916559,
    11279851209809827628209572028517900058696331891386803672043677236706605258017);
   (6052548824579324632823008857297151984962554125394528409163563861993455062230,
    5253299219790956244634070239415866732913146545893144333850618503587190167918);
   (20134811260136067172423268982757475565512657205230154765724273546621797752349,
    6892971650116630821526804754060441250258363920342589425839414580605638919318);
   (17209526517725877136177243553045588666670528061781328851527842192340596792007,
    673380535462416015709313880421335139519451950072360935904307055208109203957);
   (9973741392326192617521393709476164203221054644042980686853312098867551316157,
    9696890272060053851986158851707718469926088811173404342570425124396426957984);
   (14118917696035322873139367456503207319385222068825598680486765986706935215403,
    18580702656451937158771044279900207779359395181895031379070145857747412641911)].

(** ** Lagrange basis of the domain {omega^0, ..., omega^(n-1)} at x *)
Definition lagrange (x : Fr) (i : Z) : Fr :=
  (fzpow omega i / fc dom_n * ((fexp x dom_n - 1) / (x - fzpow omega i)))%fr.
(** the Lagrange basis polynomial of node i at x, as a product over the other nodes *)
Definition lagrange_poly (x : Fr) (i : Z) : Fr :=
  prod (map (fun j => (x - fexp omega j) / (fexp omega (i mod dom_n) - fexp omega j))%fr
         (filter (fun j => negb (j =? i mod dom_n)) (map Z.of_nat (seq 0 (Z.to_nat dom_n))))).
Definition l_0 (x : Fr) : Fr := lagrange x 0.
Definition l_last (x : Fr) : Fr := lagrange x (-6).
Definition l_blind (x : Fr) : Fr := sum (map (lagrange x) [-5; -4; -3; -2; -1]).
Definition l_active (x : Fr) : Fr := (1 - (l_last x + l_blind x))%fr.

(** ** Constraint expressions.  [t i] is the i-th word of the proof as a field element. *)
Section Expressions.
  Variables (t : nat -> Fr) (theta beta gamma x : Fr).
  Local Open Scope fr_scope.

  (** the arithmetic gate *)
  Definition gate_main : Fr :=
    t 58%nat + t 50%nat * t 59%nat + t 45%nat * t 60%nat + t 46%nat * t 61%nat + t 47%nat * t 62%nat +
    t 48%nat * t 63%nat + t 49%nat * t 64%nat + t 45%nat * t 46%nat * t 65%nat + t 47%nat * t 48%nat * t 66%nat.

  (** the selector value k in {0,1,2,3} is picked by the product over the other three values *)
  Definition pick (k : Z) : Fr :=
    prod (map (fun j => t 70%nat - fc j) (filter (fun j => negb (j =? k)%Z) [0; 1; 2; 3]%Z)).
  (** the accumulator t51 is composed of 18-bit limbs *)
  Definition limbs (l : list nat) : Fr :=
    sum (map (fun '(j, i) => t i * fc (2 ^ (18 * Z.of_nat j))) (combine (seq 0 (length l)) l)).
  Definition gates : list Fr :=
    [gate_main;
     (t 51%nat - limbs [52]%nat) * pick 1;
     (t 51%nat - limbs [53; 54; 52; 55]%nat) * pick 2;
     (t 51%nat - limbs [53; 54; 56; 52; 55; 57]%nat) * pick 3].

  (** permutation argument: each chunk has its product polynomial at x and omega x, and columns
      (position, value, sigma) *)
  Definition chunk (z zw : Fr) (cols : list (Z * Fr * Fr)) : Fr :=
    (zw * prod (map (fun '(_, c, s) => c + beta * s + gamma) cols) -
     z * prod (map (fun '(k, c, _) => c + fexp delta k * beta * x + gamma) cols)) * l_active x.
  Definition permutation : list Fr :=
    [l_0 x * (1 - t 79%nat);
     l_last x * (t 88%nat * t 88%nat - t 88%nat);
     l_0 x * (t 82%nat - t 81%nat);
     l_0 x * (t 85%nat - t 84%nat);
     l_0 x * (t 88%nat - t 87%nat);
     chunk (t 79%nat) (t 80%nat) [(0, t 45%nat, t 72%nat); (1, t 46%nat, t 73%nat)]%Z;
     chunk (t 82%nat) (t 83%nat) [(2, t 47%nat, t 74%nat); (3, t 48%nat, t 75%nat)]%Z;
     chunk (t 85%nat) (t 86%nat) [(4, t 49%nat, t 76%nat); (5, t 51%nat, t 77%nat)]%Z;
     chunk (t 88%nat) (t 89%nat) [(6, t 44%nat, t 78%nat)]%Z].

  (** lookup argument: product polynomial z, permuted input a (and its predecessor a'), permuted table s *)
  Definition lookup (z zw a a' s input table : Fr) : list Fr :=
    [l_0 x * (1 - z);
     l_last x * (z * z - z);
     (zw * (a + beta) * (s + gamma) - z * (input + beta) * (table + gamma)) * l_active x;
     l_0 x * (a - s);
     (a - s) * (a - a') * l_active x].
  Definition lookup_table : Fr := t 68%nat * theta + t 69%nat.
  Definition lookups : list Fr :=
    lookup (t 90%nat) (t 91%nat) (t 92%nat) (t 93%nat) (t 94%nat) (t 67%nat * theta + t 52%nat) lookup_table ++
    lookup (t 95%nat) (t 96%nat) (t 97%nat) (t 98%nat) (t 99%nat) (fc 18 * theta + t 53%nat) lookup_table.

  Definition expressions : list Fr := gates ++ permutation ++ lookups.

  (** the quotient polynomial at x *)
  Definition quotient (y : Fr) : Fr := horner y expressions / (fexp x dom_n - 1).
End Expressions.

(** ** Multi-opening (SHPLONK) *)

(** a polynomial: its commitment as a combination of points, its claimed evaluations *)
Record poly := { p_com : list ((Z * Z) * Fr); p_evals : list Fr }.
(** a rotation set: polynomials opened at omega^k x for the same rotations k *)
Definition rotset := (list Z * list poly)%type.

Section Opening.
  Variables (x u : Fr).
  Local Open Scope fr_scope.
  Definition rot (k : Z) : Fr := fzpow omega k * x.
  (** the polynomial vanishing on the rotations, at u *)
  Definition vanish (R : list Z) : Fr := prod (map (fun k => u - rot k) R).
  Definition without (T R : list Z) : list Z := filter (fun k => negb (existsb (Z.eqb k) R)) T.
  (** Lagrange interpolation through (rot k, e), at u *)
  Definition basis (R : list Z) (k : Z) : Fr :=
    prod (map (fun j => (u - rot j) / (rot k - rot j)) (without R [k])).
  Definition interpolate (R : list Z) (es : list Fr) : Fr :=
    sum (map (fun '(k, e) => e * basis R k) (combine R es)).
  Definition all_rots : list Z := [-6; -1; 0; 1; 2]%Z.
End Opening.

(** the powers c^(m-1), ..., c, 1 *)
Definition powers (c : Fr) (m : nat) : list Fr := map (fun i => fexp c (Z.of_nat i)) (rev (seq 0 m)).

Section Combination.
  Variables (yy v x u : Fr) (sets : list rotset).
  Local Open Scope fr_scope.
  Definition first_rots : list Z := match sets with [] => [] | (R, _) :: _ => R end.
  (** Z_(T minus R) / Z_(T minus S_0) *)
  Definition factor (R : list Z) : Fr :=
    vanish x u (without all_rots R) / vanish x u (without all_rots first_rots).
  (** the value opened at u *)
  Definition opening : Fr :=
    horner v (map (fun '(R, ps) => factor R * horner yy (map (fun p => interpolate x u R (p_evals p)) ps)) sets).
  (** commitment terms *)
  Definition scale (c : Fr) (l : list ((Z * Z) * Fr)) : list ((Z * Z) * Fr) := map (fun '(P, a) => (P, c * a)) l.
  Definition set_terms (R : list Z) (ps : list poly) : list ((Z * Z) * Fr) :=
    scale (factor R) (flat_map (fun '(c, p) => scale c (p_com p)) (combine (powers yy (length ps)) ps)).
  Definition com_terms : list ((Z * Z) * Fr) :=
    flat_map (fun '(c, (R, ps)) => scale c (set_terms R ps)) (combine (powers v (length sets)) sets).
End Combination.

(** ** The queries of the aggregation circuit.  [T] is the proof, [ic] the instance commitment, [h] the
    evaluation of the quotient. *)
Section Queries.
  Variables (T : list Z) (ic : Z * Z) (h x : Fr).
  Definition word (i : nat) : Fr := fc (nth i T 0).
  (** i-th commitment of the proof *)
  Definition com (i : nat) : Z * Z := (nth (2 * i) T 0 mod p_mod, nth (2 * i + 1) T 0 mod p_mod).
  Definition single (P : Z * Z) (es : list nat) : poly := {| p_com := [(P, 1%fr)]; p_evals := map word es |}.
  Definition h_poly : poly :=
    {| p_com := [(com 19, 1%fr); (com 20, fexp x dom_n); (com 21, (fexp x dom_n * fexp x dom_n)%fr)]; p_evals := [h] |}.
  Definition queries : list rotset :=
    [([-6; 0; 1], [single (com 12) [81; 79; 80]%nat; single (com 13) [84; 82; 83]%nat; single (com 14) [87; 85; 86]%nat]);
     ([0; -1], [single (com 8) [92; 93]%nat; single (com 10) [97; 98]%nat]);
     ([0], [single ic [44]%nat; single (com 0) [45]%nat; single (com 1) [46]%nat; single (com 2) [47]%nat;
            single (com 3) [48]%nat; single (com 5) [51]%nat; single (com 9) [94]%nat; single (com 11) [99]%nat] ++
           map (fun '(P, e) => single P [e]) (combine vk_fixed (seq 58 13)) ++
           map (fun '(P, e) => single P [e]) (combine vk_sigma (seq 72 7)) ++
           [h_poly; single (com 18) [71]%nat]);
     ([0; 1], [single (com 4) [49; 50]%nat; single (com 15) [88; 89]%nat; single (com 16) [90; 91]%nat; single (com 17) [95; 96]%nat]);
     ([0; 1; 2], [single (com 6) [52; 55; 57]%nat; single (com 7) [53; 54; 56]%nat])].
  (** the opening proofs *)
  Definition W : Z * Z := com 50.
  Definition W' : Z * Z := com 51.
  (** everything added to -opening * G *)
  Definition final_terms (yy v u : Fr) : list ((Z * Z) * Fr) :=
    com_terms yy v x u queries ++
    [(W, (- vanish x u (first_rots queries))%fr); (W', u)].
End Queries.

(** positions of the commitments in the proof (22 of the protocol, 2 opening proofs) *)
Definition commitments : list nat := seq 0 22 ++ [50; 51]%nat.
Definition coms_on_curve (T : list Z) : Prop :=
  forall i, In i commitments -> curve_or_zero (nth (2 * i) T 0) (nth (2 * i + 1) T 0).

(** the scalar multiplication gadget, used outside its documented domain, never outputs the pair (0,1)
    (which is not a point of the curve) *)
Definition degen_sane (O : oracles) : Prop := forall x y k, o_smul_degen O x y k <> Some (0, 1).

(** the helper values the prover must supply: inverses of point differences, the Lagrange values and the
    quotient, in the order they are used *)
Definition helpers (x u : Fr) (h : Fr) : list Fr :=
  let d j k := frinv (rot x j - rot x k)%fr in
  [d (-6) 0; d (-6) 1; d 0 (-6); d 0 1; d 1 (-6); d 1 0; d (-1) 0; d 0 (-1);
   frinv (vanish x u [-1; 2])] ++
  map (lagrange x) [0; -6; -5; -4; -3; -2; -1] ++ [h; d 0 2; d 1 2; d 2 0; d 2 1].

(** ** What the point gadgets can compute: results are finite and both coordinates are below the scalar modulus *)
Definition fits (P : pt) : Prop := exists X Y, P = Aff X Y /\ 0 <= X < r_mod /\ 0 <= Y < r_mod.
(** every term and every partial sum of the accumulation of [l] is computable *)
Definition computable (l : list ((Z * Z) * Z)) : Prop := forall l1 t l2, l = l1 ++ t :: l2 ->
  exists Q R, lin_comb [t] Q /\ fits Q /\ lin_comb (l1 ++ [t]) R /\ fits R /\
    forall S, lin_comb l1 S -> ~ add_degenerate S Q.
(** the same as a recursive function of the partial sum [acc], used in proofs *)
Fixpoint sums_fit (acc : pt) (l : list ((Z * Z) * Z)) : Prop :=
  match l with
  | [] => True
  | (P, k) :: t => let Q := pmul k (of_coords0 P) in
      fits Q /\ ~ add_degenerate acc Q /\ fits (padd acc Q) /\ sums_fit (padd acc Q) t
  end.
(** the order in which the terms of [final_terms] are accumulated *)
Definition add_order : list nat :=
  [6; 7; 8; 9; 37; 10; 41; 42; 15; 16; 22; 23; 24; 17; 18; 19; 20; 21; 14; 13; 25; 43; 44; 35; 34; 33; 5; 3; 11; 39; 4; 12; 40;
   26; 27; 28; 29; 30; 31; 32; 0; 1; 2; 38; 36]%nat.
Definition ordered_terms (l : list ((Z * Z) * Fr)) : list ((Z * Z) * Z) :=
  map (fun i => let t := nth i l ((0, 0), 0%fr) in (fst t, val (snd t))) add_order.
(** a claimed opening value [E] and the commitment terms: the combination that must open to 0 *)
Definition claim (E : Fr) (l : list ((Z * Z) * Z)) : list ((Z * Z) * Z) := ((1, p_mod - 2), val E) :: l.
Definition plain_terms (l : list ((Z * Z) * Fr)) : list ((Z * Z) * Z) := map (fun t => (fst t, val (snd t))) l.
(** the commitments are finite points of the curve in canonical form *)
Definition coms_valid (T : list Z) : Prop :=
  forall i, In i commitments -> valid_pt (Aff (nth (2 * i) T 0) (nth (2 * i + 1) T 0)) = true.
