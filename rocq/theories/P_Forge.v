(** Signatures made from the public key alone, and the KYC circuit (C75). *)
From Coq Require Import ZArith Znumtheory Bool List Lia.
From Verif Require Import Params Go Api Agg SpecMisc SpecKeys SpecEcdsa SpecKycTest SpecForge P_Fr P_Misc P_Kyc P_SecpNum.
Import ListNotations.
Open Scope Z_scope.

Definition nn : Z := secp_n.
Lemma nn_eq : nn = secp_n. Proof. reflexivity. Qed.
Lemma nn_prime : prime nn. Proof. exact prime_secp_n. Qed.
Local Opaque nn.

Lemma ninv a : 1 <= a < nn -> exists b, 0 <= b < nn /\ (a * b) mod nn = 1.
Proof.
  intros H. pose proof nn_prime as P. pose proof (prime_ge_2 _ P).
  assert (R : rel_prime a nn) by (apply rel_prime_le_prime; [exact P | lia]).
  destruct (rel_prime_bezout _ _ R) as [u v E]. exists (u mod nn). split; [apply Z.mod_pos_bound; lia|].
  rewrite Zmult_mod_idemp_r. replace (a * u) with (1 + (- v) * nn) by lia. rewrite Z_mod_plus_full. apply Z.mod_small. lia.
Qed.
(** congruence modulo n *)
Definition nc (a b : Z) : Prop := exists k, a = b + k * nn.
Lemma nc_iff a b : nc a b <-> a mod nn = b mod nn.
Proof.
  pose proof (prime_ge_2 _ nn_prime). split.
  - intros [k ->]. apply Z_mod_plus_full.
  - intros E. exists (a / nn - b / nn). rewrite (Z.div_mod a nn) at 1 by lia. rewrite (Z.div_mod b nn) at 1 by lia. rewrite E. ring.
Qed.
Lemma nc_refl a : nc a a. Proof. exists 0. ring. Qed.
Lemma nc_sym a b : nc a b -> nc b a. Proof. intros [k ->]. exists (- k). ring. Qed.
Lemma nc_trans a b c : nc a b -> nc b c -> nc a c. Proof. intros [k ->] [l ->]. exists (l + k). ring. Qed.
Lemma nc_mul a b c d : nc a b -> nc c d -> nc (a * c) (b * d).
Proof. intros [k ->] [l ->]. exists (b * l + k * d + k * l * nn). ring. Qed.
Lemma nc_mod a : nc (a mod nn) a.
Proof. pose proof (prime_ge_2 _ nn_prime). apply nc_iff. apply Z.mod_mod. lia. Qed.
Lemma nc_val a c : 0 <= c < nn -> (a mod nn = c <-> nc a c).
Proof. intros H. rewrite nc_iff, (Z.mod_small c) by exact H. reflexivity. Qed.

Lemma forged_core a b h r s : 0 <= a < nn -> 1 <= b < nn -> 1 <= r < nn -> 1 <= s < nn ->
  (b * s) mod nn = r -> (b * h) mod nn = (a * r) mod nn ->
  exists w, (s * w) mod nn = 1 /\ (h * w) mod nn = a /\ (r * w) mod nn = b.
Proof.
  intros Ha Hb Hr Hs E1 E2. pose proof (prime_ge_2 _ nn_prime). destruct (ninv r Hr) as (r' & _ & R).
  apply nc_val in E1; [|lia]. apply nc_iff in E2. apply nc_val in R; [|lia]. exists (b * r').
  split; [|split]; (apply nc_val; [lia|]).
  - replace (s * (b * r')) with (b * s * r') by ring. exact (nc_trans _ _ _ (nc_mul _ _ _ _ E1 (nc_refl r')) R).
  - replace (h * (b * r')) with (b * h * r') by ring. refine (nc_trans _ _ _ (nc_mul _ _ _ _ E2 (nc_refl r')) _).
    replace (a * r * r') with (a * (r * r')) by ring. pose proof (nc_mul _ _ _ _ (nc_refl a) R) as T. rewrite Z.mul_1_r in T. exact T.
  - replace (r * (b * r')) with (b * (r * r')) by ring. pose proof (nc_mul _ _ _ _ (nc_refl b) R) as T. rewrite Z.mul_1_r in T. exact T.
Qed.
Lemma valid_core h r s w : 1 <= r < nn -> (s * w) mod nn = 1 ->
  let a := (h * w) mod nn in let b := (r * w) mod nn in
  0 <= a < nn /\ 1 <= b < nn /\ (b * s) mod nn = r /\ (b * h) mod nn = (a * r) mod nn.
Proof.
  intros Hr W a b. pose proof nn_prime as P. pose proof (prime_ge_2 _ P).
  assert (A : 0 <= a < nn) by (apply Z.mod_pos_bound; lia). assert (B : 0 <= b < nn) by (apply Z.mod_pos_bound; lia).
  apply nc_val in W; [|lia].
  assert (E : (b * s) mod nn = r).
  { apply nc_val; [lia|]. refine (nc_trans _ _ _ (nc_mul _ _ _ _ (nc_mod (r * w)) (nc_refl s)) _).
    replace (r * w * s) with (r * (s * w)) by ring. pose proof (nc_mul _ _ _ _ (nc_refl r) W) as T. rewrite Z.mul_1_r in T. exact T. }
  split; [exact A|]. split; [|split; [exact E|]].
  - assert (b <> 0) by (intros Z0; rewrite Z0, Z.mul_0_l, Z.mod_0_l in E; lia). lia.
  - apply nc_iff. refine (nc_trans _ _ _ (nc_mul _ _ _ _ (nc_mod (r * w)) (nc_refl h)) _).
    replace (r * w * h) with (h * w * r) by ring. apply nc_mul; [apply nc_sym, nc_mod | apply nc_refl].
Qed.
Lemma c75_iff px py h r s : ecdsa_valid px py h r s <-> exists a b, forged px py a b h r s.
Proof.
  split.
  - intros (R & S & w & A & B & x & y & W & MA & MB & SS & X). rewrite <- nn_eq in R, W.
    destruct (valid_core h r s w R W) as (H1 & H2 & H3 & H4).
    exists ((h * w) mod secp_n), ((r * w) mod secp_n). split; [exact H1|]. split; [exact H2|]. split; [exact R|]. split; [exact S|].
    split; [exists A, B, x, y; repeat split; assumption|]. split; [exact H3 | exact H4].
  - intros (a & b & HA & HB & R & S & (A & B & x & y & MA & MB & SS & X) & E1 & E2).
    destruct (forged_core a b h r s HA HB R S E1 E2) as (w & W & Wh & Wr). rewrite nn_eq in W, Wh, Wr.
    split; [exact R|]. split; [exact S|]. exists w, A, B, x, y. rewrite Wh, Wr. repeat split; assumption.
Qed.
Lemma c75_valid px py a b h r s : forged px py a b h r s -> ecdsa_valid px py h r s.
Proof. intros F. apply c75_iff. exists a, b. exact F. Qed.
Lemma c75_exists px py a b A B x y : 0 <= a < secp_n -> 1 <= b < secp_n ->
  smultz a (SAff secp_gx secp_gy) A -> smultz b (SAff px py) B -> ssum A B (SAff x y) -> x mod secp_n <> 0 ->
  exists h s, 0 <= h < secp_n /\ forged px py a b h (x mod secp_n) s.
Proof.
  intros HA HB MA MB SS X. rewrite <- nn_eq in HA, HB, X. pose proof nn_prime as P. pose proof (prime_ge_2 _ P).
  destruct (ninv b HB) as (b' & _ & BB). apply nc_val in BB; [|lia]. rewrite <- nn_eq. set (r := x mod nn) in *.
  assert (R : 1 <= r < nn) by (pose proof (Z.mod_pos_bound x nn ltac:(lia)) as Q; fold r in Q; lia).
  exists ((a * r * b') mod nn), ((r * b') mod nn).
  assert (C : forall c, nc (b * ((c * b') mod nn)) c).
  { intros c. refine (nc_trans _ _ _ (nc_mul _ _ _ _ (nc_refl b) (nc_mod (c * b'))) _).
    replace (b * (c * b')) with (c * (b * b')) by ring. pose proof (nc_mul _ _ _ _ (nc_refl c) BB) as T. rewrite Z.mul_1_r in T. exact T. }
  assert (ES : (b * ((r * b') mod nn)) mod nn = r) by (apply nc_val; [lia | apply C]).
  split; [apply Z.mod_pos_bound; lia|]. split; [exact HA|]. split; [exact HB|]. split; [exact R|]. split; [|split; [|split]].
  - pose proof (Z.mod_pos_bound (r * b') nn ltac:(lia)) as Q.
    assert ((r * b') mod nn <> 0) by (intros Z0; rewrite Z0, Z.mul_0_r, Z.mod_0_l in ES; lia). rewrite nn_eq in *. lia.
  - exists A, B, x, y. repeat split; assumption.
  - exact ES.
  - apply nc_iff, C.
Qed.

(** the circuit *)
Lemma c75_test O c a b h r s age mn mx country cs_ st : forged kyc_pub_x kyc_pub_y a b h r s ->
  ecdsa_right O kyc_pub_x kyc_pub_y h r s ->
  kyc_hash c = EmConst h -> kyc_sig c = (EmConst r, EmConst s) ->
  to_big (k_age (kyc c)) = Done age -> to_big (fst (c_age (kyc_cond c))) = Done mn ->
  to_big (snd (c_age (kyc_cond c))) = Done mx -> to_big (k_country (kyc c)) = Done country ->
  Forall2 (fun v z => to_big v = Done z) (c_country (kyc_cond c)) cs_ ->
  0 <= age -> mn <= age <= mx -> listed country cs_ -> KycDefine O Test c st = Done (None, st).
Proof.
  intros F R Hh Hs Ha Hmn Hmx Hc HF A0 A1 L.
  apply (proj1 (c41_test O c h r s age mn mx country cs_ st Hh Hs Ha Hmn Hmx Hc HF)).
  split; [apply R, (c75_valid _ _ a b), F|]. split; [exact A0|]. split; [exact A1 | exact L].
Qed.
Lemma c75_compiled O n m l w a b h r s : forged kyc_pub_x kyc_pub_y a b h r s ->
  ecdsa_right O kyc_pub_x kyc_pub_y h r s ->
  let N := (2 + n + m + l)%nat in
  aw w 0%nat mod r_mod <= aw w N mod r_mod <= aw w 1%nat mod r_mod ->
  listed (aw w (N + 1)%nat) (map (fun i => aw w i mod r_mod) (seq 2 n)) ->
  exists S w', compile_kyc O n m l = inl S /\ sat O w' S /\ (forall i, (i < N + 4)%nat -> aw w' i = aw w i) /\
    ae w' 0%nat = r /\ ae w' 1%nat = s /\ ae w' 2%nat = h.
Proof.
  intros F R N HA L. destruct (kyc_shape_build O n m l) as (S & E & _ & H). cbv zeta in H.
  destruct (H {| aw := aw w; ae := fun i => match i with O => r | 1%nat => s | _ => h end |}) as (w' & B1 & B2 & B3).
  - cbn [aw ae]. fold N. split; [apply R, (c75_valid _ _ a b), F|]. split; [apply modr_range|]. split; [exact HA|].
    destruct L as (x & I & Ex). exists x. split; [exact I|]. rewrite modr_idem. exact Ex.
  - exists S, w'. split; [exact E|]. split; [exact B3|]. split; [exact B1|]. rewrite B2. repeat split; reflexivity.
Qed.
