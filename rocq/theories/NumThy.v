(** Number theory used by the proofs: Fermat's little theorem, Pocklington's primality
    criterion and the primality of the two BN254 moduli.  Nothing here models code. *)
From Coq Require Import ZArith Znumtheory Zpow_facts List Permutation Lia Bool.
From Verif Require Import NumPow NumCert.
Import ListNotations.
Open Scope Z_scope.

(** ** Products over lists modulo n *)
Definition zprod (l : list Z) : Z := fold_right Z.mul 1 l.

Lemma zprod_perm l1 l2 : Permutation l1 l2 -> zprod l1 = zprod l2.
Proof. induction 1; simpl; try lia; unfold zprod in *; simpl; nia. Qed.

Lemma zprod_map_mul a l : zprod (map (fun i => a * i) l) = a ^ Z.of_nat (length l) * zprod l.
Proof.
  induction l as [|x l IH]; [reflexivity|].
  cbn [map length]. change (zprod (a * x :: map (fun i => a * i) l)) with
    (a * x * zprod (map (fun i => a * i) l)).
  change (zprod (x :: l)) with (x * zprod l). rewrite IH, Nat2Z.inj_succ, Z.pow_succ_r by lia. ring.
Qed.

Lemma zprod_map_mod n l : zprod (map (fun i => i mod n) l) mod n = zprod l mod n.
Proof.
  induction l as [|x l IH]; [reflexivity|].
  cbn [map]. change (zprod (x mod n :: map (fun i => i mod n) l)) with
    (x mod n * zprod (map (fun i => i mod n) l)).
  change (zprod (x :: l)) with (x * zprod l).
  rewrite Zmult_mod, IH, Zmod_mod, <- Zmult_mod. reflexivity.
Qed.

Definition zrange (n : nat) : list Z := map Z.of_nat (seq 1 n).

Lemma in_zrange n x : In x (zrange n) <-> 1 <= x <= Z.of_nat n.
Proof.
  unfold zrange. rewrite in_map_iff. split.
  - intros (k & <- & Hk). apply in_seq in Hk. lia.
  - intros H. exists (Z.to_nat x). split; [lia|]. apply in_seq. lia.
Qed.

Lemma nodup_zrange n : NoDup (zrange n).
Proof.
  unfold zrange. apply FinFun.Injective_map_NoDup.
  - intros a b H. lia.
  - apply seq_NoDup.
Qed.

Lemma nodup_map_in {A B} (f : A -> B) l :
  (forall x y, In x l -> In y l -> f x = f y -> x = y) -> NoDup l -> NoDup (map f l).
Proof.
  induction l as [|a l IH]; intros Hf Hn; cbn [map]; [constructor|].
  inversion Hn as [|? ? Ha Hl]; subst. constructor.
  - rewrite in_map_iff. intros (y & Hy & Hin). apply Ha.
    rewrite <- (Hf y a); auto; [right; exact Hin | left; reflexivity].
  - apply IH; [intros x y Hx Hy; apply Hf; right; assumption | exact Hl].
Qed.

Lemma prime_zprod_range d n : prime d -> Z.of_nat n < d -> ~ (d | zprod (zrange n)).
Proof.
  intros Hp Hn Hd.
  assert (H : exists x, In x (zrange n) /\ (d | x)).
  { clear Hn. induction (zrange n) as [|x l IH]; cbn in Hd.
    - pose proof (prime_ge_2 _ Hp). apply Z.divide_1_r_nonneg in Hd; lia.
    - apply prime_mult in Hd; [|exact Hp]. destruct Hd as [Hd|Hd].
      + exists x. split; [left; reflexivity | exact Hd].
      + destruct (IH Hd) as (y & Hy & Hdy). exists y. split; [right; exact Hy | exact Hdy]. }
  destruct H as (x & Hx & Hdx). apply in_zrange in Hx.
  apply Z.divide_pos_le in Hdx; lia.
Qed.

Theorem fermat_little d a : prime d -> ~ (d | a) -> a ^ (d - 1) mod d = 1.
Proof.
  intros Hp Ha. pose proof (prime_ge_2 _ Hp) as Hd2.
  set (n := Z.to_nat (d - 1)). assert (Hn : Z.of_nat n = d - 1) by (unfold n; lia).
  set (L := map (fun i => (a * i) mod d) (zrange n)).
  assert (HP : Permutation L (zrange n)).
  { apply NoDup_Permutation_bis.
    - apply nodup_map_in; [|apply nodup_zrange].
      intros x y Hx Hy Hxy. apply in_zrange in Hx, Hy.
      assert (Hdiv : (d | a * (x - y))).
      { apply Z.mod_divide; [lia|]. rewrite Z.mul_sub_distr_l, Zminus_mod, Hxy, Z.sub_diag. reflexivity. }
      apply prime_mult in Hdiv; [|exact Hp]. destruct Hdiv as [Hdiv|Hdiv]; [contradiction|].
      destruct (Z.eq_dec x y) as [E|E]; [exact E|].
      destruct Hdiv as [q Hq]. assert (q = 0) by nia. lia.
    - unfold L. rewrite map_length. lia.
    - intros x Hx. unfold L in Hx. apply in_map_iff in Hx. destruct Hx as (i & <- & Hi).
      apply in_zrange in Hi. apply in_zrange.
      pose proof (Z.mod_pos_bound (a * i) d ltac:(lia)) as Hb.
      enough ((a * i) mod d <> 0) by lia.
      intros H0. apply Z.mod_divide in H0; [|lia].
      apply prime_mult in H0; [|exact Hp]. destruct H0 as [H0|H0]; [contradiction|].
      apply Z.divide_pos_le in H0; lia. }
  apply zprod_perm in HP.
  assert (HL : zprod L mod d = (a ^ (d - 1) * zprod (zrange n)) mod d).
  { unfold L. rewrite <- Hn.
    replace (Z.of_nat n) with (Z.of_nat (length (zrange n)))
      by (unfold zrange; rewrite map_length, seq_length; reflexivity).
    rewrite <- zprod_map_mul, <- (zprod_map_mod d (map (fun i => a * i) _)), map_map. reflexivity. }
  rewrite HP in HL. set (F := zprod (zrange n)) in *.
  assert (HF : ~ (d | F)) by (apply prime_zprod_range; [exact Hp|lia]).
  assert (Hdiv : (d | F * (a ^ (d - 1) - 1))).
  { apply Z.mod_divide; [lia|]. rewrite Z.mul_sub_distr_l, Z.mul_1_r, Zminus_mod, (Z.mul_comm F), <- HL, Z.sub_diag.
    reflexivity. }
  apply prime_mult in Hdiv; [|exact Hp]. destruct Hdiv as [Hdiv|Hdiv]; [contradiction|].
  destruct Hdiv as [q Hq]. replace (a ^ (d - 1)) with (1 + q * d) by lia.
  rewrite Z.mod_add by lia. apply Z.mod_small. lia.
Qed.

(** ** Exponents with a^x = 1 are closed under gcd *)
Lemma pow_mod_one_mul d a x k : 1 < d -> 0 <= x -> 0 <= k -> a ^ x mod d = 1 -> a ^ (x * k) mod d = 1.
Proof.
  intros Hd Hx Hk H. rewrite Z.pow_mul_r by lia.
  rewrite Zpower_mod, H by lia.
  rewrite Z.pow_1_l by lia. apply Z.mod_small. lia.
Qed.

Lemma pow_mod_one_mod d a x y : 1 < d -> 0 <= x -> 0 < y ->
  a ^ x mod d = 1 -> a ^ y mod d = 1 -> a ^ (x mod y) mod d = 1.
Proof.
  intros Hd Hx Hy H1 H2.
  pose proof (Z.div_mod x y ltac:(lia)) as E. pose proof (Z.mod_pos_bound x y Hy) as B.
  assert (0 <= x / y) by (apply Z.div_pos; lia).
  rewrite E in H1. rewrite Z.pow_add_r in H1 by nia.
  rewrite Zmult_mod, pow_mod_one_mul, Z.mul_1_l, Zmod_mod in H1 by (try exact H2; lia). exact H1.
Qed.

Lemma pow_mod_one_gcd d a : 1 < d -> forall y, 0 <= y -> forall x, 0 <= x ->
  a ^ x mod d = 1 -> a ^ y mod d = 1 -> a ^ (Z.gcd x y) mod d = 1.
Proof.
  intros Hd y Hy. pattern y. apply Zlt_0_ind; [|exact Hy]. clear y Hy.
  intros y IH Hy x Hx H1 H2.
  destruct (Z.eq_dec y 0) as [->|Hy0].
  - rewrite Z.gcd_0_r, Z.abs_eq by lia. exact H1.
  - rewrite Z.gcd_comm, <- Z.gcd_mod by lia. rewrite Z.gcd_comm.
    pose proof (Z.mod_pos_bound x y ltac:(lia)).
    apply IH; try lia; try assumption. apply pow_mod_one_mod; try assumption; lia.
Qed.

(** ** Pocklington's criterion (distinct prime factors q of N-1 with product F, F^2 > N) *)
Record pock_item := { pk_q : Z; pk_a : Z }.

(** x mod n with a shortcut for x < 2n *)
Definition redm (x n : Z) : Z :=
  if x <? n then x else let y := x - n in if y <? n then y else x mod n.

(** square and multiply *)
Fixpoint powm_pos (a : Z) (e : positive) (n : Z) : Z :=
  match e with
  | xH => a mod n
  | xO e' => let z := powm_pos a e' n in (z * z) mod n
  | xI e' => let z := powm_pos a e' n in redm ((z * z) mod n * a) n
  end.
Definition powm (a e n : Z) : Z := match e with Zpos e' => powm_pos a e' n | _ => 1 mod n end.

Lemma redm_mod x n : 0 < n -> 0 <= x -> redm x n = x mod n.
Proof.
  intros Hn Hx. unfold redm. destruct (x <? n) eqn:E; [apply Z.ltb_lt in E; symmetry; apply Z.mod_small; lia|].
  apply Z.ltb_ge in E. cbv zeta. destruct (x - n <? n) eqn:E2; [|reflexivity]. apply Z.ltb_lt in E2.
  apply Z.mod_unique with 1; lia.
Qed.

Lemma powm_pos_mod a e n : 0 < n -> 0 <= a -> powm_pos a e n = a ^ Zpos e mod n.
Proof.
  intros Hn Ha. induction e as [e IH|e IH|]; cbn [powm_pos]; cbv zeta.
  - rewrite IH, redm_mod; [| lia | apply Z.mul_nonneg_nonneg; [apply Z.mod_pos_bound; lia | lia]].
    rewrite <- Zmult_mod, Zmult_mod_idemp_l. rewrite <- Z.pow_add_r by lia.
    rewrite Z.mul_comm, <- Z.pow_succ_r by lia. f_equal. f_equal. lia.
  - rewrite IH, <- Zmult_mod, <- Z.pow_add_r by lia. f_equal. f_equal. lia.
  - rewrite Z.pow_1_r. reflexivity.
Qed.

Lemma powm_mod a e n : 0 < n -> 0 <= a -> 0 <= e -> powm a e n = a ^ e mod n.
Proof.
  intros Hn Ha He. unfold powm. destruct e as [|e|e]; [reflexivity | apply powm_pos_mod; lia | lia].
Qed.

Definition pock_ok (N : Z) (it : pock_item) : bool :=
  let q := pk_q it in let a := pk_a it in
  let t := powm a ((N - 1) / q) N in
  (1 <? q) && ((N - 1) mod q =? 0) && (0 <=? a) &&
  (powm t q N =? 1) &&
  (Z.gcd (t - 1) N =? 1).

Lemma pock_divides N d it : 1 < N -> prime d -> (d | N) -> prime (pk_q it) -> pock_ok N it = true ->
  (pk_q it | d - 1).
Proof.
  intros HN Hd HdN Hq Hok. unfold pock_ok in Hok. destruct it as [q a]; cbn [pk_q pk_a] in *. cbv zeta in Hok.
  rewrite !andb_true_iff in Hok. destruct Hok as ((((Hq1 & Hq2) & Ha0) & Ha) & Hg).
  apply Z.ltb_lt in Hq1. apply Z.leb_le in Ha0. apply Z.eqb_eq in Hq2, Ha, Hg.
  assert (Hdm : 0 <= (N - 1) / q) by (apply Z.div_pos; lia).
  rewrite (powm_mod a) in Ha, Hg by lia.
  rewrite powm_mod in Ha by (try lia; apply Z.mod_pos_bound; lia).
  rewrite <- Zpower_mod, <- Z.pow_mul_r in Ha by lia.
  replace ((N - 1) / q * q) with (N - 1) in Ha
    by (pose proof (Z.div_mod (N - 1) q ltac:(lia)); lia).
  pose proof (prime_ge_2 _ Hd) as Hd2.
  apply Z.mod_divide in Hq2; [|lia]. destruct Hq2 as [m Hm].
  assert (Hm0 : 0 < m) by nia.
  replace ((N - 1) / q) with m in Hg by (rewrite Hm, Z.div_mul; lia).
  destruct (Zdivide_dec q (d - 1)) as [H|Hnd]; [exact H|exfalso].
  destruct HdN as [c Hc].
  assert (HdNm : forall z, (z mod N) mod d = z mod d).
  { intros z. rewrite Hc. rewrite Z.mul_comm. rewrite Z.rem_mul_r by nia.
    rewrite Z.add_mod, (Z.mul_comm d), Z.mod_mul, Z.add_0_r, !Z.mod_mod by lia. reflexivity. }
  assert (Ha1 : a ^ (N - 1) mod d = 1).
  { rewrite <- HdNm, Ha. apply Z.mod_small. lia. }
  assert (Hda : ~ (d | a)).
  { intros Hda. assert (Hz : a ^ (N - 1) mod d = 0).
    { apply Z.mod_divide; [lia|]. destruct Hda as [k ->].
      replace (N - 1) with (Z.succ (N - 2)) by lia. rewrite Z.pow_succ_r by lia.
      exists (k * (k * d) ^ (N - 2)). ring. }
    lia. }
  pose proof (fermat_little d a Hd Hda) as Hf.
  assert (Hgcd : a ^ (Z.gcd (d - 1) (N - 1)) mod d = 1) by (apply pow_mod_one_gcd; try assumption; lia).
  set (g := Z.gcd (d - 1) (N - 1)) in *.
  assert (Hgq : rel_prime g q).
  { apply rel_prime_sym. apply prime_rel_prime; [exact Hq|]. intros Hqg. apply Hnd.
    eapply Z.divide_trans; [exact Hqg|]. apply Z.gcd_divide_l. }
  assert (Hgm : (g | m)).
  { assert (H : (g | N - 1)) by apply Z.gcd_divide_r. rewrite Hm in H.
    apply Gauss with q; [|exact Hgq]. rewrite Z.mul_comm. exact H. }
  destruct Hgm as [k Hk].
  assert (0 <= g) by apply Z.gcd_nonneg. assert (0 <= k) by nia.
  assert (Ham : a ^ m mod d = 1).
  { rewrite Hk, (Z.mul_comm k). apply pow_mod_one_mul; try assumption; lia. }
  assert (Hdd : (d | Z.gcd (a ^ m mod N - 1) N)).
  { apply Z.gcd_greatest; [|exists c; exact Hc].
    apply Z.mod_divide; [lia|]. rewrite Zminus_mod, HdNm, Ham.
    rewrite (Z.mod_small 1) by lia. reflexivity. }
  rewrite Hg in Hdd. apply Z.divide_1_r_nonneg in Hdd; lia.
Qed.

Fixpoint all_distinct_coprime (l : list Z) : bool :=
  match l with
  | [] => true
  | q :: l' => (Z.gcd q (zprod l') =? 1) && all_distinct_coprime l'
  end.

Lemma coprime_prod_divide l m : all_distinct_coprime l = true ->
  (forall q, In q l -> (q | m)) -> (zprod l | m).
Proof.
  induction l as [|q l IH]; intros Hc Hd; [cbn; apply Z.divide_1_l|].
  cbn in Hc. apply andb_true_iff in Hc. destruct Hc as [Hc1 Hc2]. apply Z.eqb_eq in Hc1.
  assert (H1 : (zprod l | m)) by (apply IH; [exact Hc2 | intros x Hx; apply Hd; right; exact Hx]).
  assert (H2 : (q | m)) by (apply Hd; left; reflexivity).
  change (zprod (q :: l)) with (q * zprod l).
  destruct H1 as [k Hk]. rewrite Hk in H2.
  assert (H3 : (q | k)).
  { apply Gauss with (zprod l); [rewrite Z.mul_comm; exact H2|]. apply Zgcd_1_rel_prime. exact Hc1. }
  destruct H3 as [j ->]. exists j. rewrite Hk. ring.
Qed.

Lemma prime_divisor n : 1 < n -> exists d, prime d /\ (d | n).
Proof.
  intros Hn. assert (H0 : 0 <= n) by lia. revert Hn. pattern n.
  apply Zlt_0_ind; [|exact H0]. clear n H0. intros n IH _ Hn.
  destruct (prime_dec n) as [Hp|Hnp].
  - exists n. split; [exact Hp | apply Z.divide_refl].
  - apply not_prime_divide in Hnp; [|exact Hn]. destruct Hnp as (m & Hm & Hmn).
    destruct (IH m ltac:(lia) ltac:(lia)) as (d & Hd & Hdm).
    exists d. split; [exact Hd|]. eapply Z.divide_trans; eassumption.
Qed.

Lemma prime_by_small_divisor n : 1 < n ->
  (forall d, prime d -> (d | n) -> n < d * d) -> prime n.
Proof.
  intros Hn H. destruct (prime_dec n) as [Hp|Hnp]; [exact Hp|exfalso].
  apply not_prime_divide in Hnp; [|exact Hn]. destruct Hnp as (m & Hm & [k Hk]).
  destruct (prime_divisor m ltac:(lia)) as (d1 & Hd1 & Hdm1).
  assert (Hk1 : 1 < k) by nia.
  destruct (prime_divisor k Hk1) as (d2 & Hd2 & Hdm2).
  pose proof (prime_ge_2 _ Hd1). pose proof (prime_ge_2 _ Hd2).
  assert (d1 <= m) by (apply Z.divide_pos_le; [lia|exact Hdm1]).
  assert (d2 <= k) by (apply Z.divide_pos_le; [lia|exact Hdm2]).
  assert (N1 : n < d1 * d1).
  { apply H; [exact Hd1|]. rewrite Hk. apply Z.divide_mul_r. exact Hdm1. }
  assert (N2 : n < d2 * d2).
  { apply H; [exact Hd2|]. rewrite Hk. apply Z.divide_mul_l. exact Hdm2. }
  assert (Hmul : d1 * d2 <= m * k) by (apply Z.mul_le_mono_nonneg; lia).
  destruct (Z.le_ge_cases d1 d2); nia.
Qed.

Theorem pocklington N items : 1 < N ->
  (forall it, In it items -> prime (pk_q it)) ->
  forallb (pock_ok N) items = true ->
  all_distinct_coprime (map pk_q items) = true ->
  N <? zprod (map pk_q items) * zprod (map pk_q items) = true -> prime N.
Proof.
  intros HN Hp Hok Hc HF. apply Z.ltb_lt in HF.
  apply prime_by_small_divisor; [exact HN|]. intros d Hd HdN.
  assert (HFd : (zprod (map pk_q items) | d - 1)).
  { apply coprime_prod_divide; [exact Hc|]. intros q Hq. apply in_map_iff in Hq.
    destruct Hq as (it & <- & Hit). apply pock_divides with N; try assumption.
    - apply Hp. exact Hit.
    - rewrite forallb_forall in Hok. apply Hok. exact Hit. }
  pose proof (prime_ge_2 _ Hd).
  assert (0 <= zprod (map pk_q items)).
  { clear - Hp. induction items as [|it l IH]; cbn; [lia|].
    assert (0 <= zprod (map pk_q l)) by (apply IH; intros x Hx; apply Hp; right; exact Hx).
    pose proof (prime_ge_2 _ (Hp it (or_introl eq_refl))). unfold zprod in *. nia. }
  apply Z.divide_pos_le in HFd; nia.
Qed.

(** the same test with supplied quotients and Bezout coefficients *)
Definition pock_okq (N : Z) (c : pock_item * (list Z * (Z * Z))) : bool :=
  let '(it, (qs, (u, v))) := c in
  let q := pk_q it in let a := pk_a it in
  (1 <? q) && ((N - 1) mod q =? 0) &&
  match (N - 1) / q, q with
  | Zpos e, Zpos f => match powq a e N qs with
      | Some (t, qs') => match powq t f N qs' with
          | Some (z, _) => (0 <=? t) && (z =? 1) && (u * (t - 1) - v * N =? 1)
          | None => false end
      | None => false end
  | _, _ => false
  end && (0 <=? a).
Lemma pock_okq_ok N c : 1 < N -> pock_okq N c = true -> pock_ok N (fst c) = true.
Proof.
  destruct c as [[q a] [qs [u v]]]. intros HN. unfold pock_okq, pock_ok. cbn [pk_q pk_a fst]. cbv zeta.
  rewrite !andb_true_iff. intros (((Hq & Hm) & H) & Ha).
  destruct ((N - 1) / q) as [|e|e] eqn:Ee; try discriminate H. destruct q as [|f|f]; try discriminate H.
  destruct (powq a e N qs) as [[t qs']|] eqn:E1; [|discriminate H].
  destruct (powq t f N qs') as [[z l]|] eqn:E2; [|discriminate H].
  rewrite !andb_true_iff in H. destruct H as ((Ht & Hz) & Hb).
  apply powq_mod in E1; [|lia]. apply powq_mod in E2; [|lia].
  apply Z.leb_le in Ha as Ha'. apply Z.leb_le in Ht.
  rewrite (powm_mod a) by lia. rewrite <- E1. rewrite powm_mod by lia. rewrite <- E2.
  repeat split; try assumption.
  apply Z.eqb_eq in Hb. apply Z.eqb_eq. apply Zgcd_1_rel_prime. apply bezout_rel_prime.
  apply (Bezout_intro _ _ _ u (- v)). lia.
Qed.
Lemma forallb_okq N l : 1 < N -> forallb (pock_okq N) l = true -> forallb (pock_ok N) (map fst l) = true.
Proof.
  intros HN. induction l as [|c l IH]; cbn [forallb map]; [reflexivity|]. rewrite !andb_true_iff. intros [H1 H2].
  split; [apply pock_okq_ok; assumption | apply IH, H2].
Qed.

(** ** Trial division for small primes *)
Fixpoint no_div_from (fuel : nat) (d n : Z) : bool :=
  match fuel with
  | O => n <? d * d
  | S f => if n <? d * d then true else if n mod d =? 0 then false else no_div_from f (d + 1) n
  end.

Lemma no_div_from_ok fuel : forall d n, 1 < d -> no_div_from fuel d n = true ->
  forall e, d <= e -> (e | n) -> n < e * e.
Proof.
  induction fuel as [|f IH]; intros d n Hd H e He Hdiv; cbn in H.
  - apply Z.ltb_lt in H. nia.
  - destruct (n <? d * d) eqn:E1; [apply Z.ltb_lt in E1; nia|].
    destruct (n mod d =? 0) eqn:E2; [discriminate|]. apply Z.eqb_neq in E2.
    destruct (Z.eq_dec e d) as [->|Hne].
    + exfalso. apply E2. apply Z.mod_divide; [lia|exact Hdiv].
    + apply IH with (d + 1); try assumption; lia.
Qed.

Lemma prime_trial fuel n : 1 <? n = true -> no_div_from fuel 2 n = true -> prime n.
Proof.
  intros Hn H. apply Z.ltb_lt in Hn. apply prime_by_small_divisor; [exact Hn|].
  intros d Hd Hdn. apply no_div_from_ok with (fuel := fuel) (d := 2); try assumption; try lia.
  pose proof (prime_ge_2 _ Hd). lia.
Qed.

Ltac trial := apply (prime_trial (Z.to_nat 400)); vm_compute; reflexivity.
Ltac pock l := apply (pocklington _ l);
  [ lia
  | intros it Hit; cbn in Hit; repeat (destruct Hit as [<-|Hit]; [cbn; auto|]); contradiction
  | vm_compute; reflexivity | vm_compute; reflexivity | vm_compute; reflexivity ].

Ltac pockq l := apply (pocklington _ (map fst l));
  [ lia
  | intros it Hit; cbn in Hit; repeat (destruct Hit as [<-|Hit]; [cbn; auto|]); contradiction
  | apply forallb_okq; [lia | vm_compute; reflexivity] | vm_compute; reflexivity | vm_compute; reflexivity ].

Lemma prime_661 : prime 661. Proof. trial. Qed.
Lemma prime_911 : prime 911. Proof. trial. Qed.
Lemma prime_3557 : prime 3557. Proof. trial. Qed.
Lemma prime_13327 : prime 13327. Proof. trial. Qed.
Lemma prime_93001 : prime 93001. Proof. trial. Qed.
Lemma prime_853 : prime 853. Proof. trial. Qed.
Lemma prime_1637 : prime 1637. Proof. trial. Qed.
#[export] Hint Resolve prime_661 prime_911 prime_3557 prime_13327 prime_853 prime_1637 prime_93001 : core.
Lemma prime_173171039 : prime 173171039.
Proof. pock [{|pk_q:=13327;pk_a:=2|}]. Qed.
Lemma prime_639533339 : prime 639533339.
Proof. pock [{|pk_q:=1637;pk_a:=2|};{|pk_q:=853;pk_a:=2|}]. Qed.
#[export] Hint Resolve prime_173171039 prime_639533339 : core.
Lemma prime_1263766531 : prime 1263766531.
Proof. pock [{|pk_q:=3557;pk_a:=2|};{|pk_q:=911;pk_a:=2|}]. Qed.
Lemma prime_12048837557 : prime 12048837557.
Proof. pock [{|pk_q:=93001;pk_a:=2|};{|pk_q:=661;pk_a:=2|}]. Qed.
#[export] Hint Resolve prime_1263766531 prime_12048837557 : core.
Lemma prime_35385462869 : prime 35385462869.
Proof. pock [{|pk_q:=1263766531;pk_a:=2|}]. Qed.
Lemma prime_5156902474397 : prime 5156902474397.
Proof. pock [{|pk_q:=12048837557;pk_a:=2|}]. Qed.
#[export] Hint Resolve prime_35385462869 prime_5156902474397 : core.
Lemma prime_1670836401704629 : prime 1670836401704629.
Proof. pock [{|pk_q:=5156902474397;pk_a:=2|}]. Qed.
Lemma prime_2480874801745591 : prime 2480874801745591.
Proof. pock [{|pk_q:=35385462869;pk_a:=2|}]. Qed.
#[export] Hint Resolve prime_1670836401704629 prime_2480874801745591 : core.
Lemma prime_p133 : prime 13427688667394608761327070753331941386769.
Proof. pockq [({|pk_q:=2480874801745591;pk_a:=2|}, (qs_p133_0, (0x13f129f8f8fe5ebe53850d6a900049ba87, 0x107471dabaf2f9d684b52652ff805e67fe)));
    ({|pk_q:=173171039;pk_a:=2|}, (qs_p133_1, (0x18affcdf94112a88a09f3bab9683a49d0b, 0x11fde0788a9fb24c399c71bd11142d520d)))]. Qed.
Lemma prime_65865678001877903 : prime 65865678001877903.
Proof. pock [{|pk_q:=639533339;pk_a:=2|}]. Qed.
#[export] Hint Resolve prime_p133 prime_65865678001877903 : core.
Lemma prime_r94 : prime 13818364434197438864469338081.
Proof. pockq [({|pk_q:=65865678001877903;pk_a:=2|}, (qs_r94_0, (0x27af4995b5c971ff1be1666a, 0x16ca0897b6da76cad031a955)))]. Qed.
#[export] Hint Resolve prime_r94 : core.

(** The two BN254 moduli are prime. *)
Theorem prime_fr :
  prime 21888242871839275222246405745257275088548364400416034343698204186575808495617.
Proof.
  pockq [({|pk_q:=13818364434197438864469338081;pk_a:=2|}, (qs_fr_0, (0x29a1d6cdff4615644953694b0908408f070056350f6009ad0924c654e07a589d, 0x23c73d8383bd31e72d4170f080ad61267d480fc8799356051d36e0c3fb58550a)));
    ({|pk_q:=1670836401704629;pk_a:=2|}, (qs_fr_1, (0x30b43c635b2375e9f82f247135e791541018e190295925392ce8c12f2bea62, 0x22387b56df65073a8376d6f2a56667189fd17f4bea5781baee74f63a0e4ea3)))].
Qed.
Theorem prime_fp :
  prime 21888242871839275222246405745257275088696311157297823662689037894645226208583.
Proof. pockq [({|pk_q:=13427688667394608761327070753331941386769;pk_a:=2|}, (qs_fp_0, (0x11280702cece1e1134e5fe9ec88ce193dfcc50edfa655be2c8acda3cb27035f7, 0x10159074acbc70c8e803477f05f5f765e8d140866780e84bf024d7d4354135f9)))]. Qed.
