(** The evaluation domain: powers of omega, Lagrange basis. *)
From Coq Require Import ZArith Znumtheory Zpow_facts Bool List Lia Arith Ring Field.
From Verif Require Import Params NumThy FField FpField SpecVerify.
Import ListNotations.
Open Scope Z_scope.

(** ** Powers *)
Lemma fexp_fc a k : 0 <= k -> fc (a ^ k) = fexp (fc a) k.
Proof. intros Hk. unfold fexp. apply phi_eq_iff. rewrite val_phi. apply Zpow_facts.Zpower_mod. reflexivity. Qed.
Lemma fexp_0 a : fexp a 0 = 1%fr. Proof. reflexivity. Qed.
Lemma fexp_1 a : fexp a 1 = a. Proof. unfold fexp. rewrite Z.pow_1_r. apply phi_val. Qed.
Lemma fexp_add a i j : 0 <= i -> 0 <= j -> fexp a (i + j) = (fexp a i * fexp a j)%fr.
Proof. intros. unfold fexp. rewrite Z.pow_add_r by lia. apply phi_mul. Qed.
Lemma fexp_mul a i j : 0 <= i -> 0 <= j -> fexp a (i * j) = fexp (fexp a i) j.
Proof. intros. unfold fexp at 1. rewrite Z.pow_mul_r by lia. rewrite fexp_fc by lia. reflexivity. Qed.
Lemma fexp_prod a b k : 0 <= k -> fexp (a * b)%fr k = (fexp a k * fexp b k)%fr.
Proof.
  intros. unfold fexp at 2 3. rewrite <- phi_mul, <- Z.pow_mul_l, fexp_fc, phi_mul, !phi_val by lia. reflexivity.
Qed.
Lemma fexp_2 a : fexp a 2 = (a * a)%fr.
Proof. change 2 with (1 + 1). rewrite fexp_add, fexp_1 by lia. reflexivity. Qed.
Lemma fexp_one k : 0 <= k -> fexp 1%fr k = 1%fr.
Proof. intros. unfold fexp. change (val 1%fr) with (1 mod r_mod). rewrite Z.mod_small by (split; reflexivity || lia). rewrite Z.pow_1_l by lia. reflexivity. Qed.
Lemma fexp_S a (j : nat) : fexp a (Z.of_nat (S j)) = (a * fexp a (Z.of_nat j))%fr.
Proof. rewrite Nat2Z.inj_succ, <- Z.add_1_l, fexp_add, fexp_1 by lia. reflexivity. Qed.

Lemma fr_1_0 : 1%fr <> 0%fr.
Proof. intros H. apply (f_equal val) in H. discriminate H. Qed.
Lemma fmul_nz a b : a <> 0%fr -> b <> 0%fr -> (a * b)%fr <> 0%fr.
Proof. intros Ha Hb H. apply fmul_eq0 in H; [tauto | exact prime_r]. Qed.
Lemma sub_nz a b : a <> b -> (a - b)%fr <> 0%fr.
Proof. intros H E. apply H. transitivity ((a - b) + b)%fr; [ring | rewrite E; ring]. Qed.
Lemma nz_sub a b : (a - b)%fr <> 0%fr -> a <> b.
Proof. intros H ->. apply H. ring. Qed.
Lemma inv_unique a b : (a * b = 1)%fr -> b = frinv a.
Proof.
  intros H. assert (a <> 0%fr). { intros ->. apply fr_1_0. rewrite <- H. ring. }
  transitivity (frinv a * (a * b))%fr; [field; assumption | rewrite H; field; assumption].
Qed.
Lemma fdiv_unique a b c : b <> 0%fr -> (b * c = a)%fr -> c = (a / b)%fr.
Proof. intros H <-. field. exact H. Qed.

(** ** Products *)
Lemma prod_cons a l : prod (a :: l) = (a * prod l)%fr. Proof. reflexivity. Qed.
Lemma prod_nil : prod [] = 1%fr. Proof. reflexivity. Qed.
Lemma prod_app a b : prod (a ++ b) = (prod a * prod b)%fr.
Proof. induction a as [|x a IH]; cbn [app]; rewrite ?prod_cons, ?prod_nil; [|rewrite IH]; ring. Qed.
Lemma prod_map_mul {X} (f g : X -> Fr) l : prod (map (fun j => f j * g j)%fr l) = (prod (map f l) * prod (map g l))%fr.
Proof. induction l as [|x l IH]; cbn [map]; rewrite ?prod_cons, ?prod_nil; [|rewrite IH]; ring. Qed.
Lemma prod_div {X} (f g : X -> Fr) l : prod (map g l) <> 0%fr ->
  prod (map (fun j => f j / g j)%fr l) = (prod (map f l) / prod (map g l))%fr.
Proof.
  induction l as [|x l IH]; cbn [map]; rewrite ?prod_cons, ?prod_nil; intros H; [field; exact fr_1_0|].
  assert (H1 : g x <> 0%fr) by (intros E; apply H; rewrite E; ring).
  assert (H2 : prod (map g l) <> 0%fr) by (intros E; apply H; rewrite E; ring).
  rewrite IH by exact H2. field. auto.
Qed.
Lemma seq_shift_map a b n : seq (a + b) n = map (fun j => (j + b)%nat) (seq a n).
Proof. revert a. induction n as [|n IH]; intros a; cbn [seq map]; [reflexivity|]. f_equal. apply (IH (S a)). Qed.

(** ** Roots of unity of order 2^k *)
Definition root (k : nat) (w : Fr) : Prop :=
  match k with O => w = 1%fr | S j => fexp w (2 ^ Z.of_nat j) = (- (1))%fr end.
Lemma root_sq k w : root (S k) w -> root k (w * w)%fr.
Proof.
  cbn [root]. destruct k as [|j]; cbn [root].
  - change (2 ^ Z.of_nat 0) with 1. rewrite fexp_1. intros ->. ring.
  - rewrite Nat2Z.inj_succ, Z.pow_succ_r, fexp_mul, fexp_2 by lia. auto.
Qed.
Lemma pow_S k : (2 ^ S k = 2 ^ k + 2 ^ k)%nat.
Proof. rewrite Nat.pow_succ_r'. lia. Qed.
Lemma pow_pos k : (1 <= 2 ^ k)%nat.
Proof. induction k as [|k IH]; [cbn; lia | rewrite pow_S; lia]. Qed.
Lemma pow_Z k : Z.of_nat (2 ^ k) = 2 ^ Z.of_nat k.
Proof. induction k as [|k IH]; [reflexivity|]. rewrite pow_S, Nat2Z.inj_add, IH, Nat2Z.inj_succ, Z.pow_succ_r by lia. lia. Qed.
Lemma root_half k w (j : nat) : root (S k) w -> fexp w (Z.of_nat (j + 2 ^ k)) = (- fexp w (Z.of_nat j))%fr.
Proof.
  cbn [root]. intros H. rewrite Nat2Z.inj_add, fexp_add, pow_Z, H by lia. ring.
Qed.
Lemma fexp_sqr w (j : nat) : fexp (w * w)%fr (Z.of_nat j) = (fexp w (Z.of_nat j) * fexp w (Z.of_nat j))%fr.
Proof. apply fexp_prod. lia. Qed.

Lemma roots_prod k : forall w x, root k w ->
  prod (map (fun j => x - fexp w (Z.of_nat j))%fr (seq 0 (2 ^ k))) = (fexp x (2 ^ Z.of_nat k) - 1)%fr.
Proof.
  induction k as [|k IH]; intros w x H.
  - cbn [root] in H. subst w. cbn [Nat.pow seq map prod fold_right Z.of_nat]. change (2 ^ 0) with 1.
    rewrite fexp_0, fexp_1. ring.
  - rewrite pow_S, seq_app, map_app, prod_app, seq_shift_map, map_map, <- prod_map_mul.
    rewrite (map_ext _ (fun j => (x * x) - fexp (w * w) (Z.of_nat j))%fr).
    + rewrite (IH _ _ (root_sq k w H)). rewrite Nat2Z.inj_succ, Z.pow_succ_r, fexp_mul, fexp_2 by lia. reflexivity.
    + intros j. rewrite (root_half k w j H), fexp_sqr. ring.
Qed.

Lemma roots_diff k : forall w, root k w ->
  prod (map (fun j => 1 - fexp w (Z.of_nat j))%fr (seq 1 (2 ^ k - 1))) = fc (2 ^ Z.of_nat k).
Proof.
  induction k as [|k IH]; intros w H; [reflexivity|].
  pose proof (pow_pos k) as P. rewrite pow_S.
  replace (2 ^ k + 2 ^ k - 1)%nat with ((2 ^ k - 1) + S (2 ^ k - 1))%nat by lia.
  rewrite seq_app. replace (1 + (2 ^ k - 1))%nat with (0 + 2 ^ k)%nat by lia. cbn [seq].
  change (S (0 + 2 ^ k))%nat with (1 + 2 ^ k)%nat. rewrite (seq_shift_map 1 (2 ^ k)).
  rewrite map_app, prod_app. cbn [map]. rewrite map_map.
  change (prod (?a :: ?l)) with (a * prod l)%fr.
  rewrite (root_half k w 0 H). change (Z.of_nat 0) with 0. rewrite fexp_0.
  match goal with |- (?a * (?b * ?c) = _)%fr => transitivity (b * (a * c))%fr; [ring|] end.
  rewrite <- prod_map_mul.
  rewrite (map_ext _ (fun j => 1 - fexp (w * w) (Z.of_nat j))%fr).
  - rewrite (IH _ (root_sq k w H)), Nat2Z.inj_succ, Z.pow_succ_r, phi_mul by lia. f_equal. ring.
  - intros j. rewrite (root_half k w j H), fexp_sqr. ring.
Qed.

(** ** The order of omega *)
Definition dom_k : nat := 23.
Lemma omega_root : root dom_k omega.
Proof.
  cbn [root dom_k]. unfold omega. rewrite <- fexp_fc by (vm_compute; discriminate). change (- (1))%fr with (- fc 1)%fr. rewrite <- phi_opp.
  apply phi_eq_iff. rewrite <- powm_mod by (vm_compute; congruence || reflexivity). vm_compute. reflexivity.
Qed.
Lemma dom_pow : dom_n = 2 ^ Z.of_nat dom_k. Proof. reflexivity. Qed.
Lemma dom_nat : Z.to_nat dom_n = (2 ^ dom_k)%nat.
Proof. apply Nat2Z.inj. rewrite pow_Z, Z2Nat.id by (unfold dom_n; lia). reflexivity. Qed.
Global Opaque dom_k.

Lemma neg1_ne : (- (1))%fr <> 1%fr.
Proof. intros H. apply (f_equal val) in H. discriminate H. Qed.

Lemma neg1_odd m : 0 <= m -> fexp (- (1))%fr (2 * m + 1) = (- (1))%fr.
Proof.
  intros Hm. rewrite fexp_add, fexp_mul, fexp_1, fexp_2 by lia.
  replace (- (1) * - (1))%fr with 1%fr by ring. rewrite fexp_one by lia. ring.
Qed.

(** a root of order 2^k has multiplicative order exactly 2^k *)
Lemma root_order k w : root k w -> forall e, 0 <= e -> (fexp w e = 1%fr <-> (2 ^ Z.of_nat k | e)).
Proof.
  intros H e He. split.
  - intros E. destruct k as [|k]; [exists e; cbn; lia|].
    assert (D : forall j, (j <= S k)%nat -> (2 ^ Z.of_nat j | e)).
    { induction j as [|j IH]; intros Hj; [exists e; cbn; lia|].
      destruct (IH ltac:(lia)) as [m Em]. destruct (Z.Even_or_Odd m) as [[q Eq]|[q Eq]].
      - exists q. rewrite Nat2Z.inj_succ, Z.pow_succ_r by lia. rewrite Em, Eq. ring.
      - exfalso. apply neg1_ne. cbn [root] in H.
        assert (0 < 2 ^ Z.of_nat j) by (apply Z.pow_pos_nonneg; lia).
        assert (0 <= q) by nia.
        rewrite <- (neg1_odd q) by assumption. rewrite <- H, <- fexp_mul by (try apply Z.pow_nonneg; lia).
        replace (2 ^ Z.of_nat k * (2 * q + 1)) with (e * 2 ^ Z.of_nat (k - j)).
        + rewrite fexp_mul, E by (try apply Z.pow_nonneg; lia). apply fexp_one. apply Z.pow_nonneg. lia.
        + rewrite Em, Eq. rewrite Nat2Z.inj_sub by lia.
          replace (Z.of_nat k) with (Z.of_nat j + (Z.of_nat k - Z.of_nat j)) at 2 by lia.
          rewrite Z.pow_add_r by lia. ring. }
    apply D. lia.
  - intros [m Em]. assert (0 < 2 ^ Z.of_nat k) by (apply Z.pow_pos_nonneg; lia). assert (0 <= m) by nia.
    rewrite Em, Z.mul_comm, fexp_mul by lia.
    replace (fexp w (2 ^ Z.of_nat k)) with 1%fr; [apply fexp_one; lia|].
    destruct k as [|k]; cbn [root] in H.
    + subst w. symmetry. apply fexp_one. lia.
    + rewrite Nat2Z.inj_succ, Z.pow_succ_r, Z.mul_comm, fexp_mul, H, fexp_2 by (try apply Z.pow_nonneg; lia). ring.
Qed.

Lemma omega_order e : 0 <= e -> (fexp omega e = 1%fr <-> (dom_n | e)).
Proof. intros He. rewrite dom_pow. apply root_order; [apply omega_root | exact He]. Qed.
Lemma omega_n : fexp omega dom_n = 1%fr.
Proof. apply omega_order; [unfold dom_n; lia | exists 1; lia]. Qed.
Lemma omega_nz k : 0 <= k -> fexp omega k <> 0%fr.
Proof.
  intros Hk E. apply fr_1_0. rewrite <- (fexp_one k Hk), <- omega_n, <- fexp_mul, Z.mul_comm, fexp_mul, E by (unfold dom_n; lia).
  reflexivity.
Qed.
Lemma fexp_mod_n k : 0 <= k -> fexp omega (k mod dom_n) = fexp omega k.
Proof.
  intros Hk. assert (P : 0 < dom_n) by (unfold dom_n; lia). rewrite (Z.div_mod k dom_n) at 2 by lia.
  pose proof (Z.mod_pos_bound k dom_n P). pose proof (Z.div_pos k dom_n Hk P).
  rewrite fexp_add, fexp_mul, omega_n, fexp_one by (try apply Z.mul_nonneg_nonneg; lia). ring.
Qed.
Lemma fzpow_mod k : fzpow omega k = fexp omega (k mod dom_n).
Proof.
  unfold fzpow. assert (P : 0 < dom_n) by (unfold dom_n; lia).
  destruct (Z.ltb_spec k 0) as [H|H]; [|symmetry; apply fexp_mod_n, H].
  symmetry. apply inv_unique. pose proof (Z.mod_pos_bound k dom_n P) as B. rewrite <- fexp_add by lia.
  apply omega_order; [lia|]. exists (- (k / dom_n)). pose proof (Z.div_mod k dom_n ltac:(lia)). lia.
Qed.
Lemma fzpow_root k : fexp (fzpow omega k) dom_n = 1%fr.
Proof.
  assert (P : 0 < dom_n) by (unfold dom_n; lia). pose proof (Z.mod_pos_bound k dom_n P) as B.
  rewrite fzpow_mod, <- fexp_mul by lia. apply omega_order; [nia|]. exists (k mod dom_n). reflexivity.
Qed.
Lemma outside x k : fexp x dom_n <> 1%fr -> x <> fzpow omega k.
Proof. intros H ->. apply H, fzpow_root. Qed.

(** ** The Lagrange basis *)
Lemma n_nz : fc dom_n <> 0%fr.
Proof. intros H. apply (f_equal val) in H. discriminate H. Qed.

Lemma filter_all (l : list Z) i : (forall j, In j l -> j <> i) -> filter (fun j => negb (j =? i)) l = l.
Proof.
  induction l as [|a l IH]; cbn; intros H; [reflexivity|].
  destruct (Z.eqb_spec a i) as [E|_]; [exfalso; apply (H a); auto|]. cbn. f_equal. apply IH. auto.
Qed.

Lemma other_nodes (i n : nat) : (i < n)%nat ->
  filter (fun j => negb (j =? Z.of_nat i)) (map Z.of_nat (seq 0 n)) =
  map Z.of_nat (seq 0 i) ++ map Z.of_nat (seq (S i) (n - 1 - i)).
Proof.
  intros H. replace n with (i + S (n - 1 - i))%nat at 1 by lia. rewrite seq_app, map_app, filter_app.
  cbn [seq map filter]. rewrite Z.eqb_refl. cbn [negb plus].
  rewrite !filter_all; [reflexivity|..]; intros j Hj E; apply in_map_iff in Hj; destruct Hj as (m & <- & Hm);
    apply in_seq in Hm; apply Nat2Z.inj in E; lia.
Qed.

Lemma rotate_prod (f : Fr -> Fr) (i : nat) : (i < 2 ^ dom_k)%nat ->
  prod (map (fun j => f (fexp omega j)) (map Z.of_nat (seq 0 i) ++ map Z.of_nat (seq (S i) (2 ^ dom_k - 1 - i)))) =
  prod (map (fun d => f (fexp omega (Z.of_nat i) * fexp omega (Z.of_nat d))%fr) (seq 1 (2 ^ dom_k - 1))).
Proof.
  intros H. replace (2 ^ dom_k - 1)%nat with ((2 ^ dom_k - 1 - i) + i)%nat at 2 by lia.
  rewrite map_app, !map_map, seq_app, map_app, !prod_app.
  match goal with |- (?a * ?b = ?c * ?d)%fr => assert (E1 : a = d); [|assert (E2 : b = c); [|rewrite E1, E2; ring]] end.
  - change (seq 0 i) with (seq 0 i). replace (1 + (2 ^ dom_k - 1 - i))%nat with (0 + (2 ^ dom_k - i))%nat by lia.
    rewrite seq_shift_map, map_map. f_equal. apply map_ext. intros j. f_equal.
    rewrite <- fexp_add by lia. rewrite <- Nat2Z.inj_add.
    replace (i + (j + (2 ^ dom_k - i)))%nat with (j + 2 ^ dom_k)%nat by lia.
    rewrite Nat2Z.inj_add, pow_Z, <- dom_pow, fexp_add, omega_n by (unfold dom_n; lia). ring.
  - change (S i) with (1 + i)%nat. rewrite seq_shift_map, map_map. f_equal. apply map_ext. intros j. f_equal.
    rewrite <- fexp_add by lia. f_equal. lia.
Qed.

Lemma lagrange_is_poly x i : fexp x dom_n <> 1%fr -> lagrange x i = lagrange_poly x i.
Proof.
  intros Hx. unfold lagrange, lagrange_poly. pose proof (outside x i Hx) as Hi. rewrite fzpow_mod in *.
  assert (P : 0 < dom_n) by (unfold dom_n; lia). pose proof (Z.mod_pos_bound i dom_n P) as B.
  pose proof dom_nat as DN. set (k := i mod dom_n) in *. clearbody k. clear i.
  assert (Ek : Z.of_nat (Z.to_nat k) = k) by lia. set (m := Z.to_nat k) in *. rewrite <- Ek in *. clearbody m.
  assert (Hm : (m < 2 ^ dom_k)%nat) by (rewrite <- DN; lia).
  rewrite DN, other_nodes by exact Hm.
  set (c := fexp omega (Z.of_nat m)) in *.
  rewrite (rotate_prod (fun z => (x - z) / (c - z))%fr m Hm). fold c.
  assert (Hc : c <> 0%fr) by (apply omega_nz; lia).
  assert (Hcn : fexp c dom_n = 1%fr) by (unfold c; rewrite <- fexp_mul by lia; apply omega_order; [lia | exists (Z.of_nat m); lia]).
  set (y := (x / c)%fr). assert (Ey : x = (c * y)%fr) by (unfold y; field; exact Hc).
  assert (Hy : (y - 1)%fr <> 0%fr).
  { apply sub_nz. intros E. apply Hi. rewrite Ey, E. ring. }
  assert (En : fexp x dom_n = fexp y dom_n) by (rewrite Ey, fexp_prod, Hcn by lia; ring).
  rewrite (map_ext_in _ (fun d => (y - fexp omega (Z.of_nat d)) / (1 - fexp omega (Z.of_nat d)))%fr).
  - pose proof (roots_diff dom_k omega omega_root) as D. rewrite <- dom_pow in D.
    rewrite prod_div by (rewrite D; exact n_nz). rewrite D.
    pose proof (roots_prod dom_k omega y omega_root) as R. rewrite <- dom_pow, <- En in R.
    assert (SN : exists N, (2 ^ dom_k)%nat = S N) by (destruct (2 ^ dom_k)%nat as [|N]; [inversion Hm | exists N; reflexivity]).
    destruct SN as [N SN]. rewrite SN in *. cbn [Nat.sub] in *. rewrite Nat.sub_0_r in *. cbn [seq map] in R.
    change (prod (?a :: ?l)) with (a * prod l)%fr in R. change (Z.of_nat 0) with 0 in R. rewrite fexp_0 in R.
    rewrite <- R. rewrite Ey. field. split; [exact n_nz|].
    replace (c * y - c)%fr with (c * (y - 1))%fr by ring. apply fmul_nz; assumption.
  - intros d Hd. apply in_seq in Hd.
    assert (H1 : (1 - fexp omega (Z.of_nat d))%fr <> 0%fr).
    { apply sub_nz. intros E. symmetry in E. apply omega_order in E; [|lia].
      apply Z.divide_pos_le in E; [|lia]. rewrite dom_pow, <- pow_Z in E. lia. }
    rewrite Ey. field. split; [exact H1|]. replace (c - c * fexp omega (Z.of_nat d))%fr with (c * (1 - fexp omega (Z.of_nat d)))%fr by ring.
    apply fmul_nz; assumption.
Qed.
