(** Proofs about decimal and hex text (C09, C10). *)
From Coq Require Import ZArith Lia String Ascii Bool List.
From Verif Require Import Params Go Curve Api FrOps Lib FField P_Fr SpecText.
Import ListNotations.
Open Scope Z_scope.

(** ** Bytes *)
Lemma of_be_app l b : of_be (l ++ [b]) = of_be l * 256 + b.
Proof. unfold of_be. rewrite fold_left_app. reflexivity. Qed.

Lemma of_be_be_bytes n z : of_be (be_bytes n z) = z mod 256 ^ Z.of_nat n.
Proof.
  revert z. induction n as [|n IH]; intros z.
  - cbn [be_bytes]. change (256 ^ Z.of_nat 0) with 1. rewrite Z.mod_1_r. reflexivity.
  - cbn [be_bytes]. rewrite of_be_app, IH.
    rewrite Nat2Z.inj_succ, Z.pow_succ_r by lia.
    rewrite Z.rem_mul_r by lia. lia.
Qed.

Lemma be_bytes_length n z : List.length (be_bytes n z) = n.
Proof. revert z. induction n; intros z; cbn [be_bytes]; [reflexivity|]. rewrite app_length, IHn. cbn. lia. Qed.

Lemma be_bytes_byte n z : Forall (fun b => 0 <= b < 256) (be_bytes n z).
Proof.
  revert z. induction n; intros z; cbn [be_bytes]; [constructor|].
  apply Forall_app. split; [apply IHn|]. constructor; [|constructor]. apply Z.mod_pos_bound. lia.
Qed.

Lemma pow_256_32 : 256 ^ Z.of_nat 32 = 2 ^ 256. Proof. reflexivity. Qed.

Lemma of_be_32 z : 0 <= z < 2 ^ 256 -> of_be (be_bytes 32 z) = z.
Proof. intros H. rewrite of_be_be_bytes, pow_256_32. apply Z.mod_small. exact H. Qed.

(** ** Decimal *)
Lemma digit_cases d (P : Z -> Prop) : P 0 -> P 1 -> P 2 -> P 3 -> P 4 -> P 5 -> P 6 -> P 7 -> P 8 -> P 9 ->
  0 <= d < 10 -> P d.
Proof.
  intros. assert (d = 0 \/ d = 1 \/ d = 2 \/ d = 3 \/ d = 4 \/ d = 5 \/ d = 6 \/ d = 7 \/ d = 8 \/ d = 9) by lia.
  intuition (subst; assumption).
Qed.

Lemma char_digit_char d : 0 <= d < 10 -> char_digit (digit_char d) = Some d.
Proof. intros H. pattern d. apply digit_cases; [..| exact H]; reflexivity. Qed.

Lemma dec_parse_digits f : forall z s, 0 <= z < 10 ^ (Z.of_nat f + 1) ->
  dec_parse 0 (dec_digits f z s) = dec_parse z s.
Proof.
  induction f as [|f IH]; intros z s H.
  - change (10 ^ (Z.of_nat 0 + 1)) with 10 in H. cbn [dec_digits dec_parse].
    rewrite Z.mod_small by lia. rewrite char_digit_char by lia. reflexivity.
  - cbn [dec_digits]. destruct (z <? 10) eqn:E.
    + apply Z.ltb_lt in E. cbn [dec_parse]. rewrite Z.mod_small by lia. rewrite char_digit_char by lia.
      reflexivity.
    + apply Z.ltb_ge in E. rewrite IH.
      * cbn [dec_parse]. rewrite char_digit_char by (apply Z.mod_pos_bound; lia).
        f_equal. pose proof (Z.div_mod z 10). lia.
      * split; [apply Z.div_pos; lia|]. apply Z.div_lt_upper_bound; [lia|].
        replace (Z.of_nat (S f) + 1) with (Z.succ (Z.of_nat f + 1)) in H by lia.
        rewrite Z.pow_succ_r in H by lia. lia.
Qed.

Lemma log2_fuel z : 0 <= z -> 0 <= z < 10 ^ (Z.of_nat (Z.to_nat (Z.log2 z)) + 1).
Proof.
  intros H. rewrite Z2Nat.id by apply Z.log2_nonneg. split; [exact H|].
  destruct (Z.eq_dec z 0) as [->|N]; [reflexivity|].
  pose proof (Z.log2_spec z ltac:(lia)) as [_ L].
  eapply Z.lt_le_trans; [exact L|]. rewrite <- Z.add_1_r. apply Z.pow_le_mono_l. lia.
Qed.

Lemma dec_digits_head f : forall z s, 0 <= z < 10 ^ (Z.of_nat f + 1) ->
  exists c t, dec_digits f z s = String c t /\ char_digit c <> None.
Proof.
  induction f as [|f IH]; intros z s H.
  - cbn [dec_digits]. do 2 eexists. split; [reflexivity|].
    rewrite char_digit_char by (apply Z.mod_pos_bound; lia). discriminate.
  - cbn [dec_digits]. destruct (z <? 10) eqn:E.
    + do 2 eexists. split; [reflexivity|]. rewrite char_digit_char by (apply Z.mod_pos_bound; lia). discriminate.
    + apply IH. apply Z.ltb_ge in E. split; [apply Z.div_pos; lia|]. apply Z.div_lt_upper_bound; [lia|].
      replace (Z.of_nat (S f) + 1) with (Z.succ (Z.of_nat f + 1)) in H by lia.
      rewrite Z.pow_succ_r in H by lia. lia.
Qed.

Lemma set_string10_digit c t : char_digit c <> None ->
  set_string10 (String c t) = dec_parse 0 (String c t).
Proof.
  destruct c as [[][][][][][][][]]; cbn; intros H; try reflexivity; exfalso; apply H; reflexivity.
Qed.

Lemma dec_of_nonneg_parse z : 0 <= z ->
  dec_parse 0 (dec_of_nonneg z) = Some z /\ dec_of_nonneg z <> EmptyString /\
  set_string10 (dec_of_nonneg z) = Some z.
Proof.
  intros H. unfold dec_of_nonneg. pose proof (log2_fuel z H) as F.
  destruct (dec_digits_head _ z EmptyString F) as (c & t & E & Hc).
  pose proof (dec_parse_digits _ z EmptyString F) as D. rewrite E in D |- *.
  repeat split; [exact D | discriminate | rewrite set_string10_digit by exact Hc; exact D].
Qed.

Lemma set_string10_dec z : set_string10 (dec_of_Z z) = Some z.
Proof.
  unfold dec_of_Z. destruct (z <? 0) eqn:E.
  - apply Z.ltb_lt in E. destruct (dec_of_nonneg_parse (- z) ltac:(lia)) as (D & N & _).
    cbn [set_string10]. unfold dec_parse_nonempty. destruct (dec_of_nonneg (- z)) as [|c t]; [congruence|].
    rewrite D. cbn [option_map]. f_equal. lia.
  - apply Z.ltb_ge in E. apply dec_of_nonneg_parse. lia.
Qed.

Lemma c09_roundtrip z : fr_from_string (dec_of_Z z) = VBig z.
Proof. unfold fr_from_string. rewrite set_string10_dec. reflexivity. Qed.

Lemma char_digit_alphabet c : char_digit c <> None <-> In c decimal_alphabet.
Proof.
  split.
  - destruct c as [[][][][][][][][]]; cbn; intros H;
      try (exfalso; apply H; reflexivity); repeat (left; reflexivity || right); try contradiction;
      intuition congruence.
  - intros H. cbn in H.
    repeat (destruct H as [<-|H]; [discriminate|]). contradiction.
Qed.

Lemma dec_parse_some s : forall a,
  dec_parse a s <> None <-> Forall (fun c => In c decimal_alphabet) (list_ascii_of_string s).
Proof.
  induction s as [|c s IH]; intros a; cbn [dec_parse list_ascii_of_string].
  - split; [constructor | discriminate].
  - destruct (char_digit c) as [d|] eqn:E.
    + rewrite IH. split; intros H.
      * constructor; [|exact H]. apply char_digit_alphabet. congruence.
      * inversion H; assumption.
    + split; [congruence|]. intros H. inversion H as [|? ? H1 _]; subst. apply char_digit_alphabet in H1. congruence.
Qed.

Lemma dec_parse_nonempty_some s :
  dec_parse_nonempty s <> None <->
  s <> EmptyString /\ Forall (fun c => In c decimal_alphabet) (list_ascii_of_string s).
Proof.
  destruct s as [|c s]; unfold dec_parse_nonempty.
  - split; [congruence | intros [H _]; congruence].
  - rewrite dec_parse_some. split; [intros H; split; [discriminate | exact H] | tauto].
Qed.

Lemma option_map_none {A B} (f : A -> B) o : option_map f o <> None <-> o <> None.
Proof. destruct o; cbn; split; congruence. Qed.

Lemma set_string10_cases c t :
  (c = "-"%char /\ set_string10 (String c t) = option_map Z.opp (dec_parse_nonempty t)) \/
  (c = "+"%char /\ set_string10 (String c t) = dec_parse_nonempty t) \/
  (c <> "-"%char /\ c <> "+"%char /\ set_string10 (String c t) = dec_parse_nonempty (String c t)).
Proof.
  destruct c as [[][][][][][][][]];
    first [ right; right; split; [discriminate | split; [discriminate | reflexivity]]
          | right; left; split; reflexivity | left; split; reflexivity ].
Qed.

Lemma c09_numeral s : fr_from_string s = VBigNil <-> ~ decimal_numeral s.
Proof.
  assert (H : set_string10 s <> None <-> decimal_numeral s).
  { destruct s as [|c t].
    - split; [cbn; congruence|]. intros (sign & body & E & _ & N & _).
      destruct sign; [|discriminate]. cbn in E. subst body. congruence.
    - destruct (set_string10_cases c t) as [ [-> E] | [ [-> E] | (N1 & N2 & E) ] ]; rewrite E; clear E.
      + rewrite option_map_none, dec_parse_nonempty_some. split.
        * intros [N F]. exists "-"%string, t. repeat split; auto.
        * intros (sign & body & E & [ -> | [ -> | -> ] ] & N & F); cbn in E; try discriminate.
          -- subst body. inversion F as [|? ? F1 _]; subst. apply char_digit_alphabet in F1. exfalso. apply F1. reflexivity.
          -- injection E as ->. auto.
      + rewrite dec_parse_nonempty_some. split.
        * intros [N F]. exists "+"%string, t. repeat split; auto.
        * intros (sign & body & E & [ -> | [ -> | -> ] ] & N & F); cbn in E; try discriminate.
          -- subst body. inversion F as [|? ? F1 _]; subst. apply char_digit_alphabet in F1. exfalso. apply F1. reflexivity.
          -- injection E as ->. auto.
      + rewrite dec_parse_nonempty_some. split.
        * intros [N F]. exists ""%string, (String c t). repeat split; auto.
        * intros (sign & body & E & [ -> | [ -> | -> ] ] & N & F); cbn in E.
          -- subst body. auto.
          -- injection E as -> ->. congruence.
          -- injection E as -> ->. congruence. }
  unfold fr_from_string. destruct (set_string10 s); split; intros; try discriminate; try congruence.
  - exfalso. apply H0. apply H. discriminate.
  - intros D. apply H in D. congruence.
Qed.

(** ** Hex *)
Lemma hex_cases d (P : Z -> Prop) : P 0 -> P 1 -> P 2 -> P 3 -> P 4 -> P 5 -> P 6 -> P 7 -> P 8 -> P 9 ->
  P 10 -> P 11 -> P 12 -> P 13 -> P 14 -> P 15 -> 0 <= d < 16 -> P d.
Proof.
  intros. assert (d = 0 \/ d = 1 \/ d = 2 \/ d = 3 \/ d = 4 \/ d = 5 \/ d = 6 \/ d = 7 \/ d = 8 \/ d = 9 \/
    d = 10 \/ d = 11 \/ d = 12 \/ d = 13 \/ d = 14 \/ d = 15) by lia.
  intuition (subst; assumption).
Qed.

Lemma char_hex_char d : 0 <= d < 16 -> char_hex (hex_char d) = Some d.
Proof. intros H. pattern d. apply hex_cases; [..| exact H]; reflexivity. Qed.
Lemma hex_char_word d : 0 <= d < 16 -> is_word (hex_char d) = true.
Proof. intros H. pattern d. apply hex_cases; [..| exact H]; reflexivity. Qed.

Fixpoint all_chars (f : ascii -> bool) (s : string) : bool :=
  match s with EmptyString => true | String c t => f c && all_chars f t end.

Lemma append_assoc a b c : (a ++ b ++ c = (a ++ b) ++ c)%string.
Proof. induction a; cbn; congruence. Qed.

Lemma hex_fixed_app n : forall z acc, hex_fixed n z acc = (hex_fixed n z "" ++ acc)%string.
Proof.
  induction n as [|n IH]; intros z acc; cbn [hex_fixed]; [reflexivity|].
  rewrite IH. rewrite (IH _ (String _ "")). rewrite <- append_assoc. reflexivity.
Qed.

Lemma hex_fixed_all (f : ascii -> bool) : (forall d, 0 <= d < 16 -> f (hex_char d) = true) ->
  forall n z acc, all_chars f acc = true -> all_chars f (hex_fixed n z acc) = true.
Proof.
  intros Hf. induction n as [|n IH]; intros z acc H; cbn [hex_fixed]; [exact H|].
  apply IH. cbn [all_chars]. rewrite Hf, H by (apply Z.mod_pos_bound; lia). reflexivity.
Qed.

Lemma hex_fixed_nonempty n : forall z c t, hex_fixed n z (String c t) <> EmptyString.
Proof. induction n; intros; cbn [hex_fixed]; [discriminate | apply IHn]. Qed.

Lemma hex_fixed_S_nonempty n z : hex_fixed (S n) z "" <> EmptyString.
Proof. cbn [hex_fixed]. apply hex_fixed_nonempty. Qed.

Lemma span_word_app a c t : all_chars is_word a = true -> is_word c = false ->
  span_word (a ++ String c t) = (a, String c t).
Proof.
  intros H Hc. induction a as [|x a IH]; cbn [append span_word].
  - rewrite Hc. reflexivity.
  - cbn [all_chars] in H. apply andb_true_iff in H. destruct H as [H1 H2]. rewrite H1, IH by exact H2. reflexivity.
Qed.

Lemma hex_decode_fixed n : forall z acc l, hex_decode acc = Some l ->
  hex_decode (hex_fixed (2 * n) z acc) = Some (be_bytes n z ++ l).
Proof.
  induction n as [|n IH]; intros z acc l H.
  - exact H.
  - replace (2 * S n)%nat with (S (S (2 * n))) by lia. cbn [hex_fixed].
    rewrite (IH _ _ ((z / 16) mod 16 * 16 + z mod 16 :: l)).
    + f_equal. cbn [be_bytes]. rewrite Z.div_div by lia. change (16 * 16) with 256. rewrite <- app_assoc. cbn [app].
      f_equal. f_equal. change 256 with (16 * 16). rewrite Z.rem_mul_r by lia. lia.
    + cbn [hex_decode]. rewrite !char_hex_char by (apply Z.mod_pos_bound; lia). rewrite H. reflexivity.
Qed.

Definition is_hex (c : ascii) : bool := match char_hex c with Some _ => true | None => false end.

Lemma strip_0x_hex s : all_chars is_hex s = true -> strip_prefix "0x" s = None.
Proof.
  destruct s as [|a [|b s]]; cbn [all_chars strip_prefix]; intros H; [reflexivity | |].
  - destruct (Ascii.eqb "0" a); reflexivity.
  - destruct (Ascii.eqb "0" a); [|reflexivity]. destruct (Ascii.eqb "x" b) eqn:E; [|reflexivity].
    apply Ascii.eqb_eq in E. subst b. cbn in H. rewrite andb_false_r in H. discriminate.
Qed.

Lemma is_hex_char d : 0 <= d < 16 -> is_hex (hex_char d) = true.
Proof. intros H. unfold is_hex. rewrite char_hex_char by exact H. reflexivity. Qed.

Lemma hexToDecimal_fixed z : 0 <= z < 2 ^ 256 ->
  hexToDecimalString (hex_fixed 64 z "") = inl (dec_of_Z z).
Proof.
  intros H. unfold hexToDecimalString. rewrite strip_0x_hex.
  - change 64%nat with (2 * 32)%nat. rewrite (hex_decode_fixed 32 z "" []) by reflexivity.
    rewrite app_nil_r, of_be_32 by exact H. reflexivity.
  - apply hex_fixed_all; [exact is_hex_char | reflexivity].
Qed.

Lemma re_match_printed a b t : all_chars is_word a = true -> all_chars is_word b = true ->
  a <> EmptyString -> b <> EmptyString ->
  re_match_at ("bn256.G1(" ++ a ++ ", " ++ b ++ ")" ++ t)%string = Some (a, b).
Proof.
  intros Ha Hb Na Nb. unfold re_match_at.
  replace (strip_prefix "bn256.G1(" ("bn256.G1(" ++ a ++ ", " ++ b ++ ")" ++ t)%string)
    with (Some (a ++ ", " ++ b ++ ")" ++ t)%string) by reflexivity.
  change (", " ++ b ++ ")" ++ t)%string with (String "," (" " ++ b ++ ")" ++ t)%string).
  rewrite span_word_app by (assumption || reflexivity).
  destruct a as [|a0 a]; [congruence|].
  change (" " ++ b ++ ")" ++ t)%string with (String " " (b ++ String ")" t)%string).
  change (is_space " ") with true. cbv iota.
  rewrite span_word_app by (assumption || reflexivity).
  destruct b as [|b0 b]; [congruence|]. reflexivity.
Qed.

Lemma re_find_at s m : re_match_at s = Some m -> re_find s = Some m.
Proof. intros H. destruct s; cbn [re_find]; rewrite H; reflexivity. Qed.

Lemma append_nil_r s : (s ++ "")%string = s.
Proof. induction s; cbn; congruence. Qed.

Lemma c10_extract x y : 0 <= x < 2 ^ 256 -> 0 <= y < 2 ^ 256 ->
  extractAndConvert ("bn256.G1(" ++ hex_fixed 64 x "" ++ ", " ++ hex_fixed 64 y "" ++ ")")%string =
  (dec_of_Z x, dec_of_Z y, None).
Proof.
  intros Hx Hy. unfold extractAndConvert.
  pose proof (re_match_printed (hex_fixed 64 x "") (hex_fixed 64 y "") "") as R.
  rewrite append_nil_r in R.
  rewrite (re_find_at _ _ (R (hex_fixed_all _ hex_char_word 64 x "" eq_refl)
                            (hex_fixed_all _ hex_char_word 64 y "" eq_refl)
                            (hex_fixed_S_nonempty _ _) (hex_fixed_S_nonempty _ _))).
  rewrite !hexToDecimal_fixed by assumption. reflexivity.
Qed.

Lemma char_hex_spec c : (is_hex_digit c <-> char_hex c <> None) /\
  (forall d, char_hex c = Some d -> hex_digit_value c = d).
Proof.
  unfold is_hex_digit.
  destruct c as [[][][][][][][][]]; (split; [|intros d H; vm_compute in H; first [discriminate H | injection H as <-; reflexivity]]);
  match goal with |- _ <-> ?x <> None => let v := eval vm_compute in x in change x with v end;
  (split; [ intros H; first [ discriminate
     | exfalso; destruct H as [H|H]; cbn in H; repeat (destruct H as [H|H]; [discriminate H|]); exact H ]
   | intros H; first [ exfalso; apply H; reflexivity
     | left; cbn; tauto | right; cbn; tauto ] ]).
Qed.

Lemma strip_0x_body s :
  (match strip_prefix "0x" s with Some t => t | None => s end) = hex_body s.
Proof.
  destruct s as [|a [|b s]]; cbn [strip_prefix].
  - reflexivity.
  - destruct (Ascii.eqb "0" a) eqn:E; [|]; destruct a as [[][][][][][][][]]; reflexivity.
  - destruct a as [[][][][][][][][]]; try reflexivity. destruct b as [[][][][][][][][]]; reflexivity.
Qed.

Lemma string_ind2 (P : string -> Prop) : P EmptyString -> (forall a, P (String a EmptyString)) ->
  (forall a b s, P s -> P (String a (String b s))) -> forall s, P s.
Proof.
  intros H0 H1 H2 s. enough (P s /\ forall a, P (String a s)) by tauto.
  induction s as [|c s [IH1 IH2]]; split; auto.
Qed.

Lemma hex_decode_spec s :
  (hex_decode s <> None <->
     Nat.even (String.length s) = true /\ Forall is_hex_digit (list_ascii_of_string s)) /\
  (forall l, hex_decode s = Some l -> forall a,
     fold_left (fun acc b => acc * 256 + b) l a =
     fold_left (fun a c => 16 * a + hex_digit_value c) (list_ascii_of_string s) a).
Proof.
  induction s as [|a|a b s IH] using string_ind2.
  - cbn. split; [split; [intros; split; [reflexivity | constructor] | intros; discriminate]|].
    intros l H. injection H as <-. reflexivity.
  - cbn. split; [split; [congruence | intros [? _]; discriminate] | discriminate].
  - destruct IH as [IH1 IH2]. cbn [hex_decode list_ascii_of_string].
    destruct (char_hex_spec a) as [Sa Va], (char_hex_spec b) as [Sb Vb].
    change (Nat.even (String.length (String a (String b s)))) with (Nat.even (String.length s)).
    destruct (char_hex a) as [x|] eqn:Ea.
    2:{ split; [|discriminate]. split; [congruence|]. intros [_ F]. inversion F as [|? ? F1 _]; subst.
        apply Sa in F1. congruence. }
    destruct (char_hex b) as [y|] eqn:Eb.
    2:{ split; [|discriminate]. split; [congruence|]. intros [_ F]. inversion F as [|? ? _ F2]; subst.
        inversion F2 as [|? ? F3 _]; subst. apply Sb in F3. congruence. }
    destruct (hex_decode s) as [l|] eqn:El.
    + split.
      * split; [|discriminate]. intros _. destruct (proj1 IH1 ltac:(discriminate)) as [E F].
        split; [exact E|]. constructor; [apply Sa; discriminate|]. constructor; [apply Sb; discriminate | exact F].
      * intros l' H c. injection H as <-. cbn [fold_left]. rewrite (IH2 l eq_refl).
        rewrite (Va x eq_refl), (Vb y eq_refl). f_equal. ring.
    + split; [|discriminate]. split; [congruence|]. intros [E F]. exfalso.
      inversion F as [|? ? _ F2]; subst. inversion F2 as [|? ? _ F3]; subst. apply (proj2 IH1); auto.
Qed.

Lemma c10_hex s :
  ((exists d, hexToDecimalString s = inl d) <->
     Nat.even (String.length (hex_body s)) = true /\ Forall is_hex_digit (list_ascii_of_string (hex_body s))) /\
  (forall d, hexToDecimalString s = inl d -> d = dec_of_Z (hex_value (hex_body s))).
Proof.
  unfold hexToDecimalString. rewrite strip_0x_body. cbv zeta.
  destruct (hex_decode_spec (hex_body s)) as [S V].
  destruct (hex_decode (hex_body s)) as [l|].
  - split.
    + split; [intros _; apply S; discriminate | intros _; eauto].
    + intros d H. injection H as <-. unfold of_be, hex_value. rewrite (V l eq_refl). reflexivity.
  - split; [|discriminate]. split; [intros [d H]; discriminate|]. intros H. apply S in H. congruence.
Qed.
