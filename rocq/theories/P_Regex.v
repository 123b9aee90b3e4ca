(** The point printed in a text, for every text (C10). *)
From Coq Require Import ZArith Lia String Ascii Bool List.
From Verif Require Import Params Go Curve Api FrOps Lib SpecText SpecRegex P_Str.
Import ListNotations.
Open Scope Z_scope.

Lemma is_word_spec c : is_word c = true <-> In c word_alphabet.
Proof.
  split.
  - destruct c as [[][][][][][][][]]; vm_compute; intros H; try discriminate H; repeat first [left; reflexivity | right].
  - intros H. unfold word_alphabet in H. cbn in H. repeat (destruct H as [<-|H]; [reflexivity|]). contradiction.
Qed.
Lemma is_space_spec c : is_space c = true <-> In c blank_alphabet.
Proof.
  split.
  - destruct c as [[][][][][][][][]]; vm_compute; intros H; try discriminate H; repeat first [left; reflexivity | right].
  - intros H. cbn in H. repeat (destruct H as [<-|H]; [reflexivity|]). contradiction.
Qed.
Lemma all_word s : all_chars is_word s = true <-> Forall (fun c => In c word_alphabet) (list_ascii_of_string s).
Proof.
  induction s as [|c s IH]; cbn [all_chars list_ascii_of_string]; [split; [constructor | reflexivity]|].
  rewrite andb_true_iff, IH, is_word_spec. split; [intros []; constructor; assumption | intros H; inversion H; split; assumption].
Qed.
Lemma span_spec s : forall a t, span_word s = (a, t) -> s = (a ++ t)%string /\ all_chars is_word a = true.
Proof.
  induction s as [|c s IH]; intros a t H; cbn [span_word] in H; [injection H as <- <-; split; reflexivity|].
  destruct (is_word c) eqn:E; [|injection H as <- <-; split; reflexivity].
  destruct (span_word s) as [a' t'] eqn:S. injection H as <- <-. destruct (IH _ _ eq_refl) as [-> A].
  split; [reflexivity|]. cbn [all_chars]. rewrite E. exact A.
Qed.
Lemma strip_spec p : forall s t, strip_prefix p s = Some t -> s = (p ++ t)%string.
Proof.
  induction p as [|c p IH]; intros [|d s] t H; cbn [strip_prefix append] in *; try congruence.
  destruct (Ascii.eqb_spec c d) as [->|]; [|discriminate H]. f_equal. exact (IH _ _ H).
Qed.
Lemma strip_app p t : strip_prefix p (p ++ t)%string = Some t.
Proof. induction p as [|c p IH]; cbn [strip_prefix append]; [reflexivity|]. rewrite Ascii.eqb_refl. exact IH. Qed.

Lemma match_sound s a b : re_match_at s = Some (a, b) -> point_at s "" a b.
Proof.
  unfold re_match_at. destruct (strip_prefix "bn256.G1(" s) as [s1|] eqn:E; [|discriminate].
  apply strip_spec in E. destruct (span_word s1) as [a1 s2] eqn:S1. apply span_spec in S1. destruct S1 as [-> A1].
  destruct a1 as [|a0 a1]; [discriminate|]. destruct s2 as [|k [|c s3]]; try discriminate.
  { destruct k as [[][][][][][][][]]; discriminate. }
  assert (K : k = ","%char \/ k <> ","%char) by (destruct (Ascii.eqb_spec k ","); auto). destruct K as [->|K].
  2:{ destruct k as [[][][][][][][][]]; try discriminate. exfalso. apply K. reflexivity. }
  destruct (is_space c) eqn:C; [|discriminate]. destruct (span_word s3) as [b1 s4] eqn:S3. apply span_spec in S3. destruct S3 as [-> B1].
  destruct b1 as [|b0 b1]; [discriminate|]. destruct s4 as [|k s4]; [discriminate|].
  assert (K : k = ")"%char \/ k <> ")"%char) by (destruct (Ascii.eqb_spec k ")"); auto). destruct K as [->|K].
  2:{ destruct k as [[][][][][][][][]]; try discriminate. exfalso. apply K. reflexivity. }
  intros H. assert (a = String a0 a1 /\ b = String b0 b1) as [-> ->] by (split; congruence).
  exists c, s4. split; [exact E|]. split; [apply is_space_spec; exact C|].
  split; (split; [discriminate | apply all_word; assumption]).
Qed.
Lemma match_complete s a b : point_at s "" a b -> re_match_at s = Some (a, b).
Proof.
  intros (c & post & E & C & [Na Wa] & [Nb Wb]). apply all_word in Wa, Wb. apply is_space_spec in C.
  change (s = ("bn256.G1(" ++ (a ++ "," ++ String c (b ++ ")" ++ post)))%string) in E. subst s. unfold re_match_at. rewrite strip_app.
  change ("," ++ String c (b ++ ")" ++ post))%string with (String "," (String c (b ++ String ")" post)))%string.
  rewrite span_word_app by (assumption || reflexivity). destruct a as [|a0 a]; [congruence|]. rewrite C.
  rewrite span_word_app by (assumption || reflexivity). destruct b as [|b0 b]; [congruence|]. reflexivity.
Qed.
Lemma point_cons c s pre a b : point_at (String c s) (String c pre) a b <-> point_at s pre a b.
Proof.
  split; intros (k & post & E & R); exists k, post; (split; [|exact R]).
  - cbn [append] in E. injection E as E. exact E.
  - cbn [append]. f_equal. exact E.
Qed.
Lemma point_shift c s pre a b : point_at (String c s) pre a b -> (pre = ""%string) \/ exists pre', pre = String c pre' /\ point_at s pre' a b.
Proof.
  destruct pre as [|d pre]; [left; reflexivity|]. intros H. right. exists pre.
  assert (d = c) as -> by (destruct H as (k & post & E & _); cbn [append] in E; congruence).
  split; [reflexivity|]. exact (proj1 (point_cons c s pre a b) H).
Qed.
Lemma find_some s a b : re_find s = Some (a, b) <-> first_point s a b.
Proof.
  split.
  - induction s as [|c s IH]; cbn [re_find].
    + change (re_match_at "") with (@None (string * string)). discriminate.
    + destruct (re_match_at (String c s)) as [[a1 b1]|] eqn:M.
      * intros H. assert (a1 = a /\ b1 = b) as [-> ->] by (split; congruence). exists ""%string.
        split; [apply match_sound; exact M|]. intros. cbn. lia.
      * intros H. destruct (IH H) as (pre & P & L). exists (String c pre). split; [apply point_cons; exact P|].
        intros pre' a' b' P'. destruct (point_shift _ _ _ _ _ P') as [->|(q & -> & Q)].
        { apply match_complete in P'. congruence. }
        specialize (L _ _ _ Q). cbn [String.length]. lia.
  - revert a b. induction s as [|c s IH]; intros a b (pre & P & L).
    + exfalso. destruct P as (k & post & E & _). destruct pre; discriminate E.
    + cbn [re_find]. destruct (re_match_at (String c s)) as [[a1 b1]|] eqn:M.
      * pose proof (L _ _ _ (match_sound _ _ _ M)) as L0. destruct pre as [|d pre]; [|cbn in L0; lia].
        apply match_complete in P. congruence.
      * destruct (point_shift _ _ _ _ _ P) as [->|(q & -> & Q)]; [apply match_complete in P; congruence|].
        apply IH. exists q. split; [exact Q|]. intros pre' a' b' P'. apply (proj2 (point_cons c _ _ _ _)) in P'.
        specialize (L _ _ _ P'). cbn [String.length] in L. lia.
Qed.
Lemma find_none s : re_find s = None <-> forall pre a b, ~ point_at s pre a b.
Proof.
  split.
  - induction s as [|c s IH]; cbn [re_find]; intros H pre a b P.
    + destruct P as (k & post & E & _). destruct pre; discriminate E.
    + destruct (re_match_at (String c s)) eqn:M; [discriminate H|].
      destruct (point_shift _ _ _ _ _ P) as [->|(q & -> & Q)]; [apply match_complete in P; congruence | exact (IH H _ _ _ Q)].
  - intros H. destruct (re_find s) as [[a b]|] eqn:E; [|reflexivity]. apply find_some in E. destruct E as (pre & P & _). destruct (H _ _ _ P).
Qed.
Lemma hex_dec s : (hex_bytes s /\ hexToDecimalString s = inl (dec_of_Z (hex_value (hex_body s)))) \/
  (~ hex_bytes s /\ exists e, hexToDecimalString s = inr e).
Proof.
  destruct (c10_hex s) as [H V]. destruct (hexToDecimalString s) as [d|e] eqn:E.
  - left. split; [apply H; exists d; reflexivity|]. rewrite (V d eq_refl). reflexivity.
  - right. split; [|exists e; reflexivity]. intros B. apply H in B. destruct B as [d B]. discriminate B.
Qed.
Lemma c10_text input :
  ((forall pre a b, ~ point_at input pre a b) <-> extractAndConvert input = (""%string, ""%string, Some "invalid input format"%string)) /\
  forall a b, first_point input a b ->
    (hex_bytes a /\ hex_bytes b -> extractAndConvert input = (dec_of_Z (hex_value (hex_body a)), dec_of_Z (hex_value (hex_body b)), None)) /\
    (~ (hex_bytes a /\ hex_bytes b) -> exists e, extractAndConvert input = (""%string, ""%string, Some e)).
Proof.
  unfold extractAndConvert. split.
  - rewrite <- find_none. split; [intros ->; reflexivity|]. destruct (re_find input) as [[a b]|]; [|reflexivity].
    destruct (hexToDecimalString a); [destruct (hexToDecimalString b)|]; intros H; [discriminate H | |]; exfalso;
      injection H as H; discriminate H.
  - intros a b F. apply find_some in F. rewrite F.
    destruct (hex_dec a) as [[Ha Ea]|[Ha [e Ea]]]; rewrite Ea.
    + destruct (hex_dec b) as [[Hb Eb]|[Hb [e' Eb]]]; rewrite Eb.
      * split; [reflexivity|]. intros N. exfalso. apply N. split; assumption.
      * split; [intros [_ C]; contradiction|]. intros _. eexists. reflexivity.
    + split; [intros [C _]; contradiction|]. intros _. eexists. reflexivity.
Qed.
(** two points in one text: the first counts *)
Lemma ex10_text : first_point "x bn256.G1(0a, 0x10) bn256.G1(01, 02)" "0a" "0x10" /\
  extractAndConvert "x bn256.G1(0a, 0x10) bn256.G1(01, 02)" = ("10"%string, "16"%string, None) /\
  (forall pre a b, ~ point_at "bn256.G1(0a 10)" pre a b) /\ first_point "bn256.G1(0a, 1_)" "0a" "1_" /\ ~ hex_bytes "1_".
Proof.
  split; [apply find_some; reflexivity|]. split; [reflexivity|]. split; [apply find_none; reflexivity|].
  split; [apply find_some; reflexivity|]. intros [_ H]. inversion H as [|? ? _ H2]; subst. inversion H2 as [|? ? H3 _]; subst.
  destruct H3 as [H3|H3]; cbn in H3; repeat (destruct H3 as [H3|H3]; [discriminate H3|]); contradiction.
Qed.
