(** Acceptance depends on the evaluations only modulo r, once the transcript is given: C71. *)
From Coq Require Import ZArith Bool List Lia.
From Verif Require Import Params Go Curve Api FrOps Lib Steps Agg NumThy FField FpField SpecCurve SpecHash SpecMisc SpecVerify SpecExact
  P_Fr P_Hash P_Trans P_Complete P_Restate P_Misc P_Acc P_Pipe P_Final P_PipeOk P_VSpec P_Exact P_RunEx.
Import ListNotations.
Open Scope Z_scope.

Lemma quotient_ext t t' th be ga x y : (forall i, t i = t' i) -> quotient t th be ga x y = quotient t' th be ga x y.
Proof.
  intros H. unfold quotient. f_equal. f_equal.
  unfold expressions, gates, permutation, lookups, gate_main, lookup_table, limbs, pick.
  cbn [map combine seq length filter negb Z.eqb Pos.eqb]. rewrite !H. reflexivity.
Qed.

Section Ext.
  Variables (T T' : list Z).
  Hypothesis L : length T' = length T.
  Hypothesis Out : forall i, (i < 44 \/ 100 <= i)%nat -> nth i T' 0 = nth i T 0.
  Hypothesis Ev : forall i, (44 <= i < 100)%nat -> nth i T' 0 mod r_mod = nth i T 0 mod r_mod.

  Lemma word_ext i : word T' i = word T i.
  Proof.
    unfold word. destruct (Nat.lt_ge_cases i 44); [rewrite Out by lia; reflexivity|].
    destruct (Nat.lt_ge_cases i 100); [|rewrite Out by lia; reflexivity].
    apply phi_eq_iff. apply Ev. lia.
  Qed.
  Lemma com_ext i : (i < 22 \/ 50 <= i)%nat -> com T' i = com T i.
  Proof. intros H. unfold com. rewrite !Out by lia. reflexivity. Qed.
  Lemma single_ext P es : single T' P es = single T P es.
  Proof. unfold single. f_equal. apply map_ext. exact word_ext. Qed.
  Lemma queries_ext ic h x : queries T' ic h x = queries T ic h x.
  Proof.
    unfold queries, h_poly. rewrite !com_ext by lia. rewrite !single_ext.
    rewrite !(map_ext (fun '(P, e) => single T' P [e]) (fun '(P, e) => single T P [e])); [reflexivity|..];
    intros [P e]; apply single_ext.
  Qed.
  Lemma terms_ext ic h x yy v u : final_terms T' ic h x yy v u = final_terms T ic h x yy v u.
  Proof. unfold final_terms, W, W'. rewrite queries_ext, !com_ext by lia. reflexivity. Qed.
  Lemma coms_ext : coms_valid T -> coms_valid T'.
  Proof.
    intros H i Hi. assert (i < 22 \/ 50 <= i)%nat.
    { unfold commitments in Hi. apply in_app_iff in Hi. destruct Hi as [Hi|[<-|[<-|[]]]]; try lia. apply in_seq in Hi. lia. }
    rewrite !Out by lia. exact (H i Hi).
  Qed.
  Lemma acceptable_ext O zs A :
    (forall ix iy, instance_commitment O zs ix iy -> transcript_values O ix iy T' = transcript_values O ix iy T) ->
    Forall SpecHash.small (firstn 102 T') -> acceptable O zs T A -> acceptable O zs T' A.
  Proof.
    intros TV SM (LZ & LT & LA & VT & _ & ix & iy & X & Y & HI & RX & RY & R). cbv zeta in R.
    split; [exact LZ|]. split; [rewrite L; exact LT|]. split; [exact LA|]. split; [exact (coms_ext VT)|]. split; [exact SM|].
    exists ix, iy, X, Y. split; [exact HI|]. split; [exact RX|]. split; [exact RY|]. cbv zeta.
    rewrite (TV ix iy HI), queries_ext, terms_ext.
    rewrite (quotient_ext (word T') (word T)) by exact word_ext.
    rewrite !Out by lia. exact R.
  Qed.
End Ext.

Lemma c71 O c c' zs T T' A s :
  TargetInst c ++ VerifyInst c = map VBig zs -> Proof_ c = map VBig T -> Aux c = map VBig A ->
  TargetInst c' ++ VerifyInst c' = map VBig zs -> Proof_ c' = map VBig T' -> Aux c' = map VBig A ->
  length T' = length T -> (forall i, (i < 44 \/ 100 <= i)%nat -> nth i T' 0 = nth i T 0) ->
  (forall i, (44 <= i < 100)%nat -> nth i T' 0 mod r_mod = nth i T 0 mod r_mod) ->
  Forall SpecHash.small (firstn 102 T) -> Forall SpecHash.small (firstn 102 T') ->
  (forall ix iy, instance_commitment O zs ix iy -> transcript_values O ix iy T' = transcript_values O ix iy T) ->
  degen_sane O -> outside_domain O zs T ->
  ((exists s', Define O Test c s = Done (None, s')) <-> (exists s', Define O Test c' s = Done (None, s'))).
Proof.
  intros E1 E2 E3 F1 F2 F3 L Out Ev S S' TV Hd OD.
  assert (OD' : outside_domain O zs T') by (intros ix iy HI; rewrite (TV ix iy HI); exact (OD ix iy HI)).
  rewrite (c70_exact O c zs T A s E1 E2 E3 Hd OD), (c70_exact O c' zs T' A s F1 F2 F3 Hd OD').
  split; [apply acceptable_ext | apply acceptable_ext]; auto; try (intros; symmetry; auto).
Qed.

(** ** An accepted proof with a non-canonical evaluation *)
Definition shift45 : list Z := Eval vm_compute in
  map (fun '(i, z) => if Nat.eqb i 45 then z + r_mod else z) (combine (seq 0 104) run_proof).
Definition shift_circuit : AggregatorCircuit := {|
  Proof_ := map VBig shift45; VerifyInst := []; Aux := Aux run_circuit; TargetInst := [VBig 7] |}.
Lemma run_degen : degen_sane run_O. Proof. intros a b c E. discriminate E. Qed.
Lemma run_instance ix iy : instance_commitment run_O [7] ix iy -> ix = rlx /\ iy = rly.
Proof.
  unfold instance_commitment. intros H. apply (multiple_pmul _ _ _ _ _ lagrange_encodes) in H.
  change (instance_scalar run_O [7]) with 1 in H. rewrite pmul_1' in H. unfold rlx, rly. split; congruence.
Qed.
Lemma run_outside : outside_domain run_O [7] run_proof.
Proof.
  intros ix iy H. apply run_instance in H. destruct H as [-> ->]. unfold run_O. rewrite run_transcript. cbn [nth].
  rewrite run_xn. intros E. apply phi_eq_iff in E. vm_compute in E. discriminate.
Qed.
Lemma shift_transcript : transcript_values run_O rlx rly shift45 = transcript_values run_O rlx rly run_proof.
Proof. vm_compute. reflexivity. Qed.
Lemma shift_words : forallb (fun i => if andb (Nat.leb 44 i) (Nat.ltb i 100) then Z.eqb (nth i shift45 0 mod r_mod) (nth i run_proof 0 mod r_mod)
  else Z.eqb (nth i shift45 0) (nth i run_proof 0)) (seq 0 104) = true.
Proof. vm_compute. reflexivity. Qed.
Lemma shift_word i : if andb (Nat.leb 44 i) (Nat.ltb i 100) then nth i shift45 0 mod r_mod = nth i run_proof 0 mod r_mod
  else nth i shift45 0 = nth i run_proof 0.
Proof.
  destruct (Nat.lt_ge_cases i 104) as [H|H].
  - pose proof shift_words as E. rewrite forallb_forall in E. specialize (E i ltac:(apply in_seq; lia)).
    destruct (andb _ _); apply Z.eqb_eq, E.
  - replace (Nat.ltb i 100) with false by (symmetry; apply Nat.ltb_ge; lia). rewrite andb_false_r.
    rewrite !nth_overflow; [reflexivity|exact H|exact H].
Qed.
Lemma small_b l : forallb (fun z => Z.abs z <? 2 ^ 256) l = true -> Forall SpecHash.small l.
Proof. intros H. apply Forall_forall. intros z Hz. rewrite forallb_forall in H. apply Z.ltb_lt, (H z Hz). Qed.
Lemma shift_accepted s : exists s', Define run_O Test shift_circuit s = Done (None, s').
Proof.
  refine (proj1 (c71 run_O run_circuit shift_circuit [7] run_proof shift45 (map val (helpers (fc rx) (fc ru) 0%fr)) s
    eq_refl eq_refl eq_refl eq_refl eq_refl eq_refl eq_refl _ _ _ _ _ _ run_outside) _).
  - intros i Hi. pose proof (shift_word i) as E. replace (andb (Nat.leb 44 i) (Nat.ltb i 100)) with false in E; [exact E|].
    symmetry. apply andb_false_iff. destruct Hi; [left; apply Nat.leb_gt; lia | right; apply Nat.ltb_ge; lia].
  - intros i Hi. pose proof (shift_word i) as E. replace (andb (Nat.leb 44 i) (Nat.ltb i 100)) with true in E; [exact E|].
    symmetry. apply andb_true_iff. split; [apply Nat.leb_le; lia | apply Nat.ltb_lt; lia].
  - apply small_b. vm_compute. reflexivity.
  - apply small_b. vm_compute. reflexivity.
  - intros ix iy H. apply run_instance in H. destruct H as [-> ->]. exact shift_transcript.
  - exact run_degen.
  - exists s. apply run_accepted.
Qed.
Lemma c71_refuted : ~ (forall O c zs T A s s', TargetInst c ++ VerifyInst c = map VBig zs -> Proof_ c = map VBig T -> Aux c = map VBig A ->
  degen_sane O -> outside_domain O zs T -> Define O Test c s = Done (None, s') ->
  forall i, (44 <= i < 100)%nat -> 0 <= nth i T 0 < r_mod).
Proof.
  intros H. destruct (shift_accepted (mk_cs 0 [] [])) as [s' E].
  pose proof (H run_O shift_circuit [7] shift45 (map val (helpers (fc rx) (fc ru) 0%fr)) (mk_cs 0 [] []) s' eq_refl eq_refl eq_refl run_degen) as H1.
  specialize (H1 ltac:(intros ix iy HI; apply run_instance in HI as HJ; destruct HJ as [-> ->]; rewrite shift_transcript; exact (run_outside rlx rly HI)) E 45%nat ltac:(lia)).
  destruct H1 as [_ H1]. vm_compute in H1. discriminate.
Qed.

(** ** Cases for C70 *)
Lemma run_acceptable : acceptable run_O [7] run_proof (map val (helpers (fc rx) (fc ru) 0%fr)).
Proof.
  exact (c70_fwd run_O run_circuit [7] run_proof _ (mk_cs 0 [] []) _ eq_refl eq_refl eq_refl run_degen run_outside (run_accepted _)).
Qed.
(** the first commitment of the same proof replaced by infinity, written as (0,0); the curve check lets it pass *)
Definition inf_proof : list Z := Eval vm_compute in 0 :: 0 :: skipn 2 run_proof.
Lemma inf_rejected : coms_on_curve inf_proof /\ forall c s s', TargetInst c ++ VerifyInst c = map VBig [7] -> Proof_ c = map VBig inf_proof ->
  forall A, Aux c = map VBig A -> Define run_O Test c s <> Done (None, s').
Proof.
  split.
  - intros i Hi. destruct (Nat.eq_dec i 0) as [->|N]; [left; split; reflexivity|].
    assert (E : forall j, (2 <= j)%nat -> nth j inf_proof 0 = nth j run_proof 0).
    { intros j Hj. destruct j as [|[|j]]; [lia|lia|]. reflexivity. }
    rewrite !E by lia. exact (coms_valid_on _ run_valid i Hi).
  - intros c s s' E1 E2 A E3 H. destruct (c70_points run_O c [7] inf_proof A s s' E1 E2 E3 run_degen H) as [_ V].
    specialize (V 0%nat ltac:(cbn; tauto)). vm_compute in V. discriminate V.
Qed.
