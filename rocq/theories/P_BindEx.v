(** Cases for C73. *)
From Coq Require Import ZArith Bool List Lia.
From Verif Require Import Params Go Curve Api FrOps Lib Steps Agg FField FpField SpecCurve SpecHash SpecMisc SpecVerify SpecExact SpecRows SpecBind
  P_RunEx P_CircuitEx P_Unique P_UniqueEx P_EvalMod P_Bind.
Import ListNotations.
Open Scope Z_scope.

(** two accepted proofs with the same challenges; the oracle for SHA-256 depends on the message length only *)
Lemma bind_case s : (exists s', Define run_O Test run_circuit s = Done (None, s')) /\
  (exists s', Define run_O Test shift_circuit s = Done (None, s')) /\
  transcript_values run_O rlx rly run_proof = transcript_values run_O rlx rly shift45 /\
  Z.abs (nth 45 run_proof 0) <> Z.abs (nth 45 shift45 0) /\
  transcript_collision run_O rlx rly run_proof rlx rly shift45.
Proof.
  split; [exists s; apply run_accepted|]. split; [apply shift_accepted|].
  assert (E : transcript_values run_O rlx rly run_proof = transcript_values run_O rlx rly shift45) by (symmetry; exact shift_transcript).
  assert (N : Z.abs (nth 45 run_proof 0) <> Z.abs (nth 45 shift45 0)) by (vm_compute; discriminate).
  split; [exact E|]. split; [exact N|].
  destruct (shift_accepted s) as [s' H'].
  assert (HI : instance_commitment run_O [7] rlx rly).
  { destruct run_acceptable as (_ & _ & _ & _ & _ & ix & iy & X & Y & HI & _). apply run_instance in HI as HJ. destruct HJ as [-> ->]. exact HI. }
  destruct (c73 run_O run_circuit shift_circuit [7] [7] run_proof shift45 _ _ s s s s' rlx rly rlx rly eq_refl eq_refl eq_refl eq_refl eq_refl eq_refl
    run_degen HI HI (run_accepted s) H' (f_equal (fun l => nth 7 l 0) E)) as [(_ & _ & W)|[C|[C _]]].
  - elim N. apply W. lia.
  - exact C.
  - elim C. reflexivity.
Qed.

(** an accepted run that meets the hypotheses of the second theorem *)
Lemma whole_case s : exists tau, let O := run_Op (kzg_check tau) in
  kzg_pairing O g20_const g21_const tau /\ degen_sane O /\ length run_proof = 104%nat /\ Forall (fun z => 0 <= z < p_mod) [7] /\
  (forall i, (44 <= i < 100)%nat -> 0 <= nth i run_proof 0) /\ instance_commitment O [7] rlx rly /\
  fexp (fc (nth 4 (transcript_values O rlx rly run_proof) 0)) dom_n <> 1%fr /\
  fc (nth 7 (transcript_values O rlx rly run_proof) 0) <> tau /\ Define O Test run_circuit s = Done (None, s).
Proof.
  destruct (uq_case s) as (tau & K & D & _ & _ & _ & M & [X U] & R). exists tau. cbv zeta.
  split; [exact K|]. split; [exact D|]. split; [reflexivity|]. split; [repeat constructor; discriminate|].
  split.
  { intros i Hi. assert (G : forallb (fun z => 0 <=? z) run_proof = true) by (vm_compute; reflexivity).
    rewrite forallb_forall in G. apply Z.leb_le, G, nth_In. change (length run_proof) with 104%nat. lia. }
  split; [exact M|]. split; [exact X|]. split; [exact U|]. exact R.
Qed.
