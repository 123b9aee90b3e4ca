(** The sample proof of the repository with its last point negated, and oracles that check the Tate pairing. *)
From Coq Require Import ZArith List.
From Verif Require Import Params Go Curve Api FrOps Agg SpecCurve SpecPairing SpecSample.
Import ListNotations.
Open Scope Z_scope.

(** on points of the curve and the two constant points of G2, the pairing oracle (gnark's PairingCheck,
    pairing_circuit.go:46) says whether the product of the Tate pairings is one *)
Definition real_pairing (O : oracles) : Prop := forall l,
  Forall (fun PQ => valid_pt (fst PQ) = true /\ (snd PQ = g20_const \/ snd PQ = g21_const)) l ->
  (o_pairing O l = true <-> tate_product l = o1 zp12).

(** the sample with the last number y of the proof replaced by p - y *)
Definition flipped_proof : list Z := firstn 103 sample_proof ++ [p_mod - nth 103 sample_proof 0].
Definition flipped : AggregatorCircuit := {|
  Proof_ := map VBig flipped_proof; VerifyInst := [VBig sample_verify]; Aux := map VBig sample_aux;
  TargetInst := map VBig sample_target |}.
(** the two points then paired with the constant points of G2 *)
Definition flipped_W : pt :=
  Aff 2920616387084030925907755037226454382846345550621956833249622258647667607078
      5385564714789947898335528196550008966376375633950972870377695794853387471671.
Definition flipped_R : pt :=
  Aff 5126950274219516759904618409644903574877069311980736548410959901264512485538
      10302592561770922482366986536190573531122829617604063203963475659849737472402.
