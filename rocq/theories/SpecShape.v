(** The leaves of a circuit in the order in which frontend.Compile turns them into wires: public inputs first. *)
From Coq Require Import ZArith List.
From Verif Require Import Params Go Curve Api Agg.
Import ListNotations.

Definition agg_leaves (c : AggregatorCircuit) : list var := TargetInst c ++ Proof_ c ++ VerifyInst c ++ Aux c.
(** wire 0, wire 1, ... *)
Definition numbered (n : nat) : list var := map (fun i => VExpr (EWire i)) (seq 0 n).
