(** The data of TestKyc (kyc_test.go:28-65). *)
From Coq Require Import ZArith List.
From Verif Require Import Api Agg SpecEcdsa.
Import ListNotations.
Open Scope Z_scope.

(** the signature, kyc_test.go:28 and :33 *)
Definition kt_r : Z := 45536044045135930417610581277973574046122438970391757925449844580498097416238.
Definition kt_s : Z := 77405625560525123464152303145240770328705524946250305291099118722847750339975.
(** the hash, :38, and the one commented out, :39 *)
Definition kt_hash : Z := 65836751601596300032969389553597263219621359970931417026813124302429596772205.
Definition kt_other : Z := 55836751601596300032969389553597263219621359970931417026813124302429596772205.
(** the conditions (Age, Country, Level, Time), then the attributes, :58-65 *)
Definition kt_wires : list Z := [18; 50; 100; 200; 300; 400; 500; 3; 300; 35; 300; 3; 200].

(** the witness of the test, with hash [h] *)
Definition kt_witness (h : Z) (w : asg) : Prop :=
  ae w 0%nat = kt_r /\ ae w 1%nat = kt_s /\ ae w 2%nat = h /\ (forall i, (i < 13)%nat -> aw w i = nth i kt_wires 0).

(** the library's answer for one query is that of the standard *)
Definition ecdsa_right (O : oracles) (px py h r s : Z) : Prop := o_ecdsa O px py h r s = true <-> ecdsa_valid px py h r s.
