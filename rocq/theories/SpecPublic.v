(** What the holder of the verifying key learns from an accepted proof: the public inputs belong to some witness.
    The public inputs are the first wires of a compiled circuit. *)
From Coq Require Import ZArith List.
From Verif Require Import Params Api.
Import ListNotations.
Open Scope Z_scope.

(** there is a witness with these public inputs *)
Definition provable (O : oracles) (S : cs) (us : list Z) : Prop :=
  exists w, sat O w S /\ map (fun i => aw w i mod r_mod) (seq 0 (length us)) = us.
(** field elements *)
Definition elements (us : list Z) : Prop := Forall (fun u => 0 <= u < r_mod) us.
