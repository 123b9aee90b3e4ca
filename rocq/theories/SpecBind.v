(** What the last challenge of an accepted run determines: C73. *)
From Coq Require Import ZArith List.
From Verif Require Import Params Curve Api SpecHash.
Import ListNotations.
Open Scope Z_scope.

(** the bytes hashed for the public inputs *)
Definition instance_message (zs : list Z) : list Z := encoding (map (fun z => z mod p_mod) zs).
(** two different byte strings whose Keccak digests agree modulo r *)
Definition keccak_collision_mod_r (O : oracles) (m m' : list Z) : Prop :=
  m <> m' /\ (o_keccak O m mod 2 ^ 256) mod r_mod = (o_keccak O m' mod 2 ^ 256) mod r_mod.
(** the eight byte strings hashed by the transcript *)
Definition messages (O : oracles) (x y : Z) (T : list Z) : list (list Z) :=
  chain_messages O [vk_constant; Z.abs x; Z.abs y] (cut schedule (map Z.abs T)).
(** the two transcripts hash different messages with the same digest at the same position *)
Definition transcript_collision (O : oracles) (x y : Z) (T : list Z) (x' y' : Z) (T' : list Z) : Prop :=
  exists j m m', nth_error (messages O x y T) j = Some m /\ nth_error (messages O x' y' T') j = Some m' /\ collision O m m'.
(** positions of the proof words that are coordinates of absorbed points *)
Definition point_word (i : nat) : Prop := (i < 44 \/ 100 <= i < 102)%nat.
(** the proof with the sign of word i changed *)
Definition flip (i : nat) (T : list Z) : list Z := firstn i T ++ match skipn i T with [] => [] | z :: t => - z :: t end.
