(** Specification of the byte packing and of the Fiat-Shamir hash chain. *)
From Coq Require Import ZArith Bool List.
From Verif Require Import Params Go Api FrOps Lib SpecCurve.
Import ListNotations.
Open Scope Z_scope.

(** sum of b_i * 256^(n-1-i) *)
Fixpoint pack (bs : list Z) : Z :=
  match bs with
  | [] => 0
  | b :: t => b * 256 ^ Z.of_nat (length t) + pack t
  end.

Definition bytes (bs : list Z) : Prop := Forall (fun b => 0 <= b < 256) bs.

(** a 256-bit integer as 32 big-endian bytes: the unique byte string of length 32 that packs to it *)
Definition be32_of (z : Z) (bs : list Z) : Prop := length bs = 32%nat /\ bytes bs /\ pack bs = z.

(** the concatenation of the 32-byte encodings of a list of integers *)
Fixpoint encode (zs : list Z) (bs : list Z) : Prop :=
  match zs with
  | [] => bs = []
  | z :: t => exists h r, bs = h ++ r /\ be32_of z h /\ encode t r
  end.

(** the same as a function *)
Definition encoding (zs : list Z) : list Z := flat_map (be_bytes 32) zs.

(** the integer denoted by the SHA-256 digest of a message *)
Definition digest (O : oracles) (msg : list Z) : Z := o_sha256 O msg mod 2 ^ 256.

(** messages hashed by the transcript: the pending values (at first the initial ones, later only the
    previous digest) and a chunk, each value in 32 bytes, and a zero byte *)
Fixpoint chain_messages (O : oracles) (pending : list Z) (chunks : list (list Z)) : list (list Z) :=
  match chunks with
  | [] => []
  | c :: t => let m := encoding (pending ++ c) ++ [0] in m :: chain_messages O [digest O m] t
  end.

Definition chain (O : oracles) (init : list Z) (chunks : list (list Z)) : list Z :=
  map (digest O) (chain_messages O init chunks).

(** cut a list into chunks of the given sizes *)
Fixpoint cut {A} (sizes : list nat) (l : list A) : list (list A) :=
  match sizes with
  | [] => []
  | n :: t => firstn n l :: cut t (skipn n l)
  end.

(** sizes of the chunks absorbed before theta, beta, gamma, y, x, y', v, u *)
Definition schedule : list nat := [16; 8; 0; 14; 6; 56; 0; 2]%nat.

(** indices of the first coordinates of the 24 commitments of the proof *)
Definition point_slots : list nat := map (fun i => (2 * i)%nat) (seq 0 22) ++ [100; 102]%nat.

Definition collision (O : oracles) (m m' : list Z) : Prop := m <> m' /\ digest O m = digest O m'.

(** number of proof elements absorbed before the (k+1)-th challenge *)
Definition absorbed_before (k : nat) : nat := fold_right Nat.add O (firstn (S k) schedule).

(** a list of variables denotes integers / expressions *)
Definition bigs (vs : list var) (zs : list Z) : Prop := Forall2 (fun v z => to_big v = Done z) vs zs.
Definition exprs (vs : list var) (es : list expr) : Prop := Forall2 (fun v e => to_expr v = Done e) vs es.

(** the absolute value fits in 32 bytes *)
Definition small (z : Z) : Prop := Z.abs z < 2 ^ 256.

(** the message hashed for a list of absorbed integers *)
Definition msg (ms : list Z) : list Z := encoding (map Z.abs ms) ++ [0].

Definition ok_at (zs : list Z) (i : nat) : Prop := curve_or_zero (nth i zs 0) (nth (i + 1) zs 0).
Definition all_points_ok (zs : list Z) : Prop := forall i, In i point_slots -> ok_at zs i.

(** the constant the transcript starts with (it stands for the verification key) *)
Definition vk_constant : Z := 8025805240938309707562879759498205008153592202559235423490485577859843831056.

(** digests of the whole transcript: instance commitment (x,y), proof zs *)
Definition transcript_values (O : oracles) (x y : Z) (zs : list Z) : list Z :=
  chain O [vk_constant; Z.abs x; Z.abs y] (cut schedule (map Z.abs zs)).

(** a challenge as a circuit value: the digest modulo r *)
Definition chal (d : Z) : var := VBig (d mod r_mod).

Definition range256 (z : Z) : Prop := 0 <= z < 2 ^ 256.
