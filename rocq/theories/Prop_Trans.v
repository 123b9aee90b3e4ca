(** The Fiat-Shamir transcript: C25-C28.  [msg], [digest], [chain], [schedule], [transcript_values],
    [all_points_ok] and [collision] are defined in SpecHash.v. *)
From Coq Require Import ZArith String Bool List.
From Verif Require Import Params Go Curve Api FrOps Lib Agg SpecHash P_Fr P_FrEx P_Hash P_Trans P_HashEx.
Import ListNotations.
Open Scope Z_scope.

(** C25 *)
Theorem C25_squeeze : forall (O : oracles) (en : engine) (absorbing : list var) (n : nat) (zs : list Z) (s : cs),
  (n < length absorbing)%nat -> firstn n absorbing = map VBig zs -> Forall small zs ->
  exists absorbing' s', SqueezeChallenge O en absorbing n s =
      Done ((VBig (digest O (msg zs) mod r_mod), absorbing', None), s') /\
    (en = Test -> s' = s) /\ length absorbing' = length absorbing /\
    (forall i, nth_error absorbing' i =
       if Nat.eqb i 0 then Some (VBig (digest O (msg zs)))
       else if Nat.eqb i n then Some (VBig 0) else nth_error absorbing i).
Proof. exact c25_ok. Qed.
Print Assumptions C25_squeeze.
Theorem C25_squeeze_panics : forall (O : oracles) (en : engine) (absorbing : list var) (n : nat) (s : cs),
  ~ ((n < length absorbing)%nat /\ exists zs, firstn n absorbing = map VBig zs /\ Forall small zs) ->
  exists w, SqueezeChallenge O en absorbing n s = Panicked w.
Proof. exact c25_panics. Qed.
Print Assumptions C25_squeeze_panics.
Theorem C25_encoding_is_be32 : forall zs : list Z, Forall range256 zs ->
  encode zs (encoding zs) /\ (forall bs, encode zs bs -> bs = encoding zs).
Proof. exact encoding_spec. Qed.
Print Assumptions C25_encoding_is_be32.
Example C25_case : exists ab, SqueezeChallenge toyO Test [VBig 1; VBig 2; VNil; VInt 9] 2 s0 =
  Done ((VBig (digest toyO (msg [1; 2]) mod r_mod), ab, None), s0) /\ msg [1; 2] = encoding [1; 2] ++ [0] /\
  digest toyO (msg [1; 2]) = 2 * 256 + 2 ^ 256 * 0.
Proof. exact ex25. Qed.

(** C26 and C28 *)
Theorem C26_schedule : forall (O : oracles) (en : engine) (buf : list var) (x y : Z) (zs : list Z) (s s' : cs) b,
  nth_error buf 0 = Some (VBig x) -> nth_error buf 1 = Some (VBig y) -> (10 <= length buf)%nat -> (104 <= length zs)%nat ->
  GetChallengesShPlonkCircuit O en buf (map VBig zs) s = Done ((b, None), s') ->
  b = firstn 2 buf ++ map chal (transcript_values O x y zs) ++ skipn 10 buf /\
  length (transcript_values O x y zs) = 8%nat.
Proof. exact c26. Qed.
Print Assumptions C26_schedule.
Theorem C26_reads_104 : forall (O : oracles) (buf : list var) (x y : Z) (zs t t' : list Z) (s : cs),
  nth_error buf 0 = Some (VBig x) -> nth_error buf 1 = Some (VBig y) -> (10 <= length buf)%nat -> length zs = 104%nat ->
  forall b, GetChallengesShPlonkCircuit O Test buf (map VBig (zs ++ t)) s = Done ((b, None), s) ->
  GetChallengesShPlonkCircuit O Test buf (map VBig (zs ++ t')) s = Done ((b, None), s).
Proof. exact c26_reads. Qed.
Print Assumptions C26_reads_104.
Example C26_case : forall O s, exists b,
  GetChallengesShPlonkCircuit O Test (VBig 1 :: VBig 2 :: repeat VNil 41) (map VBig gens) s = Done ((b, None), s).
Proof. exact ex26. Qed.

Theorem C28_points_checked : forall (O : oracles) (en : engine) (buf : list var) (x y : Z) (zs : list Z) (s : cs),
  nth_error buf 0 = Some (VBig x) -> nth_error buf 1 = Some (VBig y) -> (10 <= length buf)%nat -> (104 <= length zs)%nat ->
  (all_points_ok zs -> small x -> small y -> Forall small (firstn 102 zs) ->
   exists s', (en = Test -> s' = s) /\ GetChallengesShPlonkCircuit O en buf (map VBig zs) s =
     Done ((firstn 2 buf ++ map chal (transcript_values O x y zs) ++ skipn 10 buf, None), s')) /\
  (small x -> small y -> Forall small (firstn 102 zs) -> ~ all_points_ok zs ->
   exists b e s', GetChallengesShPlonkCircuit O en buf (map VBig zs) s = Done ((b, Some e), s')) /\
  (forall b s', GetChallengesShPlonkCircuit O en buf (map VBig zs) s = Done ((b, None), s') ->
   all_points_ok zs /\ small x /\ small y /\ Forall small (firstn 102 zs)).
Proof. exact challenges_spec. Qed.
Print Assumptions C28_points_checked.
Example C28_case_ok : all_points_ok gens /\ Forall small (firstn 102 gens) /\ length gens = 104%nat.
Proof. exact ex28_ok. Qed.
Example C28_case_bad : forall O s, exists b e s', GetChallengesShPlonkCircuit O Test (VBig 1 :: VBig 2 :: repeat VNil 41)
  (map VBig (firstn 103 gens ++ [3])) s = Done ((b, Some e), s').
Proof. exact ex28_bad. Qed.

(** C27 *)
Theorem C27_prefix_determines : forall (O : oracles) (en : engine) (buf buf' : list var) (x y : Z) (zs zs' : list Z)
    b b' s1 s2 s1' s2' (k : nat),
  nth_error buf 0 = Some (VBig x) -> nth_error buf 1 = Some (VBig y) -> (10 <= length buf)%nat -> (104 <= length zs)%nat ->
  nth_error buf' 0 = Some (VBig x) -> nth_error buf' 1 = Some (VBig y) -> (10 <= length buf')%nat -> (104 <= length zs')%nat ->
  GetChallengesShPlonkCircuit O en buf (map VBig zs) s1 = Done ((b, None), s1') ->
  GetChallengesShPlonkCircuit O en buf' (map VBig zs') s2 = Done ((b', None), s2') ->
  (k < 8)%nat -> firstn (absorbed_before k) zs = firstn (absorbed_before k) zs' ->
  nth_error b (2 + k) = nth_error b' (2 + k).
Proof. exact c27_prefix. Qed.
Print Assumptions C27_prefix_determines.
Theorem C27_binding : forall (O : oracles) (x y : Z) (zs : list Z) (x' y' : Z) (zs' : list Z) (k : nat),
  (k < 8)%nat -> Forall range256 [x; y; x'; y'] ->
  Forall range256 (firstn 102 zs) -> Forall range256 (firstn 102 zs') ->
  (102 <= length zs)%nat -> (102 <= length zs')%nat ->
  nth_error (chain O [vk_constant; x; y] (cut schedule zs)) k = nth_error (chain O [vk_constant; x'; y'] (cut schedule zs')) k ->
  (x = x' /\ y = y' /\ firstn (absorbed_before k) zs = firstn (absorbed_before k) zs') \/
  (exists j m m', (j <= k)%nat /\
     nth_error (chain_messages O [vk_constant; x; y] (cut schedule zs)) j = Some m /\
     nth_error (chain_messages O [vk_constant; x'; y'] (cut schedule zs')) j = Some m' /\ collision O m m').
Proof. exact c27_binding. Qed.
Print Assumptions C27_binding.
(** for non-negative inputs the transcript of C26 is that chain *)
Theorem C27_transcript_is_chain : forall (O : oracles) (x y : Z) (zs : list Z), 0 <= x -> 0 <= y -> Forall (fun z => 0 <= z) zs ->
  transcript_values O x y zs = chain O [vk_constant; x; y] (cut schedule zs).
Proof. exact transcript_plain. Qed.
Print Assumptions C27_transcript_is_chain.
Example C27_case : absorbed_before 0 = 16%nat /\ absorbed_before 4 = 44%nat /\ absorbed_before 7 = 102%nat /\
  Forall range256 (firstn 102 gens) /\ length gens = 104%nat.
Proof. exact ex27. Qed.
