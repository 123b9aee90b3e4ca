(** The hash functions, transcribed from FIPS 180-4 (SHA-256) and from the Keccak reference (Keccak-256, the
    padding used by Ethereum).  Bytes are integers 0..255; a digest is the integer its bytes denote, most
    significant first.  Used to instantiate the hash oracles. *)
From Coq Require Import ZArith List.
Import ListNotations.
Open Scope Z_scope.

Definition from_bytes (bs : list Z) : Z := fold_left (fun a b => a * 256 + b) bs 0.
Fixpoint to_bytes (n : nat) (z : Z) (acc : list Z) : list Z :=
  match n with O => acc | S k => to_bytes k (z / 256) (z mod 256 :: acc) end.
Fixpoint chunks_of (fuel n : nat) (l : list Z) : list (list Z) :=
  match fuel, l with S f, _ :: _ => firstn n l :: chunks_of f n (skipn n l) | _, _ => [] end.

(** ** SHA-256 *)
Definition w32 : Z := 4294967296.
(** the low 32 bits *)
Definition low32 (x : Z) : Z := Z.land x 4294967295.
Definition add32 (a b : Z) : Z := low32 (a + b).
Definition rotr (n x : Z) : Z := Z.lor (Z.shiftr x n) (low32 (Z.shiftl x (32 - n))).
Definition x3 (a b c : Z) : Z := Z.lxor a (Z.lxor b c).
Definition ch (e f g : Z) : Z := Z.lxor (Z.land e f) (Z.land (w32 - 1 - e) g).
Definition maj (a b c : Z) : Z := x3 (Z.land a b) (Z.land a c) (Z.land b c).
Definition big0 (x : Z) : Z := x3 (rotr 2 x) (rotr 13 x) (rotr 22 x).
Definition big1 (x : Z) : Z := x3 (rotr 6 x) (rotr 11 x) (rotr 25 x).
Definition small0 (x : Z) : Z := x3 (rotr 7 x) (rotr 18 x) (Z.shiftr x 3).
Definition small1 (x : Z) : Z := x3 (rotr 17 x) (rotr 19 x) (Z.shiftr x 10).
(** section 4.2.2 and 5.3.3 *)
Definition sha_k : list Z :=
  [1116352408; 1899447441; 3049323471; 3921009573; 961987163; 1508970993; 2453635748; 2870763221;
   3624381080; 310598401; 607225278; 1426881987; 1925078388; 2162078206; 2614888103; 3248222580;
   3835390401; 4022224774; 264347078; 604807628; 770255983; 1249150122; 1555081692; 1996064986;
   2554220882; 2821834349; 2952996808; 3210313671; 3336571891; 3584528711; 113926993; 338241895;
   666307205; 773529912; 1294757372; 1396182291; 1695183700; 1986661051; 2177026350; 2456956037;
   2730485921; 2820302411; 3259730800; 3345764771; 3516065817; 3600352804; 4094571909; 275423344;
   430227734; 506948616; 659060556; 883997877; 958139571; 1322822218; 1537002063; 1747873779;
   1955562222; 2024104815; 2227730452; 2361852424; 2428436474; 2756734187; 3204031479; 3329325298].
Definition sha_h : list Z :=
  [1779033703; 3144134277; 1013904242; 2773480762; 1359893119; 2600822924; 528734635; 1541459225].
(** section 5.1.1 *)
Definition sha_pad (m : list Z) : list Z :=
  m ++ [128] ++ repeat 0 (Z.to_nat ((55 - Z.of_nat (length m)) mod 64)) ++ to_bytes 8 (8 * Z.of_nat (length m)) [].
(** section 6.2.2: [win] are the sixteen words W_t, ..., W_(t+15) *)
Definition next_win (win : list Z) : list Z :=
  match win with
  | w0 :: w1 :: t => (w1 :: t) ++ [add32 (add32 (small1 (nth 12 t 0)) (nth 7 t 0)) (add32 (small0 w1) w0)]
  | _ => win
  end.
Fixpoint sha_rounds (ks win : list Z) (s : list Z) : list Z :=
  match ks, s, win with
  | k :: ks', [a; b; c; d; e; f; g; h], w :: _ =>
      let t1 := add32 (add32 (add32 h (big1 e)) (add32 (ch e f g) k)) w in
      let t2 := add32 (big0 a) (maj a b c) in
      sha_rounds ks' (next_win win) [add32 t1 t2; a; b; c; add32 d t1; e; f; g]
  | _, _, _ => s
  end.
Definition sha_block (s : list Z) (blk : list Z) : list Z :=
  map (fun p => add32 (fst p) (snd p)) (combine s (sha_rounds sha_k (map from_bytes (chunks_of 16 4 blk)) s)).
Definition sha256 (m : list Z) : Z :=
  let p := sha_pad m in
  fold_left (fun a w => a * w32 + w) (fold_left sha_block (chunks_of (length p) 64 p) sha_h) 0.

(** ** Keccak-256 *)
Definition w64 : Z := 18446744073709551616.
Definition low64 (x : Z) : Z := Z.land x 18446744073709551615.
Definition rotl (n x : Z) : Z := Z.lor (low64 (Z.shiftl x n)) (Z.shiftr x (64 - n)).
Definition lane (A : list Z) (x y : nat) : Z := nth (Nat.modulo x 5 + 5 * Nat.modulo y 5) A 0.
Definition state (f : nat -> nat -> Z) : list Z := flat_map (fun y => map (fun x => f x y) (seq 0 5)) (seq 0 5).
Definition theta (A : list Z) : list Z :=
  let C := map (fun x => Z.lxor (lane A x 0) (Z.lxor (lane A x 1) (Z.lxor (lane A x 2) (Z.lxor (lane A x 3) (lane A x 4))))) (seq 0 5) in
  let D := map (fun x => Z.lxor (nth (Nat.modulo (x + 4) 5) C 0) (rotl 1 (nth (Nat.modulo (x + 1) 5) C 0))) (seq 0 5) in
  state (fun x y => Z.lxor (lane A x y) (nth x D 0)).
(** rho and pi: the lane moved to each position, and its rotation *)
Definition rho_pi_src : list nat := [0; 6; 12; 18; 24; 3; 9; 10; 16; 22; 1; 7; 13; 19; 20; 4; 5; 11; 17; 23; 2; 8; 14; 15; 21]%nat.
Definition rho_pi_rot : list Z := [0; 44; 43; 21; 14; 28; 20; 3; 45; 61; 1; 6; 25; 8; 18; 27; 36; 10; 15; 56; 62; 55; 39; 41; 2].
Definition rho_pi (A : list Z) : list Z := map (fun p => rotl (snd p) (nth (fst p) A 0)) (combine rho_pi_src rho_pi_rot).
Definition chi (A : list Z) : list Z :=
  state (fun x y => Z.lxor (lane A x y) (Z.land (w64 - 1 - lane A (x + 1) y) (lane A (x + 2) y))).
Definition iota (rc : Z) (A : list Z) : list Z := match A with a :: t => Z.lxor a rc :: t | [] => [] end.
Definition keccak_rc : list Z :=
  [1; 32898; 9223372036854808714; 9223372039002292224; 32907;
   2147483649; 9223372039002292353; 9223372036854808585; 138; 136;
   2147516425; 2147483658; 2147516555; 9223372036854775947; 9223372036854808713;
   9223372036854808579; 9223372036854808578; 9223372036854775936; 32778; 9223372039002259466;
   9223372039002292353; 9223372036854808704; 2147483649; 9223372039002292232].
Definition keccak_f (A : list Z) : list Z := fold_left (fun A rc => iota rc (chi (rho_pi (theta A)))) keccak_rc A.
Definition keccak_pad (m : list Z) : list Z :=
  let n := Z.to_nat ((- Z.of_nat (length m)) mod 136) in
  match n with O => m ++ [1] ++ repeat 0 134 ++ [128] | S O => m ++ [129] | S (S k) => m ++ [1] ++ repeat 0 k ++ [128] end.
Definition keccak_absorb (A : list Z) (blk : list Z) : list Z :=
  let ls := map (fun b => from_bytes (rev b)) (chunks_of 17 8 blk) in
  keccak_f (map (fun p => Z.lxor (fst p) (snd p)) (combine A (ls ++ repeat 0 8))).
Definition keccak256 (m : list Z) : Z :=
  let p := keccak_pad m in
  from_bytes (flat_map (fun l => rev (to_bytes 8 l [])) (firstn 4 (fold_left keccak_absorb (chunks_of (length p) 136 p) (repeat 0 25)))).
