(** BN256PairingCircuit and the two hash circuits as compiled circuits: every leaf is a wire. *)
From Coq Require Import ZArith String Bool List.
From Verif Require Import Params Go Curve Api Lib Agg.
Import ListNotations.
Open Scope Z_scope.

(** The value of an emulated element in the test engine, pairing_circuit_test.go:91: an assigned element is a
    constant, taken modulo p. *)
Definition em_value (e : emul) : option Z := match e with EmConst z => Some (z mod p_mod) | EmWire _ => None end.
(** pairing_circuit.go:16: an element of the quadratic extension. *)
Definition em_pair (a : emul * emul) : option (Z * Z) :=
  match em_value (fst a), em_value (snd a) with Some x, Some y => Some (x, y) | _, _ => None end.
(** pairing_circuit.go:16: a point of G2. *)
Definition em_g2 (Q : (emul * emul) * (emul * emul)) : option g2 :=
  match em_pair (fst Q), em_pair (snd Q) with Some x, Some y => Some (x, y) | _, _ => None end.
(** the slices c.G1Points[:] and c.G2Points[:] of pairing_circuit.go:23-24 *)
Fixpoint all_some {A : Type} (l : list (option A)) : option (list A) :=
  match l with
  | [] => Some []
  | Some a :: t => match all_some t with Some r => Some (a :: r) | None => None end
  | None :: _ => None
  end.

(** pairing_circuit.go:20-26 [BN256PairingCircuit.Define] and 28-46 [VerifyBN256Pairing] on points with emulated
    coordinates; on constants this is [VerifyBN256Pairing] (C77_pairing_test_engine). *)
Definition PairingDefine (O : oracles) (en : engine) (g1s : list (emul * emul)) (g2s : list ((emul * emul) * (emul * emul)))
  : M (option goerr) :=
  if (Nat.eqb (length g1s) 0) || negb (Nat.eqb (length g1s) (length g2s))
  then ret (Some "pair: invalid inputs sizes"%string)
  else match en with
  | Build => emit (CPairing g1s g2s) ;;; ret None
  | Test =>
      match all_some (map em_pair g1s), all_some (map em_g2 g2s) with
      | Some ps, Some qs => VerifyBN256Pairing O Test ps qs
      | _, _ => panic "not an assigned element"
      end
  end.

(** pairing_circuit_test.go:18-24 [setupKeys]: two points of each group, all leaves secret (no gnark tag at
    pairing_circuit.go:13-17); emulated wires 0-3 are the G1 points, 4-11 the G2 points. *)
Definition pairing_g1_leaves : list (emul * emul) := [(EmWire 0, EmWire 1); (EmWire 2, EmWire 3)].
Definition pairing_g2_leaves : list ((emul * emul) * (emul * emul)) :=
  [((EmWire 4, EmWire 5), (EmWire 6, EmWire 7)); ((EmWire 8, EmWire 9), (EmWire 10, EmWire 11))].
(** pairing_circuit_test.go:24. *)
Definition compile_pairing (O : oracles) : cs + goerr :=
  compile 0 (PairingDefine O Build pairing_g1_leaves pairing_g2_leaves).
(** pairing_circuit_test.go:41-52 [createProof]: the values of the two points of each group. *)
Definition pairing_asg (g1s : list (Z * Z)) (g2s : list g2) : asg :=
  {| aw := fun _ => 0;
     ae := fun i => nth i (flat_map (fun P => [fst P; snd P]) g1s ++
                           flat_map (fun Q => [fst (fst Q); snd (fst Q); fst (snd Q); snd (snd Q)]) g2s) 0 |}.

(** aggregator_lib_circuit.go:308-315 [Keccak256Circuit] and 340-347 [Sha256Circuit], [n] input and [m] hash bytes;
    all leaves are secret. *)
Definition compile_keccak (O : oracles) (n m : nat) : cs + goerr :=
  compile (n + m) (VerifyKeccak256 O Build (wires_from 0 n) (wires_from n m)).
(** aggregator_lib_circuit.go:340-347. *)
Definition compile_sha256 (O : oracles) (n m : nat) : cs + goerr :=
  compile (n + m) (VerifySha256 O Build (wires_from 0 n) (wires_from n m)).
