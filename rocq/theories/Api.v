(** The two engines behind [frontend.API]: the gnark test engine (concrete run) and the circuit
    builder (compilation).  Everything here models library code called by the repository. *)
From Coq Require Import ZArith String Bool List.
From Verif Require Import Params Go Curve.
Import ListNotations.
Open Scope Z_scope.

(** Test: circuit_test.go:88 (test.IsSolved); Build: main.go:180 (frontend.Compile). *)
Inductive engine := Test | Build.

(** Functions left abstract; every theorem quantifies over them.
    Digests are given as integers and truncated to 256 bits. Called at circuit.go:164,
    aggregator_lib_circuit.go:441 and in the gadgets at aggregator_lib_circuit.go:322-332,354-364,
    msm.go:77, pairing_circuit.go:38, kyc.go:52. *)
Record oracles := {
  o_keccak : list Z -> Z;                       (* legacy Keccak-256 *)
  o_sha256 : list Z -> Z;                       (* SHA-256 *)
  o_smul_degen : Z -> Z -> Z -> option (Z * Z); (* sw_emulated ScalarMul x y s outside its documented
                                                   domain (s = 0, (0,0) or off-curve point);
                                                   [None]: the gadget fails *)
  o_pairing : list (pt * g2) -> bool;           (* product of pairings = 1 *)
  o_ecdsa : Z -> Z -> Z -> Z -> Z -> bool       (* secp256k1 ECDSA: pubx puby hash r s *)
}.

(** crypto.Keccak256Hash, circuit.go:164; gadget aggregator_lib_circuit.go:322-332. *)
Definition keccak_bytes (O : oracles) (bs : list Z) : list Z :=
  be_bytes 32 (o_keccak O bs mod 2 ^ 256).
(** sha256.Sum256, aggregator_lib_circuit.go:441; gadget aggregator_lib_circuit.go:354-364. *)
Definition sha256_bytes (O : oracles) (bs : list Z) : list Z :=
  be_bytes 32 (o_sha256 O bs mod 2 ^ 256).

(** ** Constraint systems *)

(** Names of the hint functions of the repository. fr.go:66, aggregator_lib_circuit.go:104,179,
    circuit.go:157, hash.go:26. *)
Inductive hintid := HMod | HMsm | HAdd | HKeccak | HToBytes.

(** A non-native (emulated) value: a constant or the [n]-th emulated witness element.
    emulated.Element, kyc.go:27-28. *)
Inductive emul := EmConst (z : Z) | EmWire (n : nat).

(** What the builder records for the calls at fr.go:62,93, aggregator_lib_circuit.go:603,615-616,
    circuit.go:142,146, kyc.go:52,61-64, aggregator_lib_circuit.go:331-335,363-367,
    pairing_circuit.go:38 (compiled at pairing_circuit_test.go:24). *)
Inductive constr :=
| CEq (a b : expr)                       (* a = b *)
| CLe (a b : expr)                       (* canonical a <= canonical b *)
| CByte (a : expr)                       (* 8-bit range check *)
| CBool (a : expr)                       (* a in {0,1} *)
| CKeccak (ins outs : list expr)         (* keccak gadget *)
| CSha256 (ins outs : list expr)         (* sha256 gadget *)
| CEcdsa (px py : Z) (h r s : emul)      (* ECDSA gadget *)
| CConst (b : bool)                      (* assertion among emulated constants *)
| CPairing (g1s : list (emul * emul)) (g2s : list ((emul * emul) * (emul * emul))). (* pairing gadget *)

(** The result of frontend.Compile, main.go:180. *)
Record cs := mk_cs {
  cs_next : nat;                                   (* first unused wire *)
  cs_cons : list constr;                           (* constraints, latest first *)
  cs_hints : list (hintid * list expr * list nat)  (* hint calls: name, inputs, output wires *)
}.

(** An assignment of native wires and emulated witness elements. The witness of main.go:220 with the
    values found by the solver (main.go:228). *)
Record asg := { aw : nat -> Z; ae : nat -> Z }.

(** Value of an expression built by fr.go:46,53,62,82,87,98 under a witness (main.go:220-228). *)
Fixpoint eval (w : asg) (e : expr) : Z :=
  match e with
  | EConst z => z mod r_mod
  | EWire i => aw w i mod r_mod
  | EAdd a b => (eval w a + eval w b) mod r_mod
  | ESub a b => (eval w a - eval w b) mod r_mod
  | EMul a b => (eval w a * eval w b) mod r_mod
  end.

(** Value of an emulated element, kyc.go:27-28. *)
Definition evem (w : asg) (e : emul) : Z := match e with EmConst z => z | EmWire n => ae w n end.

(** Points made of emulated base field elements, pairing_circuit.go:15-16: the coordinates count modulo p. *)
Definition evg1 (w : asg) (P : emul * emul) : pt := of_coords0 (evem w (fst P) mod p_mod, evem w (snd P) mod p_mod).
(** pairing_circuit.go:16. *)
Definition evfp2 (w : asg) (a : emul * emul) : fp2 := (evem w (fst a) mod p_mod, evem w (snd a) mod p_mod).
(** pairing_circuit.go:16. *)
Definition evg2 (w : asg) (Q : (emul * emul) * (emul * emul)) : g2 := (evfp2 w (fst Q), evfp2 w (snd Q)).

(** Range of a byte, checked at circuit.go:142,146. *)
Definition is_byte (z : Z) : bool := (0 <=? z) && (z <? 256).

(** One constraint of the compiled system holds (library; the system of main.go:180). *)
Definition sat1 (O : oracles) (w : asg) (c : constr) : Prop :=
  match c with
  | CEq a b => eval w a = eval w b
  | CLe a b => eval w a <= eval w b
  | CByte a => eval w a < 256
  | CBool a => eval w a = 0 \/ eval w a = 1
  | CKeccak ins outs => Forall (fun e => eval w e < 256) ins /\
                        map (eval w) outs = keccak_bytes O (map (eval w) ins)
  | CSha256 ins outs => Forall (fun e => eval w e < 256) ins /\
                        map (eval w) outs = sha256_bytes O (map (eval w) ins)
  | CEcdsa px py h r s => o_ecdsa O px py (evem w h) (evem w r) (evem w s) = true
  | CConst b => b = true
  | CPairing g1s g2s => o_pairing O (combine (map (evg1 w) g1s) (map (evg2 w) g2s)) = true
  end.

(** Every constraint of the compiled system holds (library), what plonk.Prove at main.go:228 needs.
    *)
Definition sat (O : oracles) (w : asg) (s : cs) : Prop := Forall (sat1 O w) (cs_cons s).

(** ** The monad: constraint system under construction, panics *)

(** The state threaded by frontend.API through Define, circuit.go:21, kyc.go:36. *)
Definition M (A : Type) := cs -> outcome (A * cs).
(** A Go statement list that returns a value (Define, circuit.go:21-125, and the functions it
    calls). *)
Definition ret {A} (a : A) : M A := fun s => Done (a, s).
(** Go statement sequencing in the bodies taking frontend.API, e.g. circuit.go:21-125. *)
Definition bind {A B} (m : M A) (k : A -> M B) : M B :=
  fun s => match m s with Done (a, s') => k a s' | Panicked w => Panicked w end.
(** panic(...), e.g. aggregator_lib_circuit.go:105-107, pairing_circuit.go:52-54, and panics inside
    the test engine (fr.go:62). *)
Definition panic {A} (w : string) : M A := fun _ => Panicked w.
(** A step that does not touch the constraint system, e.g. fr.go:21 (indexing), fr.go:44 (type
    assertion). *)
Definition lift {A} (o : outcome A) : M A :=
  fun s => match o with Done a => Done (a, s) | Panicked w => Panicked w end.

Declare Scope monad_scope.
Delimit Scope monad_scope with M.
Notation "x <- m ;; k" := (bind m (fun x => k))
  (at level 61, m at next level, right associativity) : monad_scope.
Notation "' p <- m ;; k" := (bind m (fun p => k))
  (at level 61, p pattern, m at next level, right associativity) : monad_scope.
Notation "m ;;; k" := (bind m (fun _ => k)) (at level 61, right associativity) : monad_scope.
Open Scope monad_scope.

(** The builder adds a constraint, e.g. for fr.go:62. *)
Definition emit (c : constr) : M unit :=
  fun s => Done (tt, mk_cs (cs_next s) (c :: cs_cons s) (cs_hints s)).
(** The builder makes new wires, e.g. for fr.go:58. *)
Definition alloc (n : nat) : M (list nat) :=
  fun s => Done (seq (cs_next s) n, mk_cs (cs_next s + n) (cs_cons s) (cs_hints s)).
(** The builder records a hint call, fr.go:58, circuit.go:129,
    aggregator_lib_circuit.go:128,160,216,260. *)
Definition log_hint (h : hintid) (ins : list expr) (outs : list nat) : M unit :=
  fun s => Done (tt, mk_cs (cs_next s) (cs_cons s) ((h, ins, outs) :: cs_hints s)).

(** Loops over a slice such as circuit.go:141-147. *)
Fixpoint mapM {A B} (f : A -> M B) (l : list A) : M (list B) :=
  match l with
  | [] => ret []
  | a :: t => b <- f a ;; bs <- mapM f t ;; ret (b :: bs)
  end.

(** ** Conversions of a Variable *)

(** test engine toBigInt: *big.Int is taken as is (not reduced), other kinds are reduced. Conversion
    of the operands of fr.go:46,53,58,62,82,87,93,98 in the test engine. *)
Definition to_big (v : var) : outcome Z :=
  match v with
  | VBig z => Done z
  | VInt z | VStr (Some z) | VFp z | VFr z => Done (z mod r_mod)
  | VBigNil => Panicked "nil pointer dereference"
  | VNil | VStr None | VExpr _ | VErr _ => Panicked "can't convert to big.Int"
  end.

(** builder: constants of every kind are taken modulo r. Conversion of the operands of
    fr.go:46,53,58,62,82,87,93,98 in the builder. *)
Definition to_expr (v : var) : outcome expr :=
  match v with
  | VExpr e => Done e
  | VBig z | VInt z | VStr (Some z) | VFp z | VFr z => Done (EConst z)
  | VBigNil => Panicked "nil pointer dereference"
  | VNil | VStr None | VErr _ => Panicked "can't convert to constraint element"
  end.

(** ** API calls *)

(** api.Add, api.Sub, api.Mul of two operands: fr.go:46,53,62,82,87,98, utils.go:11-12, kyc.go:61.
    *)
Definition api_bin (en : engine) (f : Z -> Z -> Z) (g : expr -> expr -> expr) (a b : var) : M var :=
  match en with
  | Test => x <- lift (to_big a) ;; y <- lift (to_big b) ;; ret (VBig (f x y mod r_mod))
  | Build => x <- lift (to_expr a) ;; y <- lift (to_expr b) ;; ret (VExpr (g x y))
  end.
(** api.Add: fr.go:62,82, utils.go:12. *)
Definition api_add en := api_bin en Z.add EAdd.
(** api.Sub: fr.go:87,98, kyc.go:61. *)
Definition api_sub en := api_bin en Z.sub ESub.
(** api.Mul: fr.go:46,53,62, utils.go:11. *)
Definition api_mul en := api_bin en Z.mul EMul.

(** api.AssertIsEqual: fr.go:62,93, aggregator_lib_circuit.go:60-61,89-90,335,367, kyc.go:64. *)
Definition api_assert_eq (en : engine) (a b : var) : M unit :=
  match en with
  | Test => x <- lift (to_big a) ;; y <- lift (to_big b) ;;
            if x =? y then ret tt else panic "[assertIsEqual]"
  | Build => x <- lift (to_expr a) ;; y <- lift (to_expr b) ;; emit (CEq x y)
  end.

(** AssertIsLessOrEqual(v, bound). Called at aggregator_lib_circuit.go:603,615-616. *)
Definition api_assert_le (en : engine) (v bound : var) : M unit :=
  match en with
  | Test => b <- lift (to_big bound) ;;
            if b <? 0 then panic "[assertIsLessOrEqual] bound must be positive" else
            x <- lift (to_big v) ;;
            if x <=? b then ret tt else panic "[assertIsLessOrEqual]"
  | Build => x <- lift (to_expr v) ;; y <- lift (to_expr bound) ;; emit (CLe x y)
  end.

(** IsZero(a): in the builder the inverse x is a solver-provided wire, m = 1 - a*x, a*m = 0. Called
    at kyc.go:61. *)
Definition api_is_zero (en : engine) (a : var) : M var :=
  match en with
  | Test => x <- lift (to_big a) ;; ret (VBig (if x =? 0 then 1 else 0))
  | Build => e <- lift (to_expr a) ;;
             ws <- alloc 1 ;;
             let m := ESub (EConst 1) (EMul e (EWire (hd O ws))) in
             emit (CEq (EMul e m) (EConst 0)) ;;; ret (VExpr m)
  end.

(** Or(a,b): both operands must be boolean. Called at kyc.go:62. *)
Definition api_or (en : engine) (a b : var) : M var :=
  match en with
  | Test => x <- lift (to_big a) ;; y <- lift (to_big b) ;;
            if ((x =? 0) || (x =? 1)) && ((y =? 0) || (y =? 1))
            then ret (VBig (Z.lor x y)) else panic "[assertIsBoolean]"
  | Build => x <- lift (to_expr a) ;; y <- lift (to_expr b) ;;
             emit (CBool x) ;;; emit (CBool y) ;;;
             ret (VExpr (ESub (EAdd x y) (EMul x y)))
  end.

(** A hint function: inputs, pre-allocated results (zeros; an entry may become nil = [None]);
    returns an error or nil together with the results slice. Signature of fr.go:66,
    aggregator_lib_circuit.go:104,179, circuit.go:157, hash.go:26. *)
Definition hint := list Z -> list (option Z) -> outcome (option goerr * list (option Z)).
(** A hint function and its name (see [hintid], fr.go:66). *)
Record hintfn := { hf_id : hintid; hf_run : hint }.

(** Compiler().NewHint(f, n, inputs...): the test engine runs the hint at once, panics when it
    returns an error, and reduces the outputs modulo r (nil outputs panic); the builder allocates
    unconstrained wires and records the call. Called at fr.go:58, circuit.go:129,
    aggregator_lib_circuit.go:128,160,216,260. *)
Definition new_hint (en : engine) (h : hintfn) (n : nat) (ins : list var)
  : M (list var * option goerr) :=
  match n with
  | O => ret ([], Some "hint function must return at least one output"%string)
  | _ =>
    match en with
    | Test =>
        zs <- mapM (fun v => lift (to_big v)) ins ;;
        '(err, outs) <- lift (hf_run h zs (repeat (Some 0) n)) ;;
        match err with
        | Some e => panic ("NewHint: " ++ e)
        | None =>
            vs <- mapM (fun o => match o with
                                 | Some z => ret (VBig (z mod r_mod))
                                 | None => panic "nil pointer dereference"
                                 end) outs ;;
            ret (vs, None)
        end
    | Build =>
        es <- mapM (fun v => lift (to_expr v)) ins ;;
        ws <- alloc n ;;
        log_hint (hf_id h) es ws ;;;
        ret (map (fun i => VExpr (EWire i)) ws, None)
    end
  end.

(** ** uints and hash gadgets *)

(** BinaryField.ByteValueOf: 8-bit range check.  (A uints.U8 is represented by its Val.) Called at
    circuit.go:142,146. *)
Definition byte_value_of (en : engine) (v : var) : M var :=
  match en with
  | Test => x <- lift (to_big v) ;; if is_byte x then ret v else panic "range check failed"
  | Build => e <- lift (to_expr v) ;; emit (CByte e) ;;; ret v
  end.

(** uints.NewU8Array of constants. Called at aggregator_lib_circuit.go:443-444. *)
Definition new_u8_array (bs : list Z) : list var := map VInt bs.

(** Write(ins); Sum() of the legacy-Keccak and SHA-256 gadgets. Called at
    aggregator_lib_circuit.go:331-332,363-364. *)
Definition hash_sum (en : engine) (dig : list Z -> list Z) (c : list expr -> list expr -> constr)
    (ins : list var) : M (list var) :=
  match en with
  | Test => zs <- mapM (fun v => lift (to_big v)) ins ;;
            if forallb is_byte zs then ret (map VBig (dig zs)) else panic "lookup: not a byte"
  | Build => es <- mapM (fun v => lift (to_expr v)) ins ;;
             ws <- alloc 32 ;;
             let outs := map EWire ws in
             emit (c es outs) ;;; ret (map VExpr outs)
  end.
(** Keccak gadget, aggregator_lib_circuit.go:322-332. *)
Definition keccak_sum O en := hash_sum en (keccak_bytes O) CKeccak.
(** SHA-256 gadget, aggregator_lib_circuit.go:354-364. *)
Definition sha256_sum O en := hash_sum en (sha256_bytes O) CSha256.

(** ** sw_emulated over constant operands *)

(** emulated AssertIsEqual etc. on constants: the test engine panics, the builder emits a
    constraint among constants. Called at msm.go:38,91,155 and inside the gadgets of msm.go:77,139,
    pairing_circuit.go:38. *)
Definition emul_assert (en : engine) (b : bool) : M unit :=
  match en with
  | Test => if b then ret tt else panic "emulated assertion failed"
  | Build => emit (CConst b)
  end.

(** Curve.ScalarMul of the point with canonical coordinates (x,y) by s (already reduced mod r).
    Called at msm.go:77. *)
Definition emul_scalar_mul (O : oracles) (x y s : Z) : option (Z * Z) :=
  if negb ((x =? 0) && (y =? 0)) && on_curve x y && negb (s =? 0)
  then Some (coords0 (pmul s (Aff x y)))
  else o_smul_degen O x y s.

(** Equality of two coordinate pairs in cr.AssertIsEqual, msm.go:38,91,155. *)
Definition pair_eqb (a b : Z * Z) : bool := (fst a =? fst b) && (snd a =? snd b).
