(** fr.go: scalar-field helpers ([ecc_mul], [ecc_mul_add] are in Lib.v). *)
From Coq Require Import ZArith String Bool List.
From Verif Require Import Params Go Curve Api.
Import ListNotations.
Open Scope Z_scope.

(** fr.go:66-74 [modHint]: big.Int Div/Mod are Euclidean, MODULUS > 0. *)
Definition mod_hint_run : hint := fun ins res =>
  obind (get ins 0) (fun a =>
  let d := a / r_mod in
  let r := a mod r_mod in
  obind (put res 0 (Some d)) (fun res =>
  obind (put res 1 (Some r)) (fun res =>
  Done (None, res)))).
(** fr.go:66-74, as passed to NewHint at fr.go:58. *)
Definition modHint : hintfn := {| hf_id := HMod; hf_run := mod_hint_run |}.

(** The global MODULUS as a Variable, aggregator_lib_circuit.go:26. *)
Definition MODULUS : var := VBig r_mod.

(** fr.go:57-64 [mod]. *)
Definition mod_ (en : engine) (a : var) : M var :=
  '(results, err) <- new_hint en modHint 2 [a] ;;
  match err with
  | Some e => ret (VErr e)
  | None =>
      r1 <- lift (get results 1) ;;
      r0 <- lift (get results 0) ;;
      t <- api_mul en r0 MODULUS ;;
      u <- api_add en r1 t ;;
      api_assert_eq en u a ;;;
      ret r1
  end.

(** fr.go:42-50 [fr_pow].  The loop "for i := 1; i < power" runs [power - 1] times (not at all when
    power <= 1); the type assertion on [power] is evaluated at least once. *)
Definition fr_pow (en : engine) (a power : var) : M var :=
  k <- lift (as_big power) ;;
  res <- Z.iter (k - 1) (fun m => r <- m ;; api_mul en r a) (ret a) ;;
  mod_ en res.

(** fr.go:52-55 *)
Definition fr_mul (en : engine) (a b : var) : M var :=
  product <- api_mul en a b ;; mod_ en product.

(** fr.go:76-79: [tmp.( *big.Int)] panics when tmp is not a big.Int. *)
Definition fr_mul_neg (en : engine) (a b : var) : M var :=
  tmp <- fr_mul en a b ;;
  z <- lift (as_big tmp) ;;
  ret (VBig (r_mod - z)).

(** fr.go:81-84 *)
Definition fr_add (en : engine) (a b : var) : M var :=
  sum <- api_add en a b ;; mod_ en sum.

(** fr.go:86-89 *)
Definition fr_sub (en : engine) (a b : var) : M var :=
  dec <- api_sub en a b ;; mod_ en dec.

(** fr.go:91-95 *)
Definition fr_div (en : engine) (a b aux : var) : M var :=
  r <- fr_mul en b aux ;;
  api_assert_eq en r a ;;;
  mod_ en aux.

(** fr.go:97-99 *)
Definition fr_neg (en : engine) (a : var) : M var := api_sub en MODULUS a.

(** fr.go:101-104: the [ok] flag is ignored, a bad string gives a nil *big.Int. *)
Definition fr_from_string (s : string) : var :=
  match set_string10 s with Some z => VBig z | None => VBigNil end.
