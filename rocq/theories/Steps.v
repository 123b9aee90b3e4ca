(** AggregatorVerifierStep1.go, AggregatorVerifierStep2.go, AggregatorVerifierStep3.go.

    The three functions are straight-line code over the register file [buf[43]].  They are modelled
    by a deep embedding: the statement lists below transcribe the Go statements one by one (the
    comment in front of each statement is its line number in the Go file), and the interpreter gives
    each statement the meaning of the Go code it stands for, calling the model of fr.go. *)
From Coq Require Import ZArith String Bool List.
From Verif Require Import Params Go Curve Api FrOps Lib.
Import ListNotations.
Open Scope Z_scope.

(** Go expressions occurring in the three files. E.g. AggregatorVerifierStep1.go:14-40,
    AggregatorVerifierStep2.go:12-40, AggregatorVerifierStep3.go:80-101. *)
Inductive fexpr :=
| FBuf (i : nat)               (* buf[i] *)
| FTr (i : nat)                (* transcript[i] *)
| FAux (i : nat)               (* aux[i] *)
| FStr (z : Z)                 (* fr_from_string("z"), or SetString("z", 10) *)
| FInt (z : Z)                 (* an untyped Go integer constant *)
| FMul (a b : fexpr)           (* fr_mul(api, a, b) *)
| FAdd (a b : fexpr)           (* fr_add(api, a, b) *)
| FNeg (a : fexpr)             (* fr_neg(api, a) *)
| FDiv (a b c : fexpr)         (* fr_div(api, a, b, c) *)
| FPow (a k : fexpr).          (* fr_pow(api, a, k) *)

(** Go statements occurring in AggregatorVerifierStep1.go:12-886, AggregatorVerifierStep2.go:12-565,
    AggregatorVerifierStep3.go:12-176. *)
Inductive stmt :=
| SSet (i : nat) (e : fexpr)               (* buf[i] = e *)
| SSet2 (i j : nat) (e1 e2 : fexpr)        (* buf[i], buf[j] = e1, e2 *)
| SEccMul (off : nat)                      (* err = ecc_mul(api, buf[:], off); return on error *)
| SEccMulAdd (off : nat).                  (* err = ecc_mul_add(api, buf[:], off); return on error *)

(** Evaluation of a Go expression, operands left to right. The calls are those of fr.go:42-104. *)
Fixpoint run_expr (en : engine) (tr aux buf : list var) (e : fexpr) : M var :=
  match e with
  | FBuf i => lift (get buf i)
  | FTr i => lift (get tr i)
  | FAux i => lift (get aux i)
  | FStr z => ret (fr_from_string (dec_of_Z z))
  | FInt z => ret (VInt z)
  | FMul a b => x <- run_expr en tr aux buf a ;; y <- run_expr en tr aux buf b ;; fr_mul en x y
  | FAdd a b => x <- run_expr en tr aux buf a ;; y <- run_expr en tr aux buf b ;; fr_add en x y
  | FNeg a => x <- run_expr en tr aux buf a ;; fr_neg en x
  | FDiv a b c => x <- run_expr en tr aux buf a ;; y <- run_expr en tr aux buf b ;;
                  z <- run_expr en tr aux buf c ;; fr_div en x y z
  | FPow a k => x <- run_expr en tr aux buf a ;; y <- run_expr en tr aux buf k ;; fr_pow en x y
  end.

(** One statement of AggregatorVerifierStep1.go:12-886 and of the two other files; the calls are
    fr.go:9-40. *)
Definition run_stmt (O : oracles) (en : engine) (tr aux buf : list var) (s : stmt)
  : M (list var * option goerr) :=
  match s with
  | SSet i e => v <- run_expr en tr aux buf e ;; buf <- lift (put buf i v) ;; ret (buf, None)
  | SSet2 i j e1 e2 =>
      v1 <- run_expr en tr aux buf e1 ;; v2 <- run_expr en tr aux buf e2 ;;
      buf <- lift (put buf i v1) ;; buf <- lift (put buf j v2) ;; ret (buf, None)
  | SEccMul off => ecc_mul O en buf off
  | SEccMulAdd off => ecc_mul_add O en buf off
  end.

(** The body of a VerifyProofN function; on error the zero array is returned
    (e.g. AggregatorVerifierStep1.go:16-18). *)
Fixpoint run_prog (O : oracles) (en : engine) (tr aux buf : list var) (p : list stmt)
  : M (list var * option goerr) :=
  match p with
  | [] => ret (buf, None)
  | s :: t =>
      '(buf, err) <- run_stmt O en tr aux buf s ;;
      match err with
      | Some e => ret (repeat VNil 43, Some e)
      | None => run_prog O en tr aux buf t
      end
  end.

(** AggregatorVerifierStep1.go:13-886, body of VerifyProof1. *)
Definition prog1 : list stmt := [
(* 13 *) SSet2 10 11 (FTr 102) (FTr 103);
(* 14 *) SSet 12 (FStr 1);
(* 15 *) SEccMul 10;
(* 19 *) SSet 17 (FMul (FStr 21710372849001950800533397158415938114909991150039389063546734567764856596059) (FBuf 6));
(* 23 *) SSet 18 (FDiv (FStr 1) (FAdd (FBuf 17) (FNeg (FBuf 6))) (FAux 0));
(* 28 *) SSet 19 (FMul (FStr 8374374965308410102411073611984011876711565317741801500439755773472076597347) (FBuf 6));
(* 32 *) SSet 20 (FDiv (FStr 1) (FAdd (FBuf 17) (FNeg (FBuf 19))) (FAux 1));
(* 37 *) SSet 21 (FMul (FBuf 18) (FBuf 20));
(* 38 *) SSet 22 (FDiv (FStr 1) (FAdd (FBuf 6) (FNeg (FBuf 17))) (FAux 2));
(* 43 *) SSet 23 (FDiv (FStr 1) (FAdd (FBuf 6) (FNeg (FBuf 19))) (FAux 3));
(* 48 *) SSet 24 (FMul (FBuf 22) (FBuf 23));
(* 49 *) SSet 25 (FDiv (FStr 1) (FAdd (FBuf 19) (FNeg (FBuf 17))) (FAux 4));
(* 54 *) SSet 26 (FDiv (FStr 1) (FAdd (FBuf 19) (FNeg (FBuf 6))) (FAux 5));
(* 59 *) SSet 27 (FMul (FBuf 25) (FBuf 26));
(* 60 *) SSet 28 (FNeg (FMul (FBuf 18) (FBuf 6)));
(* 62 *) SSet 29 (FMul (FBuf 20) (FBuf 19));
(* 63 *) SSet 18 (FAdd (FMul (FBuf 28) (FBuf 20)) (FNeg (FMul (FBuf 18) (FBuf 29))));
(* 67 *) SSet 20 (FNeg (FMul (FBuf 22) (FBuf 17)));
(* 69 *) SSet 30 (FMul (FBuf 23) (FBuf 19));
(* 70 *) SSet 22 (FAdd (FMul (FBuf 20) (FBuf 23)) (FNeg (FMul (FBuf 22) (FBuf 30))));
(* 74 *) SSet 31 (FNeg (FMul (FBuf 25) (FBuf 17)));
(* 76 *) SSet 32 (FMul (FBuf 26) (FBuf 6));
(* 77 *) SSet 25 (FAdd (FMul (FBuf 31) (FBuf 26)) (FNeg (FMul (FBuf 25) (FBuf 32))));
(* 81 *) SSet 33 (FAdd (FMul (FAdd (FAdd (FMul (FBuf 21) (FTr 81)) (FMul (FBuf 24) (FTr 79))) (FMul (FBuf 27) (FTr 80))) (FBuf 9)) (FAdd (FAdd (FMul (FBuf 18) (FTr 81)) (FMul (FBuf 22) (FTr 79))) (FMul (FBuf 25) (FTr 80))));
(* 100 *) SSet 28 (FNeg (FMul (FBuf 28) (FBuf 29)));
(* 101 *) SSet 20 (FNeg (FMul (FBuf 20) (FBuf 30)));
(* 102 *) SSet 29 (FNeg (FMul (FBuf 31) (FBuf 32)));
(* 103 *) SSet 31 (FMul (FBuf 7) (FAdd (FMul (FBuf 33) (FBuf 9)) (FAdd (FAdd (FMul (FBuf 28) (FTr 81)) (FMul (FBuf 20) (FTr 79))) (FMul (FBuf 29) (FTr 80)))));
(* 116 *) SSet 33 (FAdd (FMul (FAdd (FAdd (FMul (FBuf 21) (FTr 84)) (FMul (FBuf 24) (FTr 82))) (FMul (FBuf 27) (FTr 83))) (FBuf 9)) (FAdd (FAdd (FMul (FBuf 18) (FTr 84)) (FMul (FBuf 22) (FTr 82))) (FMul (FBuf 25) (FTr 83))));
(* 135 *) SSet 31 (FAdd (FBuf 31) (FAdd (FMul (FBuf 33) (FBuf 9)) (FAdd (FAdd (FMul (FBuf 28) (FTr 84)) (FMul (FBuf 20) (FTr 82))) (FMul (FBuf 29) (FTr 83)))));
(* 148 *) SSet 18 (FAdd (FMul (FAdd (FAdd (FMul (FBuf 21) (FTr 87)) (FMul (FBuf 24) (FTr 85))) (FMul (FBuf 27) (FTr 86))) (FBuf 9)) (FAdd (FAdd (FMul (FBuf 18) (FTr 87)) (FMul (FBuf 22) (FTr 85))) (FMul (FBuf 25) (FTr 86))));
(* 167 *) SSet 18 (FAdd (FMul (FBuf 7) (FBuf 31)) (FAdd (FMul (FBuf 18) (FBuf 9)) (FAdd (FAdd (FMul (FBuf 28) (FTr 87)) (FMul (FBuf 20) (FTr 85))) (FMul (FBuf 29) (FTr 86)))));
(* 180 *) SSet 20 (FMul (FStr 9741553891420464328295280489650144566903017206473301385034033384879943874347) (FBuf 6));
(* 184 *) SSet 21 (FDiv (FStr 1) (FAdd (FBuf 20) (FNeg (FBuf 6))) (FAux 6));
(* 189 *) SSet 22 (FDiv (FStr 1) (FAdd (FBuf 6) (FNeg (FBuf 20))) (FAux 7));
(* 194 *) SSet 24 (FNeg (FMul (FBuf 21) (FBuf 6)));
(* 195 *) SSet 25 (FNeg (FMul (FBuf 22) (FBuf 20)));
(* 196 *) SSet 27 (FMul (FBuf 7) (FAdd (FMul (FAdd (FMul (FBuf 21) (FTr 93)) (FMul (FBuf 22) (FTr 92))) (FBuf 9)) (FAdd (FMul (FBuf 24) (FTr 93)) (FMul (FBuf 25) (FTr 92)))));
(* 212 *) SSet 21 (FAdd (FBuf 27) (FAdd (FMul (FAdd (FMul (FBuf 21) (FTr 98)) (FMul (FBuf 22) (FTr 97))) (FBuf 9)) (FAdd (FMul (FBuf 24) (FTr 98)) (FMul (FBuf 25) (FTr 97)))));
(* 228 *) SSet 17 (FAdd (FBuf 9) (FNeg (FBuf 17)));
(* 232 *) SSet 22 (FAdd (FBuf 9) (FNeg (FBuf 19)));
(* 236 *) SSet 24 (FMul (FStr 11211301017135681023579411905410872569206244553457844956874280139879520583390) (FBuf 6));
(* 240 *) SSet 25 (FAdd (FBuf 9) (FNeg (FBuf 24)));
(* 244 *) SSet 20 (FAdd (FBuf 9) (FNeg (FBuf 20)));
(* 248 *) SSet 27 (FDiv (FStr 1) (FMul (FBuf 20) (FBuf 25)) (FAux 8));
(* 253 *) SSet 28 (FMul (FMul (FMul (FBuf 17) (FBuf 22)) (FBuf 25)) (FBuf 27));
(* 260 *) SSet 29 (FMul (FBuf 7) (FAdd (FMul (FBuf 7) (FAdd (FMul (FBuf 7) (FTr 44)) (FTr 45))) (FTr 46)));
(* 273 *) SSet 29 (FAdd (FMul (FBuf 7) (FAdd (FMul (FBuf 7) (FAdd (FBuf 29) (FTr 47))) (FTr 48))) (FTr 51));
(* 286 *) SSet 29 (FMul (FBuf 7) (FAdd (FMul (FBuf 7) (FAdd (FMul (FBuf 7) (FBuf 29)) (FTr 94))) (FTr 99)));
(* 299 *) SSet 29 (FAdd (FMul (FBuf 7) (FAdd (FMul (FBuf 7) (FAdd (FBuf 29) (FTr 58))) (FTr 59))) (FTr 60));
(* 312 *) SSet 29 (FMul (FBuf 7) (FAdd (FMul (FBuf 7) (FAdd (FMul (FBuf 7) (FBuf 29)) (FTr 61))) (FTr 62)));
(* 325 *) SSet 29 (FAdd (FMul (FBuf 7) (FAdd (FMul (FBuf 7) (FAdd (FBuf 29) (FTr 63))) (FTr 64))) (FTr 65));
(* 338 *) SSet 29 (FMul (FBuf 7) (FAdd (FMul (FBuf 7) (FAdd (FMul (FBuf 7) (FBuf 29)) (FTr 66))) (FTr 67)));
(* 351 *) SSet 29 (FAdd (FMul (FBuf 7) (FAdd (FMul (FBuf 7) (FAdd (FBuf 29) (FTr 68))) (FTr 69))) (FTr 70));
(* 364 *) SSet 29 (FMul (FBuf 7) (FAdd (FMul (FBuf 7) (FAdd (FMul (FBuf 7) (FBuf 29)) (FTr 72))) (FTr 73)));
(* 377 *) SSet 29 (FAdd (FMul (FBuf 7) (FAdd (FMul (FBuf 7) (FAdd (FBuf 29) (FTr 74))) (FTr 75))) (FTr 76));
(* 390 *) SSet 29 (FMul (FBuf 7) (FAdd (FMul (FBuf 7) (FAdd (FMul (FBuf 7) (FBuf 29)) (FTr 77))) (FTr 78)));
(* 403 *) SSet 31 (FAdd (FAdd (FAdd (FAdd (FTr 58) (FMul (FTr 50) (FTr 59))) (FMul (FTr 45) (FTr 60))) (FMul (FTr 46) (FTr 61))) (FMul (FTr 47) (FTr 62)));
(* 419 *) SSet 31 (FAdd (FAdd (FAdd (FAdd (FBuf 31) (FMul (FTr 48) (FTr 63))) (FMul (FTr 49) (FTr 64))) (FMul (FMul (FTr 45) (FTr 46)) (FTr 65))) (FMul (FMul (FTr 47) (FTr 48)) (FTr 66)));
(* 441 *) SSet 33 (FAdd (FTr 70) (FStr 21888242871839275222246405745257275088548364400416034343698204186575808495615));
(* 445 *) SSet 34 (FAdd (FTr 70) (FStr 21888242871839275222246405745257275088548364400416034343698204186575808495614));
(* 449 *) SSet 35 (FMul (FMul (FMul (FAdd (FTr 51) (FNeg (FTr 52))) (FTr 70)) (FBuf 33)) (FBuf 34));
(* 462 *) SSet 36 (FAdd (FAdd (FTr 51) (FNeg (FTr 53))) (FNeg (FMul (FTr 54) (FStr 262144))));
(* 469 *) SSet 37 (FMul (FAdd (FAdd (FBuf 36) (FNeg (FMul (FTr 52) (FStr 68719476736)))) (FNeg (FMul (FTr 55) (FStr 18014398509481984)))) (FTr 70));
(* 485 *) SSet 38 (FAdd (FTr 70) (FStr 21888242871839275222246405745257275088548364400416034343698204186575808495616));
(* 489 *) SSet 31 (FMul (FAdd (FMul (FAdd (FMul (FBuf 31) (FBuf 5)) (FBuf 35)) (FBuf 5)) (FMul (FMul (FBuf 37) (FBuf 38)) (FBuf 34))) (FBuf 5));
(* 505 *) SSet 34 (FAdd (FAdd (FAdd (FBuf 36) (FNeg (FMul (FTr 56) (FStr 68719476736)))) (FNeg (FMul (FTr 52) (FStr 18014398509481984)))) (FNeg (FMul (FTr 55) (FStr 4722366482869645213696))));
(* 524 *) SSet 34 (FMul (FMul (FAdd (FBuf 34) (FNeg (FMul (FTr 57) (FStr 1237940039285380274899124224)))) (FTr 70)) (FBuf 38));
(* 537 *) SSet 35 (FPow (FBuf 6) (FStr 8388608));
(* 538 *) SSet 36 (FAdd (FBuf 35) (FNeg (FStr 1)));
(* 539 *) SSet 37 (FDiv (FMul (FStr 21888240262557392955334514970720457388010314637169927192662615958087340972065) (FBuf 36)) (FAdd (FBuf 6) (FNeg (FStr 1))) (FAux 9));
(* 547 *) SSet 31 (FMul (FAdd (FMul (FAdd (FBuf 31) (FMul (FBuf 34) (FBuf 33))) (FBuf 5)) (FMul (FBuf 37) (FAdd (FStr 1) (FNeg (FTr 79))))) (FBuf 5));
(* 566 *) SSet 33 (FDiv (FMul (FStr 4976187549286291281196346419790865785215437125361463174887299780224677482739) (FBuf 36)) (FAdd (FBuf 6) (FNeg (FStr 21710372849001950800533397158415938114909991150039389063546734567764856596059))) (FAux 10));
(* 577 *) SSet 31 (FMul (FAdd (FBuf 31) (FMul (FBuf 33) (FAdd (FMul (FTr 88) (FTr 88)) (FNeg (FTr 88))))) (FBuf 5));
(* 593 *) SSet 31 (FAdd (FMul (FAdd (FBuf 31) (FMul (FAdd (FTr 82) (FNeg (FTr 81))) (FBuf 37))) (FBuf 5)) (FMul (FAdd (FTr 85) (FNeg (FTr 84))) (FBuf 37)));
(* 615 *) SSet 34 (FAdd (FTr 46) (FBuf 4));
(* 616 *) SSet 38 (FAdd (FTr 45) (FBuf 4));
(* 617 *) SSet 39 (FMul (FBuf 3) (FBuf 6));
(* 618 *) SSet 34 (FAdd (FMul (FAdd (FBuf 34) (FMul (FBuf 3) (FTr 73))) (FMul (FAdd (FBuf 38) (FMul (FBuf 3) (FTr 72))) (FTr 80))) (FNeg (FMul (FAdd (FBuf 34) (FMul (FStr 4131629893567559867359510883348571134090853742863529169391034518566172092834) (FBuf 39))) (FMul (FAdd (FBuf 38) (FBuf 39)) (FTr 79)))));
(* 646 *) SSet 38 (FAdd (FAdd (FAdd (FDiv (FMul (FStr 17545179510056424625657753961500172777187948487824275719647175633757629801999) (FBuf 36)) (FAdd (FBuf 6) (FNeg (FStr 1887003188133998471169152042388914354640772748308168868301418279904560637395))) (FAux 11)) (FDiv (FMul (FStr 12181902470161097505840471953356915228510866946798053228669051859673065660797) (FBuf 36)) (FAdd (FBuf 6) (FNeg (FStr 2785514556381676080176937710880804108647911392478702105860685610379369825016))) (FAux 12))) (FDiv (FMul (FStr 3094683119308499972127188652296432785995218440930254516456812473854441617488) (FBuf 36)) (FAdd (FBuf 6) (FNeg (FStr 14655294445420895451632927078981340937842238432098198055057679026789553137428))) (FAux 13))) (FDiv (FMul (FStr 17403859010271654340651602860211012227656903909453797585120745724534928821531) (FBuf 36)) (FAdd (FBuf 6) (FNeg (FStr 8734126352828345679573237859165904705806588461301144420590422589042130041188))) (FAux 14)));
(* 696 *) SSet 38 (FAdd (FStr 1) (FNeg (FAdd (FBuf 33) (FAdd (FBuf 38) (FDiv (FMul (FStr 7444483286096152693477325065105185543054922671492455540957072536952082259082) (FBuf 36)) (FAdd (FBuf 6) (FNeg (FStr 9741553891420464328295280489650144566903017206473301385034033384879943874347))) (FAux 15))))));
(* 716 *) SSet 31 (FAdd (FMul (FAdd (FMul (FBuf 31) (FBuf 5)) (FMul (FAdd (FTr 88) (FNeg (FTr 87))) (FBuf 37))) (FBuf 5)) (FMul (FBuf 34) (FBuf 38)));
(* 732 *) SSet 34 (FAdd (FTr 48) (FBuf 4));
(* 733 *) SSet 40 (FAdd (FTr 47) (FBuf 4));
(* 734 *) SSet 41 (FPow (FStr 4131629893567559867359510883348571134090853742863529169391034518566172092834) (FStr 2));
(* 738 *) SSet 41 (FMul (FBuf 39) (FBuf 41));
(* 739 *) SSet 34 (FAdd (FMul (FAdd (FBuf 34) (FMul (FBuf 3) (FTr 75))) (FMul (FAdd (FBuf 40) (FMul (FBuf 3) (FTr 74))) (FTr 83))) (FNeg (FMul (FAdd (FBuf 34) (FMul (FStr 4131629893567559867359510883348571134090853742863529169391034518566172092834) (FBuf 41))) (FMul (FAdd (FBuf 40) (FBuf 41)) (FTr 82)))));
(* 767 *) SSet 40 (FAdd (FTr 51) (FBuf 4));
(* 768 *) SSet 41 (FAdd (FTr 49) (FBuf 4));
(* 769 *) SSet 42 (FPow (FStr 4131629893567559867359510883348571134090853742863529169391034518566172092834) (FStr 4));
(* 773 *) SSet 42 (FMul (FBuf 39) (FBuf 42));
(* 774 *) SSet 40 (FAdd (FMul (FAdd (FBuf 40) (FMul (FBuf 3) (FTr 77))) (FMul (FAdd (FBuf 41) (FMul (FBuf 3) (FTr 76))) (FTr 86))) (FNeg (FMul (FAdd (FBuf 40) (FMul (FStr 4131629893567559867359510883348571134090853742863529169391034518566172092834) (FBuf 42))) (FMul (FAdd (FBuf 41) (FBuf 42)) (FTr 85)))));
(* 802 *) SSet 31 (FMul (FAdd (FMul (FAdd (FMul (FBuf 31) (FBuf 5)) (FMul (FBuf 34) (FBuf 38))) (FBuf 5)) (FMul (FBuf 40) (FBuf 38))) (FBuf 5));
(* 815 *) SSet 34 (FAdd (FTr 44) (FBuf 4));
(* 816 *) SSet 40 (FPow (FStr 4131629893567559867359510883348571134090853742863529169391034518566172092834) (FStr 6));
(* 820 *) SSet 34 (FMul (FAdd (FMul (FAdd (FBuf 34) (FMul (FBuf 3) (FTr 78))) (FTr 89)) (FNeg (FMul (FAdd (FBuf 34) (FMul (FBuf 39) (FBuf 40))) (FTr 88)))) (FBuf 38));
(* 839 *) SSet 31 (FAdd (FMul (FAdd (FMul (FAdd (FBuf 31) (FBuf 34)) (FBuf 5)) (FMul (FBuf 37) (FAdd (FStr 1) (FNeg (FTr 90))))) (FBuf 5)) (FMul (FBuf 33) (FAdd (FMul (FTr 90) (FTr 90)) (FNeg (FTr 90)))));
(* 864 *) SSet 34 (FAdd (FAdd (FMul (FTr 68) (FBuf 2)) (FTr 69)) (FBuf 4));
(* 871 *) SSet 39 (FMul (FMul (FTr 90) (FAdd (FAdd (FMul (FTr 67) (FBuf 2)) (FTr 52)) (FBuf 3))) (FBuf 34))
].

(** AggregatorVerifierStep1.go:7-886 [VerifyProof1]; [buf] is an array passed by value. *)
Definition VerifyProof1 (O : oracles) (en : engine) (transcript aux buf : list var)
  : M (list var * option goerr) := run_prog O en transcript aux buf prog1.

(** AggregatorVerifierStep2.go:13-565, body of VerifyProof2. *)
Definition prog2 : list stmt := [
(* 13 *) SSet 39 (FMul (FAdd (FMul (FMul (FTr 91) (FAdd (FTr 92) (FBuf 3))) (FAdd (FTr 94) (FBuf 4))) (FNeg (FBuf 39))) (FBuf 38));
(* 26 *) SSet 40 (FAdd (FTr 92) (FNeg (FTr 94)));
(* 30 *) SSet 31 (FMul (FAdd (FMul (FAdd (FMul (FBuf 31) (FBuf 5)) (FBuf 39)) (FBuf 5)) (FMul (FBuf 37) (FBuf 40))) (FBuf 5));
(* 43 *) SSet 31 (FMul (FAdd (FBuf 31) (FMul (FMul (FBuf 40) (FAdd (FTr 92) (FNeg (FTr 93)))) (FBuf 38))) (FBuf 5));
(* 59 *) SSet 31 (FAdd (FMul (FAdd (FBuf 31) (FMul (FBuf 37) (FAdd (FInt 1) (FNeg (FTr 95))))) (FBuf 5)) (FMul (FBuf 33) (FAdd (FMul (FTr 95) (FTr 95)) (FNeg (FTr 95)))));
(* 81 *) SSet 33 (FMul (FMul (FTr 95) (FAdd (FAdd (FMul (FInt 18) (FBuf 2)) (FTr 53)) (FBuf 3))) (FBuf 34));
(* 94 *) SSet 33 (FMul (FAdd (FMul (FMul (FTr 96) (FAdd (FTr 97) (FBuf 3))) (FAdd (FTr 99) (FBuf 4))) (FNeg (FBuf 33))) (FBuf 38));
(* 107 *) SSet 34 (FAdd (FTr 97) (FNeg (FTr 99)));
(* 111 *) SSet 31 (FMul (FAdd (FMul (FAdd (FMul (FBuf 31) (FBuf 5)) (FBuf 33)) (FBuf 5)) (FMul (FBuf 37) (FBuf 34))) (FBuf 5));
(* 124 *) SSet 31 (FDiv (FAdd (FBuf 31) (FMul (FMul (FBuf 34) (FAdd (FTr 97) (FNeg (FTr 98)))) (FBuf 38))) (FBuf 36) (FAux 16));
(* 141 *) SSet 20 (FMul (FBuf 17) (FBuf 20));
(* 142 *) SSet 33 (FMul (FMul (FMul (FBuf 20) (FBuf 22)) (FBuf 25)) (FBuf 27));
(* 149 *) SSet 18 (FAdd (FMul (FBuf 8) (FAdd (FMul (FBuf 8) (FBuf 18)) (FMul (FBuf 21) (FBuf 28)))) (FMul (FAdd (FMul (FBuf 7) (FAdd (FBuf 29) (FBuf 31))) (FTr 71)) (FBuf 33)));
(* 168 *) SSet 21 (FNeg (FBuf 30));
(* 169 *) SSet 29 (FNeg (FBuf 32));
(* 170 *) SSet 30 (FMul (FBuf 7) (FAdd (FMul (FAdd (FMul (FBuf 23) (FTr 49)) (FMul (FBuf 26) (FTr 50))) (FBuf 9)) (FAdd (FMul (FBuf 21) (FTr 49)) (FMul (FBuf 29) (FTr 50)))));
(* 186 *) SSet 30 (FAdd (FBuf 30) (FAdd (FMul (FAdd (FMul (FBuf 23) (FTr 88)) (FMul (FBuf 26) (FTr 89))) (FBuf 9)) (FAdd (FMul (FBuf 21) (FTr 88)) (FMul (FBuf 29) (FTr 89)))));
(* 202 *) SSet 30 (FAdd (FMul (FBuf 7) (FBuf 30)) (FAdd (FMul (FAdd (FMul (FBuf 23) (FTr 90)) (FMul (FBuf 26) (FTr 91))) (FBuf 9)) (FAdd (FMul (FBuf 21) (FTr 90)) (FMul (FBuf 29) (FTr 91)))));
(* 218 *) SSet 30 (FAdd (FMul (FBuf 7) (FBuf 30)) (FAdd (FMul (FAdd (FMul (FBuf 23) (FTr 95)) (FMul (FBuf 26) (FTr 96))) (FBuf 9)) (FAdd (FMul (FBuf 21) (FTr 95)) (FMul (FBuf 29) (FTr 96)))));
(* 234 *) SSet 25 (FMul (FMul (FBuf 20) (FBuf 25)) (FBuf 27));
(* 238 *) SSet 31 (FDiv (FInt 1) (FAdd (FBuf 6) (FNeg (FBuf 24))) (FAux 17));
(* 243 *) SSet 32 (FMul (FBuf 23) (FBuf 31));
(* 244 *) SSet 34 (FDiv (FInt 1) (FAdd (FBuf 19) (FNeg (FBuf 24))) (FAux 18));
(* 249 *) SSet 36 (FMul (FBuf 26) (FBuf 34));
(* 250 *) SSet 37 (FDiv (FInt 1) (FAdd (FBuf 24) (FNeg (FBuf 6))) (FAux 19));
(* 255 *) SSet 38 (FDiv (FInt 1) (FAdd (FBuf 24) (FNeg (FBuf 19))) (FAux 20));
(* 260 *) SSet 39 (FMul (FBuf 37) (FBuf 38));
(* 261 *) SSet 40 (FMul (FBuf 31) (FBuf 24));
(* 262 *) SSet 23 (FAdd (FMul (FBuf 21) (FBuf 31)) (FNeg (FMul (FBuf 23) (FBuf 40))));
(* 266 *) SSet 24 (FMul (FBuf 34) (FBuf 24));
(* 267 *) SSet 26 (FAdd (FMul (FBuf 29) (FBuf 34)) (FNeg (FMul (FBuf 26) (FBuf 24))));
(* 271 *) SSet 31 (FNeg (FMul (FBuf 37) (FBuf 6)));
(* 272 *) SSet 19 (FMul (FBuf 38) (FBuf 19));
(* 273 *) SSet 34 (FAdd (FMul (FBuf 31) (FBuf 38)) (FNeg (FMul (FBuf 37) (FBuf 19))));
(* 277 *) SSet 37 (FAdd (FMul (FAdd (FAdd (FMul (FBuf 32) (FTr 52)) (FMul (FBuf 36) (FTr 55))) (FMul (FBuf 39) (FTr 57))) (FBuf 9)) (FAdd (FAdd (FMul (FBuf 23) (FTr 52)) (FMul (FBuf 26) (FTr 55))) (FMul (FBuf 34) (FTr 57))));
(* 296 *) SSet 21 (FNeg (FMul (FBuf 21) (FBuf 40)));
(* 297 *) SSet 24 (FNeg (FMul (FBuf 29) (FBuf 24)));
(* 298 *) SSet 19 (FNeg (FMul (FBuf 31) (FBuf 19)));
(* 299 *) SSet 29 (FMul (FBuf 7) (FAdd (FMul (FBuf 37) (FBuf 9)) (FAdd (FAdd (FMul (FBuf 21) (FTr 52)) (FMul (FBuf 24) (FTr 55))) (FMul (FBuf 19) (FTr 57)))));
(* 312 *) SSet 23 (FAdd (FMul (FAdd (FAdd (FMul (FBuf 32) (FTr 53)) (FMul (FBuf 36) (FTr 54))) (FMul (FBuf 39) (FTr 56))) (FBuf 9)) (FAdd (FAdd (FMul (FBuf 23) (FTr 53)) (FMul (FBuf 26) (FTr 54))) (FMul (FBuf 34) (FTr 56))));
(* 331 *) SSet 19 (FAdd (FBuf 29) (FAdd (FMul (FBuf 23) (FBuf 9)) (FAdd (FAdd (FMul (FBuf 21) (FTr 53)) (FMul (FBuf 24) (FTr 54))) (FMul (FBuf 19) (FTr 56)))));
(* 344 *) SSet 20 (FMul (FBuf 20) (FBuf 27));
(* 345 *) SSet 18 (FAdd (FMul (FBuf 8) (FAdd (FMul (FBuf 8) (FBuf 18)) (FMul (FBuf 30) (FBuf 25)))) (FMul (FBuf 19) (FBuf 20)));
(* 355 *) SSet2 12 13 (FStr 1) (FStr 21888242871839275222246405745257275088696311157297823662689037894645226208581);
(* 356 *) SSet 14 (FBuf 18);
(* 357 *) SEccMul 12;
(* 361 *) SSet 19 (FMul (FBuf 8) (FBuf 8));
(* 362 *) SSet 21 (FMul (FBuf 19) (FBuf 33));
(* 363 *) SSet 23 (FMul (FBuf 7) (FBuf 7));
(* 364 *) SSet 24 (FMul (FBuf 23) (FBuf 23));
(* 365 *) SSet 26 (FMul (FBuf 24) (FBuf 24));
(* 366 *) SSet 27 (FMul (FBuf 26) (FBuf 26));
(* 367 *) SSet 29 (FMul (FBuf 27) (FBuf 26));
(* 368 *) SSet 30 (FMul (FBuf 29) (FBuf 24));
(* 369 *) SSet2 14 15 (FTr 0) (FTr 1);
(* 370 *) SSet 16 (FMul (FBuf 21) (FBuf 30));
(* 371 *) SEccMulAdd 12;
(* 375 *) SSet 31 (FMul (FBuf 29) (FBuf 23));
(* 376 *) SSet2 14 15 (FTr 2) (FTr 3);
(* 377 *) SSet 16 (FMul (FBuf 21) (FMul (FBuf 31) (FBuf 7)));
(* 381 *) SEccMulAdd 12;
(* 385 *) SSet2 14 15 (FTr 4) (FTr 5);
(* 386 *) SSet 16 (FMul (FBuf 21) (FBuf 31));
(* 387 *) SEccMulAdd 12;
(* 391 *) SSet2 14 15 (FTr 6) (FTr 7);
(* 392 *) SSet 16 (FMul (FBuf 21) (FMul (FBuf 29) (FBuf 7)));
(* 396 *) SEccMulAdd 12;
(* 400 *) SSet 25 (FMul (FBuf 8) (FBuf 25));
(* 401 *) SSet 31 (FMul (FBuf 23) (FBuf 7));
(* 402 *) SSet2 14 15 (FTr 8) (FTr 9);
(* 403 *) SSet 16 (FMul (FBuf 25) (FBuf 31));
(* 404 *) SEccMulAdd 12;
(* 408 *) SSet2 14 15 (FTr 10) (FTr 11);
(* 409 *) SSet 16 (FMul (FBuf 21) (FBuf 29));
(* 410 *) SEccMulAdd 12;
(* 414 *) SSet2 14 15 (FTr 12) (FTr 13);
(* 415 *) SSet 16 (FMul (FBuf 20) (FBuf 7));
(* 416 *) SEccMulAdd 12;
(* 420 *) SSet2 14 15 (FTr 14) (FTr 15);
(* 421 *) SSet 16 (FBuf 20);
(* 422 *) SEccMulAdd 12;
(* 426 *) SSet 20 (FMul (FBuf 27) (FBuf 23));
(* 427 *) SSet2 14 15 (FStr 7302810833326292183657845455542786945088085612690237136517265240120492143686) (FStr 12265020872042776853325862543934338413628778238311540007481750568301839403357);
(* 428 *) SSet 16 (FMul (FBuf 21) (FMul (FBuf 20) (FBuf 7)));
(* 432 *) SEccMulAdd 12;
(* 436 *) SSet2 14 15 (FStr 15714457855017303792793529634633875645702708944223275612000098593544931343989) (FStr 15257349176403661815620892222123615612513039066905856829097618251943836626674);
(* 437 *) SSet 16 (FMul (FBuf 21) (FBuf 20));
(* 438 *) SEccMulAdd 12;
(* 442 *) SSet 20 (FMul (FBuf 26) (FBuf 24));
(* 443 *) SSet2 14 15 (FStr 15488644080723619432119612346004359086916581306660788742559926675716559909239) (FStr 8754616038193501373921013994731307318251353370144049595366428636287857472101);
(* 444 *) SSet 16 (FMul (FBuf 21) (FBuf 20));
(* 445 *) SEccMulAdd 12;
(* 449 *) SSet 29 (FMul (FBuf 26) (FBuf 23));
(* 450 *) SSet2 14 15 (FStr 9621060932553241457331309181312468446375012848693562416915297961501104714797) (FStr 18774224011527979955178720803820949077824414817387957068075380161701868796982);
(* 451 *) SSet 16 (FMul (FBuf 21) (FMul (FBuf 29) (FBuf 7)));
(* 455 *) SEccMulAdd 12;
(* 459 *) SSet2 14 15 (FStr 7332275780326935691999111227339181700750973508937555651107089016408829877447) (FStr 10101962784746658718602667114782992736503033294933308373536577801383886245995);
(* 460 *) SSet 16 (FMul (FBuf 21) (FBuf 29));
(* 461 *) SEccMulAdd 12;
(* 465 *) SSet2 14 15 (FStr 6588502116763777047662055789514359601800459134197048587585162560883404012798) (FStr 11714447983073049655392713639630119352182916653299642193786804830268642535746);
(* 466 *) SSet 16 (FMul (FBuf 21) (FMul (FBuf 27) (FBuf 7)));
(* 470 *) SEccMulAdd 12;
(* 474 *) SSet2 14 15 (FStr 9125246457194062079192598275178850075343678690105278369118112655547944406336) (FStr 294075161521838319967190643963225379772318561607769296285010787743709643736);
(* 475 *) SSet 16 (FMul (FBuf 21) (FBuf 27));
(* 476 *) SEccMulAdd 12;
(* 480 *) SSet 29 (FMul (FBuf 20) (FBuf 23));
(* 481 *) SSet2 14 15 (FStr 21619461572256759847460179508152708219554585855297084173283796582786124555803) (FStr 4345524860916738024637605707697977254152854672257192099656709386158566955621);
(* 482 *) SSet 16 (FMul (FBuf 21) (FMul (FBuf 29) (FBuf 7)));
(* 486 *) SEccMulAdd 12;
(* 490 *) SSet2 14 15 (FStr 17258678549324502889708499924818360135272319280666991023610380123832805047961) (FStr 5334989116053542497869652553010890811115308152577125353854023583257775982812);
(* 491 *) SSet 16 (FMul (FBuf 21) (FBuf 29));
(* 492 *) SEccMulAdd 12;
(* 496 *) SSet2 14 15 (FStr 5308159394739710035241344480420553410175387652800783904684585252715061491340) (FStr 3019131547261358901530790449779825851153791728474681515444029058543922522335);
(* 497 *) SSet 16 (FMul (FBuf 21) (FMul (FBuf 20) (FBuf 7)));
(* 501 *) SEccMulAdd 12;
(* 505 *) SSet 20 (FMul (FBuf 27) (FBuf 24));
(* 506 *) SSet2 14 15 (FStr 1602442613231540506062434465510844080484629772386483161935289973450738328411) (FStr 8632200768118172237953570969696965645934378330803102067059028669153881824687);
(* 507 *) SSet 16 (FMul (FBuf 21) (FBuf 20));
(* 508 *) SEccMulAdd 12;
(* 512 *) SSet2 14 15 (FStr 14938380413158645463746726818663993049411440720262319458512240364576743949172) (FStr 612698444000497655149316219443956538920213548045757527589465098726453410217);
(* 513 *) SSet 16 (FMul (FBuf 21) (FMul (FBuf 20) (FBuf 7)));
(* 517 *) SEccMulAdd 12;
(* 521 *) SSet2 14 15 (FStr 18180235640340843615912844522870848024440129915340282133294923228193557588624) (FStr 16150223963193906991297402627411591966306440109235686551266596870812093013098);
(* 522 *) SSet 16 (FMul (FBuf 21) (FMul (FBuf 26) (FBuf 7)));
(* 526 *) SEccMulAdd 12;
(* 530 *) SSet2 14 15 (FTr 100) (FTr 101);
(* 531 *) SSet 16 (FNeg (FMul (FMul (FBuf 17) (FAdd (FBuf 9) (FNeg (FBuf 6)))) (FBuf 22)));
(* 543 *) SEccMulAdd 12;
(* 547 *) SSet2 14 15 (FTr 102) (FTr 103);
(* 548 *) SSet 16 (FBuf 9);
(* 549 *) SEccMulAdd 12;
(* 553 *) SSet 17 (FMul (FBuf 21) (FBuf 7));
(* 554 *) SSet2 14 15 (FTr 42) (FTr 43);
(* 555 *) SSet 16 (FMul (FBuf 17) (FMul (FBuf 35) (FBuf 35)));
(* 559 *) SEccMulAdd 12
].

(** AggregatorVerifierStep2.go:7-565 [VerifyProof2]; [buf] is an array passed by value. *)
Definition VerifyProof2 (O : oracles) (en : engine) (transcript aux buf : list var)
  : M (list var * option goerr) := run_prog O en transcript aux buf prog2.

(** AggregatorVerifierStep3.go:13-176, body of VerifyProof3. *)
Definition prog3 : list stmt := [
(* 15 *) SSet2 14 15 (FTr 40) (FTr 41);
(* 16 *) SSet 16 (FMul (FBuf 17) (FBuf 35));
(* 17 *) SEccMulAdd 12;
(* 21 *) SSet2 14 15 (FTr 38) (FTr 39);
(* 22 *) SSet 16 (FBuf 17);
(* 23 *) SEccMulAdd 12;
(* 27 *) SSet2 14 15 (FBuf 0) (FBuf 1);
(* 28 *) SSet 16 (FMul (FBuf 21) (FMul (FBuf 30) (FBuf 7)));
(* 32 *) SEccMulAdd 12;
(* 36 *) SSet 17 (FMul (FMul (FBuf 19) (FBuf 8)) (FBuf 28));
(* 40 *) SSet2 14 15 (FTr 16) (FTr 17);
(* 41 *) SSet 16 (FMul (FBuf 17) (FBuf 7));
(* 42 *) SEccMulAdd 12;
(* 46 *) SSet 20 (FMul (FBuf 20) (FBuf 23));
(* 47 *) SSet2 14 15 (FTr 18) (FTr 19);
(* 48 *) SSet 16 (FMul (FBuf 21) (FMul (FBuf 20) (FBuf 7)));
(* 52 *) SEccMulAdd 12;
(* 56 *) SSet2 14 15 (FTr 32) (FTr 33);
(* 57 *) SSet 16 (FMul (FBuf 25) (FBuf 7));
(* 58 *) SEccMulAdd 12;
(* 62 *) SSet2 14 15 (FTr 20) (FTr 21);
(* 63 *) SSet 16 (FBuf 17);
(* 64 *) SEccMulAdd 12;
(* 68 *) SSet2 14 15 (FTr 22) (FTr 23);
(* 69 *) SSet 16 (FMul (FBuf 21) (FBuf 20));
(* 70 *) SEccMulAdd 12;
(* 74 *) SSet2 14 15 (FTr 34) (FTr 35);
(* 75 *) SSet 16 (FBuf 25);
(* 76 *) SEccMulAdd 12;
(* 82 *) SSet2 14 15 (FStr 14330957265734295635487529150089503047509680887155412481838936779763595454159) (FStr 11657029790297552620042403612079612021781553164410884915460958808861335447799);
(* 83 *) SSet 16 (FMul (FBuf 21) (FBuf 26));
(* 84 *) SEccMulAdd 12;
(* 88 *) SSet 17 (FMul (FBuf 24) (FBuf 23));
(* 91 *) SSet2 14 15 (FStr 3217632689962165131030083420553195932069690674124201615821228288158667916559) (FStr 11279851209809827628209572028517900058696331891386803672043677236706605258017);
(* 92 *) SSet 16 (FMul (FBuf 21) (FMul (FBuf 17) (FBuf 7)));
(* 96 *) SEccMulAdd 12;
(* 102 *) SSet2 14 15 (FStr 6052548824579324632823008857297151984962554125394528409163563861993455062230) (FStr 5253299219790956244634070239415866732913146545893144333850618503587190167918);
(* 103 *) SSet 16 (FMul (FBuf 21) (FBuf 17));
(* 104 *) SEccMulAdd 12;
(* 110 *) SSet2 14 15 (FStr 20134811260136067172423268982757475565512657205230154765724273546621797752349) (FStr 6892971650116630821526804754060441250258363920342589425839414580605638919318);
(* 111 *) SSet 16 (FMul (FBuf 21) (FMul (FBuf 24) (FBuf 7)));
(* 115 *) SEccMulAdd 12;
(* 121 *) SSet2 14 15 (FStr 17209526517725877136177243553045588666670528061781328851527842192340596792007) (FStr 673380535462416015709313880421335139519451950072360935904307055208109203957);
(* 122 *) SSet 16 (FMul (FBuf 21) (FBuf 24));
(* 123 *) SEccMulAdd 12;
(* 129 *) SSet2 14 15 (FStr 9973741392326192617521393709476164203221054644042980686853312098867551316157) (FStr 9696890272060053851986158851707718469926088811173404342570425124396426957984);
(* 130 *) SSet 16 (FMul (FBuf 21) (FBuf 31));
(* 131 *) SEccMulAdd 12;
(* 137 *) SSet2 14 15 (FStr 14118917696035322873139367456503207319385222068825598680486765986706935215403) (FStr 18580702656451937158771044279900207779359395181895031379070145857747412641911);
(* 138 *) SSet 16 (FMul (FBuf 21) (FBuf 23));
(* 139 *) SEccMulAdd 12;
(* 143 *) SSet 17 (FMul (FBuf 19) (FBuf 19));
(* 144 *) SSet2 14 15 (FTr 24) (FTr 25);
(* 145 *) SSet 16 (FMul (FBuf 17) (FBuf 23));
(* 146 *) SEccMulAdd 12;
(* 150 *) SSet2 14 15 (FTr 26) (FTr 27);
(* 151 *) SSet 16 (FMul (FBuf 17) (FBuf 7));
(* 152 *) SEccMulAdd 12;
(* 156 *) SSet2 14 15 (FTr 28) (FTr 29);
(* 157 *) SSet 16 (FBuf 17);
(* 158 *) SEccMulAdd 12;
(* 162 *) SSet2 14 15 (FTr 30) (FTr 31);
(* 163 *) SSet 16 (FMul (FBuf 25) (FBuf 23));
(* 164 *) SEccMulAdd 12;
(* 168 *) SSet2 14 15 (FTr 36) (FTr 37);
(* 169 *) SSet 16 (FBuf 21);
(* 170 *) SEccMulAdd 12
].

(** AggregatorVerifierStep3.go:8-176 [VerifyProof3]; [buf] is an array passed by value. *)
Definition VerifyProof3 (O : oracles) (en : engine) (transcript aux buf : list var)
  : M (list var * option goerr) := run_prog O en transcript aux buf prog3.
