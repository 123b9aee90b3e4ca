# Formal model of gnark-halo2-verify in Rocq (Coq 8.16.1)

## 1. What is modelled

The repository is a Go program written against `gnark`.  Every gadget takes a
`frontend.API`; the same Go code is executed in two very different ways:

* **Test engine** (`test.IsSolved`): values are concrete `*big.Int`s, API calls compute modulo
  the BN254 scalar field order `r`, failed assertions panic and the run is rejected.
* **Compilation** (`frontend.Compile`): values are symbolic expressions, API calls emit
  constraints, hints become unconstrained wires chosen by the (possibly malicious) prover.

The model therefore is a set of total Gallina functions `f : engine -> ... -> M A`
(`engine := Test | Build`), one per Go function, in a state+panic monad `M` whose state is the
constraint system under construction (wires, constraints, hint calls).  Go `error`s are ordinary
returned values (`option goerr`), panics are a separate outcome, `frontend.Variable` (an empty
interface in Go) is a sum type with one constructor per dynamic type that the code can meet, so
type switches / type assertions / ignored errors are modelled literally.  Slices are lists; a
function that mutates a slice or a pointed-to value returns the new one; `[43]Variable` arrays
passed by value are lists passed by value.

| file (rocq/theories) | contents |
|---|---|
| `Params.v` | moduli r, p and basic parameters |
| `Go.v` | outcomes, monad, `frontend.Variable`, big.Int byte/decimal/hex conversions |
| `Curve.v` | textbook BN254 G1 (affine + infinity), on-curve test, twist curve, gnark's `AddUnified` |
| `Api.v` | the two engines: Add/Sub/Mul/AssertIsEqual/AssertIsLessOrEqual/IsZero/Or/NewHint, constraints and their satisfaction, oracles |
| `FrOps.v` | fr.go |
| `Lib.v` | aggregator_lib_circuit.go, msm.go, utils.go, hash.go |
| `Steps.v` | AggregatorVerifierStep1/2/3.go as a deep embedding (straight-line register programs over `buf[43]`), interpreter calling the fr.go model |
| `Agg.v` | circuit.go, pairing_circuit.go, kyc.go, the hint registry of init |
| `PairCirc.v` | the pairing circuit and the hash circuits with wires for all leaves (pairing_circuit_test.go) |
| `NumPow.v`, `NumCert.v`, `NumThy.v`, `FField.v`, `FpField.v` | primality of r and p (Pocklington certificates with supplied quotients, checked by the kernel), the fields Z/r and Z/p with `ring`/`field` |
| `SpecText.v`, `SpecHash.v`, `SpecCurve.v`, `SpecMisc.v`, `SpecRuns.v`, `SpecKeys.v` | specifications: printing/parsing, byte encodings and hash chain, the group law of G1 (line through the points), frames, exact acceptance of gadgets, usable keys |
| `SpecVerify.v` | specification of the verifier: constraint expressions, quotient, SHPLONK combination, helper values, computable range |
| `SpecPoly.v`, `SpecRows.v`, `SpecPlonk.v` | specification of what an accepted proof means: polynomials, opening identity, rows of the columns, gates, copy constraints, lookups |
| `P_Fr.v`, `P_Str.v`, `P_Curve.v`, `P_Msm.v`, `P_Hash.v`, `P_Trans.v`, `P_Misc.v`, `P_Kyc.v`, `P_Flow.v`, `P_Keys.v` | proofs about single functions |
| `P_Step.v`, `P_Exec.v`, `P_Eval.v`, `P_Dom.v`, `P_Verify.v`, `P_VSpec.v`, `P_Acc.v`, `P_Comp.v` | the three steps: adequacy of the interpreter, symbolic evaluation, identification with `SpecVerify` |
| `P_Accept.v`, `P_Honest.v`, `P_Complete.v`, `P_Pipe.v`, `P_PipeOk.v` | exact acceptance condition of the steps, of the whole circuit |
| `P_Group.v`, `P_OrderCert.v`, `P_Order.v`, `P_GroupSpec.v`, `P_LinComb.v`, `P_Restate.v`, `P_Final.v` | associativity, prime order (an r-torsion certificate and a counting argument), restatement of the curve properties through the group law |
| `P_Shplonk.v`, `P_Poly.v`, `P_Open.v`, `P_Rows.v`, `P_Snark.v`, `P_Circuit.v` | opening identity, its soundness and completeness, rows, circuit |
| `P_Perm.v`, `P_Plonk.v`, `P_Compl.v`, `P_Statement.v` | permutation and lookup arguments, statement-level soundness and completeness |
| `SpecSha.v`, `SpecSample.v` | SHA-256 and Keccak-256; the sample data of main.go |
| `SpecPairing.v`, `SpecTamper.v` | the reduced Tate pairing of BN254; a tampered sample, oracles that check the pairing |
| `SpecExact.v`, `P_Mid.v`, `P_Exact.v`, `P_EvalMod.v` | the exact set of accepted inputs, without side conditions on lists and points |
| `SpecAll.v`, `P_All.v`, `SpecBind.v`, `P_Bind.v`, `P_Surplus.v` | the same without any condition on the evaluation point; what the challenges bind; surplus words |
| `SpecForge.v`, `P_Forge.v`, `SpecMalle.v`, `P_Malle.v` | signatures made from the public key alone; the signatures for a hash and r |
| `SpecPublic.v`, `P_Public.v` | public inputs for which a witness exists |
| `SecpCert.v`, `P_SecpNum.v`, `P_SecpOrd.v`, `P_SecpGroup.v` | primality of the modulus and the order of secp256k1, its group law, the order of the base point and of the hard-coded key |
| `SpecRecord.v` | register values recorded in aggregator_lib_circuit_test.go |
| `P_Tower.v`, `P_Pairing.v` | the tower Fp12 as a ring with Frobenius; evaluation of the pairing on machine integers with slope certificates |
| `P_*Ex.v`, `P_Limb.v`, `P_Mont.v`, `P_Jac.v`, `P_Refl.v` | concrete cases; arithmetic on machine integers used only by them |
| `Prop_*.v` | property theorems only, each closed by `exact lemma`, with `Print Assumptions` |

## 2. Trusted base

* Coq 8.16.1's kernel (including `vm_compute`).
* Axioms: what `Print Assumptions` prints under each theorem (see section 5).
* The reading of the Go source and of the libraries it calls (sources not available in the
  sandbox; semantics taken from gnark v0.10.0, gnark-crypto and go-ethereum as published):
  - test engine: `toBigInt` does not reduce `*big.Int`; Add/Sub/Mul reduce mod r;
    AssertIsEqual/AssertIsLessOrEqual compare integers and panic; NewHint runs the hint, panics on
    a hint error and reduces the outputs mod r; IsSolved turns panics into rejection;
  - builder: API calls build expressions; NewHint allocates unconstrained wires;
    IsZero/Or emit their documented constraints; AssertIsLessOrEqual means comparison of
    canonical representatives; the solver refuses to run with unregistered hints;
  - `fp.Element.SetInterface`: converts Go ints, strings, big.Ints, fp elements; error on
    anything else (fr elements, builder expressions, nil);
  - go-ethereum `bn256.G1`: Unmarshal rejects coordinates >= p and off-curve points, (0,0) is
    infinity; `String` prints 64 hex digits per coordinate and prints infinity as (0,1);
    Add/ScalarMult are textbook operations;
  - `sw_emulated`: `AddUnified` is modelled by its formula (Brier-Joye with three selectors);
    `ScalarMul` is the textbook multiple for on-curve, finite P and s<>0 and an arbitrary oracle
    otherwise (gnark documents it as undefined there);
  - hash gadgets (sha2, sha3), native hashes, ECDSA verification and the pairing check are
    oracles: record fields of `oracles`, universally quantified in every theorem.
* Not modelled: logging, the PLONK/Groth16 back ends, key generation, KZG SRS, gnark's
  internal representation of constraints, performance, non-BN254 native fields.

## 3. Plan per property

| id | model | proof |
|---|---|---|
| C01,C08 | `mod`, `modHint` in Test | direct computation with Z.mod |
| C02,C04 | `mod`, `fr_*` in Build: emitted constraints | for all assignments w, `sat w cs' -> eval w out = ...` |
| C03 | `fr_*` in Test | computation |
| C05 | `fr_pow` as the Go loop (iterated on Z) | induction on the exponent |
| C06 | `fr_div` both engines | primality of r for uniqueness |
| C07 | `fr_mul_neg` | computation; Build always panics on the type assertion |
| C09,C10 | decimal/hex printing and parsing on strings, regexp as a matcher | induction over digit lists |
| C11,C12 | hints over textbook curve | case analysis |
| C13-C16 | Calc/Verify gadgets in Test | Brier-Joye slope = chord/tangent slope (field reasoning mod p) |
| C17-C19 | legacy gadgets with mutation made explicit | computation, refutation witnesses by vm_compute |
| C20 | on-curve checks for every value kind | case analysis |
| C21-C23 | hash gadgets with hash oracle; Build constraints | soundness for all assignments; explicit forged assignment |
| C24 | PackUInt8Variables | induction, base-256 uniqueness |
| C25-C28 | SqueezeChallenge, GetChallengesShPlonkCircuit as loops over the absorbing slice | loop lemmas; equality with a list-level hash chain spec |
| C29-C33 | deep embedding of steps 1-3 | adequacy of the interpreter w.r.t. evaluation in the field Z/r, then `ring`/`field` identities against the generic SHPLONK spec |
| C34,C35 | pairing fill, range checks | computation |
| C36,C37,C40 | `AggregatorCircuit.Define` in both engines | composition of the above |
| C38 | registry + hint calls recorded by builder | computation |
| C39 | ecc_mul/ecc_mul_add for arbitrary value kinds | case analysis |
| C41,C42 | kyc.go both engines | induction over the country list; field reasoning for IsZero |
| C43,C44 | hash.go, VerifyMultiScalarMul | case analysis / induction |
| C45 | constants of step 1 | vm_compute on the constants, field reasoning for L_i |
| C46 | CalcVerifyCircuitLagrange | from C13 |

| C47,C48 | the three steps / the whole circuit in Test | equivalence of "every statement succeeds" with a condition on helpers and points; composition |
| C49,C50 | `padd`, `pmul` of `Curve.v` | group law stated by lines; associativity by case analysis and `field`; order by certificate |
| C51 | circuit with an abstract KZG pairing | linear combinations in a group of prime order |
| C52 | SHPLONK identity | polynomials as functions with degree bounds, root counting |
| C53 | quotient check | divisibility by X^n - 1, root counting |
| C54,C55 | circuit | C51 + C52 + C53 |
| C56 | permutation and lookup products | telescoping products, root counting in beta, gamma, theta |
| C57,C58 | circuit | C54/C55 + C56 |
| C59 | constants | evaluation |
| C60 | shipped sample | C48 run on machine integers (Montgomery limbs, Jacobian multiples, reflective evaluation over Z/r) |
| C61,C62 | sample, tampered sample, Tate pairing | C60 + certified evaluation of Miller loop and final exponentiation (residue certificate for "is one", an element of order r for "is not one") |
| C63 | recorded registers | C22, C26, C46 on the sample; the first step evaluated on Montgomery residues (`fev`, `frun` in P_RecordEx.v), compared register by register |
| C64 | byte check | direct, both engines |
| C65 | uniqueness of the last opening point | C36 for both inputs; everything but the last term is the same, so (tau - u) W' is fixed; prime order |
| C66 | the repository's KYC test | ECDSA over secp256k1 written out (SpecEcdsa.v), evaluated on Montgomery limbs with supplied inverses; C41 for the circuit |
| C67 | recorded accumulators | C63's evaluator extended with the point operations (`prun` in P_Record2Ex.v), consuming the certified products and sums of C60 |
| C68 | the repository's tests as runs of the model | C13-C16, C21, C22, C60-C62 at the test values |
| C69 | the twist over Fp2 | group law over an arbitrary field (P_Weier.v); order by a double-and-add chain on machine integers with supplied slopes |
| C70 | the exact set of accepted inputs | C36, C47, C48, plus: the loops read 104 words, every commitment is multiplied once, and a multiplication accepted by both the hint and the gadget has a finite canonical operand (no curve point has ordinate (p+r)/2, by a cubic residue certificate) |
| C71 | evaluations matter modulo r only | C70; witness: the run of C48 with one evaluation enlarged by r |
| C72 | the exact set of accepted inputs for every evaluation point | C47/C48 with the helper words described by their division equations instead of their values; outside the domain the equations have one solution, inside it the quotient word is free |
| C73 | what the last challenge determines | the hash chain is followed backwards from the last challenge: equal digests give equal messages or a collision between two named messages; prime order turns the instance commitment into the Keccak digest modulo r; C65 for the last point |
| C74 | surplus words | pointwise equality of the two runs (all indices read are below 104 and 21); C72 for missing words |
| C75 | KYC signatures made from the public key alone | the standard's equation divided by s: with a = h/s and b = r/s the verifier's point is a G + b Q, and conversely; n is prime (certificate), so b is invertible |
| C76 | which signatures are accepted for a hash and r | group law of secp256k1 (associativity from the general Weierstrass proof), order of G and Q by certificates of (n-1)G = -G and (n-1)Q = -Q; negating s negates the point; equal abscissae give points equal up to sign |
| C77 | what the public inputs establish | C41 and C75 for KYC; the compiled pairing circuit is one constraint, and tau times a finite point is finite (prime order); for the hash circuits the witness is built from the digest |

No property is declared inexpressible; what is left to oracles (pairing, hash functions, ECDSA,
degenerate inputs of ScalarMul) is said in each theorem by quantification over the oracle.

## 4. How the model was checked against the program

* Every definition cites the Go lines it transcribes; statements of the three steps carry their line
  numbers one by one.
* C60 runs the model inside Rocq on the proof, helper values and instances embedded in `main.go`, with
  SHA-256 and Keccak-256 (written out in `SpecSha.v` from their standards) as hash oracles: all checks
  before the pairing pass, and the two points handed to the pairing check are the ones written in the
  statement.  They are the points that `pairing_circuit_test.go:50-55` and `:86-89` write down as literals
  for a test of the pairing circuit alone, i.e. the model computes what the authors' program computed.
  The same run was made before by extracting the model to OCaml.
* C61/C62 evaluate the pairing on the points of the sample (product one) and of a tampered sample (not one).
* C63: instance commitment, the eight challenges and all 43 registers after `VerifyProof1` equal the numbers the authors recorded in aggregator_lib_circuit_test.go:173-182 and 231-277. These numbers come from the program, not from the model, so they are an independent check of the transcribed first step. C67 does the same for registers 10 to 13 (the two accumulators) after `VerifyProof2` and `VerifyProof3`, recorded in the comment aggregator_lib_circuit_test.go:219-228; the other registers after those steps are not recorded.
* C66 runs the KYC circuit on the signature and hash of `kyc_test.go:28-65` with ECDSA written out from its
  standard definition: the signature is valid and the compiled circuit has a satisfying assignment; for the
  hash that the test file leaves commented out the signature is invalid and no assignment satisfies the
  circuit.  gnark's gadget compares the abscissa with r bit by bit, the standard modulo the group order; the
  oracle `o_ecdsa` stands for the verdict, and on these inputs the two agree (the abscissa is below the order).
* C68 states what each of the repository's tests shows.  Two of them show nothing: `TestCheckOnCurveCircuit`
  puts `fr.Element` values where the gadget calls `SetInterface`, whose error is dropped, so the point checked is
  always (0,0); and the fields of the circuit of `TestMsmSolve` are not `frontend.Variable`s, so the values of the
  witness are not copied into the circuit that runs, and the run on the zero values passes for every scalar.
  `TestOnBn254` (no assertion, it prints) reduces modulo r instead of p and calls its own curve point not on the curve.
* C75 says what C42 amounts to: `KycHash` is a private witness that nothing in `Define` computes from the
  attributes, so whoever knows the hard-coded public key can make a hash and a signature accepted with any
  attributes that meet the public conditions.  Hashing the attributes inside the circuit would exclude this.
* Mutation tests are listed in `seeded/LOG.jsonl`.

## 5. Axioms and hypotheses

`Print Assumptions` stands under every theorem.  All theorems listed in `MANIFEST.json` except C60-C63, C66-C68 (in part), C69's order, the refutation of C71, the run cases of C72-C74, C76 (in part) and C77_TestPairing are
*closed under the global context* (no axiom at all).  These and the `Example`s that exhibit a complete
accepted run on 254-bit data (`C47_run_case`, `C48_run_case`, `C51_case`, `C60_case`) are evaluated on
primitive machine integers and therefore depend on the standard library's `PrimInt63` primitives and
their specifications (`Uint63.add_spec`, `mul_spec`, `sub_spec`, `lsl_spec`, `lsr_spec`, `land_spec`,
`lor_spec`, `ltb_spec`, `leb_spec`, `eqb_correct`, `eqb_refl`, `of_to_Z`).  Other axioms that a checker may
list (`Coq.ssr.ssrunder.*`, remaining `Uint63` specifications) come with imported standard library files
and are not used by any theorem.

Hypotheses that are not facts about the code, and where they appear:

* `degen_sane O` (C31, C36, C47, C48, C51, C54, C55, C57, C58, C60-C62, C70-C74): gnark's scalar multiplication, called
  outside its documented domain, does not return the pair (0,1).
* `kzg_check tau` / `kzg_pairing` / the pairing oracle (C51, C54, C55, C57, C58, C65, C73's second theorem, C77_pairing_any_point): the pairing check of the two pairs
  decides R = tau * W'.  The second G2 constant is minus the generator and both have order r (C69);
  that the first is tau times the generator defines tau; that a pairing with this property exists on BN254 is not proved here.
* `real_pairing O` (C61, C62, C68, C77_TestPairing): gnark's pairing check agrees with the reduced Tate pairing of `SpecPairing.v` on
  G1 points and the two G2 constants.  gnark computes the optimal ate pairing, of which the Tate pairing is a
  power with exponent prime to r; this textbook fact is not proved here.
* `ecdsa_right O` at the queries named (C66, C75-C77): on those inputs gnark's ECDSA gadget gives the verdict of
  the standard.
* C51-C58 speak about provers that know polynomials behind their commitments (as in the algebraic group
  model); tau is treated as the last challenge, with its own exceptional set.  Challenges are those the
  transcript derives; that a hash function hits the exceptional sets only with negligible probability is
  not a statement about this code.
* "Computable range" (C36, C47, C48, C51, C54, C55, C58): intermediate points are finite with coordinates below r.  The
  gadgets cannot represent other points; C14/C16 show this is exactly what they refuse.

The non-vacuity of C55/C58 at the level of the whole circuit is shown in pieces (columns: C53/C56 cases;
an accepted run with polynomials behind all commitments: C51_case), since a complete honest proof needs
columns of length 2^23.
