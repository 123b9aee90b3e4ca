{"id": "C01", "title": "mod is exact on canonical values and rejects everything else under the test engine", "statement": "Running mod(api,a) under the test engine on a *big.Int a succeeds exactly when 0 <= a < MODULUS and then returns a unchanged; for every other integer the run panics (assertion failure), it never returns a reduced value.", "quantifier": "every integer a, positive or negative, of any size", "why_tests_cant": "there are infinitely many integers; a test samples a few canonical ones and never sees the rejection side", "anchors": ["fr.go:mod", "fr.go:modHint"]}
{"id": "C02", "title": "a compiled mod constrains its result to equal its operand in the scalar field", "statement": "In a circuit compiled over the BN254 scalar field, every assignment satisfying the constraints emitted by mod(api,a) gives the returned variable the same field value as a, whatever a malicious prover puts in the hint outputs; the quotient output is completely free.", "quantifier": "every operand expression and every satisfying assignment (honest or malicious)", "why_tests_cant": "a test runs the honest hint only; soundness is about all assignments", "anchors": ["fr.go:mod", "fr.go:modHint"]}
{"id": "C03", "title": "fr_add, fr_sub, fr_mul, fr_neg compute the scalar-field operation under the test engine", "statement": "For all integer operands a, b (canonical or not) fr_add/fr_sub/fr_mul/fr_neg succeed and return the canonical representative in [0,MODULUS) of a+b, a-b, a*b, -a.", "quantifier": "all pairs of integers", "why_tests_cant": "unbounded operand space incl. non-canonical and negative values", "anchors": ["fr.go:fr_add", "fr.go:fr_sub", "fr.go:fr_mul", "fr.go:fr_neg"]}
{"id": "C04", "title": "fr_add, fr_sub, fr_mul, fr_neg are sound as constraints", "statement": "In a compiled circuit every satisfying assignment gives the result of fr_add/fr_sub/fr_mul/fr_neg the field value of the sum/difference/product/negation of its operands.", "quantifier": "all operand expressions and all satisfying assignments", "why_tests_cant": "quantifies over malicious witnesses", "anchors": ["fr.go:fr_add", "fr.go:fr_sub", "fr.go:fr_mul", "fr.go:fr_neg"]}
{"id": "C05", "title": "fr_pow raises to the given power for every exponent >= 1", "statement": "fr_pow(a,k) returns a^k mod MODULUS for every integer a and every k >= 2, and for k = 1 and canonical a (k = 1 rejects a non-canonical a; k = 0 or negative returns a mod-checked, not 1: the usual a^0 = 1 is refuted), in the test engine and, for satisfying assignments, in compiled circuits.", "quantifier": "all bases and all exponents", "why_tests_cant": "exponent drives an unbounded loop (8388608 iterations in the verifier)", "anchors": ["fr.go:fr_pow"]}
{"id": "C06", "title": "fr_div accepts exactly a correct quotient", "statement": "fr_div(a,b,aux) succeeds iff aux is canonical and b*aux = a in the field (a compared as given), and returns aux. Hence when b is non-zero the accepted quotient is the unique field quotient, division of a non-zero a by zero is always rejected, and 0/0 accepts every canonical aux. The same holds for every satisfying assignment of the compiled gadget.", "quantifier": "all a, b, aux; all satisfying assignments", "why_tests_cant": "uniqueness and rejection are universal statements", "anchors": ["fr.go:fr_div"]}
{"id": "C07", "title": "fr_mul_neg returns MODULUS - a*b, which is not canonical for a zero product, and cannot be compiled", "statement": "Under the test engine fr_mul_neg returns MODULUS - (a*b mod MODULUS), congruent to -(a*b), always in (0,MODULUS]; it equals the canonical negation unless the product is 0 in the field (refuted there). In a compiled circuit it always panics.", "quantifier": "all operand pairs; all compile-time operands", "why_tests_cant": "universal over operands; the compile-time panic is independent of inputs", "anchors": ["fr.go:fr_mul_neg"]}
{"id": "C08", "title": "modHint is Euclidean division", "statement": "For every integer input the hint's outputs d, r satisfy input = d*MODULUS + r and 0 <= r < MODULUS.", "quantifier": "all integers including negatives", "why_tests_cant": "sign/rounding behaviour must hold for all inputs", "anchors": ["fr.go:modHint"]}
{"id": "C09", "title": "fr_from_string parses exactly the decimal numerals", "statement": "fr_from_string of the decimal rendering of any integer returns that integer; a string with a non-digit character yields a nil value.", "quantifier": "all integers / all strings", "why_tests_cant": "unbounded string space", "anchors": ["fr.go:fr_from_string"]}
{"id": "C10", "title": "the bn256 printed form of a point is parsed back to its coordinates", "statement": "extractAndConvert applied to the text go-ethereum prints for a G1 point with coordinates x,y < 2^256 returns the decimal renderings of x and y; hexToDecimalString accepts exactly even-length hex strings (optionally prefixed 0x).  In an arbitrary text the first occurrence of the pattern bn256.G1(word, word) is used - converted if both words are hex of even length, an error otherwise - and a text without such an occurrence is reported as invalid.", "quantifier": "all coordinates; all strings", "why_tests_cant": "all 2^512 points; leading zeros and nibble boundaries", "anchors": ["aggregator_lib_circuit.go:extractAndConvert", "aggregator_lib_circuit.go:hexToDecimalString"]}
{"id": "C11", "title": "MsmHint returns k*P for valid encodings and rejects everything else", "statement": "MsmHint on three inputs returns the affine coordinates of k*P (with (0,1) standing for infinity) when the two coordinates encode a BN254 point ((0,0) = infinity), returns an error when they do not lie on the curve or are >= p, panics when a coordinate needs more than 32 bytes or the number of inputs is not three; its outputs are never nil.", "quantifier": "all integer triples and input lengths", "why_tests_cant": "invalid and boundary encodings", "anchors": ["aggregator_lib_circuit.go:MsmHint"]}
{"id": "C12", "title": "AddHint returns P+Q for valid encodings and rejects everything else", "statement": "As C11 for the sum of two points given as four coordinates.", "quantifier": "all integer quadruples and input lengths", "why_tests_cant": "invalid and boundary encodings", "anchors": ["aggregator_lib_circuit.go:AddHint"]}
{"id": "C13", "title": "an accepted scalar multiplication is the true scalar multiple", "statement": "Whenever CalcVerifyBN256Msm(x,y,k) / ecc_mul succeeds under the test engine on a valid non-infinite point in canonical coordinates with 0 <= k < p and k not 0 mod r, the returned coordinates are exactly those of k*P, are on the curve and are < r.", "quantifier": "all points and scalars", "why_tests_cant": "soundness is universal", "anchors": ["aggregator_lib_circuit.go:CalcVerifyBN256Msm", "msm.go:VerifyBN254ScalarMul", "fr.go:ecc_mul"]}
{"id": "C14", "title": "scalar multiplication succeeds exactly when both result coordinates are below r", "statement": "For a valid non-infinite point in canonical coordinates and a scalar 0 <= k < p, not 0 mod r, the gadget accepts iff both coordinates of k*P are < r; the unconditional claim that it accepts every valid input is false (coordinates in [r,p) are truncated by the hint output).", "quantifier": "all valid inputs", "why_tests_cant": "the failing inputs have density 2^-127: sampling never hits them", "anchors": ["aggregator_lib_circuit.go:CalcVerifyBN256Msm"]}
{"id": "C15", "title": "an accepted point addition is the true sum", "statement": "Whenever CalcVerifyBN256Add succeeds under the test engine on non-negative integers, its four inputs encode curve points and the returned coordinates are those of the textbook sum, which is not infinity, and are < r.", "quantifier": "all input quadruples", "why_tests_cant": "soundness is universal; includes equal, opposite and infinite operands", "anchors": ["aggregator_lib_circuit.go:CalcVerifyBN256Add", "msm.go:VerifyBN254Add"]}
{"id": "C16", "title": "point addition succeeds exactly outside three degenerate cases", "statement": "For valid encodings CalcVerifyBN256Add accepts iff the sum is finite, both coordinates are < r and not (both inputs finite with y1+y2=0 and x1<>x2); so 'accepts every valid input' is refuted, in particular P + (-P) always fails.", "quantifier": "all valid inputs", "why_tests_cant": "degenerate cases are never sampled", "anchors": ["aggregator_lib_circuit.go:CalcVerifyBN256Add", "msm.go:VerifyBN254Add"]}
{"id": "C17", "title": "the legacy Msm/Add checks compare coordinates only modulo r", "statement": "VerifyBN256Msm / VerifyBN256Add succeed under the test engine iff the claimed coordinates are congruent modulo r (not p) to the true ones; so distinct claimed points are accepted (refuting 'accepts only the true result').", "quantifier": "all points, scalars and claimed results", "why_tests_cant": "the colliding residues have density 2^-127", "anchors": ["aggregator_lib_circuit.go:VerifyBN256Msm", "aggregator_lib_circuit.go:VerifyBN256Add"]}
{"id": "C18", "title": "the legacy Msm/Add circuits overwrite their operand", "statement": "After VerifyBN256Msm (VerifyBN256Add) the caller's first point holds k*P (P+Q); running the same circuit value n times verifies the n-fold iteration of P -> k*P (P -> P+Q), so acceptance is not stable under repetition.", "quantifier": "all histories of repeated runs", "why_tests_cant": "a property of call histories", "anchors": ["aggregator_lib_circuit.go:VerifyBN256Msm", "aggregator_lib_circuit.go:VerifyBN256Add"]}
{"id": "C19", "title": "the legacy Calc*1 helpers can return a point that is off the curve", "statement": "CalcVerifyBN256Msm1 / CalcVerifyBN256Add1 accept every valid finite-result input and return the true coordinates reduced modulo r; hence when a true coordinate is >= r they accept and return a wrong point (refutation of soundness). They do not panic only on values from which a field element can be made, and they report success only in the test engine.", "quantifier": "all valid inputs", "why_tests_cant": "density 2^-127 failing set", "anchors": ["aggregator_lib_circuit.go:CalcVerifyBN256Msm1", "aggregator_lib_circuit.go:CalcVerifyBN256Add1"]}
{"id": "C20", "title": "on-curve checks accept exactly the curve equation modulo p, plus (0,0)", "statement": "VerifyCheckOnCurve on integers returns nil iff y^2 = x^3+3 mod p or x = y = 0 mod p. VerifyCheckOnCurveVar silently treats unconvertible values as 0: in a compiled circuit it accepts every point and emits no constraint, and it accepts every pair of fr.Element values.", "quantifier": "all coordinates, all value kinds, all compiled circuits", "why_tests_cant": "universal; the compile-time behaviour cannot be seen by solving", "anchors": ["aggregator_lib_circuit.go:VerifyCheckOnCurve", "aggregator_lib_circuit.go:VerifyCheckOnCurveVar"]}
{"id": "C21", "title": "the hash circuits accept exactly the hash of their input", "statement": "VerifyKeccak256/VerifySha256 accept iff the first 32 entries of the claimed digest equal the digest of the input bytes, panic when fewer than 32 entries are supplied and ignore entries beyond 32 - for the test engine and for every satisfying assignment of the compiled circuit.", "quantifier": "all messages, all claimed digests, all assignments", "why_tests_cant": "universal over messages", "anchors": ["aggregator_lib_circuit.go:VerifyKeccak256", "aggregator_lib_circuit.go:VerifySha256"]}
{"id": "C22", "title": "VerifyInstanceHash under the test engine returns keccak256 of the instance, reduced into the scalar field", "statement": "For any list of integers the returned value is the big-endian integer of keccak256 over the concatenated 32-byte encodings of the values reduced modulo p, taken modulo r.", "quantifier": "all instance lists", "why_tests_cant": "unbounded lists", "anchors": ["circuit.go:VerifyInstanceHash", "circuit.go:Keccak256Hint", "utils.go:PackUInt8Variables"]}
{"id": "C23", "title": "a compiled VerifyInstanceHash does not bind the instance", "statement": "The natural claim 'every satisfying assignment hashes the given instance' is false: for every instance and every byte string of the right length there is a satisfying assignment whose output is the hash of that string. What does hold: the output is the hash of some byte string of length 32*n.", "quantifier": "all instances, all satisfying assignments", "why_tests_cant": "soundness hole visible only to a malicious prover", "anchors": ["circuit.go:VerifyInstanceHash"]}
{"id": "C24", "title": "PackUInt8Variables is big-endian base-256 evaluation in the field", "statement": "The result equals sum of b_i*256^(n-1-i) modulo r; distinct byte strings of equal length up to 31 give distinct results, for length 32 this is refuted; a single input is returned unchanged; the empty call panics.", "quantifier": "all byte strings", "why_tests_cant": "universal injectivity", "anchors": ["utils.go:PackUInt8Variables"]}
{"id": "C25", "title": "SqueezeChallenge hashes exactly the absorbed prefix followed by a zero byte", "statement": "It returns sha256(be32(a_0)..be32(a_{length-1}) || 0x00) mod r, stores the unreduced digest in slot 0 and 0 in slot length, leaves every other slot unchanged, and panics iff length is out of range, a slot in the prefix is not a *big.Int, or does not fit in 32 bytes.", "quantifier": "all transcripts states and lengths", "why_tests_cant": "frame and failure conditions over all states", "anchors": ["aggregator_lib_circuit.go:SqueezeChallenge"]}
{"id": "C26", "title": "the Fiat-Shamir schedule absorbs every proof element once, in order", "statement": "On success GetChallengesShPlonkCircuit sets slots 2..9 to the eight challenges of the hash chain over (vk constant, instance commitment, proof[0..101]) split 16/8/0/14/6/56/0/2, leaves all other slots unchanged and never reads proof elements beyond 103.", "quantifier": "all proofs, all buffers", "why_tests_cant": "exact schedule for all inputs", "anchors": ["aggregator_lib_circuit.go:GetChallengesShPlonkCircuit"]}
{"id": "C27", "title": "each challenge depends only on what was absorbed before it, and the absorbed encoding is injective", "statement": "Two proofs that agree on the elements absorbed before a challenge get the same challenge; conversely if the hash is collision-free on the encodings, equal challenge digests imply equal absorbed prefixes (for elements in [0,2^256)).", "quantifier": "all pairs of proofs", "why_tests_cant": "a relational property over pairs of runs", "anchors": ["aggregator_lib_circuit.go:GetChallengesShPlonkCircuit", "aggregator_lib_circuit.go:SqueezeChallenge"]}
{"id": "C28", "title": "every proof commitment is checked to be a curve point", "statement": "A run of GetChallengesShPlonkCircuit on integers succeeds only if all 24 commitment pairs of the proof satisfy the curve equation (or are (0,0)) and proof elements fit 32 bytes, and it succeeds whenever they do; a bad point yields an error.", "quantifier": "all proofs", "why_tests_cant": "universal over proofs", "anchors": ["aggregator_lib_circuit.go:GetChallengesShPlonkCircuit", "aggregator_lib_circuit.go:VerifyCheckOnCurve"]}
{"id": "C29", "title": "the verifier evaluates the SHPLONK opening combination", "statement": "After VerifyProof1 and VerifyProof2 the scalar applied to the (negated) generator equals sum over the five rotation sets of v^(4-i) * Z_{T\\S_i}(u)/Z_{T\\S_0}(u) * sum_j y^(m-1-j) r_ij(u), with r_ij the Lagrange interpolation of the claimed evaluations and the quotient evaluation of C30 as the evaluation of h.", "quantifier": "all proofs, challenges and accepted aux values", "why_tests_cant": "a 300-statement register program over 43 reused slots must equal a formula for all inputs", "anchors": ["AggregatorVerifierStep1.go:VerifyProof1", "AggregatorVerifierStep2.go:VerifyProof2"]}
{"id": "C30", "title": "the verifier computes the expected quotient evaluation h(x)", "statement": "The value used for h(x) satisfies h*(x^n-1) = the y-combination of the 23 gate, permutation and lookup constraint expressions of the aggregation circuit evaluated at the claimed evaluations, with n = 2^23, provided the accepted run has x^n <> 1.", "quantifier": "all proofs, challenges and accepted aux values", "why_tests_cant": "polynomial identity over all inputs", "anchors": ["AggregatorVerifierStep1.go:VerifyProof1", "AggregatorVerifierStep2.go:VerifyProof2"]}
{"id": "C31", "title": "the final commitment accumulator is the SHPLONK multi-scalar multiplication", "statement": "On acceptance of the three steps slots 12/13 hold the sum, in the group of the curve, of -E*G and all scalar*commitment terms prescribed by the SHPLONK verifier (the order of additions in the code does not matter), and slots 10/11 hold the second opening proof W' - provided the proof's commitments and the instance commitment satisfy the curve equation (established by C28/C46) and the scalar multiplication gadget, outside its documented domain, never outputs the non-point (0,1).", "quantifier": "all accepted runs", "why_tests_cant": "register reuse over 200 statements, all inputs", "anchors": ["AggregatorVerifierStep2.go:VerifyProof2", "AggregatorVerifierStep3.go:VerifyProof3"]}
{"id": "C32", "title": "verifier steps leave challenges and caller buffers intact", "statement": "VerifyProof1/2/3 never modify slots 0..9 of the buffer they return ; errors return the zero array (the Go arrays are passed by value, so the caller's array cannot change).", "quantifier": "all inputs", "why_tests_cant": "frame property", "anchors": ["AggregatorVerifierStep1.go:VerifyProof1", "AggregatorVerifierStep2.go:VerifyProof2", "AggregatorVerifierStep3.go:VerifyProof3"]}
{"id": "C33", "title": "auxiliary inverses carry no freedom", "statement": "When x^n <> 1, at most one Aux vector (its first 21 entries) is accepted for a given proof and challenges; at x = 1 the L_0 helper is unconstrained (refutation of unconditional uniqueness at the gadget level).", "quantifier": "all proofs, challenges and pairs of aux vectors", "why_tests_cant": "uniqueness", "anchors": ["AggregatorVerifierStep1.go:VerifyProof1", "AggregatorVerifierStep2.go:VerifyProof2", "fr.go:fr_div"]}
{"id": "C34", "title": "pairing inputs are curve points and the hard-coded G2 points are valid", "statement": "GetVerifyCircuitsG2Jac never panics: both constants lie on the twist. FillVerifyCircuitsG1 panics iff a coordinate cannot be converted or a point is off the curve, otherwise installs exactly the two given points in order, coordinates reduced modulo p. VerifyBN256Pairing returns an error iff no points are given or the lists differ in length, accepts iff the pairings multiply to one, and otherwise fails its assertion.", "quantifier": "all coordinate quadruples of any value kind; all point lists", "why_tests_cant": "universal", "anchors": ["pairing_circuit.go:VerifyBN256Pairing", "pairing_circuit.go:FillVerifyCircuitsG1", "pairing_circuit.go:FillVerifyCircuitsG2", "pairing_circuit.go:GetVerifyCircuitsG2Jac"]}
{"id": "C35", "title": "VerifyNotZero and VerifyRangeCheck accept exactly the stated ranges", "statement": "VerifyNotZero(x) accepts iff 1 <= x; VerifyRangeCheck(x,min,max) accepts iff 0 <= x and min <= x <= max, on values for the test engine and on canonical representatives in every satisfying assignment when compiled.", "quantifier": "all values / assignments", "why_tests_cant": "universal", "anchors": ["aggregator_lib_circuit.go:VerifyNotZero", "aggregator_lib_circuit.go:VerifyRangeCheck"]}
{"id": "C36", "title": "an accepted aggregation run satisfies the halo2 verification equation", "statement": "If AggregatorCircuit.Define succeeds under the test engine then: every commitment of the proof is on the curve, challenges are the hash chain over the Lagrange commitment of keccak(instance), aux values are the required inverses, Lagrange values and quotient (when x^n <> 1), the two pairing points are W' and the SHPLONK accumulator, all four coordinates are non-zero and the pairing check holds for them against the two fixed G2 points.", "quantifier": "all proofs, instances and aux values", "why_tests_cant": "end-to-end soundness over all inputs", "anchors": ["circuit.go:AggregatorCircuit.Define"]}
{"id": "C37", "title": "the aggregation circuit cannot be compiled", "statement": "For every circuit shape (lengths of Proof, VerifyInst, Aux, TargetInst) symbolic compilation of AggregatorCircuit, BN254ScalarMul and BN254Add never returns a nil error; so the property 'main proves and verifies' is refuted. The two gadgets succeed, in either engine, only when every argument is a concrete value.", "quantifier": "all circuit shapes", "why_tests_cant": "tests only use the test engine (IsSolved); compile is never exercised", "anchors": ["circuit.go:AggregatorCircuit.Define", "msm.go:VerifyBN254ScalarMul", "msm.go:VerifyBN254Add", "main.go:main"]}
{"id": "C38", "title": "every circuit that uses mod needs a hint that is not registered", "statement": "Any compiled call of mod adds modHint to the set of hints the solver needs, and modHint is not among the hints registered at start-up (MsmHint, AddHint, Keccak256Hint); so 'all required hints are registered' is refuted for mod (and toBytes) and holds for the curve and keccak hints.", "quantifier": "all compiled circuits calling mod", "why_tests_cant": "the test engine never consults the registry", "anchors": ["aggregator_lib_circuit.go:init", "fr.go:mod"]}
{"id": "C39", "title": "gadget errors propagate to the caller - except in ecc_mul_add", "statement": "ecc_mul returns every error of the multiplication gadget and then leaves the buffer unchanged; ecc_mul_add returns the multiplication error but always discards the addition gadget's error (refutation), overwriting its accumulator slots.", "quantifier": "all buffers, offsets, value kinds", "why_tests_cant": "error paths for all value kinds", "anchors": ["fr.go:ecc_mul", "fr.go:ecc_mul_add"]}
{"id": "C40", "title": "the instance hash does not separate TargetInst from VerifyInst", "statement": "Acceptance of a run depends on TargetInst and VerifyInst only through the concatenated list of values (reduced modulo p); hence moving the boundary between them or adding p to an element never changes the outcome, and more than 43 elements panic.", "quantifier": "all instance splits", "why_tests_cant": "relational over pairs of inputs", "anchors": ["circuit.go:AggregatorCircuit.Define"]}
{"id": "C41", "title": "the KYC circuit accepts exactly: valid signature, age in range, country in list", "statement": "Circuit.Define succeeds iff the ECDSA check passes on (KycHash, Signature), 0 <= age, Age[0] <= age <= Age[1] and country equals some listed country modulo r - in the test engine and for every satisfying assignment of the compiled circuit; an empty country list always rejects.", "quantifier": "all witnesses, list lengths, assignments", "why_tests_cant": "unbounded list lengths, malicious assignments", "anchors": ["kyc.go:Circuit.Define"]}
{"id": "C42", "title": "the KYC signature does not authenticate the attributes", "statement": "Acceptance for (signature, hash, attributes, conditions) implies acceptance with the attributes replaced by any other attributes meeting the conditions: Age/Country are unrelated to the signed hash, Level and Time are ignored altogether (refuting 'accepted attributes were signed').", "quantifier": "all accepted witnesses and all replacement attributes", "why_tests_cant": "relational property", "anchors": ["kyc.go:Circuit.Define"]}
{"id": "C43", "title": "toBytes never succeeds and ValueOf ignores its input", "statement": "toBytes returns an error or panics for every input; ValueOf returns 32*n unset bytes that depend only on the length n.", "quantifier": "all inputs", "why_tests_cant": "universal", "anchors": ["hash.go:toBytes", "hash.go:ValueOf"]}
{"id": "C44", "title": "VerifyMultiScalarMul checks the sum of scalar multiples", "statement": "It returns an error iff the numbers of points and scalars differ (and there is at least one point); for finite canonical points and scalars 0 < s_i < r in general position it accepts iff the expected point is the left-to-right sum of s_i*P_i; no points at all means the expected point must be (0,0), and a partial sum with the same abscissa as the next term is rejected.", "quantifier": "all lists of points and scalars", "why_tests_cant": "unbounded lists", "anchors": ["msm.go:VerifyMultiScalarMul"]}
{"id": "C45", "title": "the hard-coded domain constants are consistent", "statement": "The multiplier used for the next row has multiplicative order exactly 2^23; the other rotation constants are its powers -6..-1 and 2; each Lagrange constant is omega^i/n; hence the L_i values used equal the Lagrange basis polynomials of the domain at x for every x outside the domain.", "quantifier": "all x outside the domain", "why_tests_cant": "order and Lagrange identities are universal statements about 2^23 points", "anchors": ["AggregatorVerifierStep1.go:VerifyProof1"]}
{"id": "C46", "title": "CalcVerifyCircuitLagrange writes the instance commitment and nothing else", "statement": "On success slots 0,1 hold buf[2]*L for the fixed curve point L and all other slots are unchanged.", "quantifier": "all buffers", "why_tests_cant": "frame property", "anchors": ["aggregator_lib_circuit.go:CalcVerifyCircuitLagrange"]}
{"id": "C47", "title": "exactly which runs of the three verification steps are accepted", "statement": "For a proof with canonical finite commitments and x^n <> 1, VerifyProof1..3 accept iff x <> 0, u is neither omega^-1 x nor omega^2 x, the 21 aux values are the specified inverses, Lagrange values and quotient, and every scalar multiple and every partial sum of the accumulation (in the order of the code) is finite, has coordinates below r and never adds points with opposite ordinates and different abscissas.", "quantifier": "all proofs, challenges and aux values", "why_tests_cant": "an equivalence over all inputs; the rejecting side has density about 2^-120 and is never sampled", "anchors": ["AggregatorVerifierStep1.go:VerifyProof1", "AggregatorVerifierStep2.go:VerifyProof2", "AggregatorVerifierStep3.go:VerifyProof3"]}
{"id": "C48", "title": "an honest proof in the computable range is accepted by the whole circuit", "statement": "AggregatorCircuit.Define returns nil under the test engine whenever at most 43 instance values are given, the proof elements fit 32 bytes, its commitments are finite curve points, the aux values are the specified ones for the derived challenges (x not 0 and not in the domain, u not omega^-1 x or omega^2 x), all intermediate points of the instance commitment and of the accumulation are computable (see C47), the four pairing coordinates are non-zero and the pairing equation holds.", "quantifier": "all proofs, instances and aux values", "why_tests_cant": "completeness over all honest inputs; one sample proof exists in the repository", "anchors": ["circuit.go:AggregatorCircuit.Define"]}
{"id": "C49", "title": "point addition is the group law of BN254 G1", "statement": "On the points of y^2 = x^3 + 3 over Z/p (and infinity), the addition used by the hints, gadgets and legacy circuits returns the third intersection, reflected, of the line through (tangent at) its operands; this operation is total, unique, commutative and associative, with infinity neutral and reflection as inverse.", "quantifier": "all pairs and triples of curve points", "why_tests_cant": "associativity and well-definedness over about 2^254 points cannot be sampled; the exceptional cases (equal, opposite, infinite operands) have negligible probability", "anchors": ["aggregator_lib_circuit.go:AddHint", "aggregator_lib_circuit.go:CalcVerifyBN256Add", "aggregator_lib_circuit.go:VerifyBN256Add"]}
{"id": "C50", "title": "scalar multiplication is repeated addition in a group of prime order r", "statement": "For every integer k the scalar multiple used by the hints, gadgets and legacy circuits is k-fold addition (of the inverse for negative k); it is additive, distributive and multiplicative in k, and every finite point has order exactly r, so scalars act modulo r and no finite point is annihilated by a scalar that is non-zero modulo r.", "quantifier": "all points and all integers k", "why_tests_cant": "the order of the group is a statement about all 2^254 points; tests only see a few multiples", "anchors": ["aggregator_lib_circuit.go:MsmHint", "aggregator_lib_circuit.go:CalcVerifyBN256Msm", "aggregator_lib_circuit.go:VerifyBN256Msm"]}
{"id": "C51", "title": "an accepted proof opens its commitments at the trapdoor", "statement": "Assume the pairing check decides R = tau*W' for a trapdoor tau. If Define accepts, then for all polynomials behind the commitments of the proof, of the verifying key and of the instance, the SHPLONK identity (tau-u) w'(tau) = sum_i v^i Z_i(u) sum_j y'^j (f_ij(tau) - r_ij(u)) - Z_0(u) w(tau) holds, with the challenges of the transcript and the quotient value recomputed from the claimed evaluations; conversely this identity makes Define accept (in the computable range of C48).", "quantifier": "all proofs, instances, aux values, polynomials and trapdoors", "why_tests_cant": "relates the scalars computed by 200 statements to polynomials no test knows", "anchors": ["circuit.go:AggregatorCircuit.Define", "AggregatorVerifierStep1.go:VerifyProof1", "AggregatorVerifierStep2.go:VerifyProof2", "AggregatorVerifierStep3.go:VerifyProof3", "pairing_circuit.go:FillVerifyCircuitsG2"]}
{"id": "C52", "title": "the opening identity holds for right evaluations and fails for wrong ones", "statement": "For rotation sets over the eight rotations used by the verifier: if all claimed evaluations are those of the polynomials there are w, w' of bounded degree satisfying the opening identity for every tau; if one evaluation is wrong then outside sets of fewer than m values of y', fewer than 5 values of v, at most N+4 values of u and at most N values of tau no w, w' of degree below N satisfy it.", "quantifier": "all polynomials, evaluations and challenges", "why_tests_cant": "a counting statement over all challenges and all cheating provers", "anchors": ["AggregatorVerifierStep2.go:VerifyProof2", "AggregatorVerifierStep3.go:VerifyProof3"]}
{"id": "C53", "title": "the quotient check holds exactly for columns satisfying every row", "statement": "If all 2^23 rows satisfy the gate, limb, permutation-product and lookup constraints there are three quotient pieces of degree below n such that the quotient value recomputed by the verifier equals their combination at every x outside the domain; if some row is violated then, except for fewer than 23 values of y and, for any pieces of degree below N, fewer than 4N values of x, the value differs.", "quantifier": "all columns, rows, challenges", "why_tests_cant": "statement over 2^23 rows and all polynomials", "anchors": ["AggregatorVerifierStep1.go:VerifyProof1", "AggregatorVerifierStep2.go:VerifyProof2"]}
{"id": "C54", "title": "soundness: the circuit rejects columns that violate a row", "statement": "If some row is violated by the committed columns, Define does not accept, whatever quotient pieces, evaluations and openings of degree below N are committed, unless one of the challenges y, x, y', v, u or the trapdoor lies in a set of fewer than 23, 4N, 30, 5, N+5, N+1 elements that is determined before the challenge is drawn (and x^n <> 1).", "quantifier": "all cheating provers committing to polynomials", "why_tests_cant": "soundness error is a statement about all provers and all challenges", "anchors": ["circuit.go:AggregatorCircuit.Define"]}
{"id": "C55", "title": "completeness: columns satisfying every row have an accepted proof", "statement": "If every row is satisfied by columns of degree below n then there are quotient pieces, and for all challenges an opening w and w', of degree below n, such that Define accepts the proof made of their commitments and the evaluations of the columns, whenever the challenges are not exceptional and the intermediate points are computable (C48).", "quantifier": "all columns, challenges, proofs", "why_tests_cant": "existence of proofs for all satisfying columns", "anchors": ["circuit.go:AggregatorCircuit.Define"]}
{"id": "C56", "title": "the permutation and lookup products express copy constraints and lookups", "statement": "If the columns violate a gate, a copy constraint of the permutation encoded by the sigma columns, or a lookup, then outside fewer than n values of theta, 7n of beta and 14n of gamma (each set fixed before its challenge) some row is violated, whatever permuted and product columns are chosen; if they satisfy all of them (and sigma is a permutation), permuted columns exist for every theta and, outside fewer than 2n values of beta and 9n of gamma, product columns such that every row holds.", "quantifier": "all columns, permutations, challenges", "why_tests_cant": "a counting statement over all columns of 2^23 rows and all cheating provers", "anchors": ["AggregatorVerifierStep1.go:VerifyProof1", "AggregatorVerifierStep2.go:VerifyProof2"]}
{"id": "C57", "title": "soundness: the circuit rejects columns violating gates, copies or lookups", "statement": "For committed columns that violate the statement (gates, copy constraints, lookups), Define does not accept, whatever permuted, product and quotient columns, evaluations and openings of degree below N are committed in their round, unless a challenge lies in a small set determined by what was committed before it was drawn.", "quantifier": "all cheating provers committing to polynomials, round by round", "why_tests_cant": "soundness error is a statement about all provers and challenges", "anchors": ["circuit.go:AggregatorCircuit.Define"]}
{"id": "C58", "title": "completeness: columns satisfying gates, copies and lookups have an accepted proof", "statement": "For columns of degree below n that satisfy the statement there are, round by round and outside small sets of challenges, permuted columns, product columns, quotient pieces and openings such that Define accepts the proof made of their commitments and evaluations, in the computable range of C48.", "quantifier": "all satisfying columns and challenges", "why_tests_cant": "existence of proofs for all satisfying columns", "anchors": ["circuit.go:AggregatorCircuit.Define"]}
{"id": "C59", "title": "the hard-coded keys are points of their curves", "statement": "The KYC circuit verifies every signature, in both engines, under one fixed key that is a finite point of secp256k1 in canonical coordinates; the 21 literal points of the three verification steps are pairwise distinct finite points of BN254 G1 in canonical coordinates, and so is the Lagrange commitment.", "quantifier": "all KYC circuits, assignments and oracles; all literals of the programs", "why_tests_cant": "tests never check the constants; a typo in an unused-by-test key or commitment is silent (the library does not check the curve equation of a constant key)", "anchors": ["kyc.go:Circuit.Define", "AggregatorVerifierStep2.go:VerifyProof2", "AggregatorVerifierStep3.go:VerifyProof3", "aggregator_lib_circuit.go:CalcVerifyCircuitLagrange"]}
{"id": "C60", "title": "the shipped sample proof passes every check before the pairing", "statement": "With SHA-256 and Keccak-256 as hash functions, running the aggregation circuit on the proof, helper values and instances embedded in main.go accepts exactly when the pairing check accepts the pairs (W', g20), (R, g21), where W' is the second opening proof of the sample and R is one specific point; no earlier check fails.", "quantifier": "all oracles with the real hash functions, all states (the proof is the shipped one)", "why_tests_cant": "the repository's own test of this proof asserts only that no error comes back; it does not say which point reaches the pairing, and a check that is silently skipped would not be seen", "anchors": ["main.go:main", "circuit.go:AggregatorCircuit.Define"]}
{"id": "C61", "title": "the shipped sample proof is accepted", "statement": "With SHA-256 and Keccak-256 as hash functions and a pairing check that agrees with the reduced Tate pairing of BN254 (Miller loop and final exponentiation written out), the aggregation circuit accepts the proof embedded in main.go: the product of the two pairings it asks for is one.", "quantifier": "all oracles with the real hash functions and pairing, all states (the proof is the shipped one)", "why_tests_cant": "a passing test says that the libraries agree with themselves; here hashes, curve and pairing are written from their definitions", "anchors": ["main.go:main", "circuit.go:AggregatorCircuit.Define", "pairing_circuit.go:FillVerifyCircuitsG2"]}
{"id": "C62", "title": "the sample proof with the sign of its last point changed is rejected, by the pairing alone", "statement": "Replacing the last coordinate y of the shipped proof by p - y gives a proof that still passes every check before the pairing (the point is on the curve and is absorbed last), so its fate is that of the pairing check; with the reduced Tate pairing the product is not one and the circuit does not accept.", "quantifier": "all oracles with the real hash functions and pairing, all states", "why_tests_cant": "the repository has no negative test of the aggregation circuit at all", "anchors": ["circuit.go:AggregatorCircuit.Define", "pairing_circuit.go:FillVerifyCircuitsG2"]}
{"id": "C63", "title": "the verifier reproduces the register values recorded by its authors", "statement": "With SHA-256 and Keccak-256 as hash functions: hashing the sample instances and multiplying the Lagrange point gives the two coordinates written down in the test file; from them and the sample proof the transcript gives the eight challenges written down there; and VerifyProof1, started on those ten registers (the other 33 zero), returns without error and leaves in all 43 registers the values written down there.", "quantifier": "all states; for instance and challenges all oracles with the real hash functions and all contents of the registers not yet written; for VerifyProof1 all oracles, registers 10 to 42 starting at zero (the proof is the shipped one)", "why_tests_cant": "the repository's tests that contain these numbers only print them or build inputs from them; nothing compares a run with them", "anchors": ["aggregator_lib_circuit_test.go:TestHexToBase", "aggregator_lib_circuit_test.go:TestSqueezeChallenge", "AggregatorVerifierStep1.go:VerifyProof1", "aggregator_lib_circuit.go:GetChallengesShPlonkCircuit"]}
{"id": "C64", "title": "the byte check of the hash circuits accepts exactly the bytes", "statement": "ByteValueOf, applied to the hint outputs of VerifyInstanceHash, accepts a value iff it is one of 0..255: the test engine returns it unchanged or panics, and the compiled circuit gains a constraint satisfied exactly when the wire holds such a value.", "quantifier": "all values, expressions, assignments and states", "why_tests_cant": "universal; an off-by-one in the range is invisible to the sample and, since the Keccak gadget checks its inputs again, to the hash property", "anchors": ["circuit.go:VerifyInstanceHash"]}
{"id": "C65", "title": "at most one last opening point is accepted", "statement": "Take two inputs of the aggregation circuit with the same instances and the same first 102 proof words, arbitrary last points and arbitrary helper values.  If the pairing accepts exactly the pairs (P, tau P), x is not in the domain and the last challenge is not tau, then both are accepted only if their last points agree modulo p and the 21 helper values agree.", "quantifier": "all pairs of inputs, oracles satisfying the pairing hypothesis, states", "why_tests_cant": "quantifies over pairs of proofs; the last point is not absorbed by the transcript, so nothing but the pairing equation binds it", "anchors": ["circuit.go:AggregatorCircuit.Define", "AggregatorVerifierStep3.go:VerifyProof3", "pairing_circuit.go:VerifyBN256Pairing"]}
{"id": "C66", "title": "the KYC test's signature is valid and the circuit accepts it; for the commented-out hash it does not", "statement": "With ECDSA over secp256k1 written out from its definition: the signature of kyc_test.go is valid for the hard-coded public key and the test's hash, and the circuit compiled for the test's list lengths has a satisfying assignment extending the test's witness; for the hash left commented out in the test the signature is not valid and no assignment with that hash and signature satisfies the compiled circuit.", "quantifier": "all signature oracles that answer the one query as the standard does; for rejection all assignments of the remaining wires", "why_tests_cant": "the test has only the accepting case and relies on the library's own signature check", "anchors": ["kyc_test.go:TestKyc", "kyc.go:Circuit.Define"]}
{"id": "C67", "title": "the second and third step reproduce the accumulators recorded by the authors", "statement": "VerifyProof2, started on the sample proof, its helper values and the registers recorded after VerifyProof1, succeeds and leaves in registers 10 to 13 the four numbers written down in the test file; VerifyProof3, started on its result, succeeds and leaves the next four numbers, which are the two points handed to the pairing check.", "quantifier": "all oracles sane outside their domain, all states (the proof is the shipped one)", "why_tests_cant": "the numbers stand in a comment of the test file; no test compares anything with them, and an error in the middle of the 300 statements that cancels or is repaired later would not be seen at the end", "anchors": ["AggregatorVerifierStep2.go:VerifyProof2", "AggregatorVerifierStep3.go:VerifyProof3", "aggregator_lib_circuit_test.go:TestSqueezeChallenge"]}
{"id": "C68", "title": "what the repository's own tests establish", "statement": "test.IsSolved returns nil exactly when Define ends without panic and error. TestCircuit and TestPairingCheckTestSolve pass (with the real hashes and the Tate pairing); TestBN254MultiScalarMul and TestMultiScalarMul pass for the true product and no other point; TestMsmSolve, TestSha2Circuit and TestKeccak256Circuit pass for exactly one result (modulo r for the first); but TestCheckOnCurveCircuit passes whatever its two inputs are, and TestMsmSolve on the zero values of its circuit passes for every scalar. TestOnBn254 reduces modulo r instead of p and therefore reports its own curve point as not on the curve (for curve points its answer is yes iff y^2 - x^3 - 3 is divisible by p r). TestOnCurve passes.", "quantifier": "all claimed results, all inputs of the on-curve test, all oracles with the real hashes and pairing", "why_tests_cant": "a test run shows that one input passes; that it passes for every input, so that the test checks nothing, cannot be seen by running it", "anchors": ["circuit_test.go:TestCircuit", "pairing_circuit_test.go:TestPairingCheckTestSolve", "msm_test.go:TestMultiScalarMul", "aggregator_lib_circuit_test.go:TestCheckOnCurveCircuit", "aggregator_lib_circuit_test.go:TestMsmSolve"]}
{"id": "C69", "title": "the hard-coded points of G2 generate the group of order r", "statement": "The points of the twist y^2 = x^3 + 3/(9+u) over Fp2 form an abelian group under the addition defined by lines. Both points returned by GetVerifyCircuitsG2Jac lie on the twist and have order exactly r (k times the point is infinity iff r divides k), and the second is the negative of the standard generator of G2. The on-curve check made by the program does not imply this: there are points passing it that r does not annihilate.", "quantifier": "all points of the twist, all integers k", "why_tests_cant": "the pairing is only meaningful on the subgroup of order r; the program checks the curve equation alone, and a point outside the subgroup would still run", "anchors": ["pairing_circuit.go:GetVerifyCircuitsG2Jac"]}
{"id": "C70", "title": "exactly which inputs the aggregation circuit accepts", "statement": "For every list of public inputs, proof words and helper words such that the evaluation point of the transcript is not a node of the domain, the circuit accepts in the test engine if and only if: there are at most 43 public inputs, at least 104 proof words and 21 helper words; all 24 commitments are finite curve points in canonical form; the absorbed words are below 2^256 in size; and, with the instance commitment and the challenges of the transcript, the exceptional values are avoided, the helper words are the prescribed inverses, Lagrange values and quotient, W' and all terms and partial sums of the final combination are computable, the combination has non-zero coordinates and the pairing check holds. In particular infinity and non-canonical or negative coordinates are never accepted, although the curve check lets them through.", "quantifier": "all oracles, public inputs, proofs, helper words of any length", "why_tests_cant": "tests see two proofs; the statement is an equivalence over all inputs, so it also describes every rejected one", "anchors": ["circuit.go:Define", "aggregator_lib_circuit.go:GetChallengesShPlonkCircuit", "aggregator_lib_circuit.go:CalcVerifyBN256Msm"]}
{"id": "C71", "title": "evaluations are not checked to be canonical", "statement": "Given the transcript values, acceptance depends on the 56 evaluation words only modulo r. The natural claim that the evaluations of an accepted proof lie in 0..r-1 is false: an accepted proof with an evaluation enlarged by r is exhibited.", "quantifier": "all pairs of proofs that agree outside words 44..99 and modulo r inside", "why_tests_cant": "no test uses a non-canonical evaluation; two different byte strings are accepted for the same statement (proof malleability)", "anchors": ["AggregatorVerifierStep1.go:VerifyProof1", "aggregator_lib_circuit.go:GetChallengesShPlonkCircuit"]}
{"id": "C72", "title": "exactly which inputs are accepted, also for an evaluation point inside the domain", "statement": "For every list of public inputs, proof words and helper words the circuit accepts in the test engine if and only if the conditions of C70 hold with the prescription of the helper words replaced by: every helper word is a canonical scalar satisfying its division equation, and word 16 times (x^n - 1) is the combined constraint expression computed with the Lagrange words. Outside the domain these equations determine the 21 words; inside the domain word 16 is unconstrained: any scalar passes as the quotient value.", "quantifier": "all oracles, public inputs, proofs, helper words, challenges", "why_tests_cant": "the evaluation point is a hash output, so no test can put it into the domain; the equivalence has no exceptional case left", "anchors": ["circuit.go:AggregatorCircuit.Define", "AggregatorVerifierStep1.go:VerifyProof1", "AggregatorVerifierStep2.go:VerifyProof2"]}
{"id": "C73", "title": "what the last challenge of an accepted run determines", "statement": "Two accepted inputs with the same last challenge have the same public inputs modulo p, the same coordinates of all absorbed points and the same absolute values of all evaluations - unless the two transcripts hash different messages to the same digest or the two public inputs collide under Keccak modulo r. With canonical public inputs, non-negative evaluations and the pairing of a trapdoor the whole input is determined. The sign is not absorbed (FillBytes takes the absolute value), so the natural claim that the challenges bind the evaluations modulo r is false.", "quantifier": "all pairs of accepted inputs, oracles, states", "why_tests_cant": "quantifies over pairs of inputs and all hash functions; no test uses a negative word", "anchors": ["aggregator_lib_circuit.go:SqueezeChallenge", "aggregator_lib_circuit.go:GetChallengesShPlonkCircuit", "circuit.go:AggregatorCircuit.Define"]}
{"id": "C74", "title": "surplus proof and helper words are ignored, missing ones are rejected", "statement": "In both engines the complete outcome of the aggregation circuit (acceptance, error, panic, constraint system) is a function of the concatenated instances, the first 104 proof words and the first 21 helper words: appending or changing later words changes nothing. An input with fewer than 104 proof words or 21 helper words is never accepted by the test engine.", "quantifier": "all oracles, engines, circuits of any size, states", "why_tests_cant": "the tests use one fixed length; the statement is about all lengths, and says that the proof string is not unique (words may be appended)", "anchors": ["circuit.go:AggregatorCircuit.Define", "aggregator_lib_circuit.go:GetChallengesShPlonkCircuit", "AggregatorVerifierStep1.go:VerifyProof1"]}
{"id": "C75", "title": "the KYC circuit's signature can be made from the public key alone", "statement": "A triple (hash, r, s) is a valid ECDSA signature under a public key if and only if it arises from two multipliers a and b by adding the multiple a of the base point and the multiple b of the key and reading off r, s = r/b and hash = a r/b; any two multipliers give such a triple unless the sum is infinity or its r is 0. Because the hash is a private witness that nothing ties to the attributes, both the test engine and the compiled circuit accept every such triple with any attributes that meet the public conditions: no signature by the holder of the key is needed.", "quantifier": "all multipliers, keys, hashes, attributes, conditions, list lengths; all signature oracles that are right on the one query", "why_tests_cant": "the test uses one genuine signature; that acceptance does not need the private key is a statement about all witnesses", "anchors": ["kyc.go:Circuit.Define", "kyc.go:Circuit"]}
{"id": "C76", "title": "which signatures the KYC circuit accepts for a hash and a number r", "statement": "The hard-coded key and the base point have order exactly n in the group of secp256k1. If (r, s) signs a hash under a key of order n then so does (r, n - s), a different signature, with the same first coordinate of the verifier's point; the first coordinate is r or r + n, and signatures of the same hash with the same r and the same first coordinate differ at most by the sign of s. The KYC circuit, run or compiled, accepts the second signature wherever it accepts the first (no low-s rule).", "quantifier": "all keys of order n, hashes, signatures, witnesses, list lengths; all signature oracles right on the two queries", "why_tests_cant": "quantifies over pairs of signatures; needs the group law and the order of the key, which no test touches", "anchors": ["kyc.go:Circuit.Define"]}
{"id": "C77", "title": "what the public inputs of the compiled circuits establish", "statement": "Only fields with the tag public are public inputs. For the KYC circuit, every list of public conditions whose age bounds are in order and which lists at least one country has a satisfying witness (with a signature made from the public key alone), and no other list has one: a proof establishes nothing about any person. BN256PairingCircuit and the hash circuits have no public input at all: the pairing circuit is satisfied by exactly the points whose pairings multiply to one (the test engine runs it as the pairing gadget on the reduced coordinates and panics if a coordinate is not assigned), every finite point of G1 is the first point of a witness with the hard-coded G2 points, and every byte string is the input of a witness of the hash circuits (which compile iff at least 32 hash bytes are given); conversely every witness consists of input bytes and, in its first 32 hash bytes, their digest. The witness of TestPairing satisfies its circuit.", "quantifier": "all public inputs, list lengths, points, byte strings, oracles (signature oracle right on one query; pairing oracle deciding the KZG relation)", "why_tests_cant": "existence of witnesses for every public input; the tests prove one instance each and verify against a public part that is empty or accepts anything", "anchors": ["kyc.go:Circuit", "pairing_circuit.go:BN256PairingCircuit.Define", "pairing_circuit_test.go:TestPairing", "aggregator_lib_circuit.go:Keccak256Circuit.Define"]}
