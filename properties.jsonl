{"id": "C01", "title": "Scalar arithmetic is exact field arithmetic", "statement": "For all scalars a,b produced by the API, a+b, a-b, -a, a.double(), a*b and a.square() are the scalars whose canonical little-endian bytes encode (a op b) mod q, q = 2^256-2^32-977, and every result is again a canonical (fully reduced, five-limb with zero top limb) scalar, so that == coincides with equality in Z/q.", "quantifier": "every pair of canonical scalars (about 2^512 pairs), all limb carry and borrow patterns", "why_tests_cant": "carry/borrow corner cases have probability around 2^-64 per limb; no sample reaches them all", "anchors": ["packages/Spartan-secq/src/scalar/scalar.rs: add, sub, neg, double, mul, square, montgomery_reduce, adc, sbb, mac, ct_eq"]}
{"id": "C02", "title": "Scalar bytes encoding is canonical and round-trips", "statement": "Scalar::from_bytes succeeds on exactly the 32-byte strings whose little-endian value is below q, and then returns the scalar of that value; to_bytes always emits such a string; from_bytes(to_bytes(s)) = Some(s) and to_bytes(from_bytes(b)) = b whenever it succeeds.", "quantifier": "every 32-byte string and every scalar", "why_tests_cant": "2^256 encodings; the rejected ones are a 2^-224 fraction near the modulus", "anchors": ["packages/Spartan-secq/src/scalar/scalar.rs: from_bytes, to_bytes"]}
{"id": "C03", "title": "Wide reduction and integer conversions reduce modulo q", "statement": "from_bytes_wide maps every 64-byte string to its little-endian value mod q; from_raw maps every four-limb integer, and From<u64> every u64, to its residue mod q; the transcript challenge built on it is a function of the 64 squeezed bytes only.", "quantifier": "every 64-byte string, every [u64;4], every u64", "why_tests_cant": "the Montgomery bound argument (unreduced 256-bit left factor) must hold for all 2^512 inputs", "anchors": ["packages/Spartan-secq/src/scalar/scalar.rs: from_bytes_wide, from_u512, from_raw, From<u64>, random", "packages/Spartan-secq/src/transcript.rs: challenge_scalar"]}
{"id": "C04", "title": "pow and pow_vartime are exponentiation", "statement": "For every scalar s and every 256-bit little-endian exponent e, s.pow(e) = s.pow_vartime(e) = s^e in Z/q (with s^0 = 1, including 0^0 = 1).", "quantifier": "every scalar and every four-limb exponent", "why_tests_cant": "2^512 inputs; square-and-multiply over 256 bits needs an induction", "anchors": ["packages/Spartan-secq/src/scalar/scalar.rs: pow, pow_vartime"]}
{"id": "C05", "title": "Inversion and batch inversion", "statement": "invert() returns Some(t) with s*t = 1 for every nonzero s and None for zero. batch_invert on a slice of any length of nonzero scalars replaces every element by its inverse and returns the inverse of the product; if any element is zero it panics instead of returning wrong values.", "quantifier": "every scalar; slices of every length and content, including the empty slice", "why_tests_cant": "unbounded slice length, position of zeros arbitrary", "anchors": ["packages/Spartan-secq/src/scalar/scalar.rs: invert, batch_invert"]}
{"id": "C06", "title": "Scalar serde: round-trip, and non-canonical encodings", "statement": "Deserialising the serialisation of a scalar returns the same scalar. (Users also expect that each scalar has one accepted encoding; the deserialiser reduces instead of rejecting, so this half is refuted: some scalar has two accepted encodings.)", "quantifier": "every scalar; every sequence of 32 bytes", "why_tests_cant": "malleable encodings exist only for the 2^32+977 smallest residues", "anchors": ["packages/Spartan-secq/src/scalar/scalar.rs: Serialize for Scalar, U64ArrayVisitor::visit_seq"]}
{"id": "C07", "title": "secq256k1 FieldElement arithmetic (both moduli)", "statement": "The FieldElement types over the secp256k1 base prime and over the secp256k1 group order compute exact field arithmetic: add, sub, neg, mul, square, from_bytes/to_bytes/to_be_bytes, from_sec1/to_sec1, from_bytes_wide, pow, pow_by_self; invert returns the inverse of every nonzero element and None for zero (by addition chain for the group-order field).", "quantifier": "every pair of elements of both fields, every byte string", "why_tests_cant": "the group-order modulus has irregular limbs, so its carry patterns differ from the other field's", "anchors": ["packages/secq256k1/src/field/field_secp.rs", "packages/secq256k1/src/field/field_secq.rs"]}
{"id": "C08", "title": "FieldElement serde round-trip", "statement": "Deserialising the serialisation of a secq256k1 FieldElement returns the same element. (Refuted: serialise writes the raw Montgomery limbs, deserialise reads a canonical integer.)", "quantifier": "every field element", "why_tests_cant": "the code path has no test; zero happens to round-trip", "anchors": ["packages/secq256k1/src/field/field_secp.rs: Serialize, U64ArrayVisitor", "packages/secq256k1/src/field/field_secq.rs: Serialize, U64ArrayVisitor"]}
{"id": "C09", "title": "FieldElement::sqrt only reports real square roots", "statement": "sqrt(x) is Some(y) only if y*y = x, and is Some for every square. (For the secp field the first half is refuted: the result is Some for every x.)", "quantifier": "every field element", "why_tests_cant": "half of all inputs are non-squares but tests only square first", "anchors": ["packages/secq256k1/src/field/field_secp.rs: Field::sqrt"]}
{"id": "C10", "title": "Univariate polynomials: interpolation and compression", "statement": "UniPoly::from_evals on 3 (resp. 4) values returns the unique polynomial of degree at most 2 (resp. 3) through them at 0,1,2(,3); evaluate is Horner evaluation for any coefficient list; eval_at_zero/eval_at_one agree with evaluate; compress followed by decompress with hint p(0)+p(1) returns p, and decompress always returns a polynomial whose values at 0 and 1 sum to the hint.", "quantifier": "every coefficient list and every evaluation point", "why_tests_cant": "infinitely many degrees, all field elements", "anchors": ["packages/Spartan-secq/src/unipoly.rs: from_evals, evaluate, eval_at_zero, eval_at_one, compress, decompress"]}
{"id": "C11", "title": "EqPolynomial tables", "statement": "EqPolynomial::new(r).evals() has 2^len(r) entries and entry i is the product over j of r_j or 1-r_j according to the j-th most significant bit of i; evaluate(rx) is the product of (r_j rx_j + (1-r_j)(1-rx_j)); compute_factored_evals returns (L,R) with evals()[i*|R|+j] = L[i]*R[j].", "quantifier": "every vector r of every length", "why_tests_cant": "dimension is unbounded", "anchors": ["packages/Spartan-secq/src/dense_mlpoly.rs: EqPolynomial::{evals,evaluate,compute_factored_lens,compute_factored_evals}"]}
{"id": "C12", "title": "Dense multilinear polynomials: evaluation and variable binding", "statement": "DensePolynomial::evaluate(r) is the multilinear extension of the table at r; binding the top variable (bound_poly_var_top) or the bottom variable (bound_poly_var_bot) yields the table of the restricted polynomial, so binding all variables in turn leaves exactly evaluate(r).", "quantifier": "every power-of-two table and every point", "why_tests_cant": "table size is unbounded", "anchors": ["packages/Spartan-secq/src/dense_mlpoly.rs: DensePolynomial::{new,evaluate,bound_poly_var_top,bound_poly_var_bot,bound}"]}
{"id": "C13", "title": "Merging and splitting dense polynomials", "statement": "merge concatenates tables and pads with zeros to the next power of two; extend concatenates equal-length tables; evaluating the merged polynomial at (challenges, r) equals evaluating the table of the individual evaluations at the challenges; split halves a table.", "quantifier": "every family of equal-length power-of-two tables, every point", "why_tests_cant": "number and size of the tables are unbounded", "anchors": ["packages/Spartan-secq/src/dense_mlpoly.rs: merge, extend, split", "packages/Spartan-secq/src/sparse_mlpoly.rs: n-to-1 reduction in prove_single/verify_single"]}
{"id": "C14", "title": "Instance::is_sat decides the user's constraint system", "statement": "For every well-formed instance (any number of constraints, variables, inputs, any triples including duplicates) and every assignment, is_sat returns Ok(true) iff for every constraint row (A z)_i (B z)_i = (C z)_i with z = (vars padded with zeros, 1, inputs) over the user's own, unpadded matrices.", "quantifier": "every constraint system and every assignment", "why_tests_cant": "dimensions unbounded; padding and column shifting depend on them", "anchors": ["packages/Spartan-secq/src/lib.rs: Instance::new, Instance::is_sat, Assignment::pad", "packages/Spartan-secq/src/r1csinstance.rs: is_sat", "packages/Spartan-secq/src/sparse_mlpoly.rs: multiply_vec"]}
{"id": "C15", "title": "Instance::new accepts exactly well-formed inputs", "statement": "Instance::new returns Err(InvalidIndex) iff the first offending triple has row >= num_cons or col >= num_vars+1+num_inputs, Err(InvalidScalar) iff its 32 bytes are not a canonical scalar, and Ok otherwise; on Ok the padded dimensions are powers of two at least as large as the originals with num_vars >= num_inputs+1.", "quantifier": "every triple list and every triple of dimensions", "why_tests_cant": "unbounded lists", "anchors": ["packages/Spartan-secq/src/lib.rs: Instance::new"]}
{"id": "C16", "title": "Padded instances have at least two constraints", "statement": "The comment in Instance::new promises at least two (padded) constraints, which the provers need. (Refuted for num_cons = 0: the padded number is 1.) It holds for every num_cons >= 1.", "quantifier": "every num_cons", "why_tests_cant": "an edge value nobody tests", "anchors": ["packages/Spartan-secq/src/lib.rs: Instance::new"]}
{"id": "C17", "title": "Circom witnesses satisfy the converted instance", "statement": "For every parsed R1CS and every wire assignment with wire 0 equal to one that satisfies all its constraints, the assignment handed to the Spartan instance produced by the converter makes is_sat return Ok(true), for every public input vector of the declared length.", "quantifier": "every circuit and every satisfying witness", "why_tests_cant": "unbounded circuits", "anchors": ["packages/circuit_reader/src/lib.rs: convert_to_spartan_r1cs, load_as_spartan_inst"]}
{"id": "C18", "title": "Converted instances bind the public inputs", "statement": "A verifier relies on the public inputs: an assignment satisfies the converted instance for a public input only if the corresponding wires carry that input and wire 0 is one. (Refuted: no matrix entry refers to the input or constant columns, so satisfaction does not depend on the inputs, and the all-zero witness satisfies every converted circuit.)", "quantifier": "every circuit, every public input", "why_tests_cant": "the honest prover always supplies consistent values, so tests pass", "anchors": ["packages/circuit_reader/src/lib.rs: convert_to_spartan_r1cs"]}
{"id": "C19", "title": "Multi-commitments: homomorphism, hiding, binding", "statement": "commit(v;b) = sum_i v_i G_i + b h; commitments add; for every v,v',b there is a b' giving the same commitment when the G_i lie in the span of h (perfect hiding); two different openings of one commitment yield a non-trivial linear relation between the generators (computational binding).", "quantifier": "every vector length, every message, blind and generator choice", "why_tests_cant": "unbounded vectors and the whole group", "anchors": ["packages/Spartan-secq/src/commitments.rs: MultiCommitGens, Commitments::{commit,batch_commit}", "packages/Spartan-secq/src/group.rs: vartime_multiscalar_mul"]}
{"id": "C20", "title": "Generator sets derived from one label share their points", "statement": "MultiCommitGens::new(n,label) takes consecutive points of one stream, so generator sets of different sizes made with the same label overlap; in particular the blinding generator of the smaller set is a message generator of the larger one.", "quantifier": "every label and every pair of sizes", "why_tests_cant": "the overlap is a relation between two calls, invisible in either", "anchors": ["packages/Spartan-secq/src/commitments.rs: MultiCommitGens::new", "packages/Spartan-secq/src/r1csproof.rs: R1CSSumcheckGens::new"]}
{"id": "C21", "title": "Knowledge, equality and product proofs are complete", "statement": "For every witness, blinds, generator pair, transcript state and random tape, the proof produced by KnowledgeProof/EqualityProof/ProductProof::prove is accepted by verify on the same transcript state with the commitments prove returned, and both transcripts end in the same state.", "quantifier": "every witness, randomness, oracle and transcript history", "why_tests_cant": "probabilistic protocol: must hold for every challenge", "anchors": ["packages/Spartan-secq/src/nizk/mod.rs: KnowledgeProof, EqualityProof, ProductProof"]}
{"id": "C22", "title": "Special soundness of the sigma protocols", "statement": "From two accepted runs of the knowledge, equality, product or dot-product proof with the same first message and different challenges one can compute a witness: an opening of the commitment (knowledge), a proof that the two commitments differ by a multiple of h (equality), openings x,y,z with Z = xY-opened consistently (product), an opening vector with the claimed inner product (dot product).", "quantifier": "every pair of accepting transcripts", "why_tests_cant": "quantifies over all adversarial provers", "anchors": ["packages/Spartan-secq/src/nizk/mod.rs: KnowledgeProof::verify, EqualityProof::verify, ProductProof::check_equality/verify, DotProductProof::verify"]}
{"id": "C23", "title": "Dot-product proof is complete", "statement": "DotProductProof::prove is accepted by verify for every pair of equal-length vectors, blinds, generators, transcript and tape.", "quantifier": "every vector length and content", "why_tests_cant": "unbounded length", "anchors": ["packages/Spartan-secq/src/nizk/mod.rs: DotProductProof"]}
{"id": "C24", "title": "Bullet reduction is complete for every power-of-two length", "statement": "For all vectors a,b and generators G of equal power-of-two length, the proof returned by BulletReductionProof::prove is accepted: verify returns the same folded b, folded generator and commitment as the prover and they satisfy the folded inner-product relation. verification_scalars returns for each i the product of u_j^{+-1} by the bits of i.", "quantifier": "every power-of-two length, vectors, blinds, challenges (nonzero)", "why_tests_cant": "logarithmically many rounds of recursion; length unbounded", "anchors": ["packages/Spartan-secq/src/nizk/bullet.rs: BulletReductionProof::{prove,verification_scalars,verify}"]}
{"id": "C25", "title": "Logarithmic dot-product proof is complete", "statement": "DotProductProofLog::prove is accepted by verify for every power-of-two vector length, public vector, blinds, transcript and tape with invertible challenges.", "quantifier": "every power-of-two length", "why_tests_cant": "unbounded length", "anchors": ["packages/Spartan-secq/src/nizk/mod.rs: DotProductProofLog"]}
{"id": "C26", "title": "Polynomial evaluation proofs are complete", "statement": "For every multilinear polynomial with its commitment, blinds and point r, PolyEvalProof::prove yields a proof that verify accepts for the commitment of p(r), and verify_plain accepts when the blind is zero.", "quantifier": "every polynomial of every number of variables, every point", "why_tests_cant": "unbounded size", "anchors": ["packages/Spartan-secq/src/dense_mlpoly.rs: PolyEvalProof::{prove,verify,verify_plain}, DensePolynomial::commit"]}
{"id": "C27", "title": "Polynomial evaluation proofs cannot be produced for false claims", "statement": "An accepted PolyEvalProof implies the committed polynomial evaluates to the claimed value. (Refuted: verify does not compare the lengths of L_vec and R_vec; a proof with one extra R point chosen after all challenges is accepted for every commitment, point and claimed evaluation.)", "quantifier": "every commitment, point, claimed value and oracle", "why_tests_cant": "honest proofs always have equal lengths", "anchors": ["packages/Spartan-secq/src/nizk/bullet.rs: BulletReductionProof::verify", "packages/Spartan-secq/src/group.rs: vartime_multiscalar_mul", "packages/Spartan-secq/src/nizk/mod.rs: DotProductProofLog::verify"]}
{"id": "C28", "title": "Sum-check verifier soundness", "statement": "If SumcheckInstanceProof::verify accepts a claim for any degree bound and number of rounds, then either the claimed sum equals the true sum over the hypercube of any function of the given per-round degree whose final evaluation matches, or some round's challenge is a root of a nonzero polynomial of degree at most the bound which was fixed before that challenge.", "quantifier": "every proof, every function, every number of rounds", "why_tests_cant": "quantifies over all adversarial provers and all dimensions", "anchors": ["packages/Spartan-secq/src/sumcheck.rs: SumcheckInstanceProof::verify"]}
{"id": "C29", "title": "Sum-check prover completeness", "statement": "For every table family the provers (prove_quad/prove_cubic shapes, batched cubic, ZK variants) produce round polynomials that the corresponding verifier accepts, with final claims equal to the evaluations of the tables at the challenge point.", "quantifier": "every table size and content, every challenge sequence", "why_tests_cant": "unbounded rounds", "anchors": ["packages/Spartan-secq/src/sumcheck.rs: SumcheckInstanceProof::prove_cubic_batched, ZKSumcheckInstanceProof::{prove_quad,prove_cubic_with_additive_term,verify}"]}
{"id": "C30", "title": "NIZK completeness", "statement": "For every instance produced by Instance::new with at least one constraint (with none, prove panics), every satisfying assignment, inputs, generators of the right size, transcript label and random tape for which the transcript challenges that must be inverted are nonzero, NIZK::prove does not panic and NIZK::verify on the result returns Ok.", "quantifier": "every instance, satisfying assignment, randomness and oracle", "why_tests_cant": "unbounded sizes; all randomness", "anchors": ["packages/Spartan-secq/src/lib.rs: NIZK::{prove,verify}", "packages/Spartan-secq/src/r1csproof.rs: R1CSProof::{prove,verify}"]}
{"id": "C31", "title": "NIZK soundness", "statement": "NIZK::verify accepts only statements for which a satisfying assignment exists (up to negligible probability). (Refuted: for every instance and inputs - satisfiable or not - and every oracle outside an explicitly listed set of degenerate challenges, there is a proof that verify accepts.)", "quantifier": "every instance, input and oracle", "why_tests_cant": "the attack uses a malformed proof no honest prover emits", "anchors": ["packages/Spartan-secq/src/lib.rs: NIZK::verify", "packages/Spartan-secq/src/nizk/bullet.rs: BulletReductionProof::verify"]}
{"id": "C32", "title": "Verifiers return errors, never panic, on malformed proofs", "statement": "NIZK::verify returns Ok or Err for every deserialised proof object. (Refuted: wrong vector lengths, undecodable points or an inconsistent final check abort the process.)", "quantifier": "every proof object", "why_tests_cant": "the space of malformed proofs is infinite", "anchors": ["packages/Spartan-secq/src/lib.rs: NIZK::verify", "packages/Spartan-secq/src/nizk/mod.rs", "packages/Spartan-secq/src/sumcheck.rs: verify"]}
{"id": "C33", "title": "Prover and verifier transcripts stay synchronised", "statement": "After an honest prove and verify from equal transcript states, both transcripts are in the same state, for every sub-protocol and for the whole NIZK; every value the verifier's decision depends on is absorbed before the first challenge that is used to check it, except for the values listed in DESIGN.md.", "quantifier": "every witness and oracle", "why_tests_cant": "Fiat-Shamir ordering bugs are invisible to completeness tests with fixed seeds", "anchors": ["packages/Spartan-secq/src/transcript.rs", "packages/Spartan-secq/src/nizk/mod.rs", "packages/Spartan-secq/src/nizk/bullet.rs", "packages/Spartan-secq/src/sumcheck.rs", "packages/Spartan-secq/src/r1csproof.rs"]}
{"id": "C34", "title": "Product circuits compute products", "statement": "ProductCircuit::new(p).evaluate() is the product of all entries of p, for every power-of-two table of length >= 2, and layer k+1 entries are products of pairs of layer k entries; DotProductCircuit::evaluate is the triple dot product and split preserves the total.", "quantifier": "every power-of-two table", "why_tests_cant": "unbounded size", "anchors": ["packages/Spartan-secq/src/product_tree.rs: ProductCircuit::{new,compute_layer,evaluate}, DotProductCircuit::{evaluate,split}"]}
{"id": "C35", "title": "Product-circuit evaluation proofs are complete and sound", "statement": "For every list of equal-size circuits (and optional dot-product circuits), the batched evaluation proof produced by prove is accepted by verify, which returns claims equal to the evaluations of the input tables at the returned point. Conversely, if verify accepts and the claims it returns are right for some tables, then the claimed products and dot products are those of the tables, or an explicit unlikely coincidence happened in a layer (a Fiat-Shamir challenge hit a root of a nonzero polynomial fixed before it).", "quantifier": "every number and size of circuits, every challenge", "why_tests_cant": "unbounded layers", "anchors": ["packages/Spartan-secq/src/product_tree.rs: ProductCircuitEvalProof, ProductCircuitEvalProofBatched"]}
{"id": "C36", "title": "Memory checking of the matrix commitment", "statement": "For every three access sequences the read timestamp of an access is the number of earlier accesses to its cell, the audit timestamp of a cell the number of all accesses to it, dereferencing returns the cell contents, and an access out of range panics. The product circuits evaluate to the products of the fingerprints of the records at the start, read, written and at the end, and these balance for all challenges. Conversely, for any claimed reads and timestamps with one wrong value, at most 2*N*N values of the first challenge leave more than N values of the second for which the products balance.", "quantifier": "every address sequence, memory size and memory content; every list of claimed reads; every pair of challenges", "why_tests_cant": "sequences of unbounded length; challenges range over the field", "anchors": ["packages/Spartan-secq/src/sparse_mlpoly.rs: AddrTimestamps::{new,deref_mem,deref}, Layers::{build_hash_layer,new}, ProductLayerProof::{prove,verify}"]}
{"id": "C37", "title": "Sparse matrix operations agree with the dense matrix", "statement": "For every sparse matrix (duplicates allowed), multi_evaluate at (rx,ry) is the multilinear extension of the represented matrix; multiply_vec(z) is the matrix-vector product; compute_eval_table_sparse(rx-table) is the row combination; evaluating that table at ry equals multi_evaluate.", "quantifier": "every sparse matrix, every size", "why_tests_cant": "unbounded size", "anchors": ["packages/Spartan-secq/src/sparse_mlpoly.rs: SparseMatPolynomial::{evaluate_with_tables,multi_evaluate,multiply_vec,compute_eval_table_sparse}"]}
{"id": "C38", "title": "Point addition circuits", "statement": "Secp256k1AddIncomplete and Secp256k1Double constrain their outputs to the chord/tangent sum for all inputs where that formula is defined (distinct x, resp. y nonzero); Secp256k1AddComplete's output equals the curve addition for all curve points with (0,0) as identity. (The last is refuted twice: for distinct-x inputs with yP + yQ = 1 the output is always the identity; and for equal inputs the slope lambdaA is left free, so that a prover can make the output a point off the curve. It is proved for all other inputs, and for the witness generator's own assignment in doublings too.)", "quantifier": "every pair of curve points and every choice of prover-supplied intermediate signals", "why_tests_cant": "adversarial witnesses: constraints must fix the output for every assignment", "anchors": ["packages/circuits/eff_ecdsa_membership/secp256k1/add.circom", "packages/circuits/eff_ecdsa_membership/secp256k1/double.circom"]}
{"id": "C39", "title": "Scalar transform K() is fully constrained", "statement": "For every value of its input s, any assignment satisfying the constraints of K() outputs the bits of s + tQ mod q (as computed by the honest witness generator). (Refuted twice: the two halves of s are assigned but never constrained to s, so every 256-bit output is accepted for every s; and the witness generator itself loses a carry for 2^128 - tQlo <= s < 2^128, where its output is off by 2^128. Outside that interval it is right.)", "quantifier": "every input and every satisfying assignment", "why_tests_cant": "tests only run the honest witness generator", "anchors": ["packages/circuits/eff_ecdsa_membership/secp256k1/mul.circom: K"]}
{"id": "C40", "title": "Scalar multiplication circuit", "statement": "For every non-identity point P of order n, every satisfying assignment of Secp256k1Mul outputs (2^256 + k) P, k being the bits produced by K(), and the witness generator is accepted and outputs s P. (Proved except where one of the last seven additions is degenerate in the sense of C38; refuted for the bit string k = 2n - 2 - 2^256, where the output can be off the curve, and for scalars s in the interval of C39, where the witness generator outputs (s - 2^128) P.)", "quantifier": "every scalar and every curve point", "why_tests_cant": "2^512 inputs", "anchors": ["packages/circuits/eff_ecdsa_membership/secp256k1/mul.circom: Secp256k1Mul"]}
{"id": "C41", "title": "Efficient ECDSA is equivalent to ECDSA verification", "statement": "For every message hash m, signature (r,s) with r,s invertible, nonce point R and public key Q in a group of prime order n: with T = r^-1 R and U = -(m r^-1) G, s T + U = Q iff R = m s^-1 G + r s^-1 Q; the EfficientECDSA circuit run by the witness generator outputs that Q, and every satisfying assignment outputs a key for which a signature with the same r is valid (outside the exceptional cases of C38-C40).", "quantifier": "every group element and scalar", "why_tests_cant": "quantifies over the whole group", "anchors": ["packages/circuits/eff_ecdsa_membership/eff_ecdsa.circom: EfficientECDSA", "packages/lib/src/helpers/publicInputs.ts: computeEffEcdsaPubInput, verifyEffEcdsaPubInput"]}
{"id": "C42", "title": "Merkle inclusion circuit", "statement": "MerkleTreeInclusionProof(n) accepts leaf, path indices (constrained to bits) and siblings with output root iff root is the value of the hash path; for a collision-free two-to-one hash two different leaves at the same index cannot both be proved against the same root.", "quantifier": "every depth, leaf, path and sibling list", "why_tests_cant": "depth unbounded", "anchors": ["packages/circuits/eff_ecdsa_membership/tree.circom: MerkleTreeInclusionProof"]}
{"id": "C43", "title": "Poseidon: Rust and circom agree", "statement": "For every two-element input, the Rust hash and every satisfying assignment of the circom Poseidon template produce the same output, which is the Poseidon permutation with 8 full and 56 partial rounds and domain tag 3; the constants in both files coincide.", "quantifier": "every pair of field elements", "why_tests_cant": "2^512 inputs; 201 constants in two files", "anchors": ["packages/poseidon/src/lib.rs", "packages/poseidon/src/k256_consts.rs", "packages/circuits/poseidon/poseidon.circom", "packages/circuits/poseidon/poseidon_constants.circom"]}
{"id": "C44", "title": "Poseidon hasher object can be reused", "statement": "Calling hash repeatedly on one Poseidon object gives the same results as on fresh objects. (Refuted: the round-constant position is not reset, a second call panics.)", "quantifier": "every sequence of hash calls", "why_tests_cant": "histories of calls", "anchors": ["packages/poseidon/src/lib.rs: Poseidon::hash"]}
{"id": "C45", "title": "Keccak/address circuit", "statement": "For every 512-bit public key, the signals of PubkeyToAddress are forced to the last 20 bytes of Keccak-256 of the big-endian key bytes: every sub-template (theta, rho-pi, chi, iota, padding, absorb, squeeze) computes the corresponding bit-level function of the Keccak specification.", "quantifier": "every 512-bit input", "why_tests_cant": "2^512 inputs", "anchors": ["packages/circuits/eff_ecdsa_membership/to_address/zk-identity/eth.circom", "packages/circuits/eff_ecdsa_membership/to_address/vocdoni-keccak/*.circom"]}
{"id": "C46", "title": "Membership circuits bind the address / public key to the tree", "statement": "Every satisfying assignment of PubKeyMembership(n) (AddrMembership(n)) has a point Q produced by the efficient-ECDSA gadget from s,T,U and a Merkle path from the Poseidon hash of Q (from the address of Q) to root; for AddrMembership the 256-bit decomposition of the key coordinates is unique. (The uniqueness is refuted: 256-bit decompositions in this 256-bit field are ambiguous for small values.)", "quantifier": "every satisfying assignment and depth", "why_tests_cant": "adversarial witnesses", "anchors": ["packages/circuits/eff_ecdsa_membership/pubkey_membership.circom", "packages/circuits/eff_ecdsa_membership/addr_membership.circom", "packages/circuits/eff_ecdsa_membership/eff_ecdsa_to_addr.circom"]}
{"id": "C47", "title": "PublicInput serialisation round-trips", "statement": "PublicInput.deserialize(serialize(x)) = x for every r, v below 2^256 resp. 256, every circuit input below 2^256 and every message hash of any length, and the layout is r(32) v(1) merkleRoot,Tx,Ty,Ux,Uy(32 each) msgHash.", "quantifier": "every field value and message-hash length", "why_tests_cant": "2^1500 inputs", "anchors": ["packages/lib/src/helpers/publicInputs.ts: CircuitPubInput, PublicInput", "packages/lib/src/helpers/utils.ts: bigIntToBytes, bytesToBigInt"]}
{"id": "C48", "title": "verifyEffEcdsaPubInput accepts exactly consistent T,U", "statement": "For every public input, verifyEffEcdsaPubInput returns true iff Tx,Ty,Ux,Uy are the coordinates of r^-1 R and -(m r^-1) G with R decoded from (r, v); only the parity of v-27 matters.", "quantifier": "every public input", "why_tests_cant": "all values of r,v,msgHash", "anchors": ["packages/lib/src/helpers/publicInputs.ts"]}
{"id": "C49", "title": "Membership verifier decision", "statement": "MembershipVerifier.verify resolves to true iff the SNARK proof verifies for the serialised circuit inputs and the efficient-ECDSA inputs are consistent; an exception inside the wasm verifier counts as invalid. The wasm verifier returns false exactly when NIZK verification returns an error, and throws exactly when it cannot read the proof or the inputs or NIZK verification panics.", "quantifier": "every proof and public input byte string", "why_tests_cant": "every byte string", "anchors": ["packages/lib/src/core/verifier.ts: MembershipVerifier.verify"]}
{"id": "C50", "title": "r1cs file reader", "statement": "For every R1CS (any sizes, coefficients canonical) encoded in the .r1cs format with sections in any order, loading the file yields an instance that accepts exactly the assignments satisfying the circuit; wrong magic, version or field size are rejected with an error. (Refuted without a condition: the reader parses each little-endian coefficient as a big-endian number and panics when the byte-reversed value reaches p, as for the canonical coefficient 2^224-1.)", "quantifier": "every R1CS and section order", "why_tests_cant": "unbounded files", "anchors": ["packages/circuit_reader/src/circom_reader.rs: load_r1cs_from_bin"]}
{"id": "C51", "title": "witness file reader", "statement": "For every witness vector of canonical field elements whose encoding fits, the prover receives exactly that vector, and the accepted byte strings are exactly the encodings. (Refuted without two conditions: the section-size check is computed in 32 bits and wraps, and elements whose byte-reversed value reaches p panic.)", "quantifier": "every witness", "why_tests_cant": "unbounded files", "anchors": ["packages/circuit_reader/src/circom_reader.rs: load_witness_from_bin_reader", "packages/spartan_wasm/src/wasm.rs"]}
{"id": "C52", "title": "Hash-to-curve always returns a curve point", "statement": "AffinePoint::from_uniform_bytes never panics and returns a point of secq256k1 for every 128-byte string: the simplified SWU map always lands on the isogenous curve, the isogeny denominators never vanish there, and the isogeny lands on y^2 = x^3 + 7.", "quantifier": "every 128-byte string", "why_tests_cant": "exceptional inputs have probability 2^-256", "anchors": ["packages/secq256k1/src/hashtocurve.rs", "packages/secq256k1/src/affine.rs: from_uniform_bytes, iso constants"]}
{"id": "C53", "title": "Bit and size helpers", "statement": "usize::log_2 of a power of two is its exponent and otherwise the ceiling; get_bits(n) lists the n low bits most significant first so that they reconstruct the number; pow2 is exact below the word size.", "quantifier": "every usize", "why_tests_cant": "2^64 values", "anchors": ["packages/Spartan-secq/src/math.rs"]}
{"id": "C54", "title": "Synthetic instances are satisfiable", "statement": "Instance::produce_synthetic_r1cs returns, for every size with num_inputs < num_vars powers of two and every randomness, an instance and assignment for which is_sat holds.", "quantifier": "every size and random seed", "why_tests_cant": "unbounded sizes", "anchors": ["packages/Spartan-secq/src/r1csinstance.rs: produce_synthetic_r1cs"]}
{"id": "C55", "title": "Sparse polynomial evaluation proof (SNARK mode): completeness, and no soundness", "statement": "For every three matrices of the same shape, not all with fewer than two stored entries, and generators made for the largest number of entries, committing succeeds, and every evaluation proof the prover returns for the true evaluations is accepted against that commitment; the prover returns one unless one of finitely many challenges is zero. With at most one stored entry per matrix the prover panics. (Soundness is refuted: the verifier takes the number of address evaluations from the proof, so that for any three matrices with a nonzero entry each and any three claimed values there is an accepted proof.) What an accepted proof does show: if the values it gives are those of the committed tables, the three claimed evaluations are true, unless the two hash challenges hide a wrong read or a round of a product proof turned false claims into true ones; few challenges do.", "quantifier": "every three matrices, points, claimed values, transcripts and random tapes", "why_tests_cant": "unbounded sizes; a forged proof has to be constructed, no sampled proof is one", "anchors": ["packages/Spartan-secq/src/sparse_mlpoly.rs: SparseMatPolyEvalProof::{prove,verify}, PolyEvalNetworkProof, ProductLayerProof, HashLayerProof::{verify,verify_helper}, SparseMatPolynomial::multi_commit, SparseMatPolyCommitmentGens::new"]}
{"id": "C57", "title": "TypeScript Poseidon agrees with the circuits", "statement": "Poseidon.hash of two numbers below p is the Poseidon function computed by the circuits and returns a number below p; it throws for a number of p or more and for any other number of inputs. hashPubKey hashes the two 32-byte coordinates of a 64-byte key. (Refuted for SEC1 keys: an uncompressed key with its leading 04 is hashed shifted by one byte without an error.)", "quantifier": "every pair of numbers, every list of inputs, every key buffer", "why_tests_cant": "2^512 inputs; byte order mistakes only show on asymmetric values", "anchors": ["packages/lib/src/helpers/poseidon.ts: hash, hashPubKey", "packages/spartan_wasm/src/wasm.rs: poseidon"]}
{"id": "C58", "title": "An honest membership proof is accepted", "statement": "For every circuit file written by gen_spartan_inst, every witness file satisfying the circuit, and every consistent public input, whatever MembershipProver.prove returns is accepted by MembershipVerifier.verify, through all serialization steps, and it returns a proof unless the transcript derives the challenge zero. (Refuted for public inputs having a component whose bytes reversed reach p: they can neither be proved nor verified.)", "quantifier": "every circuit, witness, public input, generator stream, transcript function and randomness", "why_tests_cant": "end to end over unbounded circuits and all serialization formats", "anchors": ["packages/lib/src/core/prover.ts", "packages/lib/src/core/verifier.ts", "packages/spartan_wasm/src/wasm.rs: prove, verify", "packages/circuit_reader/src/bin/gen_spartan_inst.rs"]}
{"id": "C59", "title": "An accepted membership proof shows membership", "statement": "If MembershipVerifier.verify returns true, the prover knew a signature under a key in the tree with the given root. Refuted: a prover given a witness file of zeros makes an accepted proof for every circuit, root and message, because the circuit's wires, including its constant wire, are not bound to the public inputs.", "quantifier": "every circuit, root, message and nonce", "why_tests_cant": "absence of forgeries cannot be tested", "anchors": ["packages/lib/src/core/verifier.ts", "packages/spartan_wasm/src/wasm.rs: prove, verify", "packages/circuit_reader/src/lib.rs: load_as_spartan_inst"]}
{"id": "C61", "title": "Serialization of proofs and circuits", "statement": "Deserializing a serialized proof or circuit gives it back, whatever follows it, and different proofs have different bytes. Whatever bytes are accepted, no count or index in the result exceeds the machine's word. (Refuted: the converse. Trailing bytes, another announced length of a scalar and unreduced scalars are accepted, so an accepted proof can be changed into other accepted byte strings.)", "quantifier": "every proof and circuit that fits the machine's word size", "why_tests_cant": "unbounded lists and every scalar value", "anchors": ["packages/spartan_wasm/src/wasm.rs", "packages/Spartan-secq/src/scalar/scalar.rs: Serialize, Deserialize", "packages/Spartan-secq/src/lib.rs: NIZK, Instance"]}
{"id": "C62", "title": "An honest SNARK proof is accepted", "statement": "For every R1CS instance with a constraint and public parameters made for the right number of entries, SNARK::encode succeeds, and every proof SNARK::prove returns for a satisfying assignment is accepted by SNARK::verify against that commitment with the same final transcript; the prover returns one unless one of finitely many challenges is zero. Parameters made for another number of entries yield no proof; the number that counts includes the entries added for an instance with a single constraint, so that the documented choice fails for it.", "quantifier": "every instance, assignment, generator stream, transcript and randomness", "why_tests_cant": "unbounded sizes; a composition of a dozen subprotocols that has to agree on every transcript state", "anchors": ["packages/Spartan-secq/src/lib.rs: SNARKGens::new, SNARK::{encode,prove,verify}", "packages/Spartan-secq/src/r1csinstance.rs: R1CSCommitmentGens::new, R1CSInstance::commit, R1CSEvalProof"]}
{"id": "C63", "title": "An accepted SNARK proof shows satisfiability", "statement": "If SNARK::verify accepts a proof against the commitment to an instance, the instance is satisfiable with the given public inputs. Refuted: for every instance and every input there is an accepted proof. A wrong number of inputs makes the verifier panic instead of returning an error.", "quantifier": "every instance, input and transcript", "why_tests_cant": "absence of forgeries cannot be tested", "anchors": ["packages/Spartan-secq/src/lib.rs: SNARK::verify", "packages/Spartan-secq/src/r1csproof.rs: R1CSProof::verify"]}
{"id": "C64", "title": "The SNARK transcript binds the commitment, the input and every message", "statement": "Two accepting runs of SNARK::verify with the same parameters that start and end with the same transcript were given the same commitment (sizes, operations and memory parts), the same public input and the same prover messages in every sub-protocol: no message can be chosen after the challenge that should depend on it. Exceptions stated exactly: surplus points in the bullet proof, surplus right halves, and the opened values of the operations, which are bound only as one zero-padded list.", "quantifier": "every two runs: proofs, commitments, inputs, oracles and transcripts", "why_tests_cant": "a missing absorption is invisible to any test with honest provers", "anchors": ["packages/Spartan-secq/src/lib.rs: SNARK::verify", "packages/Spartan-secq/src/r1csinstance.rs: R1CSCommitment::append_to_transcript", "packages/Spartan-secq/src/sparse_mlpoly.rs: SparseMatPolyCommitment::append_to_transcript, SparseMatPolyEvalProof::verify, ProductLayerProof::verify, HashLayerProof::verify, DerefsEvalProof::verify", "packages/Spartan-secq/src/product_tree.rs: ProductCircuitEvalProofBatched::verify", "packages/Spartan-secq/src/sumcheck.rs: SumcheckInstanceProof::verify"]}
{"id": "C56", "title": "The curve library is a prime-order group with faithful encodings", "statement": "The points of secq256k1 form a cyclic group of prime order ORDER generated by AffinePoint::generator(); products of Scalars are products modulo ORDER and never panic; sums, differences, negations and products of Scalars act on every point as the group operations say; reduction of 256-bit integers and the conversion of proof-system scalars keep the value modulo ORDER; scalars and points round-trip through their encodings, decoding never panics, accepts only canonical scalars and points on the curve, and every point has one compressed form; the commitment generators derived from an extendable-output function are points of that group. So the assumptions of the proof-system theorems hold for the group in use. (Refuted: Field::square, invert, sqrt, Sum and Product of Scalar abort on every argument.)", "quantifier": "every point, scalar, byte string, 256-bit integer and stream of blocks", "why_tests_cant": "a group of 2^256 elements; every byte string", "anchors": ["packages/secq256k1/src/lib.rs", "packages/secq256k1/src/scalar.rs", "packages/secq256k1/src/affine.rs: compress, decompress", "packages/Spartan-secq/src/scalar/mod.rs: decompress_scalar", "packages/Spartan-secq/src/commitments.rs: MultiCommitGens::new"]}
{"id": "C65", "title": "The PrimeField constants meet the trait's contract", "statement": "For each PrimeField implementation S is the exponent of two in the modulus minus one and root_of_unity() is a primitive 2^S-th root of unity; the powers of multiplicative_generator() are all nonzero elements; char_le_bits() is the modulus in little-endian order. Proved for the secp field; refuted for the secq field (S = 1 with a root for S = 6) and for Scalar (S = 4, no root of unity, a generator 7 whose powers miss 3, big-endian bits).", "quantifier": "the three implementations", "why_tests_cant": "tests do not exercise the constants; the contract quantifies over powers", "anchors": ["packages/secq256k1/src/scalar.rs: PrimeField, PrimeFieldBits", "packages/secq256k1/src/field/field_secq.rs: PrimeField", "packages/secq256k1/src/field/field_secp.rs: PrimeField"]}
{"id": "C60", "title": "The library's Merkle tree", "statement": "After any history of insert and delete calls with field elements, in which exceptions are caught, Tree.leaves() is the list the history describes, Tree.root() is the Poseidon root of the perfect binary tree of that depth over the list padded with zeros, and each call threw exactly when the tree was full or the index did not exist, changing nothing. createProof answers exactly for the indices of leaves; its proof is accepted by verifyProof with that leaf and gives the same root in the membership circuit. A proof with the tree's root and depth that verifyProof accepts is about the leaf at its position or exhibits a hash collision. indexOf returns the first position or -1. (Refuted: verifyProof compares with the root in the proof, so it accepts every leaf with some proof, and inner nodes even with the right root; an insertion of a number that is no field element throws but stays in leaves() and blocks its sibling.)", "quantifier": "every depth, history of calls, index, leaf and proof", "why_tests_cant": "unbounded histories and every tree shape", "anchors": ["packages/lib/src/helpers/tree.ts: Tree", "packages/lib/src/helpers/poseidon.ts: hash", "packages/circuits/eff_ecdsa_membership/tree.circom: MerkleTreeInclusionProof"]}
{"id": "C66", "title": "A balanced evaluation proof can be produced only for the true value", "statement": "Take a prover of DotProductProofLog or PolyEvalProof that sends as many points in R_vec as in L_vec. If it is accepted when run again with other challenges (three for every round with different squares, two at the end), then a vector and a blind computed from its answers open the combined commitment, and the opened value is the dot product of that vector with the public one. If the committed value is not the dot product (or the evaluation of the committed polynomial at the point), the same answers give explicit coefficients, not all zero, of a linear relation between the generators. Hence the missing length comparison of C27 is the only way to a false proof that does not break the generators.", "quantifier": "every power-of-two length, polynomial, point, commitment, transcript, first challenge other than zero, prover strategy and tree of challenges", "why_tests_cant": "quantifies over all adversarial provers; tests only run the honest one", "anchors": ["packages/Spartan-secq/src/nizk/bullet.rs: BulletReductionProof::verify", "packages/Spartan-secq/src/nizk/mod.rs: DotProductProofLog::verify", "packages/Spartan-secq/src/dense_mlpoly.rs: PolyEvalProof::{verify,verify_plain}, DensePolynomial::commit"]}
{"id": "C67", "title": "Conversions between numbers and bytes", "statement": "bigIntToBytes and bigIntToLeBytes write every number below 256^size as exactly its size bytes in the stated order; bytesToBigInt and bytesLeToBigInt read every non-empty byte array as the number it stands for and throw on the empty one; both round trips hold in both orders. (Refuted for numbers that do not fit: no error is raised. A negative number becomes fewer than size zero bytes, and a number with one hexadecimal digit too many is written without its last digit.)", "quantifier": "every number, size and byte array", "why_tests_cant": "unbounded sizes, and the cases of wrong size are not in the tests", "anchors": ["packages/lib/src/helpers/utils.ts: bytesToBigInt, bytesLeToBigInt, bigIntToBytes, bigIntToLeBytes"]}
{"id": "C68", "title": "Reading a signature", "statement": "fromSig returns r, s and the recovery value of every 65-byte signature, with recovery values below 27 raised by 27; the compact 64-byte form of the same signature gives the same result; shorter strings throw. (Refuted for longer signatures: everything after byte 64 is the recovery value, and PublicInput.serialize then writes another recovery value in its single byte.)", "quantifier": "every r, s, recovery value and length", "why_tests_cant": "tests use fixed signatures", "anchors": ["packages/lib/src/helpers/utils.ts: fromSig", "packages/lib/src/helpers/publicInputs.ts: PublicInput.serialize"]}
{"id": "C69", "title": "Apart from the length check, a NIZK for a false statement is accepted only with negligible probability", "statement": "Take a prover that sends as many points in R_vec as in L_vec and that knows, for every point it sends, coefficients in the generators of MultiCommitGens::new. It answers challenges drawn one after the other. If the vector it committed to does not satisfy the instance with the given input (in particular if no vector does), then NIZK::verify accepts it only if either one of the equations the verifier checks is a linear relation between the generators, computed explicitly from what the prover sent, or a challenge fell on one of at most six values fixed before the challenge was drawn. So among all lists of n challenges from q values the accepted part without a relation is at most 6n/q. Hence the missing length comparison of C27/C31 is the only way to a false NIZK that does not break the generators or the hash.", "quantifier": "every instance, input, generators, field, transcript, adaptive prover with known coefficients and list of challenges", "why_tests_cant": "quantifies over all adaptive adversaries and counts challenges of a 256-bit field", "anchors": ["packages/Spartan-secq/src/lib.rs: NIZK::verify", "packages/Spartan-secq/src/r1csproof.rs: R1CSProof::verify", "packages/Spartan-secq/src/sumcheck.rs: ZKSumcheckInstanceProof::verify", "packages/Spartan-secq/src/nizk/mod.rs: KnowledgeProof, EqualityProof, ProductProof, DotProductProof, DotProductProofLog", "packages/Spartan-secq/src/commitments.rs: MultiCommitGens::new"]}
{"id": "C70", "title": "Exactly which proofs NIZK::verify accepts", "statement": "A proof with as many points in R_vec as in L_vec is accepted if and only if it has the stated form (numbers of rounds, decodable points, r_x and r_y equal to the challenges of the rounds, non-zero challenges in the reduction) and every one of the listed equations between points holds: two for each round of both sum-checks, one of the proof of knowledge, three of the product proof, two equalities, and one of the evaluation proof.", "quantifier": "every instance, input, generators, transcript, list of challenges and proof", "why_tests_cant": "an equivalence over all proofs; tests only see accepted honest ones", "anchors": ["packages/Spartan-secq/src/lib.rs: NIZK::verify", "packages/Spartan-secq/src/r1csproof.rs: R1CSProof::verify", "packages/Spartan-secq/src/sumcheck.rs: ZKSumcheckInstanceProof::verify", "packages/Spartan-secq/src/nizk/mod.rs: KnowledgeProof::verify, EqualityProof::verify, ProductProof::verify, DotProductProof::verify, DotProductProofLog::verify"]}
{"id": "C71", "title": "Proofs show nothing but the truth of their claims", "statement": "For the NIZK proof of satisfiability, and for each of the proofs of knowledge, equality, product, dot product and logarithmic-size dot product it is made of, once the challenges are fixed there is a simulator that sees only the public claim (instance, public inputs, generators), the challenges and fresh random scalars. For every true claim and every witness, the proof of the honest prover is the simulator's output on a permutation of the random scalars the prover drew. Hence with uniform randomness the proof has the same distribution for every witness and can be produced without one (honest-verifier zero knowledge). In a SNARK the proof of satisfiability is simulated in the same way and the rest is computed from public data and later random scalars only.", "quantifier": "every group, generators, claim, witness, blinds, challenges, transcript and random tape", "why_tests_cant": "an equality of distributions over all random tapes; one proof looks random whatever it leaks", "anchors": ["packages/Spartan-secq/src/lib.rs: NIZK::prove, SNARK::prove", "packages/Spartan-secq/src/r1csproof.rs: R1CSProof::prove", "packages/Spartan-secq/src/sumcheck.rs: ZKSumcheckInstanceProof::prove_quad, prove_cubic_with_additive_term", "packages/Spartan-secq/src/nizk/mod.rs: KnowledgeProof::prove, EqualityProof::prove, ProductProof::prove, DotProductProof::prove, DotProductProofLog::prove", "packages/Spartan-secq/src/nizk/bullet.rs: BulletReductionProof::prove", "packages/Spartan-secq/src/random.rs: RandomTape"]}
