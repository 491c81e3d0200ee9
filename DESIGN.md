# Formal model of personaelabs/spartan-ecdsa in Rocq (Coq 8.16.1)

What is modelled, how each property of `properties.jsonl` is proved or refuted,
and what is trusted.

## 1. Method

* Every Rust, circom or TypeScript function of interest is rewritten as a small
  total Gallina function. Each definition carries a comment with the file and
  lines it models and the simplifications made.
* A Rust panic (`assert!`, `unwrap`, index out of range, `unimplemented!`) or a
  thrown JavaScript exception is the value `Panic`; `Err(e)` is `Err e`; a
  normal return is `Ok v` (type `res` of `Base.v`). No theorem hides a panic
  behind a default value.
* `u64`/`u128` arithmetic in the limb code is written with explicit `mod 2^64`
  and `mod 2^128`. `usize` values used as sizes are `nat` (no wrap: sizes beyond
  2^64 cannot be allocated); `math.rs` is also modelled on 64-bit words (C53).
* The Fiat-Shamir transcript (merlin) is a log of messages; a challenge is an
  arbitrary function (the *oracle* `H`) of the whole log. Theorems quantify over
  every oracle. The random tape is a transcript as well (`random.rs`).
* The group secq256k1 (crate `primeorder`, a dependency) is an arbitrary module
  over the scalar field with an encoding of its elements: records with the laws,
  quantified in the theorem statements. The scalar field is an arbitrary field
  record or the concrete prime field Z/p; primality of p and of n is proved with
  Pocklington certificates. The group law of secp256k1 itself, which the
  circuits are about, is proved (`CurveProofs.v`, `SecpOrder.v`,
  `SecpCofactor.v`).
* circom templates are functions of the input signals and of the advice (the
  signals assigned with `<--`), returning `None` when a constraint fails.
  Soundness quantifies over every advice, completeness is about the advice that
  the hints compute.
* Probability: "unless a challenge is ..." is the predicate `unless` of
  `CommitSpec.v`, which names the transcript states whose challenge must not
  have a given value; soundness of interactive proofs is stated with explicit
  bad events and separate theorems that bound the number of bad challenges.

Files: `*Model.v` hold the model, `*Spec.v` (and `SparClaims.v`) the independent
vocabulary of the statements, `Props*.v` the property theorems, each closed with
`exact`, with `Print Assumptions` beneath and `Example`s that meet its
hypotheses. Everything else is proofs.

## 2. Properties: model, method, result

The statement of every property is in `properties.jsonl`; its theorems are listed in section 6.

| id | property | what is modelled and how it is proved |
|----|----|----|
| C01 | Scalar arithmetic is exact field arithmetic | `scalar.rs` limb code with explicit wrap-around, constants as in the file (`Limb.v`). Each carry chain is an equation in Z; Montgomery reduction is exact; values in Z/p by multiplication with R. The modular inverse of num-bigint-dig is an oracle with its contract as hypothesis. Unique encodings: refuted by a witness. |
| C02 | Scalar bytes encoding is canonical and round-trips | `scalar.rs` limb code with explicit wrap-around, constants as in the file (`Limb.v`). Each carry chain is an equation in Z; Montgomery reduction is exact; values in Z/p by multiplication with R. The modular inverse of num-bigint-dig is an oracle with its contract as hypothesis. Unique encodings: refuted by a witness. |
| C03 | Wide reduction and integer conversions reduce modulo q | `scalar.rs` limb code with explicit wrap-around, constants as in the file (`Limb.v`). Each carry chain is an equation in Z; Montgomery reduction is exact; values in Z/p by multiplication with R. The modular inverse of num-bigint-dig is an oracle with its contract as hypothesis. Unique encodings: refuted by a witness. |
| C04 | pow and pow_vartime are exponentiation | `scalar.rs` limb code with explicit wrap-around, constants as in the file (`Limb.v`). Each carry chain is an equation in Z; Montgomery reduction is exact; values in Z/p by multiplication with R. The modular inverse of num-bigint-dig is an oracle with its contract as hypothesis. Unique encodings: refuted by a witness. |
| C05 | Inversion and batch inversion | `scalar.rs` limb code with explicit wrap-around, constants as in the file (`Limb.v`). Each carry chain is an equation in Z; Montgomery reduction is exact; values in Z/p by multiplication with R. The modular inverse of num-bigint-dig is an oracle with its contract as hypothesis. Unique encodings: refuted by a witness. |
| C06 | Scalar serde: round-trip, and non-canonical encodings | `scalar.rs` limb code with explicit wrap-around, constants as in the file (`Limb.v`). Each carry chain is an equation in Z; Montgomery reduction is exact; values in Z/p by multiplication with R. The modular inverse of num-bigint-dig is an oracle with its contract as hypothesis. Unique encodings: refuted by a witness. |
| C07 | secq256k1 FieldElement arithmetic (both moduli) | The same limb code with the constants of `field_secp.rs` and `field_secq.rs`; inversion by addition chain (Fermat). serde and the secp square root: refuted, with the exact result they compute. |
| C08 | FieldElement serde round-trip | The same limb code with the constants of `field_secp.rs` and `field_secq.rs`; inversion by addition chain (Fermat). serde and the secp square root: refuted, with the exact result they compute. |
| C09 | FieldElement::sqrt only reports real square roots | The same limb code with the constants of `field_secp.rs` and `field_secq.rs`; inversion by addition chain (Fermat). serde and the secp square root: refuted, with the exact result they compute. |
| C10 | Univariate polynomials: interpolation and compression | `unipoly.rs` over any field with 2 and 3 invertible; field identities, Horner induction. |
| C11 | EqPolynomial tables | `dense_mlpoly.rs`, tables as lists with the in-place loops index by index; induction on the number of variables against `mle`, the sum of table entries times products. |
| C12 | Dense multilinear polynomials: evaluation and variable binding | `dense_mlpoly.rs`, tables as lists with the in-place loops index by index; induction on the number of variables against `mle`, the sum of table entries times products. |
| C13 | Merging and splitting dense polynomials | `dense_mlpoly.rs`, tables as lists with the in-place loops index by index; induction on the number of variables against `mle`, the sum of table entries times products. |
| C14 | Instance::is_sat decides the user's constraint system | `Instance::new`, `R1CSInstance`, `is_sat`, `Assignment`; list induction; padded and unpadded systems agree. C16 refuted for zero constraints. |
| C15 | Instance::new accepts exactly well-formed inputs | `Instance::new`, `R1CSInstance`, `is_sat`, `Assignment`; list induction; padded and unpadded systems agree. C16 refuted for zero constraints. |
| C16 | Padded instances have at least two constraints | `Instance::new`, `R1CSInstance`, `is_sat`, `Assignment`; list induction; padded and unpadded systems agree. C16 refuted for zero constraints. |
| C17 | Circom witnesses satisfy the converted instance | `circuit_reader/src/lib.rs` conversion on top of the instance model; satisfaction is preserved both ways. |
| C18 | Converted instances bind the public inputs | Refuted for every converted circuit: the all-zero witness satisfies it with any public input. |
| C19 | Multi-commitments: homomorphism, hiding, binding | `commitments.rs`, `group.rs` over any module; list induction; hiding by a bijection of blinds, binding as an explicit relation. |
| C20 | Generator sets derived from one label share their points | `commitments.rs`, `group.rs` over any module; list induction; hiding by a bijection of blinds, binding as an explicit relation. |
| C21 | Knowledge, equality and product proofs are complete | `nizk/mod.rs`; algebra for completeness, explicit extractors for special soundness, rewinding as two oracles that agree up to the challenge. |
| C22 | Special soundness of the sigma protocols | `nizk/mod.rs`; algebra for completeness, explicit extractors for special soundness, rewinding as two oracles that agree up to the challenge. |
| C23 | Dot-product proof is complete | `nizk/mod.rs`; algebra for completeness, explicit extractors for special soundness, rewinding as two oracles that agree up to the challenge. |
| C24 | Bullet reduction is complete for every power-of-two length | `nizk/bullet.rs`, `DotProductProofLog`, `PolyEvalProof`; induction on rounds. |
| C25 | Logarithmic dot-product proof is complete | `nizk/bullet.rs`, `DotProductProofLog`, `PolyEvalProof`; induction on rounds. |
| C26 | Polynomial evaluation proofs are complete | `nizk/bullet.rs`, `DotProductProofLog`, `PolyEvalProof`; induction on rounds. |
| C27 | Polynomial evaluation proofs cannot be produced for false claims | Refuted: an explicit proof, the same for every statement, is accepted (surplus point in R; the folded commitment is not tied to the statement). |
| C28 | Sum-check verifier soundness | `sumcheck.rs`; induction on rounds, root counting. |
| C29 | Sum-check prover completeness | `sumcheck.rs`; induction on rounds, root counting. |
| C30 | NIZK completeness | `r1csproof.rs` and the NIZK of `lib.rs`; composition of the sub-protocols; transcripts parsed backwards for the binding theorems. |
| C31 | NIZK soundness | Refuted: forged proof built from C27 for every instance and input. |
| C32 | Verifiers return errors, never panic, on malformed proofs | Refuted in four ways: accepted inputs of the API on which the verifier panics instead of returning an error. |
| C33 | Prover and verifier transcripts stay synchronised | `r1csproof.rs` and the NIZK of `lib.rs`; composition of the sub-protocols; transcripts parsed backwards for the binding theorems. |
| C34 | Product circuits compute products | `product_tree.rs`; induction on layers; soundness down to explicit bad events (ProdSpec.v). |
| C35 | Product-circuit evaluation proofs are complete and sound | `product_tree.rs`; induction on layers; soundness down to explicit bad events (ProdSpec.v). |
| C36 | Memory checking of the matrix commitment | `AddrTimestamps` and the hash layer of `sparse_mlpoly.rs`; invariant over the access sequence; permutation of multisets; root counting in two variables. |
| C37 | Sparse matrix operations agree with the dense matrix | `SparseMatPolynomial`; sums over entries. |
| C38 | Point addition circuits | circom point addition and doubling; curve algebra; refutations for degenerate pairs, free slopes and points off the curve. |
| C39 | Scalar transform K() is fully constrained | `double_and_add`/`mul` scalar reduction templates; integers; refuted for the lost carry and for adversarial advice. |
| C40 | Scalar multiplication circuit | Scalar multiplication circuit: loop invariant over the bits in the proved group; refuted at the degenerate additions and for free advice. |
| C41 | Efficient ECDSA is equivalent to ECDSA verification | efficient ECDSA: group algebra in the proved group of order n. |
| C42 | Merkle inclusion circuit | `tree.circom`; induction on depth; collisions are exhibited, not assumed away. |
| C43 | Poseidon: Rust and circom agree | `poseidon` crate and circom template, both against a third specification; constants transcribed by a script from both sources and compared by computation. C44: refuted for a second hash on the same object. |
| C44 | Poseidon hasher object can be reused | `poseidon` crate and circom template, both against a third specification; constants transcribed by a script from both sources and compared by computation. C44: refuted for a second hash on the same object. |
| C45 | Keccak/address circuit | Keccak templates on bit lists against a FIPS-202 style specification; per step mapping for all states. |
| C46 | Membership circuits bind the address / public key to the tree | The two membership templates; composition of the above; uniqueness refuted. |
| C47 | PublicInput serialisation round-trips | TypeScript helpers on byte lists; digit-list round trips; elliptic's point arithmetic from its published source. |
| C48 | verifyEffEcdsaPubInput accepts exactly consistent T,U | TypeScript helpers on byte lists; digit-list round trips; elliptic's point arithmetic from its published source. |
| C49 | Membership verifier decision | TypeScript helpers on byte lists; digit-list round trips; elliptic's point arithmetic from its published source. |
| C50 | r1cs file reader | Binary readers as parsers over byte lists; encode/parse round trip; byte order refuted. |
| C51 | witness file reader | Binary readers as parsers over byte lists; encode/parse round trip; byte order refuted. |
| C52 | Hash-to-curve always returns a curve point | `hashtocurve.rs` and `from_uniform_bytes` on the limbs, related to the field by a logical relation; SSWU against RFC 9380; the isogeny by polynomial identities on coefficients, quadratic characters by computation. |
| C53 | Bit and size helpers | `math.rs`; induction on bits. |
| C54 | Synthetic instances are satisfiable | `Instance::new`, `R1CSInstance`, `is_sat`, `Assignment`; list induction; padded and unpadded systems agree. C16 refuted for zero constraints. |
| C55 | Sparse polynomial evaluation proof (SNARK mode): completeness, and no soundness | The sparse evaluation proof: completeness by composition; acceptance analysed down to opened values, hash challenges and product layers; soundness refuted by an explicit forgery. |
| C57 | TypeScript Poseidon agrees with the circuits | Rust `poseidon` entry point and `poseidon.ts`; byte-level model of the wasm boundary. |
| C58 | An honest membership proof is accepted | `wasm.rs`, `prover.ts`, `verifier.ts` composed with the file readers, bincode and the NIZK. C59 refuted from C18 and C31. |
| C59 | An accepted membership proof shows membership | `wasm.rs`, `prover.ts`, `verifier.ts` composed with the file readers, bincode and the NIZK. C59 refuted from C18 and C31. |
| C61 | Serialization of proofs and circuits | bincode with the derived serde instances as writer and parser; round trip by composition; uniqueness refuted. |
| C62 | An honest SNARK proof is accepted | SNARK of `lib.rs`: composition of C30 and C55. |
| C63 | An accepted SNARK proof shows satisfiability | Refuted: forged satisfiability proof with an honest evaluation proof. |
| C64 | The SNARK transcript binds the commitment, the input and every message | Transcripts of accepting runs parsed backwards through every sub-protocol, and forwards for the sizes. |
| C56 | The curve library is a prime-order group with faithful encodings | `secq256k1` scalars, points and encodings on top of the limb model; order of the group by the same counting argument as for secp256k1; the protocols' abstract group is instantiated with it. |
| C65 | The PrimeField constants meet the trait's contract | Constants of the `PrimeField` implementations, by computation with certificates (Roots.v: 3 generates the nonzero elements modulo p by the factors of p - 1, the powers of 7 do not); two of three refuted. |
| C60 | The library's Merkle tree | `tree.ts` with zk-kit's IncrementalMerkleTree from its published source; invariant over every history of insertions and deletions. |
| C66 | A balanced evaluation proof can be produced only for the true value | Special soundness: explicit extractor over a tree of runs of any prover strategy, induction on rounds; a wrong value gives an explicit relation between the generators. |
| C67 | Conversions between numbers and bytes | `utils.ts` over lists of hexadecimal digits and bytes; induction on digits. |
| C68 | Reading a signature | `utils.ts` over lists of hexadecimal digits and bytes; induction on digits. |
| C69 | Apart from the length check, a NIZK for a false statement is accepted only with negligible probability | Algebraic group model. A prover is a tree of messages; every point comes with coefficients in the generators. Rare events are defined by at most d bad values at each draw (`AgmSpec.v`), counted in `rare_count`. Sum-check rounds, the sigma proofs and the reduction are shown rare one after the other in the free module over the generators, then moved to any group by C70. |
| C70 | Exactly which proofs NIZK::verify accepts | Both directions for each sub-protocol, then for the whole verifier (`EqSpec.v`, `EqProofs.v`, `EqApi.v`). |
| C71 | Proofs show nothing but the truth of their claims | Explicit simulators (`ZkProofs.v`, `ZkLog.v`, `ZkSum.v`, `ZkNizk.v`) for the component proofs, both sum-checks and the whole NIZK. For each witness and challenge the map from the coins drawn to the simulator's coins is given and shown to be a permutation; first messages are determined by the verification equation. The coins of the whole proof are cut into segments; the map on each segment depends on the earlier segments only, so the composite is a permutation. Permuting the coins keeps the number of choices that pass any test (`ZkCount.v`). |

## 3. Findings

Properties that a user would expect and that the model refutes. Each has a
theorem with the suffix `_refuted`, stated for all inputs concerned.

| theorem | what is wrong |
|----|----|
| `C06_unique_encoding_refuted`, `C61_alias_refuted`, `C61_trailing_refuted` | deserialisation of scalars accepts non-canonical limbs and trailing bytes: a proof has many encodings |
| `C08_serde_roundtrip_refuted` | serde of the base-field type changes every non-zero element |
| `C09_secp_sqrt_sound_refuted` | `sqrt` of the secp field returns a value for non-squares |
| `C16_zero_constraints_refuted`, `C30_zero_constraints_refuted` | an instance without constraints is built but cannot be proved |
| `C18_public_inputs_refuted` | a converted circuit does not constrain the constant wire: the zero witness satisfies it with every public input |
| `C27_*_refuted`, `C31_soundness_refuted`, `C63_soundness_refuted` | the bullet verifier reads fewer points than the proof supplies, so that a fixed forged evaluation proof is accepted for every statement; hence NIZK and SNARK proofs exist for every instance. C69 shows that for the NIZK this is the only hole: with the length comparison, acceptance of a false statement is rare or gives a relation between the generators |
| `C67_negative_refuted`, `C67_overflow_refuted`, `C68_wide_v_refuted` | `bigIntToBytes` raises no error for numbers that do not fit: negative ones become a shorter string of zeros, one hexadecimal digit too many drops the last digit; a recovery value above 255 is written as another one |
| `C55_soundness_refuted` | the sparse evaluation proof takes the number of address evaluations from the proof: with none, no hash is checked |
| `C32_*_refuted`, `C63_input_count_refuted` | malformed proofs and inputs make the verifier panic instead of returning an error |
| `C38_*`, `C39_*`, `C40_*_refuted` | incomplete additions with equal abscissae, free slope in doublings, lost carry and unconstrained hints in the scalar multiplication circuit; off-curve points |
| `C44_reuse_refuted` | a Poseidon object panics on its second hash |
| `C46_unique_refuted` | public-key coordinates below 2^256 - p have two decompositions |
| `C50_byte_order_refuted`, `C51_valid_files_refuted`, `C58_byte_order_refuted` | file readers and public inputs are parsed in the wrong byte order: correct files and inputs are refused |
| `C60_verify_root_refuted`, `C60_verify_depth_refuted` | `Tree.verifyProof` compares with the root inside the proof and does not check the number of levels: every leaf has an accepted proof, and with the right root inner nodes do |
| `C60_bad_leaf_refuted` | `Tree.insert` of a number >= p throws after storing it: `leaves()` and `root()` disagree from then on, and its sibling cannot be inserted |
| `C56_field_trait_refuted`, `C65_*_refuted` | `Scalar`'s `square`, `invert`, `sqrt`, sums and products abort; wrong `S`, `root_of_unity`, `multiplicative_generator` and `char_le_bits` constants |
| `C57_sec1_key_refuted` | keys with their SEC1 prefix are hashed shifted by one byte |
| `C59_soundness_refuted` | a membership proof is accepted for every root and message from a witness file of zeros |

Whether a refutation is reachable in deployment (for example whether the real
proving key admits the zero witness of C18) follows from the theorem: they are
stated about the API functions, with the honest parameters.

## 4. Modelled and not modelled

Modelled, function by function:

| source | model |
|----|----|
| `packages/Spartan-secq/src/scalar/scalar.rs`, `packages/secq256k1/src/field/*.rs` | `Limb.v` |
| `math.rs` | `MathModel.v` |
| `unipoly.rs`, `dense_mlpoly.rs` | `PolyModel.v`, `SigmaModel.v` (commitments) |
| `r1csinstance.rs`, `lib.rs` (Instance, Assignment), `sparse_mlpoly.rs` (matrices), `circuit_reader/src/lib.rs` | `R1csModel.v` |
| `group.rs`, `commitments.rs`, `transcript.rs`, `random.rs` | `CommitModel.v` |
| `nizk/mod.rs`, `nizk/bullet.rs` | `SigmaModel.v` |
| `sumcheck.rs` | `SumModel.v` |
| `r1csproof.rs`, `lib.rs` (NIZK) | `NizkModel.v` |
| `product_tree.rs` | `ProdModel.v` |
| `sparse_mlpoly.rs` (commitment and evaluation proof) | `SparModel.v` |
| `lib.rs` (SNARK), `r1csinstance.rs` (commitment) | `SnarkModel.v` |
| `circuit_reader/src/circom_reader.rs`, `.wtns` reader of `wasm.rs` | `ReadModel.v` |
| serde derives with bincode | `BinModel.v` |
| `spartan_wasm/src/wasm.rs`, `lib/src/core/*.ts`, `lib/src/helpers/poseidon.ts` | `WasmModel.v` |
| `lib/src/helpers/{utils,publicInputs}.ts` | `TsModel.v`, `UtilModel.v` (`fromSig`) |
| `lib/src/helpers/tree.ts` (with zk-kit's `IncrementalMerkleTree`) | `TreeModel.v` |
| `poseidon/src/*.rs`, `circuits/poseidon/*.circom`, `tree.circom`, membership templates | `PosModel.v` |
| `circuits/eff_ecdsa_membership/secp256k1/*.circom`, `eff_ecdsa.circom` | `CircModel.v` |
| `circuits/.../to_address/*.circom` (Keccak) | `KecModel.v` |
| `secq256k1/src/{hashtocurve,affine,scalar,lib}.rs` | `HashModel.v`, `SecqModel.v` |

Not modelled: benchmarks, examples, tests, `timer.rs`, `profiler.ts`, build
scripts, the sage scripts; `Group::random`; constant-time behaviour, memory
safety, zeroisation, timing; the quality of randomness; the strength of merlin
and Keccak as random oracles; hardness of discrete logarithms; the circom
compiler; wasm and JS engines.

## 5. Trusted base

* Coq's kernel, with `vm_compute`.
* The faithfulness of the model, by reading: the code is not run. The Examples
  check the model against published vectors where there are any (Poseidon,
  Keccak, Ethereum addresses, secp256k1 multiples).
* Dependencies, modelled from their published behaviour: `primeorder` (group
  law, as an arbitrary module), `merlin` (deterministic function of the log),
  `num-bigint-dig` (modular inverse, contract as hypothesis), `k256`
  (`Scalar::sqrt`, contract as hypothesis), `bincode` and serde (byte level),
  `elliptic` and `bn.js`, zk-kit's `IncrementalMerkleTree`, circomlib gadgets by
  their constraints.
* No axioms, no functors or module types, no disabled kernel checks.

## 6. Theorems and what they rest on

`Print Assumptions` was run on all 281 theorems. Every one is `Closed under the global context`: no axiom, not even of the standard library, is used.

| property | file | theorems |
|----|----|----|
| C01 | `PropsScalar.v` | `C01_modulus`, `C01_scalar_arithmetic`, `C01_scalar_canonical`, `C01_scalar_sum_product` |
| C02 | `PropsScalar.v` | `C02_from_bytes`, `C02_to_bytes` |
| C03 | `PropsScalar.v` | `C03_wide`, `C03_raw`, `C03_u64`, `C03_random` |
| C04 | `PropsScalar.v` | `C04_pow` |
| C05 | `PropsScalar.v` | `C05_invert`, `C05_batch_invert` |
| C06 | `PropsScalar.v` | `C06_serde_roundtrip`, `C06_deserialize`, `C06_unique_encoding_refuted` |
| C07 | `PropsScalar.v` | `C07_secp_field`, `C07_secq_field`, `C07_secp_invert`, `C07_secq_invert` |
| C08 | `PropsScalar.v` | `C08_serde_computes`, `C08_serde_roundtrip_refuted` |
| C09 | `PropsScalar.v` | `C09_secp_sqrt_of_square`, `C09_secp_sqrt_never_none`, `C09_secp_sqrt_sound_refuted`, `C09_secq_sqrt` |
| C10 | `PropsPoly.v` | `C10_interpolate_quadratic`, `C10_interpolate_cubic`, `C10_interpolate_sizes`, `C10_evaluate`, `C10_compress_decompress`, `C10_decompress_sum` |
| C11 | `PropsPoly.v` | `C11_table`, `C11_evaluate`, `C11_factored`, `C11_identity` |
| C12 | `PropsPoly.v` | `C12_mle_meaning`, `C12_evaluate`, `C12_bind_top`, `C12_bind_bottom`, `C12_bind_all`, `C12_bound` |
| C13 | `PropsPoly.v` | `C13_merge`, `C13_extend_split` |
| C14 | `PropsR1cs.v` | `C14_is_sat_decides` |
| C15 | `PropsR1cs.v` | `C15_accepts_or_first_error`, `C15_dimensions`, `C15_dimensions_least`, `C15_assignment`, `C15_constructor` |
| C16 | `PropsR1cs.v` | `C16_at_least_two`, `C16_zero_constraints_refuted` |
| C17 | `PropsR1cs.v` | `C17_converted_iff` |
| C18 | `PropsR1cs.v` | `C18_public_inputs_refuted` |
| C19 | `PropsCommit.v` | `C19_commitment_is_linear_combination`, `C19_single_value`, `C19_homomorphic`, `C19_perfectly_hiding`, `C19_binding` |
| C20 | `PropsCommit.v` | `C20_sets_overlap`, `C20_cross_set_opening`, `C20_dot_product_generators` |
| C21 | `PropsCommit.v` | `C21_knowledge`, `C21_equality`, `C21_product` |
| C22 | `PropsCommit.v` | `C22_knowledge`, `C22_equality`, `C22_product`, `C22_dot_product`, `C22_knowledge_challenge`, `C22_equality_challenge`, `C22_product_challenge`, `C22_dot_product_challenge` |
| C23 | `PropsCommit.v` | `C23_dot_product_complete` |
| C24 | `PropsCommit.v` | `C24_bullet_complete`, `C24_verification_scalars` |
| C25 | `PropsCommit.v` | `C25_log_dot_product_complete`, `C25_absorbed` |
| C26 | `PropsCommit.v` | `C26_evaluation_proof_complete`, `C26_commit_total` |
| C27 | `PropsCommit.v` | `C27_universal_proof_refuted`, `C27_any_value_refuted` |
| C28 | `PropsSum.v` | `C28_soundness`, `C28_few_bad_challenges` |
| C29 | `PropsSum.v` | `C29_cubic`, `C29_cubic_batched`, `C29_zk_quad`, `C29_zk_cubic_additive`, `C29_code_combinations` |
| C30 | `PropsNizk.v` | `C30_nizk_complete`, `C30_zero_constraints_refuted` |
| C31 | `PropsNizk.v` | `C31_soundness_refuted` |
| C32 | `PropsNizk.v` | `C32_point_length_refuted`, `C32_input_count_refuted`, `C32_undecodable_point_refuted`, `C32_wrong_scalar_refuted` |
| C33 | `PropsNizk.v` | `C33_absorbed`, `C33_all_messages_absorbed`, `C33_same_transcript` |
| C34 | `PropsProd.v` | `C34_product`, `C34_one_entry_panics`, `C34_dot_product`, `C34_split`, `C34_dot_product_lengths` |
| C35 | `PropsProd.v` | `C35_completeness`, `C35_batched_completeness`, `C35_soundness`, `C35_batched_soundness`, `C35_one_bad_challenge` |
| C36 | `PropsSpar.v` | `C36_timestamps`, `C36_bad_accesses`, `C36_deref`, `C36_products`, `C36_multisets`, `C36_wrong_read` |
| C37 | `PropsR1cs.v` | `C37_multiply_vec`, `C37_eval_table`, `C37_multi_evaluate`, `C37_table_agrees`, `C37_instance_evaluate`, `C37_instance_multiply`, `C37_instance_tables` |
| C38 | `PropsCirc.v` | `C38_add_incomplete`, `C38_double`, `C38_add_complete`, `C38_add_complete_honest`, `C38_degenerate_refuted`, `C38_doubling_refuted`, `C38_off_curve_refuted` |
| C39 | `PropsCirc.v` | `C39_honest`, `C39_carry_refuted`, `C39_unconstrained_refuted` |
| C40 | `PropsCirc.v` | `C40_mul_sound`, `C40_mul_honest`, `C40_carry_refuted`, `C40_unconstrained_refuted`, `C40_off_curve_refuted` |
| C41 | `PropsCirc.v` | `C41_equivalence`, `C41_circuit_complete`, `C41_circuit_sound` |
| C42 | `PropsPos.v` | `C42_output`, `C42_complete`, `C42_sound`, `C42_unique` |
| C43 | `PropsPos.v` | `C43_rust`, `C43_circom`, `C43_constants`, `C43_bijective` |
| C44 | `PropsPos.v` | `C44_first`, `C44_reuse_refuted` |
| C45 | `PropsKec.v` | `C45_steps`, `C45_keccak256`, `C45_address`, `C45_address_range` |
| C46 | `PropsKec.v` | `C46_to_addr`, `C46_pubkey_sound`, `C46_pubkey_complete`, `C46_addr_sound`, `C46_addr_complete`, `C46_decomposition`, `C46_unique_refuted` |
| C47 | `PropsTs.v` | `C47_layout`, `C47_roundtrip`, `C47_decode`, `C47_circuit_layout` |
| C48 | `PropsTs.v` | `C48_iff`, `C48_throws`, `C48_total`, `C48_parity`, `C48_ecdsa` |
| C49 | `PropsWasm.v` | `C49_true`, `C49_wasm`, `C49_wasm_rejects`, `C49_throws`, `C49_total` |
| C50 | `PropsRead.v` | `C50_load`, `C50_reader`, `C50_byte_order_refuted`, `C50_rejects`, `C50_accepts` |
| C51 | `PropsRead.v` | `C51_reads`, `C51_valid_files_refuted`, `C51_accepts` |
| C52 | `PropsHash.v` | `C52_swu`, `C52_swu_unique`, `C52_sqrt_ratio`, `C52_isogeny`, `C52_coordinates_checked`, `C52_from_uniform_bytes`, `C52_value` |
| C53 | `PropsPoly.v` | `C53_log_2`, `C53_log_2_pow2`, `C53_get_bits`, `C53_panics`, `C53_nat_model` |
| C54 | `PropsR1cs.v` | `C54_synthetic_satisfied` |
| C55 | `PropsSpar.v` | `C55_setup`, `C55_completeness`, `C55_one_entry_panics`, `C55_committed`, `C55_accepted`, `C55_few_hide`, `C55_soundness_refuted` |
| C57 | `PropsWasm.v` | `C57_hash`, `C57_two_inputs`, `C57_pubkey`, `C57_short_key`, `C57_sec1_key_refuted` |
| C58 | `PropsWasm.v` | `C58_complete`, `C58_byte_order_refuted` |
| C59 | `PropsWasm.v` | `C59_soundness_refuted` |
| C61 | `PropsBin.v` | `C61_proof_roundtrip`, `C61_proof_injective`, `C61_circuit_roundtrip`, `C61_read_fits`, `C61_trailing_refuted`, `C61_alias_refuted` |
| C62 | `PropsSnark.v` | `C62_setup`, `C62_completeness`, `C62_entry_count` |
| C63 | `PropsSnark.v` | `C63_soundness_refuted`, `C63_input_count_refuted` |
| C64 | `PropsSnark.v` | `C64_commitment_absorbed`, `C64_all_messages_absorbed` |
| C56 | `PropsSecq.v` | `C56_group_cyclic`, `C56_prime_order`, `C56_generator`, `C56_scalar_mul`, `C56_scalar_action`, `C56_uint_reduced`, `C56_scalar_conversion`, `C56_scalar_repr`, `C56_scalar_roundtrip`, `C56_field_trait_refuted`, `C56_point_roundtrip`, `C56_point_decoding`, `C56_generators`, `C56_group_instance`, `C56_nizk_complete` |
| C65 | `PropsSecq.v` | `C65_secp_constants`, `C65_secq_constants_refuted`, `C65_scalar_constants_refuted`, `C65_secp_generator`, `C65_scalar_generator_refuted`, `C65_char_bits_refuted` |
| C60 | `PropsTree.v` | `C60_history`, `C60_depth`, `C60_failed_call`, `C60_create`, `C60_verify_sound`, `C60_index_of`, `C60_verify_root_refuted`, `C60_verify_depth_refuted`, `C60_bad_leaf_refuted` |
| C66 | `PropsEval.v` | `C66_extraction`, `C66_wrong_value`, `C66_evaluation`, `C66_evaluation_plain` |
| C67 | `PropsUtil.v` | `C67_to_bytes`, `C67_from_bytes`, `C67_number_roundtrip`, `C67_bytes_roundtrip`, `C67_negative_refuted`, `C67_overflow_refuted` |
| C68 | `PropsUtil.v` | `C68_signature`, `C68_compact`, `C68_short`, `C68_wide_v_refuted` |
| C69 | `PropsAgm.v` | `C69_algebraic_soundness`, `C69_accepted_part`, `C69_independent_generators` |
| C70 | `PropsAgm.v` | `C70_accepts_iff` |
| C71 | `PropsZk.v` | `C71_knowledge`, `C71_equality`, `C71_product`, `C71_dot_product`, `C71_log_dot_product`, `C71_nizk`, `C71_two_witnesses`, `C71_equal_counts`, `C71_snark` |
