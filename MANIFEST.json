{"claims": [
{"property": "C01", "status": "proved", "theorems": ["C01_modulus", "C01_scalar_arithmetic", "C01_scalar_canonical", "C01_scalar_sum_product"], "note": "PropsScalar.v. reach = obtainable through the API; fint = integer of to_bytes."},
{"property": "C02", "status": "proved", "theorems": ["C02_from_bytes", "C02_to_bytes"], "note": ""},
{"property": "C03", "status": "proved", "theorems": ["C03_wide", "C03_raw", "C03_u64", "C03_random"], "note": ""},
{"property": "C04", "status": "proved", "theorems": ["C04_pow"], "note": ""},
{"property": "C05", "status": "proved", "theorems": ["C05_invert", "C05_batch_invert"], "note": "The modular inverse of num-bigint-dig is an oracle with its contract modinv_ok as a hypothesis; modinv_ref meets it."},
{"property": "C06", "status": "proved", "theorems": ["C06_serde_roundtrip", "C06_deserialize", "C06_unique_encoding_refuted"], "note": "Round trip proved for every scalar; uniqueness of encodings refuted by a witness, as the property says."},
{"property": "C07", "status": "proved", "theorems": ["C07_secp_field", "C07_secq_field", "C07_secp_invert", "C07_secq_invert"], "note": ""},
{"property": "C08", "status": "proved", "theorems": ["C08_serde_computes", "C08_serde_roundtrip_refuted"], "note": "The round trip is false: proved to compute x*2^256, hence to fail on every non-zero element."},
{"property": "C09", "status": "proved", "theorems": ["C09_secp_sqrt_of_square", "C09_secp_sqrt_never_none", "C09_secp_sqrt_sound_refuted", "C09_secq_sqrt"], "note": "Half of the property is false for the secp field (refutation); the other half and the secq field are proved. The secq square root relies on the contract of k256::Scalar::sqrt."},
{"property": "C10", "status": "proved", "theorems": ["C10_interpolate_quadratic", "C10_interpolate_cubic", "C10_interpolate_sizes", "C10_evaluate", "C10_compress_decompress", "C10_decompress_sum"], "note": "PropsPoly.v, for every field in which 2 (and 3) are non-zero; Fp is an instance."},
{"property": "C11", "status": "proved", "theorems": ["C11_table", "C11_evaluate", "C11_factored", "C11_identity"], "note": "The in-place doubling loop is modelled index by index and proved equal to the product formula."},
{"property": "C12", "status": "proved", "theorems": ["C12_mle_meaning", "C12_evaluate", "C12_bind_top", "C12_bind_bottom", "C12_bind_all", "C12_bound"], "note": "mle is defined as the sum of table entries times chi; tables keep their stale tail after binding, as in the code."},
{"property": "C13", "status": "proved", "theorems": ["C13_merge", "C13_extend_split"], "note": "merge at (c, r) equals the extension of the individual evaluations."},
{"property": "C14", "status": "proved", "theorems": ["C14_is_sat_decides"], "note": "is_sat of any accepted instance decides the user's unpadded system; over-long variable vectors and wrong input counts give Err."},
{"property": "C15", "status": "proved", "theorems": ["C15_accepts_or_first_error", "C15_dimensions", "C15_dimensions_least", "C15_assignment", "C15_constructor"], "note": "Complete description of the outcome of Instance::new and of the padded dimensions."},
{"property": "C16", "status": "proved", "theorems": ["C16_at_least_two", "C16_zero_constraints_refuted"], "note": "True from one constraint on; refuted for zero constraints (padded to 1)."},
{"property": "C17", "status": "proved", "theorems": ["C17_converted_iff"], "note": "Exact: the converted instance is satisfied iff all circom constraints are. Hypotheses: wire indices exist, from_repr(to_repr x) = x (C02)."},
{"property": "C18", "status": "proved", "theorems": ["C18_public_inputs_refuted"], "note": "Refuted for every converted circuit: inputs are ignored and the all-zero witness is accepted."},
{"property": "C19", "status": "proved", "theorems": ["C19_commitment_is_linear_combination", "C19_single_value", "C19_homomorphic", "C19_perfectly_hiding", "C19_binding"], "note": "Any field, module and generator set; hiding under the assumption that the message generators are multiples of h (true in a prime-order group); binding as an explicit relation."},
{"property": "C20", "status": "proved", "theorems": ["C20_sets_overlap", "C20_cross_set_opening", "C20_dot_product_generators"], "note": "Prefix property and the resulting second opening of a commitment."},
{"property": "C21", "status": "proved", "theorems": ["C21_knowledge", "C21_equality", "C21_product"], "note": "Any oracle and transcript; also that prover and verifier end in the same transcript state."},
{"property": "C22", "status": "proved", "theorems": ["C22_knowledge", "C22_equality", "C22_product", "C22_dot_product", "C22_knowledge_challenge", "C22_equality_challenge", "C22_product_challenge", "C22_dot_product_challenge"], "note": "Explicit extractors; rewinding is expressed with two oracles."},
{"property": "C23", "status": "proved", "theorems": ["C23_dot_product_complete"], "note": "Every length."},
{"property": "C24", "status": "proved", "theorems": ["C24_bullet_complete", "C24_verification_scalars"], "note": "Every power of two below 2^32. The prover finishes if no challenge u is zero; if it finishes verify agrees."},
{"property": "C25", "status": "proved", "theorems": ["C25_log_dot_product_complete", "C25_absorbed"], "note": "As C24. A wrong claim aborts the verifier (see C32)."},
{"property": "C26", "status": "proved", "theorems": ["C26_evaluation_proof_complete", "C26_commit_total"], "note": "verify and verify_plain, with and without blinds."},
{"property": "C27", "status": "proved", "theorems": ["C27_universal_proof_refuted", "C27_any_value_refuted"], "note": "Refuted: one constant proof is accepted for every commitment, point and value."},
{"property": "C28", "status": "proved", "theorems": ["C28_soundness", "C28_few_bad_challenges"], "note": "Any prover, degree bound and number of rounds; the failure event is an explicit nonzero polynomial fixed before its challenge, with at most d roots."},
{"property": "C29", "status": "proved", "theorems": ["C29_cubic", "C29_cubic_batched", "C29_zk_quad", "C29_zk_cubic_additive", "C29_code_combinations"], "note": "All four provers, any table size; the zero-knowledge variants need at least one round (with zero rounds the code indexes an empty vector)."},
{"property": "C30", "status": "proved", "theorems": ["C30_nizk_complete", "C30_zero_constraints_refuted"], "note": "For every oracle outside an explicit list of at most log2(columns) zero challenges. Zero constraints: prove panics (refuted)."},
{"property": "C31", "status": "proved", "theorems": ["C31_soundness_refuted"], "note": "Refuted for every instance, satisfiable or not, and every input: the forged proof is explicit. C69 has what holds once the two numbers of points are compared."},
{"property": "C32", "status": "proved", "theorems": ["C32_point_length_refuted", "C32_input_count_refuted", "C32_undecodable_point_refuted", "C32_wrong_scalar_refuted"], "note": "Refuted in four ways, each for every instance: wrong point length, wrong input count, undecodable point, wrong response scalar."},
{"property": "C33", "status": "proved", "theorems": ["C33_absorbed", "C33_all_messages_absorbed", "C33_same_transcript"], "note": "Equal final transcripts for every accepted run; digest, inputs and witness commitment are absorbed before the first challenge."},
{"property": "C34", "status": "proved", "theorems": ["C34_product", "C34_one_entry_panics", "C34_dot_product", "C34_split", "C34_dot_product_lengths"], "note": "product tree and dot-product circuits of product_tree.rs; a table of one entry makes the constructor panic"},
{"property": "C35", "status": "proved", "theorems": ["C35_completeness", "C35_batched_completeness", "C35_soundness", "C35_batched_soundness", "C35_one_bad_challenge"], "note": "completeness and soundness of the plain and the batched evaluation proof; soundness up to explicit challenge coincidences (bad_layer, bad_batch), which C28 and C35_one_bad_challenge bound"},
{"property": "C36", "status": "proved", "theorems": ["C36_timestamps", "C36_bad_accesses", "C36_deref", "C36_products", "C36_multisets", "C36_wrong_read"], "note": "Three sequences of any length 2^m with m >= 1 into any 2^c cells. C36_wrong_read counts the challenges that can hide a wrong read; it needs fewer accesses than the characteristic."},
{"property": "C37", "status": "proved", "theorems": ["C37_multiply_vec", "C37_eval_table", "C37_multi_evaluate", "C37_table_agrees", "C37_instance_evaluate", "C37_instance_multiply", "C37_instance_tables"], "note": "Sparse matrix product, row combination and evaluation against the represented matrix."},
{"property": "C38", "status": "proved", "theorems": ["C38_add_incomplete", "C38_double", "C38_add_complete", "C38_add_complete_honest", "C38_degenerate_refuted", "C38_doubling_refuted", "C38_off_curve_refuted"], "note": "Every pair of secp256k1 points and every advice; two refutations (degenerate pairs, free slope in doublings), each for all such inputs."},
{"property": "C39", "status": "proved", "theorems": ["C39_honest", "C39_carry_refuted", "C39_unconstrained_refuted"], "note": "Honest generator proved outside the lost-carry interval; refuted inside it and for adversarial advice (every s, every 256-bit k)."},
{"property": "C40", "status": "proved", "theorems": ["C40_mul_sound", "C40_mul_honest", "C40_carry_refuted", "C40_unconstrained_refuted", "C40_off_curve_refuted"], "note": "Every advice and every point of order n, for bit strings whose last seven additions are not degenerate (tail_ok); three refutations."},
{"property": "C41", "status": "proved", "theorems": ["C41_equivalence", "C41_circuit_complete", "C41_circuit_sound"], "note": "ECDSA equivalence on the real curve with the proved group law and order of G; circuit completeness and soundness outside the exceptional cases, with a full concrete instance."},
{"property": "C42", "status": "proved", "theorems": ["C42_output", "C42_complete", "C42_sound", "C42_unique"], "note": "Model of MerkleTreeInclusionProof for every hash and depth. Output iff path_value (C42_output), completeness for every leaf, soundness and uniqueness up to an explicit collision between the hashes on the given path and those of the tree (a bare existential collision would be vacuous, so the theorems say where it is)."},
{"property": "C43", "status": "proved", "theorems": ["C43_rust", "C43_circom", "C43_constants", "C43_bijective"], "note": "The Rust hasher and the circom template are both proved equal to the specification pos2 for all inputs; the constant tables (192 keys, 3x3 matrix) were transcribed from both files and coincide; the permutation is proved bijective."},
{"property": "C44", "status": "proved", "theorems": ["C44_first", "C44_reuse_refuted"], "note": "Refuted as stated: C44_first proves the first hash on an object, C44_reuse_refuted that every second hash panics (index out of bounds in the constants)."},
{"property": "C45", "status": "proved", "theorems": ["C45_steps", "C45_keccak256", "C45_address", "C45_address_range"], "note": "All step mappings, the sponge (one block) and the address extraction are proved equal to a FIPS-202 specification on Booleans; checked against the published empty-string digest and the address of secret key 1."},
{"property": "C46", "status": "proved", "theorems": ["C46_to_addr", "C46_pubkey_sound", "C46_pubkey_complete", "C46_addr_sound", "C46_addr_complete", "C46_decomposition", "C46_unique_refuted"], "note": "Soundness and completeness of both membership circuits (soundness outside the exceptional cases of C38-C40, and up to explicit Poseidon collisions on the path). Uniqueness of the coordinate decomposition is refuted for coordinates below 2^256-p, with a concrete key."},
{"property": "C47", "status": "proved", "theorems": ["C47_layout", "C47_roundtrip", "C47_decode", "C47_circuit_layout"], "note": "Layout, round trip iff the values fit, decoding exact from 193 bytes. Signatures with v above 255 (EIP-155) do not fit: serialising changes v."},
{"property": "C48", "status": "proved", "theorems": ["C48_iff", "C48_throws", "C48_total", "C48_parity", "C48_ecdsa"], "note": "Every public input; the exact inputs on which the check throws; only the parity of v matters; rests on the proof that every point of secp256k1 is a multiple of G (SecpCofactor.v). elliptic and bn.js are modelled from their published behaviour."},
{"property": "C49", "status": "proved", "theorems": ["C49_true", "C49_wasm", "C49_wasm_rejects", "C49_throws", "C49_total"], "note": "Every circuit, proof and public input string; what the wasm part accepts; the verifier throws only because of the public input."},
{"property": "C50", "status": "proved", "theorems": ["C50_load", "C50_reader", "C50_byte_order_refuted", "C50_rejects", "C50_accepts"], "note": "Every circuit, section order and trailing data; end to end to the Spartan instance. Refuted for every circuit with a canonical coefficient whose byte reversal reaches p (the reader parses big-endian)."},
{"property": "C51", "status": "proved", "theorems": ["C51_reads", "C51_valid_files_refuted", "C51_accepts"], "note": "Exact characterisation of the accepted byte strings; correct files with 2^27 elements or more, or with an element whose byte reversal reaches p, are refused with a panic (refuted)."},
{"property": "C52", "status": "proved", "theorems": ["C52_swu", "C52_swu_unique", "C52_sqrt_ratio", "C52_isogeny", "C52_coordinates_checked", "C52_from_uniform_bytes", "C52_value"], "note": "All 128-byte strings. The specification is RFC 9380's simplified SWU in its textbook form and the rational map by its coefficients; C52_swu_unique shows it determines the result. Both test vectors of the library are checked, one for each branch."},
{"property": "C53", "status": "proved", "theorems": ["C53_log_2", "C53_log_2_pow2", "C53_get_bits", "C53_panics", "C53_nat_model"], "note": "64-bit words; panics of debug builds are modelled, release wrap-around is not."},
{"property": "C54", "status": "proved", "theorems": ["C54_synthetic_satisfied"], "note": "For every power-of-two size and every randomness."},
{"property": "C55", "status": "proved", "theorems": ["C55_setup", "C55_completeness", "C55_one_entry_panics", "C55_committed", "C55_accepted", "C55_few_hide", "C55_soundness_refuted"], "note": "C55_accepted states what acceptance shows given the opened values (the missing step from commitments to opened values is the knowledge soundness refuted in C27); C55_few_hide bounds the bad challenges. Completeness up to 2^50 entries, rows and columns (the code's own limit of 2^32 on vectors in one dot-product round); C55_soundness_refuted: any three values are accepted for matrices with a nonzero entry each; C55_one_entry_panics."},
{"property": "C57", "status": "proved", "theorems": ["C57_hash", "C57_two_inputs", "C57_pubkey", "C57_short_key", "C57_sec1_key_refuted"], "note": "Every pair below 2^256 and every number of inputs; keys of 64 bytes and more, short keys; C57_sec1_key_refuted: 65-byte keys are hashed shifted."},
{"property": "C58", "status": "proved", "theorems": ["C58_complete", "C58_byte_order_refuted"], "note": "From the .r1cs and .wtns files through bincode to the verifier's answer. The transcript, the generator stream and the point encoding are arbitrary functions. C58_byte_order_refuted: public inputs with a component whose byte reversal reaches p."},
{"property": "C59", "status": "proved", "theorems": ["C59_soundness_refuted"], "note": "Refuted as stated: C59_soundness_refuted makes an accepted proof for every circuit, root and message from a witness file of zeros."},
{"property": "C61", "status": "proved", "theorems": ["C61_proof_roundtrip", "C61_proof_injective", "C61_circuit_roundtrip", "C61_read_fits", "C61_trailing_refuted", "C61_alias_refuted"], "note": "Round trip and injectivity proved; uniqueness of the bytes of an accepted proof refuted (C61_trailing_refuted, C61_alias_refuted)."},
{"property": "C62", "status": "proved", "theorems": ["C62_setup", "C62_completeness", "C62_entry_count"], "note": "Sizes up to 2^50; C62_entry_count shows that the parameter num_nz_entries must match the number of entries kept up to the next power of two, so one-constraint instances need 2 although the documentation asks for the number of nonzero entries."},
{"property": "C63", "status": "proved", "theorems": ["C63_soundness_refuted", "C63_input_count_refuted"], "note": "Refuted as stated: C63_soundness_refuted combines the forged satisfiability proof of C31 with an honest evaluation proof, so the hole of C55 is not even needed."},
{"property": "C64", "status": "proved", "theorems": ["C64_commitment_absorbed", "C64_all_messages_absorbed"], "note": "Accepting runs; the exceptions (surplus points and halves that the verifier never reads, values of the operations up to trailing zeros) are part of the statement."},
{"property": "C56", "status": "proved", "theorems": ["C56_group_cyclic", "C56_prime_order", "C56_generator", "C56_scalar_mul", "C56_scalar_action", "C56_uint_reduced", "C56_scalar_conversion", "C56_scalar_repr", "C56_scalar_roundtrip", "C56_field_trait_refuted", "C56_point_roundtrip", "C56_point_decoding", "C56_generators", "C56_group_instance", "C56_nizk_complete"], "note": "The group law of crate primeorder is the textbook law (CurveSpec.v), proved to be a group of prime order (SecqOrder.v, SecqCofactor.v); k256's square root enters by its contract. C56_nizk_complete instantiates C30 with this group and encoding."},
{"property": "C65", "status": "proved", "theorems": ["C65_secp_constants", "C65_secq_constants_refuted", "C65_scalar_constants_refuted", "C65_secp_generator", "C65_scalar_generator_refuted", "C65_char_bits_refuted"], "note": "Refuted for two of the three implementations; nothing in the repository calls these functions. That 7 generates the nonzero elements modulo n (the secq field) is not proved."},
{"property": "C60", "status": "proved", "theorems": ["C60_history", "C60_depth", "C60_failed_call", "C60_create", "C60_verify_sound", "C60_index_of", "C60_verify_root_refuted", "C60_verify_depth_refuted", "C60_bad_leaf_refuted"], "note": "zk-kit's IncrementalMerkleTree is modelled from its published source, which is not in the repository. Numbers given to the hash fit in 32 bytes."},
{"property": "C66", "status": "proved", "theorems": ["C66_extraction", "C66_wrong_value", "C66_evaluation", "C66_evaluation_plain"], "note": "Special soundness with an explicit extractor, over every prover strategy: C66_extraction gives the opening, C66_wrong_value and C66_evaluation* an explicit non-trivial relation between the generators when the value is wrong. The probability that a prover that convinces the verifier often has such a tree of runs (the forking argument) is not modelled; the challenges are chosen by the tree, not by the hash."},
{"property": "C67", "status": "proved", "theorems": ["C67_to_bytes", "C67_from_bytes", "C67_number_roundtrip", "C67_bytes_roundtrip", "C67_negative_refuted", "C67_overflow_refuted"], "note": "Full statement for numbers that fit; the two _refuted theorems describe what happens to the others."},
{"property": "C68", "status": "proved", "theorems": ["C68_signature", "C68_compact", "C68_short", "C68_wide_v_refuted"], "note": "fromRpcSig of @ethereumjs/util is modelled from its published source, on the decoded bytes; the decoding of the 0x string is not modelled. C68_wide_v_refuted: a recovery value of more than one byte is written as another one."},
{"property": "C69", "status": "proved", "theorems": ["C69_algebraic_soundness", "C69_accepted_part", "C69_independent_generators"], "note": "Algebraic group model: every encoding the prover sends carries coefficients in the first N generators (known_enc; for an encoding that decodes they are checked to give its point). The prover is an arbitrary tree of messages (nizk_plan), the challenges are values drawn one after the other (coins), not answers of a hash. C69_algebraic_soundness is about the group itself; C69_accepted_part counts; C69_independent_generators is the version for a group where the coefficients are determined, such as the free module."},
{"property": "C70", "status": "proved", "theorems": ["C70_accepts_iff"], "note": "Challenges are the list cs in the order in which the verifier draws them (coins). The equations are in EqSpec.v, as one side minus the other, from the protocols' definitions and without the verifier's functions."},
{"property": "C71", "status": "proved", "theorems": ["C71_knowledge", "C71_equality", "C71_product", "C71_dot_product", "C71_log_dot_product", "C71_nizk", "C71_two_witnesses", "C71_equal_counts", "C71_snark"], "note": "Challenges are fixed first (honest verifier); the theorems say nothing about challenges that depend on the random tape. The whole proof and the logarithmic proof assume that the blinding generators generate the group, which holds for every point but the identity in a group of prime order."}
]}
