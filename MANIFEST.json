{"claims": [
{"property": "C01", "status": "proved", "theorems": ["C01_add_sub_mul_exact"], "note": "both digit widths, all canonical BigInts"},
{"property": "C02", "status": "proved", "theorems": ["C02_division", "C02_panics_exactly_on_zero"], "note": ""},
{"property": "C03", "status": "proved", "theorems": ["C03_comparison"], "note": "for canonical values; the one non-canonical API value is in C05"},
{"property": "C04", "status": "proved", "theorems": ["C04_shifts"], "note": ""},
{"property": "C05", "status": "partial", "theorems": ["C05_canonical_partial", "C05_canonical_unique", "C05_canonical_refuted", "C05_shifted_zero"], "note": "The code violates it for zero shifted left by a whole number of digits: refuted there (C05_shifted_zero: such a zero panics in comparisons in debug builds, and is unequal to and greater than zero in release builds), proved for every other sequence of operations."},
{"property": "C06", "status": "proved", "theorems": ["C06_from_be_bytes", "C06_to_be_bytes", "C06_roundtrip", "C06_minimal_unique"], "note": ""},
{"property": "C07", "status": "proved", "theorems": ["C07_from_hex", "C07_to_lower_hex_roundtrip"], "note": ""},
{"property": "C08", "status": "partial", "theorems": ["C08_from_str_radix_partial", "C08_numerals_accepted", "C08_never_panics", "C08_digit_equal_to_radix_refuted", "C08_accepted_exactly", "C08_radix_out_of_range"], "note": "The code also accepts a digit equal to the radix: refuted there, proved elsewhere; C08_accepted_exactly says exactly what is accepted, with any radix a release build lets through."},
{"property": "C09", "status": "partial", "theorems": ["C09_nonnegative_partial", "C09_subtraction_refuted", "C09_text_refuted", "C09_subtraction_exactly", "C09_hex_exactly", "C09_text_exactly", "C09_sign_not_encoded", "C09_amount_refuted"], "note": "the code violates it for subtraction and radix text: refuted there, proved for the other constructors and operators; the sign is also lost when such a value is encoded"},
{"property": "C10", "status": "proved", "theorems": ["C10_bit_and_byte_length", "C10_bit_length_unique", "C10_trailing_zeros"], "note": ""},
{"property": "C11", "status": "proved", "theorems": ["C11_from_primitive"], "note": ""},
{"property": "C12", "status": "proved", "theorems": ["C12_extended_gcd"], "note": ""},
{"property": "C13", "status": "proved", "theorems": ["C13_modulo", "C13_zero", "C13_negative_debug", "C13_negative_release"], "note": ""},
{"property": "C14", "status": "proved", "theorems": ["C14_invert", "C14_invert_multiple_panics"], "note": "multiples of the modulus panic in debug builds; stated as part of the property"},
{"property": "C15", "status": "proved", "theorems": ["C15_pow"], "note": ""},
{"property": "C16", "status": "proved", "theorems": ["C16_sqrt"], "note": "all odd primes, includes termination of the non-residue search and of the main loop"},
{"property": "C17", "status": "proved", "theorems": ["C17_hex_to_bytes", "C17_bytes_to_lower_hex", "C17_roundtrip"], "note": ""},
{"property": "C18", "status": "proved", "theorems": ["C18_sha256"], "note": "all messages below 2^61 bytes (the code counts bits in a u64); spec is the bit-level FIPS 180-4 text"},
{"property": "C19", "status": "proved", "theorems": ["C19_sha384", "C19_sha512"], "note": ""},
{"property": "C20", "status": "proved", "theorems": ["C20_sha3_224", "C20_sha3_256", "C20_sha3_384", "C20_sha3_512", "C20_keccak256"], "note": "both endiannesses; no length bound"},
{"property": "C21", "status": "proved", "theorems": ["C21_hmac"], "note": "all eight hash functions, all key lengths"},
{"property": "C22", "status": "proved", "theorems": ["C22_history"], "note": ""},
{"property": "C23", "status": "partial", "theorems": ["C23_group_law", "C23_add_partial", "C23_double_partial", "C23_add_panics", "C23_double_panics", "C23_laws_partial", "C23_secp256k1", "C23_refuted", "C23_origin_refuted"], "note": "group law proved for every non-singular curve mod a prime p>3; the program computes it on all curve points of all curves with b<>0 mod p except P+P for points of order two, where it panics (exact characterisation proved, refutation given); curves with b=0 mod p confuse (0,0) with infinity (refuted). On secp256k1 nothing is missing."},
{"property": "C24", "status": "partial", "theorems": ["C24_scalar_laws", "C24_mul_partial", "C24_mul_panics", "C24_odd_order", "C24_linear", "C24_secp256k1"], "note": "proved for all scalars and points unless a doubled point has order two, where the program panics (proved); full for points of odd order and on secp256k1"},
{"property": "C25", "status": "partial", "theorems": ["C25_public_key_new", "C25_public_key_new_partial", "C25_panics", "C25_refuted"], "note": "Exact for every point and every sound curve parameters: with cofactor 1 the constructor never panics; with another cofactor it panics exactly on the points on which multiplication by the order doubles a point of order two (C25_panics, C25_refuted)."},
{"property": "C26", "status": "proved", "theorems": ["C26_private_key_new", "C26_public_key"], "note": "The constructor accepts exactly 1..n-1; the public key is dG, valid, and never panics."},
{"property": "C27", "status": "proved", "theorems": ["C27_signing", "C27_made_from", "C27_signature_new", "C27_decoding"], "note": "Signing, Signature::new and P1363 decoding: r and s in [1, n-1]; signing gives the textbook signature."},
{"property": "C28", "status": "proved", "theorems": ["C28_sign_verify", "C28_options_partial", "C28_zero_hash_refuted"], "note": "Default options, and all agreeing options for non-zero hashes. The code accepts to sign a zero hash on request but never verifies it (C28_zero_hash_refuted)."},
{"property": "C29", "status": "proved", "theorems": ["C29_verify"], "note": "verify returns true exactly when the gates pass and the textbook equation holds."},
{"property": "C30", "status": "proved", "theorems": ["C30_malleability"], "note": "Both verify or neither; with enforce_low_s exactly the high one is rejected."},
{"property": "C31", "status": "partial", "theorems": ["C31_sound", "C31_complete", "C31_exactly", "C31_signer_partial", "C31_panics", "C31_refuted", "C31_other_key_refuted"], "note": "Soundness and completeness on all sound parameters; with cofactor 1 and no id the result is exactly the accepting keys, each once, at most four (C31_exactly); the signer's key is found unless recovery panics, which needs a point of order two and never happens to the signer's own signature with the first two ids; the panics are characterised exactly (C31_panics, C31_refuted). With cofactor > 1 and a high-x id other keys may be returned too (C31_other_key_refuted)."},
{"property": "C32", "status": "proved", "theorems": ["C32_nonce", "C32_unique", "C32_generated", "C32_no_panic"], "note": "generate_nonce against a transcription of RFC 6979 section 3.2/3.6, for all hash functions, keys, hashes and orders below 2^(2^60)."},
{"property": "C33", "status": "partial", "theorems": ["C33_sign_partial", "C33_verify_partial", "C33_recover_partial", "C33_leftmost_bits", "C33_verify_truncates", "C33_nonce_truncates", "C33_refuted", "C33_strict_panics", "C33_strict_rejects"], "note": "Exact gates of signing, verification and recovery; on orders whose bit length is not a multiple of 8 strict mode panics in debug builds and rejects every hash in release builds (C33_refuted, C33_strict_panics, C33_strict_rejects)."},
{"property": "C34", "status": "partial", "theorems": ["C34_returns_partial", "C34_no_panic_partial", "C34_deterministic_loops", "C34_refuted", "C34_returns_exactly", "C34_loops_exactly", "C34_deterministic_exactly"], "note": "False as stated: with the deterministic nonce signing can loop for ever (C34_deterministic_loops, C34_refuted). Proved: it never panics, and exactly when it returns (C34_returns_exactly, C34_deterministic_exactly); otherwise it loops (C34_loops_exactly)."},
{"property": "C35", "status": "proved", "theorems": ["C35_sec1_roundtrip"], "note": "The text is the SEC 1 form in lower case and decodes to the same key, on any sound parameters."},
{"property": "C36", "status": "partial", "theorems": ["C36_decode_partial", "C36_panics", "C36_no_panic_partial", "C36_right_length_partial", "C36_one_form_partial", "C36_length_refuted", "C36_panic_refuted"], "note": "Exact on all sound parameters: the set of accepted texts (C36_decode_partial), when decoding panics (C36_panics; never without points of order two), uniqueness among texts of the right length. Refuted in general: the compressed form is accepted with superfluous zeros or a sign (C36_length_refuted), and on curves with a point of order two decoding can panic (C36_panic_refuted)."},
{"property": "C37", "status": "partial", "theorems": ["C37_encode_partial", "C37_refuted"], "note": "Encoding succeeds exactly on keys with both coordinates in [1, n-1]. Refuted in general: a valid secp256k1 key (abscissa n) makes the encoder panic."},
{"property": "C38", "status": "proved", "theorems": ["C38_p1363_roundtrip", "C38_p1363_decode"], "note": "Fixed-length lower-case text, round trip, and the exact set of accepted texts."},
{"property": "C39", "status": "proved", "theorems": ["C39_roundtrip"], "note": ""},
{"property": "C40", "status": "partial", "theorems": ["C40_no_panic_refuted", "C40_tree_no_panic_partial", "C40_typed_no_panic_partial", "C40_data_panics_iff"], "note": "refuted as stated; proved: the exact class of inputs that can panic, every other input returns Ok or Err"},
{"property": "C41", "status": "partial", "theorems": ["C41_canonical_refuted", "C41_accepted_partial"], "note": "refuted as stated; proved: exact characterisation of the accepted language"},
{"property": "C42", "status": "proved", "theorems": ["C42_typed_roundtrip", "C42_minimal_integers"], "note": ""},
{"property": "C43", "status": "proved", "theorems": ["C43_truncated_trailing", "C43_accepted_trailing", "C43_accepted_truncated"], "note": ""},
{"property": "C44", "status": "partial", "theorems": ["C44_encode_spec", "C44_roundtrip_partial", "C44_refuted", "C44_roundtrip_exact"], "note": "Encoding equals the SSZ specification for all legal types and values. The round trip is decided exactly: it holds for every value without an empty list of variable-size elements, and for every value with one, decoding the encoding panics (C44_roundtrip_exact, C44_refuted), so the full claim is false of the code."},
{"property": "C45", "status": "partial", "theorems": ["C45_refuted", "C45_no_panic_partial", "C45_panic_exact"], "note": "Decided exactly: the decoder panics if and only if it reaches a list of variable-size elements with fewer than 4 bytes (C45_panic_exact), so the full claim is false (C45_refuted); types without such lists never panic."},
{"property": "C46", "status": "partial", "theorems": ["C46_reads", "C46_with_checks", "C46_missing_checks", "C46_well_typed", "C46_fixed_partial", "C46_fixed_container_partial", "C46_list_partial", "C46_trailing_refuted", "C46_gap_refuted", "C46_overlap_refuted"], "note": "The accepted byte strings and their values are given exactly (C46_reads), and so are the two checks the decoder lacks: with them it would accept exactly the serialisations (C46_with_checks, C46_missing_checks). The full claim is false for containers and arrays: trailing bytes, gaps and overlapping offsets are accepted."},
{"property": "C47", "status": "proved", "theorems": ["C47_legacy_roundtrip", "C47_eip_2930_roundtrip", "C47_eip_1559_roundtrip"], "note": "legacy, EIP-2930 and EIP-1559, all field values within the invariants of the Rust types"},
{"property": "C48", "status": "partial", "theorems": ["C48_chain_id_refuted", "C48_other_fields_partial", "C48_legacy_v_refused"], "note": "refuted: decoding halves the chain id (v - 35 >> 2); every other field proved to survive, v below 35 proved refused"},
{"property": "C49", "status": "proved", "theorems": ["C49_signed"], "note": "All four kinds of payloads, any curve, key and options; the signature is the one sign_with_options gives for keccak256 of the pre-image."},
{"property": "C50", "status": "partial", "theorems": ["C50_any_curve_partial", "C50_sender_partial", "C50_decoded_partial", "C50_refuted"], "note": "Proved for every signed transaction: a recovery id with the transaction's parity gives back exactly the sender's key (and address on secp256k1), also after encoding and decoding legacy, EIP-2930 and EIP-1559 transactions. The parity alone is the recovery id when r >= p - n. Missing, and refuted on a small curve (C50_refuted): for r < p - n the transaction does not say which of the two ids it is. Decoded EIP-155 transactions have another chain id (C48), hence another hash."},
{"property": "C51", "status": "proved", "theorems": ["C51_build", "C51_second_build_fails"], "note": "any history of setters and builds"},
{"property": "C52", "status": "proved", "theorems": ["C52_address_of_key", "C52_account", "C52_display", "C52_text_roundtrip", "C52_null", "C52_parse", "C52_storage_key_parse", "C52_storage_key_roundtrip"], "note": ""},
{"property": "C53", "status": "proved", "theorems": ["C53_constructors", "C53_decoding", "C53_decoded_range"], "note": ""},
{"property": "C54", "status": "proved", "theorems": ["C54_linux", "C54_macos", "C54_windows", "C54_signing"], "note": "The operating system calls are modelled as functions from requests to replies; the theorems say what each back-end asks for and that it returns all bytes from the system or an error."},
{"property": "C55", "status": "proved", "theorems": ["C55_secp256k1"], "note": "primality by machine-checked Pocklington certificates; G generates all points of the curve"},
{"property": "C56", "status": "proved", "theorems": ["C56_rlp_encoder_reuse", "C56_ssz_encoder_reuse", "C56_ssz_second_debug"], "note": "RLP and SSZ encoders: every take_data returns what was encoded since the previous one, for all histories."},
{"property": "C57", "status": "proved", "theorems": ["C57_biguint_display_roundtrip", "C57_wei_display_roundtrip", "C57_chain_id_display_roundtrip"], "note": ""},
{"property": "C58", "status": "proved", "theorems": ["C58_chain_ids", "C58_chain_ids_unique"], "note": "Every named chain gives its registered id."},
{"property": "C59", "status": "proved", "theorems": ["C59_public_key", "C59_private_key"], "note": "No hypotheses on the curve are left."},
{"property": "C60", "status": "proved", "theorems": ["C60_sign_gates", "C60_signed"], "note": "Termination is C34; with default options signing returns unless every attempt fails."},
{"property": "C61", "status": "proved", "theorems": ["C61_verify"], "note": "Both directions."},
{"property": "C62", "status": "proved", "theorems": ["C62_recover"], "note": "Sound and, without an id, complete."},
{"property": "C63", "status": "proved", "theorems": ["C63_decode_key", "C63_wire"], "note": "Keys that cannot be written at all: C37. The compressed form accepted is the loose one of C36."},
{"property": "C64", "status": "proved", "theorems": ["C64_preimage"], "note": "Equality of pre-images; collisions of Keccak are outside the model."},
{"property": "C65", "status": "proved", "theorems": ["C65_self_delimiting"], "note": "For data of less than 2^64 bytes, where RLP is defined."},
{"property": "C66", "status": "proved", "theorems": ["C66_typed", "C66_legacy", "C66_eip_155", "C66_eip_2930", "C66_eip_1559"], "note": "typed values and the four kinds of transactions; for EIP-155 the chain id is what C48 says the code computes"},
{"property": "C67", "status": "proved", "theorems": ["C67_typed", "C67_legacy", "C67_eip_155", "C67_eip_2930", "C67_eip_1559"], "note": ""},
{"property": "C68", "status": "proved", "theorems": ["C68_tree", "C68_typed", "C68_legacy", "C68_eip_155", "C68_eip_2930", "C68_eip_1559"], "note": "the exact panic classes behind C40"},
{"property": "C69", "status": "proved", "theorems": ["C69_default", "C69_unavailable", "C69_error", "C69_not_consulted", "C69_deterministic"], "note": ""},
{"property": "C70", "status": "proved", "theorems": ["C70_signing_sound", "C70_signing_complete", "C70_signing_function", "C70_bound", "C70_sign", "C70_verify", "C70_recover", "C70_alike", "C70_public_key"], "note": "In strict mode debug and release builds differ on orders whose bits do not make bytes (C33, C70_alike)."},
{"property": "C71", "status": "proved", "theorems": ["C71_payload_text", "C71_transaction_text", "C71_payload_determined", "C71_shown_is_signed", "C71_transaction_determined", "C71_portable"], "note": "a payload or transaction with a negative BigUint (see C09) is outside: its sign is shown but not signed"},
{"property": "C72", "status": "proved", "theorems": ["C72_no_panic", "C72_uses", "C72_no_race", "C72_once", "C72_stable", "C72_progress", "C72_bounded", "C72_finish"], "note": "All interleavings of any number of threads; fields stored in any order. Sequentially consistent steps (justified by C72_no_race) and the documented behaviour of std::sync::Once are part of the model."},
{"property": "C73", "status": "proved", "theorems": ["C73_encode_value", "C73_decode_value", "C73_encode_constant", "C73_decode_constant", "C73_decode_leaks"], "note": "In the usual leakage model: operations executed, outcomes of tests, indices and allocations. The compiler and the timing of single instructions are outside the model. Invalid input reveals the position of the first invalid character, exactly."},
{"property": "C74", "status": "proved", "theorems": ["C74_utf8", "C74_hex", "C74_bigint", "C74_address", "C74_payload", "C74_transaction"], "note": ""},
{"property": "C75", "status": "proved", "theorems": ["C75_integers", "C75_text", "C75_modular", "C75_ecdsa", "C75_encodings", "C75_ethereum", "C75_rlp", "C75_ssz"], "note": "Every function of the model except the hash functions (which never panic) and the random source; runs that go on for ever are equal too, fuel for fuel."},
{"property": "C76", "status": "proved", "theorems": ["C76_ssz_bound", "C76_ssz_reached", "C76_rlp"], "note": "SSZ: bound and its tightness for every number of levels; RLP trees: nodes, bytes and encoding bounded by the data. Typed RLP values and transactions: C67."},
{"property": "C77", "status": "partial", "theorems": ["C77_key", "C77_key_else", "C77_rlp", "C77_json_unique", "C77_rlp_else", "C77_rlp_nohex", "C77_tx", "C77_tx_155_partial", "C77_tx_155_refuted", "C77_tx_any", "C77_tx_else", "C77_tx_nohex", "C77_vanity", "C77_vanity_found_partial", "C77_vanity_refuted", "C77_randombytes", "C77_randombytes_error", "C77_randombytes_else"], "note": "EIP-155 transactions are printed with half their chain id (C77_tx_155_refuted: never as they are, unless the chain id is 0; all other fields are right). The vanity program accepts prefixes of 13 to 39 characters and panics on them (C77_vanity_refuted); C77_vanity_found_partial covers the shorter ones. Everything else is proved, refusals included."},
{"property": "C78", "status": "proved", "theorems": ["C78_no_bytes"], "note": "Types the standard calls illegal but Rust allows: lists of them panic on every input when read."},
{"property": "C79", "status": "proved", "theorems": ["C79_messages", "C79_wrapped", "C79_hex", "C79_unsigned_hex", "C79_radix", "C79_keys", "C79_signatures", "C79_sign", "C79_verify", "C79_recover"], "note": "The messages and the errors of the decoders are exact, the latter where decoding does not panic (C36). The theorems about hashes assume, as in C33, that strict mode is usable in the build."},
{"property": "C80", "status": "proved", "theorems": ["C80_parameters", "C80_public_key", "C80_private_key", "C80_sign_gates", "C80_signed", "C80_verify", "C80_recover", "C80_decode_key", "C80_wire"], "note": ""},
{"property": "C81", "status": "partial", "theorems": ["C81_decimal_accepted", "C81_decimal_partial", "C81_decimal_refuted", "C81_hex_exactly", "C81_text_exactly", "C81_bytes", "C81_chain_id", "C81_decimal_sent", "C81_hex_sent", "C81_chain_id_sent", "C81_address_hex", "C81_storage_key_hex", "C81_from_bytes"], "note": "Wei::from_decimal takes \"1a\" for 20 and \"-7\" for a negative amount (C81_decimal_refuted), so the claim that it refuses everything else is false; what it accepts is characterised exactly (C81_decimal_partial). The rest is proved."},
{"property": "C82", "status": "proved", "theorems": ["C82_legacy", "C82_eip_155", "C82_eip_2930", "C82_eip_1559", "C82_eip_2930_access", "C82_eip_1559_access", "C82_published_example", "C82_no_panic", "C82_returns_exactly", "C82_deterministic_exactly"], "note": "Composition of constructors, builder, signing and encoding for the four kinds of transaction, with and without an access list; the published EIP-155 example byte for byte; exactly when signing a transaction returns."}
]}
