{"id": "C01", "title": "Exact addition, subtraction and multiplication of BigInt", "statement": "For any two BigInt values, `a + b`, `a - b` and `a * b` (all operator forms) return a BigInt whose integer value is exactly the sum, difference and product, and no operation panics.", "quantifier": "all pairs of BigInts of any length and either sign (including both zeros), for the 64-bit and the 8-bit digit configuration", "why_tests_cant": "Carry and borrow chains of unbounded length and sign combinations form an infinite input space; samples hit only a few carry patterns.", "anchors": ["src/bigint/add.rs: add_digits, Add", "src/bigint/sub.rs: sub_digits, Sub", "src/bigint/mul.rs: mul_digits, Mul"]}
{"id": "C02", "title": "Truncated division with remainder", "statement": "For any a and any nonzero b, `a / b` and `a % b` satisfy a = (a/b)*b + a%b, |a%b| < |b|, and a%b has the sign of a or is zero (truncation toward zero); the call panics exactly when b is zero.", "quantifier": "all dividends, all divisors, any digit count, both digit widths", "why_tests_cant": "Knuth's algorithm D has correction branches (estimate too large by one or two, add-back) reached with probability about 2/2^64, so random tests practically never execute them.", "anchors": ["src/bigint/divrem.rs: div_rem_digits, div_rem, Div, Rem"]}
{"id": "C03", "title": "Comparison and equality agree with the integers", "statement": "`a == b` holds exactly when the two integers are equal and `a.cmp(&b)` is the order of the integers; in particular +0 and -0 are equal.", "quantifier": "all pairs of BigInts produced by the API, any length and sign", "why_tests_cant": "Needs every sign/length/first-difference-position combination, and the invariant that no API result carries leading zero digits.", "anchors": ["src/bigint/cmp.rs: cmp_digits, PartialEq, Ord"]}
{"id": "C04", "title": "Shifts are multiplication and division by powers of two", "statement": "`a << k` has value a*2^k and `a >> k` has value sign(a)*floor(|a|/2^k), for every k.", "quantifier": "all BigInts, all shift amounts", "why_tests_cant": "Whole-digit and sub-digit parts interact, and the digit buffer is shifted in place; boundary cases occur at every multiple of the digit width for every length.", "anchors": ["src/bigint/shift.rs: shift_left_digits, shift_right_digits, Shl, Shr"]}
{"id": "C05", "title": "Every BigInt result is in canonical form", "statement": "Every value returned by a BigInt operation has no superfluous leading zero digit, so that is_zero, bit_len, byte_len, comparisons and encodings of results depend only on the integer.", "quantifier": "all operations, all inputs, any sequence of operations", "why_tests_cant": "It is an invariant over arbitrary histories of operations.", "anchors": ["src/bigint/bigint_core.rs: BigInt", "src/bigint/len.rs: len_digits, is_zero_digits", "src/bigint/shift.rs", "src/bigint/add.rs", "src/bigint/sub.rs", "src/bigint/mul.rs", "src/bigint/divrem.rs"]}
{"id": "C06", "title": "Big-endian byte conversion is exact and round-trips", "statement": "from_be_bytes gives the big-endian value of the bytes (leading zero bytes ignored); to_be_bytes of a nonnegative value gives its minimal big-endian representation (empty for zero); composing them returns the value. The only panicking input is the empty slice.", "quantifier": "all byte strings, all BigInts, both digit widths", "why_tests_cant": "Digit/byte alignment has as many cases as residues of the length modulo the digit size, for unbounded lengths.", "anchors": ["src/bigint/bytes.rs", "src/bigint/bigint_new.rs: from_be_bytes", "src/bigint/bigint_into.rs: to_be_bytes"]}
{"id": "C07", "title": "Hex parsing and printing", "statement": "from_hex accepts exactly an optional sign followed by an even number of hex digits (the empty string is 0, a lone sign is rejected) and returns the value denoted; to_lower_hex prints an even number of lowercase digits which from_hex maps back to the same value.", "quantifier": "all byte strings as input, all BigInts", "why_tests_cant": "Language acceptance over all strings is unbounded.", "anchors": ["src/bigint/bigint_new.rs: from_hex", "src/bigint/bigint_into.rs: to_lower_hex", "src/crypto/codecs.rs"]}
{"id": "C08", "title": "Radix parsing", "statement": "from_str_radix(s, radix) returns the integer denoted by s in that radix when s is an optional sign followed by digits of that radix, and an error otherwise.", "quantifier": "all strings, all radices 2..36", "why_tests_cant": "Every string and radix must be covered; a digit equal to the radix must be rejected for every radix.", "anchors": ["src/bigint/bigint_new.rs: from_str_radix"]}
{"id": "C09", "title": "A BigUint is never negative", "statement": "No BigUint constructor or operator yields a negative value: negative inputs are rejected and subtraction below zero does not silently produce a negative number.", "quantifier": "all constructors, operators and inputs", "why_tests_cant": "Type invariant over all constructor inputs and operation histories.", "anchors": ["src/bigint/biguint.rs: BigUint, from_str_radix, from_hex, from_bigint, Sub"]}
{"id": "C10", "title": "Bit and byte length", "statement": "bit_len(x) is the unique n with 2^(n-1) <= |x| < 2^n (0 for zero), byte_len is ceil(bit_len/8), and the little-endian bit iterator yields exactly the binary digits of |x|.", "quantifier": "all BigInts, both digit widths", "why_tests_cant": "Unbounded lengths and all positions of the top bit.", "anchors": ["src/bigint/bits.rs: bit_len, le_bits", "src/bigint/bytes.rs: byte_len"]}
{"id": "C11", "title": "Conversion from primitive integers is exact", "statement": "From<u8..u128, i8..i128, usize, isize> preserve the value, including the most negative i128.", "quantifier": "all values of each primitive type, both digit widths", "why_tests_cant": "2^128 inputs.", "anchors": ["src/bigint/bigint_new.rs: from_u128, from_i128, From impls"]}
{"id": "C12", "title": "Extended gcd returns Bezout coefficients", "statement": "For a > b > 0 the gcd function returns (x, y, v) with v = gcd(a, b) and x*a + y*b = v, never panics (buffers never overflow, single-digit arithmetic never overflows) and terminates.", "quantifier": "all a > b > 0 of any size, both digit widths", "why_tests_cant": "Lehmer's double-digit inner loop relies on the Collins condition; wrong quotients or overflows show only on rare leading-digit patterns and the loop runs for an unbounded number of rounds.", "anchors": ["src/bigint/gcd.rs: gcd"]}
{"id": "C13", "title": "modulo is the least nonnegative residue", "statement": "modular::modulo(a, n) returns the unique r with 0 <= r < n and r congruent to a mod n, also for negative a.", "quantifier": "all a, all n > 0", "why_tests_cant": "All integers.", "anchors": ["src/math/modular.rs: modulo"]}
{"id": "C14", "title": "Modular inverse", "statement": "modular::invert(a, n) returns Some(x) with 0 < x < n and a*x = 1 mod n when gcd(a, n) = 1, None when they are not coprime, for every a that is not a multiple of n; for a multiple of n it panics.", "quantifier": "all a and all n > 1", "why_tests_cant": "All integer pairs; depends on the unbounded gcd loop.", "anchors": ["src/math/modular.rs: invert", "src/bigint/gcd.rs: gcd"]}
{"id": "C15", "title": "Modular exponentiation", "statement": "modular::pow(base, e, n) = base^e mod n for every e >= 0 and every base with 0 < base < n (the asserted precondition).", "quantifier": "all bases 0 < base < n, all exponents e >= 0, all moduli n", "why_tests_cant": "Unbounded exponent.", "anchors": ["src/math/modular.rs: pow"]}
{"id": "C16", "title": "Modular square root (Tonelli-Shanks)", "statement": "For an odd prime p and 0 < a < p, modular::sqrt(a, p) returns exactly the two distinct square roots of a in [0, p) when a is a quadratic residue and None otherwise, and terminates.", "quantifier": "all odd primes p, all a in range", "why_tests_cant": "The loop depth is the 2-adic valuation of p-1, unbounded over primes; correctness is number theoretic.", "anchors": ["src/math/modular.rs: sqrt"]}
{"id": "C17", "title": "Hex codec", "statement": "bytes_to_lower_hex maps each byte to its two lowercase hex characters, hex_to_bytes inverts it on either letter case, rejects odd lengths (NotByteAligned) and any other character (InvalidCharFound), and never panics.", "quantifier": "all byte strings and all character strings", "why_tests_cant": "All strings.", "anchors": ["src/crypto/codecs.rs: bytes_to_lower_hex, hex_to_bytes"]}
{"id": "C18", "title": "SHA-256 conforms to FIPS 180-4", "statement": "For every message the SHA-256 digest equals the FIPS 180-4 definition (padding, schedule, 64 rounds, constants derived from the primes).", "quantifier": "all messages shorter than 2^61 bytes", "why_tests_cant": "Test vectors fix finitely many messages; padding must be right for each residue of the length at every length, the round function for every state.", "anchors": ["src/crypto/hash/sha2/sha256.rs", "src/crypto/hash/sha2/core.rs"]}
{"id": "C19", "title": "SHA-384 and SHA-512 conform to FIPS 180-4", "statement": "For every message the digest equals the FIPS 180-4 definition.", "quantifier": "all messages shorter than 2^61 bytes", "why_tests_cant": "As for SHA-256.", "anchors": ["src/crypto/hash/sha2/sha384_512.rs", "src/crypto/hash/sha2/core.rs"]}
{"id": "C20", "title": "SHA3-224/256/384/512 and Keccak-256 conform to FIPS 202 / Keccak", "statement": "For every message the digest equals the sponge definition over Keccak-f[1600] with pad10*1 and the domain suffix of the variant.", "quantifier": "all messages, all five variants", "why_tests_cant": "The permutation must be right on all 2^1600 states and padding for every message length.", "anchors": ["src/crypto/hash/sha3/core.rs", "src/crypto/hash/sha3/*.rs"]}
{"id": "C21", "title": "HMAC conforms to RFC 2104", "statement": "hmac(key, message, hasher) = H((K0 xor opad) || H((K0 xor ipad) || message)) with K0 the zero-padded key, or zero-padded hash of an over-long key.", "quantifier": "all keys of any length, all messages, all hash functions of the library", "why_tests_cant": "All key lengths relative to the block size.", "anchors": ["src/crypto/hash/hmac.rs: hmac"]}
{"id": "C22", "title": "Digest is independent of the hasher's history", "statement": "Calling digest on a hasher object that has been used any number of times before gives the same result as a fresh hasher, and the digest has the advertised length.", "quantifier": "all previous call histories, all messages, all hash functions", "why_tests_cant": "All histories.", "anchors": ["src/crypto/hash/core.rs: UnkeyedHash", "src/crypto/hash/sha2/*.rs", "src/crypto/hash/sha3/*.rs"]}
{"id": "C23", "title": "Point addition is a group law on the curve", "statement": "On a non-singular curve over a prime field, add_points / double_point keep points on the curve, are commutative and associative, have the identity as neutral element and the negated point as inverse, and never panic on curve points.", "quantifier": "all primes p > 3, all curve coefficients, all points", "why_tests_cant": "Algebraic identity over all points of all curves.", "anchors": ["src/math/elliptic_curve.rs: add_points, double_point, identity_element"]}
{"id": "C24", "title": "Scalar multiplication is repeated addition", "statement": "mul_point(P, k) = P + ... + P (k times) for every k >= 0, hence (a+b)P = aP + bP and a(bP) = (ab)P.", "quantifier": "all points, all scalars", "why_tests_cant": "Unbounded scalars.", "anchors": ["src/math/elliptic_curve.rs: mul_point"]}
{"id": "C25", "title": "Public key validation", "statement": "PublicKey::new accepts a point exactly when it is not the identity, both coordinates are in [0, p-1], it satisfies the curve equation and (for cofactor != 1) has order n; anything else is rejected without panic.", "quantifier": "all coordinate pairs (also negative or huge), all curves", "why_tests_cant": "All integer pairs.", "anchors": ["src/crypto/elliptic_curve_params.rs: validate_point", "src/crypto/ecdsa/ecdsa_key.rs: PublicKey::new"]}
{"id": "C26", "title": "Private key range and derived public key", "statement": "PrivateKey::new accepts exactly 1 <= d <= n-1; public_key() never panics for such d and returns the valid point dG.", "quantifier": "all integers d", "why_tests_cant": "All 2^256 keys.", "anchors": ["src/crypto/ecdsa/ecdsa_key.rs"]}
{"id": "C27", "title": "Signature components are in range and low-s when enforced", "statement": "Any signature returned by signing or decoding satisfies 1 <= r, s <= n-1, and with enforce_low_s also s <= n/2.", "quantifier": "all keys, hashes, nonces, options", "why_tests_cant": "All executions.", "anchors": ["src/crypto/ecdsa/ecdsa_core.rs: Signature::new, PrivateKey::sign", "src/crypto/ecdsa/ecdsa_signing.rs"]}
{"id": "C28", "title": "Signatures verify", "statement": "A signature produced by sign for a hash and private key is accepted by verify for the same hash and the matching public key, with or without low-s normalisation.", "quantifier": "all private keys, hashes, nonces, options", "why_tests_cant": "2^512 and more combinations; depends on the group law.", "anchors": ["src/crypto/ecdsa/ecdsa_core.rs: PrivateKey::sign, PublicKey::verify", "src/crypto/ecdsa/ecdsa_signing.rs", "src/crypto/ecdsa/ecdsa_verifying.rs"]}
{"id": "C29", "title": "Verification accepts exactly the ECDSA equation", "statement": "PublicKey::verify returns true exactly when R = (e/s)G + (r/s)Q is not the identity and x_R mod n = r.", "quantifier": "all hashes, signatures in range, public keys", "why_tests_cant": "All inputs.", "anchors": ["src/crypto/ecdsa/ecdsa_core.rs: PublicKey::verify"]}
{"id": "C30", "title": "Malleability and low-s enforcement", "statement": "(r, s) verifies exactly when (r, n-s) verifies, and verify_with_options with enforce_low_s rejects exactly the high-s one, so at most one of the two is accepted.", "quantifier": "all signatures, hashes, keys", "why_tests_cant": "All inputs.", "anchors": ["src/crypto/ecdsa/ecdsa_verifying.rs: verify_with_options", "src/crypto/ecdsa/ecdsa_core.rs: is_low_s_signature"]}
{"id": "C31", "title": "Public key recovery", "statement": "Every key returned by recover_public_keys_from_signature verifies the signature, and with the recovery id returned by signing exactly the signer's public key is returned (both for original and low-s normalised signatures).", "quantifier": "all keys, hashes, nonces, options", "why_tests_cant": "All inputs; the recovery id must be flipped consistently.", "anchors": ["src/crypto/ecdsa/ecdsa_public_key_recovery.rs"]}
{"id": "C32", "title": "RFC 6979 nonce", "statement": "generate_nonce without extra data is the RFC 6979 section 3.2 nonce for the key and hash, deterministic, and always in [1, n-1].", "quantifier": "all keys, hashes, orders, hash functions", "why_tests_cant": "The HMAC-DRBG rejection loop has no bound; the range holds for every iteration count.", "anchors": ["src/crypto/rfc6979.rs: Rfc6979"]}
{"id": "C33", "title": "Signing and verifying input gates", "statement": "sign/verify/recover reject the empty hash, the all-zero hash (unless allowed) and, in strict mode, a hash whose byte length differs from the order's, with the documented error; a longer hash is truncated to its leftmost bits.", "quantifier": "all hashes and options", "why_tests_cant": "All byte strings and option combinations.", "anchors": ["src/crypto/ecdsa/ecdsa_signing.rs", "src/crypto/ecdsa/ecdsa_verifying.rs", "src/crypto/ecdsa/ecdsa_public_key_recovery.rs", "src/crypto/ecdsa/ecdsa_core.rs: from_be_bytes_with_max_bits_len"]}
{"id": "C34", "title": "Signing terminates", "statement": "sign_with_options returns for every valid private key and hash.", "quantifier": "all curves, keys, hashes; all random sources", "why_tests_cant": "Termination for all inputs.", "anchors": ["src/crypto/ecdsa/ecdsa_signing.rs: sign_with_options_and_rfc6979_hmac_hasher"]}
{"id": "C35", "title": "SEC1 public key encoding round-trips", "statement": "Decoding the SEC1 hex (compressed or uncompressed) of a public key returns the same key.", "quantifier": "all valid public keys whose coordinates the encoder accepts", "why_tests_cant": "All points; compressed decoding needs correct square roots and parity.", "anchors": ["src/crypto/sec1.rs: encode_point, decode_point", "src/crypto/ecdsa/ecdsa_encoding.rs"]}
{"id": "C36", "title": "SEC1 decoding is strict", "statement": "decode_point accepts only the exact-length encodings 04||X||Y, 02||X and 03||X; each public key has exactly one accepted compressed hex form (up to letter case), and no input makes it panic.", "quantifier": "all byte strings", "why_tests_cant": "All strings.", "anchors": ["src/crypto/sec1.rs: decode_point"]}
{"id": "C37", "title": "SEC1 encoding is total on valid public keys", "statement": "Every valid public key can be encoded in SEC1 form without panicking.", "quantifier": "all valid points on the curve", "why_tests_cant": "Points with coordinate between n and p are never hit by tests.", "anchors": ["src/crypto/sec1.rs: encode_point"]}
{"id": "C38", "title": "P1363 signature encoding", "statement": "to_p1363_hex has fixed length 4*order_bytes; decoding it returns the same signature; decoding accepts exactly fixed-length hex whose r and s are in [1, n-1].", "quantifier": "all signatures, all input strings", "why_tests_cant": "All strings and signatures.", "anchors": ["src/crypto/p1363.rs", "src/crypto/ecdsa/ecdsa_encoding.rs"]}
{"id": "C39", "title": "RLP encoding matches the Yellow Paper and round-trips", "statement": "Encoding any tree of byte strings and lists gives the Yellow Paper RLP, and decoding it returns the same tree.", "quantifier": "all item trees of any depth and size below 2^64 bytes", "why_tests_cant": "Recursive structure of unbounded depth and length; the long-length header occurs at every length-of-length.", "anchors": ["src/blockchain/ethereum/rlp/encoding.rs", "src/blockchain/ethereum/rlp/encoder.rs", "src/blockchain/ethereum/rlp/decoding.rs", "src/blockchain/ethereum/rlp/decoder.rs"]}
{"id": "C40", "title": "RLP decoding never panics", "statement": "Decoding arbitrary untrusted bytes returns Ok or Err but never panics.", "quantifier": "all byte strings", "why_tests_cant": "The repository's own quickcheck test samples random bytes; the failing inputs have probability about 2^-60.", "anchors": ["src/blockchain/ethereum/rlp/decoding.rs: decode_data, decode_list_payload, decode_data_header"]}
{"id": "C41", "title": "RLP decoding accepts only canonical encodings", "statement": "If decoding data succeeds then re-encoding the decoded item gives data back, so a transaction has exactly one accepted byte representation.", "quantifier": "all byte strings", "why_tests_cant": "All strings.", "anchors": ["src/blockchain/ethereum/rlp/decoding.rs: decode_data_header", "src/blockchain/ethereum/rlp/decoder.rs"]}
{"id": "C42", "title": "RLP scalars and typed values round-trip", "statement": "u64, BigUint, byte vectors, strings, Vec<T>, addresses, storage keys, nonces, chain ids, Wei amounts and access lists decode from their encoding to the same value; integers are encoded without leading zeros.", "quantifier": "all values of each type", "why_tests_cant": "All values, arbitrary nesting.", "anchors": ["src/blockchain/ethereum/rlp/encoder.rs", "src/blockchain/ethereum/rlp/decoder.rs", "src/blockchain/ethereum/types/*_rlp.rs"]}
{"id": "C43", "title": "RLP rejects truncated and trailing data", "statement": "A proper prefix of an encoding, or an encoding followed by extra bytes, is rejected by decode.", "quantifier": "all items, all cut points, all suffixes", "why_tests_cant": "All strings.", "anchors": ["src/blockchain/ethereum/rlp/decoding.rs: decode_data, decode_list_payload"]}
{"id": "C44", "title": "SSZ round-trips", "statement": "For every type built from uints, bool, vectors, lists and containers and every value of it whose encoding is below 2^32 bytes, decoding the encoding returns the value.", "quantifier": "all SSZ types, all values", "why_tests_cant": "Types nest without bound; offsets depend on all sibling sizes.", "anchors": ["src/blockchain/ethereum/ssz/*.rs"]}
{"id": "C45", "title": "SSZ decoding never panics", "statement": "Decoding arbitrary untrusted bytes as any SSZ type returns Ok or Err but never panics.", "quantifier": "all types, all byte strings", "why_tests_cant": "All strings.", "anchors": ["src/blockchain/ethereum/ssz/list_types.rs: try_from_bytes", "src/blockchain/ethereum/ssz/array_types.rs", "src/blockchain/ethereum/ssz/container_types.rs: decode_as_items"]}
{"id": "C46", "title": "SSZ decoding is strict", "statement": "Bytes that decode successfully are the encoding of the decoded value (no trailing bytes, no gaps or overlaps in the offsets).", "quantifier": "all types, all byte strings", "why_tests_cant": "All strings.", "anchors": ["src/blockchain/ethereum/ssz/array_types.rs", "src/blockchain/ethereum/ssz/container_types.rs: decode_as_items"]}
{"id": "C47", "title": "Transaction encodings round-trip", "statement": "Legacy, EIP-2930 and EIP-1559 signed transactions decode from their RLP list to the same fields.", "quantifier": "all transactions", "why_tests_cant": "All field values, data lengths and access lists.", "anchors": ["src/blockchain/ethereum/transaction/types/*_rlp.rs"]}
{"id": "C48", "title": "EIP-155 decoding recovers the chain id", "statement": "Decoding an encoded EIP-155 transaction returns the chain id with which it was signed; v below 35 is rejected.", "quantifier": "all EIP-155 transactions", "why_tests_cant": "All chain ids.", "anchors": ["src/blockchain/ethereum/transaction/types/transaction_eip_155_rlp.rs"]}
{"id": "C49", "title": "Signed transaction contents", "statement": "Signing a payload signs keccak256 of exactly the pre-image prescribed by the EIP (type byte, field order, EIP-155 trailing chain id,0,0) and v is 27+parity, 35+2*chain_id+parity, or the parity, where parity is that of the signature's recovery id.", "quantifier": "all payloads, keys, options", "why_tests_cant": "All payloads.", "anchors": ["src/blockchain/ethereum/transaction/types/*.rs", "src/blockchain/ethereum/transaction/payload/*_rlp.rs"]}
{"id": "C50", "title": "A signed transaction identifies its sender", "statement": "For a transaction signed with a private key, recovering from the signing hash, r, s and parity gives the sender's public key and address.", "quantifier": "all keys and payloads", "why_tests_cant": "All inputs; end-to-end composition.", "anchors": ["src/blockchain/ethereum/transaction/types/*.rs", "src/blockchain/ethereum/account/eoa.rs", "src/crypto/ecdsa/ecdsa_public_key_recovery.rs"]}
{"id": "C51", "title": "Transaction builder", "statement": "take_and_build_payload_* succeeds exactly when the required fields were set, returns the last value set for each field whatever the order of the setter calls, and consumes the fields: a second build on the same builder fails, a failed build leaves it unchanged.", "quantifier": "all sequences of builder calls", "why_tests_cant": "All call histories.", "anchors": ["src/blockchain/ethereum/transaction/builder.rs", "src/blockchain/ethereum/transaction/payload/*.rs"]}
{"id": "C52", "title": "Addresses", "statement": "The address of a public key is the last 20 bytes of keccak256(X||Y) with 32-byte coordinates; display uses the EIP-55 checksum; parsing the displayed text gives the address back.", "quantifier": "all addresses and keys", "why_tests_cant": "All 2^160 addresses.", "anchors": ["src/blockchain/ethereum/types/address.rs", "src/blockchain/ethereum/account/eoa.rs"]}
{"id": "C53", "title": "Nonce bound", "statement": "An EoaNonce is never 2^64-1: constructors and RLP decoding reject it and accept every smaller u64.", "quantifier": "all u64 values and encodings", "why_tests_cant": "2^64 inputs.", "anchors": ["src/blockchain/ethereum/types/eoa_nonce.rs", "src/blockchain/ethereum/types/eoa_nonce_rlp.rs"]}
{"id": "C54", "title": "OS random bytes (Linux)", "statement": "get_os_random_bytes(len) returns either exactly len bytes all of which were written by the operating system, or an error; short reads are never padded with zeros.", "quantifier": "all lengths, all sequences of getrandom results", "why_tests_cant": "All OS behaviours.", "anchors": ["src/random/linux.rs", "src/os/linux.rs"]}
{"id": "C55", "title": "secp256k1 parameters are sound", "statement": "p and n are prime, the curve is non-singular, G is on the curve and n*G is the identity.", "quantifier": "the shipped parameters (a universal statement over all potential divisors)", "why_tests_cant": "Primality is a statement about all divisors.", "anchors": ["src/crypto/secp256k1.rs"]}
{"id": "C56", "title": "Encoder objects can be reused", "statement": "take_data returns the data encoded since the previous take_data and leaves the encoder as new, for any sequence of encode and take calls.", "quantifier": "all call sequences", "why_tests_cant": "All histories.", "anchors": ["src/blockchain/ethereum/rlp/encoder.rs: RlpEncodingItem", "src/blockchain/ethereum/ssz/encoder.rs: SszEncodingItem"]}
{"id": "C57", "title": "Display and try_from of integers", "statement": "The text displayed for a Wei/ChainId/BigUint value parses back (try_from &str) to the same value.", "quantifier": "all values", "why_tests_cant": "All values.", "anchors": ["src/bigint/biguint.rs: TryFrom<&str>", "src/blockchain/ethereum/types/currency_unit.rs", "src/blockchain/ethereum/types/chain_id.rs"]}
{"id": "C58", "title": "Named chains have their registered ids", "statement": "The ChainId made from each named Chain is the number EIP-155 registers for that chain (1, 2, 3, 4, 5, 42, 1337).", "quantifier": "all named chains, both digit widths", "why_tests_cant": "The value goes through the big integer constructor, for every digit width.", "anchors": ["src/blockchain/ethereum/types/chain_id.rs: Chain"]}
{"id": "C59", "title": "Keys on secp256k1", "statement": "On secp256k1 the public key constructor never panics and accepts exactly the points with coordinates below p that satisfy y^2 = x^3 + 7; the private key constructor accepts exactly 1..n-1, and then the public key d*G exists and is itself acceptable.", "quantifier": "all big integers as coordinates and scalars, both digit widths", "why_tests_cant": "2^512 candidate points; the general constructor panics on other curves (C25), so the absence of panics here is a fact about this curve's group order.", "anchors": ["src/crypto/ecdsa/ecdsa_key.rs", "src/crypto/secp256k1.rs: secp256k1"]}
{"id": "C60", "title": "Signing on secp256k1, end to end", "statement": "With the default options, for every key and every random source that returns 32 bytes or fails, signing never panics, refuses a hash exactly if it is empty, not 32 bytes long or zero, and whatever it returns is in range with low s, verifies under the signer's public key, and lets the signer's key be recovered: as the only key with the recovery id, as one of the keys without.", "quantifier": "all private keys, hashes, random sources, both digit widths and byte orders", "why_tests_cant": "The composition of nonce generation, signing, verification and recovery over 2^256 keys and hashes.", "anchors": ["src/crypto/ecdsa/ecdsa_signing.rs", "src/crypto/ecdsa/ecdsa_verifying.rs", "src/crypto/ecdsa/ecdsa_public_key_recovery.rs"]}
{"id": "C61", "title": "Verification on secp256k1", "statement": "With the default options verification on secp256k1 never panics; it refuses empty, zero and wrongly long hashes and otherwise returns true exactly for the signatures that ECDSA accepts.", "quantifier": "all public keys, signatures and hashes", "why_tests_cant": "An exact characterisation over all signatures, valid or forged.", "anchors": ["src/crypto/ecdsa/ecdsa_verifying.rs"]}
{"id": "C62", "title": "Recovery on secp256k1", "statement": "With the default options recovery on secp256k1 never panics; every key it returns verifies the signature, and without a recovery id it returns every key that does.", "quantifier": "all signatures and hashes, with or without recovery id", "why_tests_cant": "Completeness quantifies over all keys.", "anchors": ["src/crypto/ecdsa/ecdsa_public_key_recovery.rs"]}
{"id": "C63", "title": "Keys and signatures as text on secp256k1", "statement": "Reading a SEC 1 text on secp256k1 never panics and accepts only texts of points of the curve; a signature and its signer's key written as text and read back verify.", "quantifier": "all texts; all keys that can be written, hashes, random sources", "why_tests_cant": "All byte strings; the composition of signing, writing, reading and verifying.", "anchors": ["src/crypto/sec1.rs", "src/crypto/p1363.rs", "src/crypto/ecdsa/ecdsa_encoding.rs", "src/crypto/ecdsa/ecdsa_signing.rs"]}
{"id": "C64", "title": "What is signed determines the transaction", "statement": "The byte strings hashed for signing are equal for two transaction payloads exactly if the payloads are of the same kind and agree in every field, the chain id included: a signature for one payload is not a signature for another one, on another chain or of another kind, unless the hash function collides.", "quantifier": "all pairs of payloads of all four kinds", "why_tests_cant": "All pairs of payloads.", "anchors": ["src/blockchain/ethereum/transaction/types"]}
{"id": "C65", "title": "RLP is self-delimiting", "statement": "No encoding is a proper prefix of another one, and different trees have different encodings, so a concatenation of encodings can be split in only one way.", "quantifier": "all pairs of trees and all continuations", "why_tests_cant": "All pairs of trees of unbounded depth.", "anchors": ["src/blockchain/ethereum/rlp/encoder.rs"]}
{"id": "C66", "title": "Decoders accept exactly the lax RLP of values of their type", "statement": "For every byte string shorter than 2^63 bytes and every Decodable type (integers, nonces, strings, byte vectors, addresses, storage keys, access lists, vectors of these, and signed legacy, EIP-155, EIP-2930 and EIP-1559 transactions), decoding succeeds exactly when the bytes are one RLP item (any header of up to 8 length bytes allowed) whose tree is a value of that type: the right number of list items in the documented order, integers of at most 8 bytes for u64 with leading zeros allowed, nonce not 2^64-1, strings UTF-8, addresses of 20 and storage keys of 32 bytes, y parity 0 or 1, legacy v below 256, EIP-155 v at least 35 (TransactionTypeMismatch otherwise); the decoded fields are the ones in the tree.", "quantifier": "all byte strings shorter than 2^63 bytes, all types (arbitrarily nested vectors), both digit sizes, debug and release builds", "why_tests_cant": "the set of accepted byte strings is infinite and its complement too; tests feed valid encodings and a few broken ones", "anchors": ["src/blockchain/ethereum/rlp/decoder.rs: decode", "src/blockchain/ethereum/transaction/types/*_rlp.rs", "src/blockchain/ethereum/types/access_list_rlp.rs"]}
{"id": "C67", "title": "Decoding and encoding again normalises", "statement": "Whatever bytes a decoder accepts, encoding the decoded value succeeds and gives the canonical RLP of that value; it is never longer than the input, decodes to the same value, and equals the input exactly when the input was the canonical RLP of some valid value.", "quantifier": "all accepted byte strings shorter than 2^63 bytes, all types and the four kinds of signed transactions, both digit sizes, debug and release builds", "why_tests_cant": "every accepted byte string, including all non-canonical ones, is meant", "anchors": ["src/blockchain/ethereum/rlp/decoder.rs: decode", "src/blockchain/ethereum/rlp/encoder.rs: encode"]}
{"id": "C68", "title": "Exactly when RLP decoding panics", "statement": "For every byte string shorter than 2^63 bytes, decoding a tree, a typed value or a signed transaction gives a value, an error or a panic, and it panics exactly when (a) in a debug build the outermost header announces a length that overflows, or (b) a list that gets examined contains, after well-delimited items, a header whose length overflows, or (c) in a debug build an item that is not a list stands where a vector is expected; (b) and (c) only if everything examined before is acceptable.", "quantifier": "all byte strings shorter than 2^63 bytes, all types, both digit sizes, debug and release builds", "why_tests_cant": "absence of panics outside the class and presence inside it concern infinitely many inputs", "anchors": ["src/blockchain/ethereum/rlp/decoder.rs: decode", "src/blockchain/ethereum/rlp/decoding.rs", "src/blockchain/ethereum/types/access_list_rlp.rs"]}
{"id": "C69", "title": "Where a signature's randomness comes from", "statement": "With the default options a signature is made from the RFC 6979 nonce for bytes the operating system's random source returned, fresh bytes for each attempt; if the source fails when it is needed, its error is returned and no signature. With additional data switched off the source is never consulted, and a key has exactly one signature of a hash (for a given low-s option), on every machine.", "quantifier": "all curves, keys, hashes, options, hash functions, behaviours of the random source; both digit sizes and byte orders", "why_tests_cant": "A test sees some random bytes and some failures; the claim is about every behaviour of the source, including that it is not called.", "anchors": ["src/crypto/ecdsa/ecdsa_signing.rs: sign, sign_with_options, SigningOptions::default", "src/crypto/rfc6979.rs: generate_nonce"]}
{"id": "C70", "title": "ECDSA results do not depend on the machine", "statement": "For the same numbers as input, signing (given the same random bytes), verification, key recovery and the derivation of public keys give the same results on 8-bit and 64-bit digit configurations, in debug and release builds and on little and big endian machines, errors and panics included (strict mode on an order whose bits do not make bytes excepted: there debug builds panic and release builds reject); what signing returns is exactly what a relation between numbers and byte strings says.", "quantifier": "all curves, keys, signatures, hashes, options and random sources; all pairs of digit sizes, kinds of build and byte orders", "why_tests_cant": "A test suite runs on one machine with one digit size; the two configurations take different code paths for every operation.", "anchors": ["src/crypto/ecdsa/ecdsa_signing.rs", "src/crypto/ecdsa/ecdsa_verifying.rs", "src/crypto/ecdsa/ecdsa_public_key_recovery.rs", "src/bigint/digit.rs"]}
{"id": "C71", "title": "What is shown of a transaction is what is signed", "statement": "Formatting a payload or a signed transaction never panics and gives one labelled line for every field, with its value in hexadecimal, addresses with their EIP-55 checksum and the access list with every address and storage key. Two payloads have the same text exactly if they are of the same kind and agree in every field, which is exactly if the same bytes are hashed and signed; two transactions have the same text exactly if payload and signature agree.", "quantifier": "all payloads and transactions of the four kinds, all access lists, both digit sizes and byte orders", "why_tests_cant": "A test compares the text of some transactions; that no two different ones look the same, whatever their data, lengths and access lists, concerns all pairs.", "anchors": ["src/blockchain/ethereum/transaction/payload/*.rs: Display", "src/blockchain/ethereum/transaction/types/transaction_*.rs: Display", "src/blockchain/ethereum/types/access_list.rs: Display", "src/blockchain/ethereum/types/eoa_nonce.rs: Display", "src/crypto/ecdsa/ecdsa_core.rs: Display for YParity"]}
{"id": "C72", "title": "The shared curve parameters are safe to use from threads", "statement": "Whatever the interleaving of threads which call secp256k1() and use the references it returns: no call panics, no thread sees any part of the parameters before it is written or with other values than those of secp256k1, no two threads access the same part at once with one of them writing (the mutable static is free of data races), the parameters are computed at most once and never change after a call has returned, no call deadlocks, and every call ends after a bounded number of steps.", "quantifier": "any number of threads, all schedules, every moment at which threads are interrupted, any order in which the fields of the static are stored, both digit sizes", "why_tests_cant": "A test runs a few schedules on one machine; races and half-initialised reads depend on the interleaving, and their absence concerns all of them.", "anchors": ["src/crypto/secp256k1.rs: secp256k1, SECP256K1, INIT", "src/crypto/elliptic_curve_params.rs: EllipticCurveParams"]}
{"id": "C73", "title": "Hex conversion is constant time", "statement": "Encoding bytes as hexadecimal text executes the same operations, tests and memory accesses for all inputs of the same length. So does decoding for all hexadecimal texts of the same length, whatever their digits and case. For arbitrary input decoding reveals exactly the length and the position of the first character which is not a digit (and for odd length nothing else).", "quantifier": "all byte strings and all texts of all lengths, all pairs of them", "why_tests_cant": "Timing measurements are statistical and concern some inputs; that two executions do not differ is a statement about all pairs of inputs.", "anchors": ["src/crypto/codecs.rs: bytes_to_lower_hex, hex_to_bytes", "README.md: constant time"]}
{"id": "C74", "title": "Texts are printable ASCII", "statement": "Whatever bytes, integers, addresses, payloads and transactions are converted to text, it consists of printable ASCII characters (and line breaks for payloads and transactions). It is therefore valid UTF-8, as the unchecked conversion to String requires and the checked one relies on, and nothing inside a transaction can put control characters on the screen of the person who reviews it.", "quantifier": "all byte strings, integers, addresses, payloads and transactions, access lists of any size, both digit sizes and byte orders", "why_tests_cant": "Undefined behaviour from invalid UTF-8 or an injected escape sequence needs only one unlucky input; tests see some.", "anchors": ["src/crypto/codecs.rs: bytes_to_lower_hex", "src/bigint/bigint_into.rs: to_lower_hex", "src/blockchain/ethereum/types/address.rs: to_checksummed_hex", "src/blockchain/ethereum/transaction/payload/*.rs: Display"]}
{"id": "C75", "title": "What a debug build returns, a release build returns", "statement": "Calling any function of the library with the same arguments in a debug build and in a release build: if the debug build does not panic, the release build gives the same result, errors included. So the debug assertions and overflow checks only ever stop a program; tests that pass in a debug build cannot be contradicted by the optimised one.", "quantifier": "all functions of integers, modular arithmetic, curves, ECDSA, encodings, RLP, SSZ and transactions, all arguments (valid or not), all histories of encoders, both digit sizes", "why_tests_cant": "Tests run in one kind of build, and with arguments someone chose; a debug assertion whose condition has an effect, or an overflow check that something relies on, shows only in the other kind, for some arguments.", "anchors": ["src/bigint/*.rs: debug_assert", "src/math/modular.rs: debug_assert", "src/crypto/ecdsa/*.rs: debug_assert", "src/blockchain/ethereum/rlp/decoder.rs", "src/blockchain/ethereum/ssz/core.rs: encode_to", "src/blockchain/ethereum/ssz/container_types.rs: decode_as_items"]}
{"id": "C76", "title": "Decoding does not amplify untrusted input", "statement": "What decoding untrusted bytes builds is bounded by the bytes: an RLP tree has at most as many strings and lists as the data has bytes and its encoding is not longer; an SSZ value takes, encoded, at most as many bytes as the data, times the number of levels of offsets in its type. The factor is that of the type, whatever the data says, and for every number of levels some data reaches it, because parts that offsets point at may overlap.", "quantifier": "all byte strings, all SSZ types and RLP trees, both kinds of build", "why_tests_cant": "A decompression bomb is data chosen to be the worst case; tests bound the size for the data they have.", "anchors": ["src/blockchain/ethereum/ssz/container_types.rs: decode_as_items", "src/blockchain/ethereum/ssz/decoder.rs", "src/blockchain/ethereum/rlp/decoding.rs: decode_list_payload"]}
{"id": "C77", "title": "The example programs print what they say they print", "statement": "Given bytes in hexadecimal, with or without 0x: the key-to-address program prints the EIP-55 address of the key and stops with an error if it is no key; the RLP decoder prints a JSON document of the tree that the bytes encode, from which the tree can be told, or says that the input is invalid; the transaction decoder prints all fields of the transaction that was broadcast, of any of the four kinds, and stops with an error on anything else; the vanity program prints a key from the source of randomness whose address has the wanted prefix, the first such; the random bytes program prints as many bytes of the operating system as asked for, or the error.", "quantifier": "all arguments, all byte strings, all transactions, all replies of the operating system, all numbers of turns, both digit sizes, both byte orders, both kinds of build", "why_tests_cant": "The programs have no tests, and someone who pastes a transaction to see what they are about to sign or accept depends on what is printed for that one.", "anchors": ["examples/randombytes.rs", "examples/ethereum/eoa_key_to_address.rs", "examples/ethereum/rlp_decoder.rs", "examples/ethereum/tx_decoder.rs", "examples/ethereum/eoa_gen_vanity_address.rs"]}
{"id": "C78", "title": "Types whose values take no bytes", "statement": "Lists and arrays of elements that take no bytes ([T; 0], structs without fields and what is made of them: legal in Rust, illegal in the SSZ standard) are written as no bytes, and what was written cannot be read back: reading a list of them panics whatever the data is, reading an array of them panics on the empty data it was written as and refuses all other data.", "quantifier": "all types whose values take no bytes, all values of lists and arrays of them, all byte strings, both kinds of build", "why_tests_cant": "Such types are made by nesting to any depth, and the claim about reading a list is about all byte strings; the tests have no such type.", "anchors": ["src/blockchain/ethereum/ssz/list_types.rs: try_from_bytes", "src/blockchain/ethereum/ssz/array_types.rs: try_from_bytes", "src/blockchain/ethereum/ssz/core.rs: SszType"]}
{"id": "C79", "title": "Errors say what is wrong", "statement": "Different errors of one call have different messages, which are printable and not empty, and errors inside of errors are kept. The message is true and is the first thing that is wrong: for hexadecimal numbers a sign alone, an odd number of digits or something that is no digit; for SEC 1 keys the format, the coordinate that is not hexadecimal, an abscissa without ordinate, or a point that is no public key; for P1363 signatures the format or numbers out of range; for signing, verification and recovery an empty hash, a hash of the wrong length, a zero hash or a high s.", "quantifier": "all texts, curves, keys, signatures, hashes and options, all error numbers of the operating system, both digit sizes, both kinds of build", "why_tests_cant": "The tests look at a few errors of a few inputs and never at the messages; that a message is true of the input is a claim about all inputs that are refused.", "anchors": ["src/bigint/bigint_new.rs: ParseIntError", "src/crypto/sec1.rs: PointDecodingError", "src/crypto/p1363.rs: SignatureDecodingError", "src/crypto/ecdsa/ecdsa_signing.rs: SigningError", "src/crypto/ecdsa/ecdsa_verifying.rs: VerifyingError", "src/crypto/ecdsa/ecdsa_public_key_recovery.rs: RecoveryError", "src/crypto/rfc6979.rs: GenerateNonceError", "src/blockchain/ethereum/transaction/builder.rs: TransactionBuildingError", "src/blockchain/ethereum/ssz/decoder.rs: SszDataDecodingError"]}
{"id": "C80", "title": "A second curve: P-256", "statement": "Curve parameters can be supplied by the user: with those of NIST P-256, built with the library's own functions and the coefficient a given as -3, the library does what it does on secp256k1. The parameters are sound (the modulus and the order are prime, the base point has that order). With default options public keys are accepted exactly if they are points of the curve with reduced coordinates, private keys exactly in [1, n-1]; signing, verification, recovery and reading a key never panic; hashes are refused exactly if empty, not of 32 bytes or zero; what is signed has low s, verifies, and its key is recovered; verification agrees with the textbook; a signature and its key survive being sent as texts.", "quantifier": "all points, private keys, hashes, signatures, texts and random sources, both digit sizes, both kinds of build", "why_tests_cant": "The tests sign two messages with one key and verify a list of given signatures; the claims are about all keys, hashes and signatures, and that the order of the base point is prime no test can show.", "anchors": ["tests/crypto/curves.rs: nist_p256", "src/crypto/elliptic_curve_params.rs: EllipticCurveParams", "src/math/elliptic_curve.rs: EllipticCurve", "src/crypto/ecdsa/ecdsa_key.rs: PublicKey, PrivateKey", "src/crypto/ecdsa/ecdsa_signing.rs: sign", "src/crypto/ecdsa/ecdsa_verifying.rs: verify", "src/crypto/ecdsa/ecdsa_public_key_recovery.rs: recover_public_keys"]}
{"id": "C81", "title": "Amounts, chain ids, addresses and storage keys from texts", "statement": "Wei::from_decimal reads a decimal numeral as the number it writes and refuses everything else; Wei::from_hex and Wei::try_from read hexadecimal and prefixed texts as the numbers they write and never panic; Wei::to_be_bytes gives the shortest big-endian bytes of the amount; a ChainId made from a number is that number. The RLP encoding of what was built is the encoding of the number that was written. Address::from_hex and StorageKey::from_hex accept exactly 40 and 64 hexadecimal digits, from_bytes exactly 20 and 32 bytes, and keep these bytes.", "quantifier": "all texts, numbers and byte strings, both digit sizes, both kinds of build", "why_tests_cant": "The tests read a few fixed amounts and addresses; the claim is about which of all texts are accepted and the value of each.", "anchors": ["src/blockchain/ethereum/types/currency_unit.rs: Wei", "src/blockchain/ethereum/types/chain_id.rs: ChainId", "src/blockchain/ethereum/types/address.rs: Address", "src/blockchain/ethereum/types/storage_key.rs: StorageKey", "src/blockchain/ethereum/types/currency_unit_rlp.rs", "src/blockchain/ethereum/types/chain_id_rlp.rs"]}
{"id": "C82", "title": "From texts to a sent transaction", "statement": "Take amounts written in decimal, a destination written as 0x and forty digits, a chain id, a nonce and a gas limit as numbers, call data and an access list. The constructors accept them, the builder accepts them whatever the order of the setters, and if signing with a secp256k1 key returns a transaction, its signature verifies under the signer's key over the Keccak-256 hash of the standard encoding of exactly these fields, the transaction identifies the signer, and its bytes are the standard encoding of exactly these fields followed by the parity, r and s. For the example of EIP-155 these are the published bytes. Signing never panics, and returns exactly when one of its nonces can sign or no randomness is to be had.", "quantifier": "all texts, numbers, data, orders of the setters, signing options, keys, random sources, both digit sizes and byte orders, all four kinds of transaction, with and without an access list", "why_tests_cant": "The tests sign a few fixed payloads built field by field; the claim is about every combination of what a user types, through five modules.", "anchors": ["src/blockchain/ethereum/types/currency_unit.rs: Wei::from_decimal", "src/blockchain/ethereum/types/address.rs: Address::try_from", "src/blockchain/ethereum/transaction/builder.rs: TransactionBuilder", "src/blockchain/ethereum/transaction/types: TransactionLegacy, TransactionEip155, TransactionEip2930, TransactionEip1559"]}
