# Formal model of weipin/lightcryptotools in Rocq (Coq 8.16.1)

## Layout

* `rocq/theories/Base.v` – outcome monad (`Ret`/`Panic`/`OutOfFuel`), Rust `Result`, slices.
* `rocq/theories/M_*.v`  – the model: executable Gallina, one definition per Rust function, each with
  a comment citing file and lines. No proofs.
* `rocq/theories/S_*.v`  – small independent specifications (FIPS 180-4, FIPS 202, RFC 2104, RFC 6979,
  Yellow Paper RLP, SSZ, elliptic curve equation, ...), written without the model's helpers.
* `rocq/theories/P_*.v`  – lemmas and proofs.
* `rocq/theories/Prop_*.v` – property theorems only: statement, `exact lemma`, `Print Assumptions`,
  and examples showing that the hypotheses are met by concrete non-trivial cases.

## Modelling decisions

* Bytes, digits and machine words are `Z` with explicit range hypotheses; wrap-around is written with `mod 2^k`.
* `Digit` is `u64`, or `u8` under `cfg(u8_digit)`, and the crate can be built with or without debug assertions and overflow
  checks: the model is parametric in the inductive type `digit_cfg := U64 | U8 | U64_release | U8_release`, and every theorem about
  integers and what is built on them quantifies over it.
* Panics are explicit: index/slice out of range, `unwrap` on `None` and `assert!` give `Panic` in every build; `debug_assert!`
  (`debug_assert! c ;; k`, and `debug_check! m ;; k` where evaluating the condition can itself panic) and arithmetic overflow
  give `Panic` in debug builds only, and in release builds nothing and wrapping. The subtractions and additions of `usize` which no
  build can overflow (lengths of vectors) are not wrapped; comments say which. The RLP decoder and what is built on it have a separate `dbg : bool`
  for their own checks. SSZ is parametric in `build := DebugBuild | ReleaseBuild` in the same way.
  The hash functions and the random source are modelled as debug builds; the hash functions are shown never to panic,
  so that a release build computes the same.
* `&mut` arguments become returned values. Output buffers which the callee first fills with zero are
  represented by their length.
* Loops without a structural bound get fuel with a distinct `OutOfFuel` outcome; theorems exclude it.
* Operator-overload variants (`&a + &b`, `a + &b`, ...) all forward to one implementation and are one definition.

## Plan per property

| id | what is modelled | how it is proved |
|----|------------------|------------------|
| C01–C05 | digit-level add/sub/mul/div/shift/cmp on `BigInt` records (storage, digits_len, sign) | refinement to `Z`: well-formedness invariant + value, induction over digit lists; Knuth D via the classical estimate theorem. C05: shl of zero by a whole number of digits is expected to be refuted |
| C06, C07, C10, C11 | bytes/hex/bit conversions | refinement to positional value, round trips |
| C08, C09 | radix parser, BigUint constructors/operators | value theorem under `digit < radix`; refutations for digit = radix, sign, subtraction |
| C12 | Lehmer gcd with its buffers | loop invariant (cosequence identities, Collins condition), fuel bounded by a + b |
| C13–C16 | modulo, invert, pow, Tonelli–Shanks | refinement to `Z`; Fermat, order argument for Tonelli–Shanks |
| C17 | hex codec | case analysis on characters, induction |
| C18–C20, C22 | hashers as state machines, unrolled rounds | equality with FIPS-style specs whose constants are derived (primes' roots, LFSR) |
| C21 | hmac, generic in the hasher | equality with RFC 2104 spec |
| C23, C24 | affine add/double/mul | group law over Z/pZ by `field`/`nsatz`-style computation; mul by induction on bits |
| C25–C31 | keys, sign, verify, recovery | from C13–C15, C23–C24; secp256k1 instance needs C55 |
| C32 | HMAC-DRBG nonce loop | equality with RFC 6979 spec, range of any returned nonce |
| C33 | option checks | case analysis, exact error characterisation |
| C34 | signing loop with deterministic nonce | refuted: the same nonce is retried for ever when it yields r = 0 or s = 0; exactly when signing returns is proved instead (C34_returns_exactly, C34_deterministic_exactly, C34_loops_exactly) |
| C35–C38 | SEC1, P1363 codecs | round trips; refutations for strictness/totality |
| C39–C43, C56 | RLP encoder/decoder | induction over item trees, fuel-free header lemmas; refutations for panics and canonicity |
| C44–C46 | SSZ deep embedding of types | induction over types; exact acceptance and panic relations (S_SszRead), canonical if two more checks pass; refutations |
| C47–C51 | payloads, transactions, builder | composition of RLP lemmas; builder as state machine; C48 refuted |
| C52, C53, C57 | Address, EoaNonce, Wei, ChainId | case analysis + codec lemmas |
| C54 | chunked getrandom with an OS oracle | induction over chunks |
| C55 | secp256k1 constants | Pocklington certificates, `vm_compute` for nG |
| C58 | named chains | case analysis over the enumeration |
| C59-C63 | the functions of C25-C38 on secp256k1 with default options | the general theorems, with their hypotheses discharged for this curve (primality certificates, a checked addition chain for the order); two full signatures computed as witnesses |
| C64 | the pre-images of C49 | RLP injective and prefix-free by induction on the tree, then fields one by one |
| C65 | the RLP encoder | same induction |
| C66-C68 | the typed and transaction decoders on arbitrary bytes | each decoder proved exact against a relation on trees (S_RlpRead): what it accepts, when it panics; re-encoding is canonical and not longer, by induction on the tree |
| C69 | signing's use of the random source and of the `extra` option | sign_spec (first attempt that works) specialised to the default options; equality of the two runs' loop bodies for the source not being consulted |
| C70 | signing, verification and recovery as relations on numbers | a machine-free relation SIGNING proved sound, complete and functional; outcomes on two configurations compared through the specifications; more fuel never changes an outcome, by monotonicity of the loop |
| C71 | Display of payloads, access lists and transactions (M_Display) | each line proved to show its field (S_Display); texts are cut line by line to recover the fields, since no value but an access list contains a newline, and those are prefix-free by induction; with C64, equal texts mean equal pre-images |
| C72 | `secp256k1()` in threads (M_Once): the Once, the parts of the static, interleaved steps | invariant over reachable states: before, during and after the closure; a measure for calls |
| C73 | hex conversion as programs whose execution records operations, tests, indices and allocations (M_Leak) | symbolic evaluation of the bodies; traces by induction over the chunks; the programs are shown to compute what M_Codec does |
| C74 | texts of bytes, integers, addresses, payloads and transactions | from the specifications of each text (C17, C52, C71) character by character |
| C75 | all functions of the model, in both kinds of build | compositionally: `follows` (the debug run panics or both runs are the same) is kept by bind, loops, assertions and recursion |
| C76 | SSZ decoding, RLP trees | the sound readings of C45 and C41; induction on types and trees, a family of types for the exact factor |
| C77 | the programs in `examples/` as functions of the argument and of the replies of the system (M_Examples) | from C52, C41, C66-C68, C71 and C54; JSON by mutual induction over RFC 8259's grammar; the loop of the search by induction |
| C78 | the SSZ model on types the standard calls illegal (`no_bytes`) | by induction on the type: the size is 0, so the writer adds nothing and the reader divides by 0 |
| C79 | `Display` of the errors (M_Errors, M_Examples) and which error each decoder and each check of a hash returns | messages compared case by case, numbers by uniqueness of numerals; the errors of the decoders from the case analysis of C36, those of hashes from C33 |
| C80 | the functions of C25-C38 on P-256 (M_P256), the curve parameters which the tests supply | as C59-C63: Pocklington certificates, a checked addition chain for the order, and a certificate that x^3 - 3x + b has no root (its greatest common divisor with X^p - X is 1); the signature published in RFC 6979, A.2.5, and one with default options computed as witnesses |
| C81 | the constructors of M_EthTypes | from C08, C09, C06 and C42; exact for the code's looser decimal rule (`reads_as`), of which "1a" and "-7" are refutations of the strict claim; the encodings of the amounts from the RLP specification |
| C82 | the constructors, the builder, `sign_payload` and the encoders composed; `S_Send` lists the fields of each kind of transaction | from C81, C51, C49, C50 and C47 by composition; the example of EIP-155 by evaluating HMAC and an addition chain, for every configuration; when signing returns, from C34 |

The status of each property is in `MANIFEST.json`, with the names of its theorems and what is missing where
it is `partial`. In most of those cases the code does not have the property: a theorem ending in `_refuted`
exhibits an input, and the theorems ending in `_partial` say what holds, where possible as an exact
characterisation.

## Trusted base

* The kernel of Coq 8.16.1, including its virtual machine (`vm_compute` is used for concrete computations:
  round constants of the hash functions, certificates for secp256k1 and P-256, examples). `native_compute` is not used. All
  files are also accepted by `coqchk`, which does not use the virtual machine.
* Axioms: none. `Print Assumptions` follows every property theorem in `Prop_*.v` and prints
  `Closed under the global context` for each of them. The development declares no axiom, parameter, functor or
  module type, and leaves nothing admitted. Seven constants `Coq.ssr.ssrunder.Under_rel.*` are reported by tools which list
  the axioms of all *loaded* files: they belong to the standard library's `ssrunder.v`, which `lia` loads, and no theorem here
  depends on them.
* Only Coq's standard library is used (`ZArith`, `Znumtheory`, `List`, `Lia`, `Ring`/`Field` tactics, `Bool`, `Permutation`).
* The reading of the Rust code by a person: the model was written by hand from the source, function by function; there
  is no extraction or translation tool in between. Each definition cites the lines it models so that it can be compared.
* The specifications `S_*.v`, written from FIPS 180-4, FIPS 202 (and the original Keccak padding), RFC 2104, RFC 6979, SEC 1, SEC 2,
  IEEE P1363, the yellow paper (RLP, address, signing), EIP-55, EIP-155, EIP-2718, EIP-2930, EIP-1559 and the SSZ specification.

## What is modelled

| code | model |
|------|-------|
| `src/bigint/*` (digits, `BigInt`, `BigUint`, text, bytes, bits, gcd) | `M_Word`, `M_BigInt`, `M_BigText`, `M_Gcd` |
| `src/math/modular.rs`, `src/math/elliptic_curve.rs` | `M_Modular`, `M_Curve` |
| `src/tools/*` and `src/crypto/codecs.rs` | `M_Codec`, and `Base` for the slices; hex conversion once more in `M_Leak`, with what it leaks |
| `src/crypto/hash/*` (SHA-2, SHA-3, Keccak, HMAC) | `M_Sha2`, `M_Sha3`, `M_Hmac` |
| `src/crypto/elliptic_curve_params.rs`, `secp256k1.rs` | `M_Curve`; as threads run it, `M_Once` |
| `src/crypto/ecdsa/*`, `src/crypto/rfc6979.rs` | `M_Ecdsa`, `M_Rfc6979`, `M_Parity` |
| `src/crypto/sec1.rs`, `p1363.rs`, `ecdsa_encoding.rs` | `M_Encoding` |
| `src/random/*`, `src/os/*` (Linux, Apple, Windows) | `M_Random`: the system call is a function from requests to replies |
| `src/blockchain/ethereum/rlp/*` | `M_Rlp` |
| `src/blockchain/ethereum/ssz/*` | `M_Ssz`: the types are a deep embedding of the impls of the traits |
| `src/blockchain/ethereum/types/*` | `M_EthTypes` |
| `src/blockchain/ethereum/transaction/*` | `M_Tx`, `M_TxSign`, `M_Display` |
| `src/blockchain/ethereum/account/*` | `M_Eoa` |
| `Display` of errors | `M_Errors`, `M_Examples` |
| `tests/crypto/curves.rs` | `M_P256` |
| `examples/*` | `M_Examples`; of `serde_json` the pretty printing of arrays and strings, of `std` the parsing of a `u32` |

## What is not modelled

  `Debug`, `Clone`, `Default` and the other derived impls; `src/testing_tools`, unit tests and benchmarks.
* Operator impls for owned and borrowed operands which call one another: one definition stands for all.
* Time, memory, capacity hints, allocation failure, stack depth (RLP decoding is recursive), side channels (but see C73 for hex conversion), erasing of secrets.
* Ownership and lifetimes. A reference to curve parameters inside a key or a signature is modelled by the parameters.
* Threads, except for `secp256k1()`, whose static is the only mutable state in the repository that threads share (C72). There, steps are
  interleaved and sequentially consistent, which is what Rust promises to programs without data races (C72_no_race), and
  `std::sync::Once` does what its documentation says.
* `usize` is 64 bits wide. Lists (`Vec`) are assumed shorter than 2^63, which Rust guarantees; where it matters the bound is a hypothesis.
* The trait machinery: `Encodable`/`Decodable` and `HashAlgorithm` impls are chosen explicitly (`hasher_of`, the encoder given to `encode`).
* Fuel: the loops of signing and of nonce generation have no bound in the code. The model takes a number and gives `OutOfFuel` when it
  is used up; theorems about results hold for every amount, and termination is a separate theorem (C32, C34).

## Reading a property

The theorem of property `Cnn` is in a `Prop_*.v` file under a heading `Cnn`, with examples beside it which show that its hypotheses are met.
`S_Recover.v` says when multiplying a point, and hence key construction and recovery, meets a point of order two (the double-and-add panics there).
`code_params`, `code_sk`, `code_pk`, `code_sig` (in `S_Ecdsa.v`, `S_EcModel.v`) describe what the constructors of the program accept: numbers in range, valid parameters.
`wf` (in `S_BigInt.v`) is the invariant of big integers; C05 is about it.
