# Formal model of graviola in Rocq (Coq 8.16.1)

Source of truth: `/repo` (read as text, never built or run). Model and proofs: `/verif/rocq/theories`.
Properties: `properties.jsonl`. Theorem names per property: `MANIFEST.json`. Wrong programs tried
against the theorems: `seeded/LOG.jsonl`.

## Layout

* `Base.v`  – bytes, result type, endianness, list slicing (no project content).
* `M_*.v`   – the model: small total Gallina functions, one per Rust function, each with a
              comment citing file and lines.  No proofs in these files.
* `S_*.v`   – independent specifications (FIPS 180-4, 197, 198-1, 202, 203, RFC 6979, 7748, 8017,
              8032, 8439, SP 800-38D, SP 800-90A, SEC 1, X.690, TLS RFCs), and the contracts assumed
              of assembly routines.  They do not use model functions.
* `L_*.v`   – lemmas.
* `T_*.v`   – the property theorems (`Cnn_...`), each followed by `Print Assumptions`, with
              `Example`s showing that the hypotheses are met by concrete values.

A theorem called `..._refuted` proves, with a witness, that the natural stronger reading of a property
is false of the code; these are the findings listed at the end.  A theorem called `..._partial` proves
part of what its property claims.

## Modelling conventions

* Bytes and machine words are `Z` with explicit range predicates (`byte_ok`, `u64`) and explicit `mod 2^k`.
* `Result<T, Error>` is `res T` with one flat error type; a panic (index out of range, `unwrap`,
  overflow check, explicit `panic!`) is the separate value `Panic`.
* `&mut` parameters are returned.  An output buffer is its length; the result is what is written.
* Loops are structural recursion or folds.  Loops without a bound in the code take `fuel`, and
  theorems quantify over every fuel.
* `debug_assert!` is left out (absent in release builds).
* A random source is a function (possibly stateful) from a length to bytes or an error; theorems hold
  for every such function.
* Assembly routines are fields of records or section variables.  Every theorem that needs something
  of them has the contract as a visible premise; no contract is an axiom.
* Vector instructions used through `core::arch` are functions with the meaning of the Intel and Arm manuals.

## Properties: what is modelled and how it is proved

| id | modelled code | method |
|----|---------------|--------|
| C01–C05 | `high/asn1.rs`, `asn1/pkix.rs`, `asn1/oid.rs`, all eight structures | codec combinators mirroring the macros; exactness (accepts exactly the DER of the spec tree) by induction; buffer size by induction |
| C06 | `high/pkcs8.rs` | case analysis on top of C01 |
| C07, C08 | `blockwise.rs`, `mid/sha2.rs`, `generic/sha256.rs`, `generic/sha512.rs`, `high/hash.rs` | invariant "state = compressions of full blocks, buffer = rest"; schedule window invariant; refinement to FIPS 180-4 |
| C09, C10 | `high/hmac.rs`, `high/hmac_drbg.rs` | refinement to FIPS 198-1, SP 800-90A; induction over operations |
| C11 | `mid/sha3.rs` | sponge invariant; Keccak-f is a parameter; round constants proved from the LFSR |
| C12 | `generic/chacha20.rs`, `x86_64/chacha20.rs` | lane-wise model of the 256-bit registers; refinement to RFC 8439 |
| C13 | `generic/poly1305.rs` | limb bounds and evaluation modulo 2^130-5 |
| C14, C15 | `mid/chacha20poly1305.rs`, `mid/xchacha20poly1305.rs`, `mid/aes_gcm.rs` | on top of C12, C13, C16 |
| C16 | `x86_64/{aes,ghash,aes_gcm}.rs` | aggregated GHASH = Horner in GF(2^128) given as bit polynomials; counter blocks; AES rounds |
| C17, C52 | `ct_equal`, `ct_copy`, `hash.rs` comparison, `ct_compare_bytes` (both targets) | bit lemmas; instruction-level model, trace equality |
| C18 | `low/posint.rs` conversions | induction on words |
| C19–C21 | `low/posint.rs` Montgomery arithmetic, `rsa_pub.rs`, `rsa_priv.rs` | assembly contracts; CRT and Fermat in Z |
| C22–C25 | `high/pkcs1.rs`, `high/rsa.rs` | exactness of encodings, key documents and signatures against RFC 8017 |
| C26 | `rsa_priv/generate.rs` | induction over the random stream; partial: exponents of 8192-bit keys |
| C27–C29, C33, C46 | `mid/p256.rs`, `mid/p384.rs`, `high/curve.rs`, `mid/x25519.rs` | Booth recoding, window loop invariants, unreachability of the exceptional case |
| C30–C32 | `high/ecdsa.rs` | field arithmetic modulo n over the curve group |
| C34, C50 | `mid/ed25519.rs`, `high/ed25519.rs` | group law of the twisted Edwards curve proved; equations of RFC 8032 |
| C35–C38 | `mid/mlkem768.rs`, `generic/mlkem.rs` | rounding arithmetic, list induction, stream refinement |
| C39, C40, C43 | `rustls-graviola/src/aead.rs` | on top of the AEAD results |
| C41 | `rustls-graviola/src/ticketer.rs` | any sequence of operations |
| C42 | `rustls-graviola/src/kx.rs`, `kx/{hybrid,mlkem}.rs` | framing and composition |
| C44, C45, C53 | `rustls-graviola/src/{sign,verify}.rs` | exactness of key loading; composition of the signature theorems |
| C47, C51 | `low/entry.rs`, `low/{x86_64,aarch64}/cpu.rs` | induction over call trees; instruction-level loop invariants |
| C48 | `mid/util.rs` | induction on words |
| C54 | `x86_64/{sha256,sha512}.rs`, `aarch64/sha256.rs`, the two `*_mux.rs` | instruction semantics in `S_Simd`; register invariants per group of rounds; induction on blocks; simulation of the hashing context |
| C56 | `aarch64/{aes,ghash,aes_gcm}.rs` | refinement to the x86-64 model: same round keys, same products in the field, induction over the eight-block loop |
| C57 | none beyond C37 and C42 | Z_q[X]/(X^256+1) is shown a commutative ring and the NTT of FIPS 203 an isomorphism of it (orthogonality of the roots of unity); decryption gives message + error, the error being written out in S_MlKemNoise; a coefficient within q/4 rounds to the right bit |
| C58 | `low/{x86_64,aarch64}/bignum_copy_row_from_table*.rs`, `bignum_point_select_p{256,384}.rs` | each lookup returns the words and the list of reads; induction over rows with the state of counter and accumulators, then over the words of a row; tied to the lookups in the models of C19 and C29 |
| C59 | `rustls-graviola/src/{suites,hash,hmac,aead}.rs` | names from the IANA registry in `S_Suites`; contexts and forks as a state machine on histories, induction over the calls; records by composition with C39 |
| C60 | `low/generic/ghash.rs`, with the models of C16 and C56 | the portable loop is Algorithm 1 of SP 800-38D with the factors exchanged; the blocks are a field: a^(2^128) = a because squaring is additive and fixes t, and e^2 = e only for 0 and 1 by an explicit left inverse of e -> e^2 + e, checked on the 128 single bits; the hash is a polynomial in the subkey, a polynomial has at most as many roots as its degree, and the lengths block makes the encoding injective |
| C61 | the models of C13 to C15 | 2^130 - 5 is prime by a Pocklington certificate (`L_Prime1305.v`); the accumulator is a polynomial in the multiplier whose coefficients are the block numbers, all between 1 and the prime, so different messages give different polynomials; a polynomial modulo a prime has at most as many roots as its degree; two accumulators that agree modulo 2^128 differ by one of eight numbers; the second half of the one-time key cancels; the lengths block makes the encoding injective |
| C62 | the models of C28 to C31 | a valid (r, s) comes with a point R with s.R = e.G + r.Q whose abscissa is r modulo n; -R serves n - s; different s (or different e) give different R because every point has order n; an abscissa has at most two ordinates because y^2 = a has at most two roots modulo a prime, and r modulo n leaves at most two abscissae because p < 2n |
| C63 | the models of C18 to C22 | by the exactness of verification (C22) an accepted number is a root of the padded block; a valid key makes powers one-to-one (Fermat and the Chinese remainder theorem, as in C53); zeros in front do not change the number |
| C64 | the models of C34 | by the exactness of verification (C34) both challenges give the same multiple of the key, and multiples below l of a point of order l differ; the scalar of a seed is 8 times a number between 0 and l, so its key is not the neutral point; multiples of the neutral point are neutral |
| C49 | `high/ecdsa.rs` key documents | exactness on top of C01, C06, C27, C28 |
| C55 | the constants of P-256, P-384 and edwards25519 | Pocklington certificates; group law for every nonsingular curve; exact order of the base point; counting of cosets and points of order two |

Nothing on the list was found to be inexpressible.

## Trusted base

1. The kernel of Coq 8.16.1 (and `coqchk`, which re-checks the compiled files).  Some proofs use
   `vm_compute`; `coqchk` re-checks them by ordinary conversion.
2. Axioms: none.  `Print Assumptions` prints "Closed under the global context" for every theorem named in
   `MANIFEST.json`.
3. The transcription of Rust into Gallina (comments cite the lines) and of the standards into `S_*.v`.
4. Contracts, as visible premises:
   * `S_Bignum.bignum_ok` – Montgomery and inversion routines of s2n-bignum as their header comments say;
     `demont_fills` where the result of `bignum_demont` must be normalised.
   * `S_Ec.field_ok`, `scalar_ok`, `base_ok` – field, scalar and precomputed-table routines of P-256 and
     P-384.  The point formulas written in assembly are covered by `jac_is` contracts inside `field_ok`.
     Constants of the two curve modules are checked, not assumed (`C29_p256_module`, `C29_p384_module`).
   * `S_EdLow.ed_low_ok` – Edwards scalar multiplication and decoding, arithmetic modulo L.
   * `S_X25519.x25519_asm_ok` – the two X25519 routines.
   * `S_MlKemAsm.asm_ok` – NTT, base multiplication, reductions, packing, rejection sampling.
   * Keccak-f[1600] is any function `kf`; theorems say "the sponge over kf".
   * The AES, PCLMULQDQ and AVX instructions as defined in `M_Aes`, `M_Ghash`, `M_ChaCha`, the AES, PMULL and
     NEON instructions of Armv8 as defined in `M_ArmGcm`, the SHA and AVX2
     instructions of x86-64 and the SHA-2 instructions of Armv8 as defined in `S_Simd`, and the few integer and
     SIMD instructions of `M_CpuAsm`, and the compare, mask and select instructions of `M_Select`.
   For each contract an instance is given (`L_BignumRef`, `L_EcRef`, `L_EdEx`, ...), so premises can be met.
5. Mathematical facts, as visible premises:
   * None about P-256, P-384, edwards25519 and curve25519.  Theorems about the curve code are stated for any curve meeting
     `S_Curve.curve_group` or `S_Ed.ed_ok`; these hold for the real curves (`L_P256`, `L_P384`, `L_E25519`; property
     C55) and for small ones (`L_CurveEx`, `L_EdEx`).  Primality is by Pocklington certificates (`L_Pock`,
     `L_Primes*`), associativity by `L_Weier` and `L_Ed`, the order of the base point by double-and-add chains, and
     the number of points by counting (`L_Order`).  That RFC 7748's ladder multiplies points, and so commutes, is
     `L_X25519`.
   * Primality of the two factors of an RSA key, where a theorem is about keys that are valid.
6. `rustls` functions called by the provider crate (nonce construction, additional data, padding
   removal, the default `start_and_complete`, `resolve_sig_schemes`) are modelled from their documentation.

## Not modelled

* Assembly taken from s2n-bignum and mlkem-native (only contracts, see 4), the numbers in `precomp.rs`.
* Secret/public annotations for the constant-time checker (`low::ct`), zeroisation on drop, and timing in
  general, except the two assembly loops of C51 and C52, the DIT flag of C47 and the addresses read by the
  lookups of C58.
* CPU feature detection beyond the presence checks of C47; the operating-system random source.
* `rustls` itself, TLS state machines, key schedule, ticket rotation.

## Findings (places where the code does less, or something else, than one would expect)

1. PKCS#8 import ignores data after the outer structure (`C06_whole_slice_refuted`).
2. PKCS#1 verification rejects every signature, also correct ones, when the byte length of the modulus is not
   a multiple of 8 (`C22_length_refuted`); signatures are a whole number of 8-byte words, so a signature whose
   number is small is shorter than the modulus.
3. Moduli of 2041 to 2047 bits are accepted as 2048-bit keys; PSS needs a multiple of 64 bits.
4. RSA import checks neither n = p·q nor the parity of e; negative INTEGERs are read as unsigned
   (`C25_consistency_refuted`, `C25_negative_refuted`); a public key with e >= 2^31 exports but does not import
   (`C25_public_round_trip_refuted`).  dp = 0 or dq = 0 panics when signing.
5. CRT with p < q gives wrong intermediate values, caught by the final check (`C21_p_below_q_refuted`).
6. Modular inversion misplaces a carry when the modulus fills its array; reachable only for 8192-bit keys
   (`C26_inversion_refuted`).
7. RSA generation has no minimum |p-q|, and composites can pass Miller-Rabin for chosen bases
   (`C26_primality_refuted`).
8. ECDSA signing does not retry when s = 0 (`C30_unconditional_refuted`); probability about 2^-256.
9. Short output buffers give `Asn1Error(UnexpectedEof)` where `WrongLength` is documented.
10. Elliptic-curve points with coordinates not below p are accepted and reduced (`C28_canonical_refuted`).
11. Ed25519 SubjectPublicKeyInfo parameters are not checked to be absent (`C50_spki_parameters_refuted`).
12. The public key in the PKCS#8 v2 wrapper of an EC key is ignored (`C49_wrapper_public_key_refuted`).
13. Ed25519 verification reduces the challenge modulo L (`C34_unreduced_challenge_refuted` shows it can matter only
    for points outside the prime-order subgroup).
14. A SEC1 document without curve name and public key loads as P-256 when its number is below the order of
    P-256, even if it was a P-384 key (`C45_sec1_unnamed_refuted`).
15. The TLS RSA signer ignores the length returned by signing: a signature shorter than the buffer gets zero
    bytes on the right and does not verify (`C53_rsa_signer_short_refuted`; about one signature in 2^64).
16. ChaCha20 and AES-GCM do not enforce the message length limits; counters wrap
    (`C12_length_limit_refuted`, `C16_length_limit_refuted`, `C16_avx512_wrap_refuted`).  The AVX2 ChaCha context skips
    a block when used in pieces (`C12_avx2_resumes_refuted`); not reachable through the AEADs.
17. TLS 1.2 ChaCha20 decryption has no maximum-fragment check (`C40_tls12_chacha_bound_refuted`).
18. A session ticket for the empty message is issued but never decrypts (`C41_empty_message_refuted`).
19. HMAC_DRBG instantiated from an empty seed (`C10_empty_seed_refuted`) is outside SP 800-90A.
20. On x86_64 the registers zmm16–31 are not wiped on exit (`C47_avx512_registers_refuted`).
21. `zero_bytes` with a length of 2^63 or more wipes nothing (`C51_length_refuted`); no Rust slice is that long.
22. The DER encoder can emit lengths above 65535 that the parser refuses.
23. SHA-256 panics at the end of a message of 2^61 bytes or more.
24. No TLS 1.2 cipher suite lists ED25519, so a server with an Ed25519 key has no TLS 1.2 suite it can use
    (`C59_ed25519_tls12_refuted`), though `default_provider` is documented to have the same algorithms as the ring
    provider.
25. ECDSA verification accepts r || n - s wherever it accepts r || s, as the standard does
    (`C62_companion_signature`), so signatures must not be used as identifiers.
26. PKCS#1 v1.5 verification does not check the length of the signature, which RFC 8017 section 8.2.2 demands: zeros in front
    of an accepted signature are accepted, in any number (`C63_length_refuted`). PSS verification rejects longer
    signatures but takes shorter ones (C23).
27. An Ed25519 public key that encodes the neutral point is accepted, and under it one signature is accepted for all messages
    (`C64_neutral_key_refuted`). RFC 8032 does not forbid such keys; an application that relies on a signature naming
    its message must refuse them itself.
