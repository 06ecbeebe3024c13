{"id": "C01", "title": "DER encode/decode round trip", "statement": "For every value of every ASN.1 structure the library exchanges (RSA public/private key, SubjectPublicKeyInfo, SEC1 EC key, PKCS#8 key, ECDSA signature), encoding it into a large enough buffer and decoding the result returns the same value, as long as the encoding is within the 65535-byte length limit of the decoder.", "quantifier": "all values of each structure, all field contents and lengths", "why_tests_cant": "Field lengths and values are unbounded; length-encoding boundaries (127/128/255/256/65535) interact with nesting", "anchors": ["graviola/src/high/asn1.rs: asn1_struct!, Type, Parser, Encoder", "graviola/src/high/asn1/pkix.rs"]}
{"id": "C02", "title": "DER decoding is canonical (non-malleable)", "statement": "If a byte string is accepted as a whole ECDSA signature, RSA public key or other structure built from INTEGERs, then it is exactly the byte string the encoder produces for the decoded value; hence two different byte strings are never accepted for the same value.", "quantifier": "all byte strings of any length", "why_tests_cant": "The set of alternative (BER) encodings of one value is infinite", "anchors": ["graviola/src/high/asn1.rs: Parser, Integer::parse, Encoder"]}
{"id": "C03", "title": "The DER decoder is total and never reads outside its input", "statement": "Decoding any byte string yields either a value or an error: no panic, out-of-bounds index, or integer overflow; every byte string returned as part of a value is a contiguous piece of the input.", "quantifier": "all byte strings of any length", "why_tests_cant": "Adversarial inputs are unbounded", "anchors": ["graviola/src/high/asn1.rs: Parser::*", "graviola/src/high/asn1/pkix.rs"]}
{"id": "C04", "title": "Encoding succeeds exactly when the buffer is big enough", "statement": "Encoding a value into a buffer of n bytes succeeds iff n is at least the advertised encoded length, and then writes exactly that many bytes at the front, otherwise it returns an error.", "quantifier": "all values and all buffer sizes", "why_tests_cant": "Every value/buffer-size pair", "anchors": ["graviola/src/high/asn1.rs: Encoder, encoded_len"]}
{"id": "C05", "title": "Whole-message decoders reject trailing data", "statement": "A key or signature followed by one or more extra bytes is rejected. (True for PKCS#1, SPKI, SEC1 and ECDSA signatures; for PKCS#8 input the code accepts trailing bytes although documented otherwise.)", "quantifier": "all valid inputs, all non-empty suffixes", "why_tests_cant": "Universal over inputs and suffixes", "anchors": ["graviola/src/high/asn1.rs: Type::from_bytes", "graviola/src/high/pkcs8.rs: Key::decode"]}
{"id": "C06", "title": "PKCS#8 import accepts only the requested algorithm and the version/public-key rule", "statement": "Importing a PKCS#8 document succeeds only if algorithm OID and parameters are those of the key type, the version is 0 or 1, and a public key is absent when the version is 0; the returned private key bytes are the octet-string content; re-encoding then importing returns the same key.", "quantifier": "all byte strings", "why_tests_cant": "Universal over documents", "anchors": ["graviola/src/high/pkcs8.rs"]}
{"id": "C07", "title": "Hash results do not depend on how input is split", "statement": "For SHA-256, SHA-384, SHA-512: feeding a message in any sequence of pieces (including empty ones) gives the same digest as hashing it in one call.", "quantifier": "all messages, all splittings into any number of pieces", "why_tests_cant": "Infinite number of splittings; block-buffer boundary cases", "anchors": ["graviola/src/low/generic/blockwise.rs", "graviola/src/mid/sha2.rs"]}
{"id": "C08", "title": "SHA-2 computes the FIPS 180-4 function", "statement": "For every message within the length limit the streaming contexts return the digest defined by FIPS 180-4 (padding, block parsing, message schedule and round function).", "quantifier": "all messages shorter than 2^61 bytes", "why_tests_cant": "Test vectors are finite; padding boundaries for each length mod block size and length-encoding carry", "anchors": ["graviola/src/mid/sha2.rs", "graviola/src/low/generic/sha256.rs", "graviola/src/low/generic/sha512.rs"]}
{"id": "C09", "title": "HMAC computes FIPS 198-1 and verify accepts exactly the right tag", "statement": "For every key length (shorter, equal, longer than a block) and every message in any pieces, HMAC output is H((K^opad)||H((K^ipad)||m)); verify succeeds iff the supplied tag is equal to this output (any other length or content is rejected).", "quantifier": "all keys, messages, splittings, candidate tags", "why_tests_cant": "Unbounded domain", "anchors": ["graviola/src/high/hmac.rs"]}
{"id": "C10", "title": "Deterministic ECDSA nonces follow RFC 6979 / SP 800-90A", "statement": "The nonce generator used for ECDSA, for any entropy, nonce and personalisation parts and any sequence of requests and reseeds, produces the byte stream of the SP800-90A HMAC_DRBG; candidates out of [1,n-1] are skipped.", "quantifier": "all inputs and all operation sequences", "why_tests_cant": "State evolves over unlimited calls", "anchors": ["graviola/src/high/hmac_drbg.rs", "graviola/src/high/ecdsa.rs"]}
{"id": "C11", "title": "SHA-3 and SHAKE: absorbing and squeezing in pieces", "statement": "Absorbing a message in any pieces and squeezing in any sequence of read sizes gives the bytes FIPS 202's sponge construction (with the Keccak permutation as parameter) gives for the whole message; the parallel multi-lane variants agree with the single-lane one.", "quantifier": "all messages, splittings, and read-size sequences", "why_tests_cant": "Infinite splittings; rate-boundary interplay", "anchors": ["graviola/src/mid/sha3.rs"]}
{"id": "C12", "title": "ChaCha20 keystream is the RFC 8439 keystream at every length", "statement": "Encrypting a buffer of any length xors it with the RFC 8439 keystream starting at the current block counter; the vectorised implementation (8-block, 2-block and ragged paths) agrees with the portable one; applying it twice restores the buffer.", "quantifier": "all keys, nonces, buffers of any length", "why_tests_cant": "Path selection depends on length (mod 512, 128, 64), values unbounded", "anchors": ["graviola/src/low/generic/chacha20.rs", "graviola/src/low/x86_64/chacha20.rs"]}
{"id": "C13", "title": "Poly1305 computes the RFC 8439 function", "statement": "For every 32-byte key and every message in any pieces, the tag is ((sum of blocks * r^i) mod 2^130-5 + s) mod 2^128; no intermediate word overflows.", "quantifier": "all keys, messages and splittings", "why_tests_cant": "Carry-propagation corner cases are too rare for random tests", "anchors": ["graviola/src/low/generic/poly1305.rs"]}
{"id": "C14", "title": "AEAD open(seal(m)) = m", "statement": "For ChaCha20-Poly1305, XChaCha20-Poly1305 and AES-GCM: decrypting the result of encryption with the same key, nonce and aad succeeds and restores the plaintext, for plaintext and aad of any length.", "quantifier": "all keys, nonces, aads, plaintexts", "why_tests_cant": "Unbounded lengths and values", "anchors": ["graviola/src/mid/chacha20poly1305.rs", "graviola/src/mid/xchacha20poly1305.rs", "graviola/src/mid/aes_gcm.rs"]}
{"id": "C15", "title": "AEAD open rejects every other tag and reveals no plaintext", "statement": "decrypt succeeds iff the supplied tag is exactly the 16-byte tag of (key, nonce, aad, ciphertext); otherwise it returns DecryptFailed and the whole buffer is zero.", "quantifier": "all keys, nonces, aads, ciphertexts, tags of any length", "why_tests_cant": "Universal over forged tags/lengths", "anchors": ["graviola/src/mid/chacha20poly1305.rs: decrypt", "graviola/src/mid/xchacha20poly1305.rs: decrypt", "graviola/src/mid/aes_gcm.rs: decrypt", "graviola/src/low/generic/ct_equal.rs"]}
{"id": "C16", "title": "AES-GCM implements SP 800-38D at every length and on every CPU path", "statement": "The interleaved by-8 path, the AVX-512 by-16 path and the tail handling produce the ciphertext and tag of the textbook GCM definition for any aad and plaintext length up to the GCM limit; encryption with and without AVX-512 agree.", "quantifier": "all keys, nonces, aads, plaintexts up to 2^36-32 bytes", "why_tests_cant": "Path selection depends on length, loop interleaving; counters near wrap are untestable", "anchors": ["graviola/src/mid/aes_gcm.rs", "graviola/src/low/x86_64/aes_gcm.rs", "graviola/src/low/x86_64/ghash.rs", "graviola/src/low/generic/ghash.rs"]}
{"id": "C17", "title": "Constant-time equality and conditional copy are exact", "statement": "The constant-time comparison returns true iff the slices are equal (and of equal length); the conditional copy/select returns exactly one of its two inputs according to the flag.", "quantifier": "all byte strings / words", "why_tests_cant": "A comparison that misses one bit pattern passes random tests", "anchors": ["graviola/src/low/generic/ct_equal.rs", "graviola/src/low/generic/ct_copy.rs", "graviola/src/low/x86_64/cpu.rs: ct_compare_bytes"]}
{"id": "C18", "title": "Big integer byte conversion is exact", "statement": "Reading a big-endian byte string and writing it back at the same length is the identity; over-long inputs are errors; leading zeros are ignored in value; comparisons agree with integer order.", "quantifier": "all byte strings", "why_tests_cant": "Unbounded", "anchors": ["graviola/src/low/posint.rs: from_bytes, to_bytes, less_than, equals"]}
{"id": "C19", "title": "RSA public operation is exact modular exponentiation", "statement": "For every odd modulus, exponent and ciphertext value smaller than the modulus, the public operation returns c^e mod n (c^e = 0 mod n excepted, where the representative may be n); inputs not smaller than the modulus are rejected.", "quantifier": "all keys and inputs", "why_tests_cant": "Carry and final-subtraction corner cases have negligible random probability", "anchors": ["graviola/src/mid/rsa_pub.rs: public_op", "graviola/src/low/posint.rs: mod_exp, mont_*"]}
{"id": "C20", "title": "RSA private operation never releases a wrong result", "statement": "Whatever the private key fields contain (even inconsistent) and whatever goes wrong in the two half-size exponentiations, a returned value m satisfies m^e = c (mod n); otherwise an error is returned.", "quantifier": "all key field values, inputs, and arbitrary results of the CRT halves (fault model)", "why_tests_cant": "Faults and malformed keys cannot be enumerated", "anchors": ["graviola/src/mid/rsa_priv.rs: private_op"]}
{"id": "C21", "title": "RSA CRT decryption/signing is correct for valid keys", "statement": "For every key with primes q < p, matching dp, dq, qinv, the private operation returns the m with m = c^d mod n for every c < n. (For imported keys with p < q the code can fail: see design notes.)", "quantifier": "all valid keys, all inputs", "why_tests_cant": "Infinite keys/inputs", "anchors": ["graviola/src/mid/rsa_priv.rs: private_op", "graviola/src/low/posint.rs"]}
{"id": "C22", "title": "PKCS#1 v1.5 verification accepts exactly one encoded message", "statement": "verify_pkcs1_* accepts iff the public operation on the signature yields precisely 00 01 FF..FF 00 || DigestInfo(hash) || H(m) of the modulus length; no padding, parameter or trailing variants are accepted; different messages with different hashes never share an encoding.", "quantifier": "all signatures, messages, keys", "why_tests_cant": "Bleichenbacher-style variants are unbounded", "anchors": ["graviola/src/high/pkcs1.rs", "graviola/src/high/rsa.rs: _verify_pkcs1"]}
{"id": "C23", "title": "PSS encode/verify agree with RFC 8017", "statement": "Every encoding produced for a message hash and salt verifies; verification accepts exactly the byte strings RFC 8017 EMSA-PSS-VERIFY (salt length = hash length) accepts.", "quantifier": "all hashes, salts, encoded messages, sizes", "why_tests_cant": "Unbounded", "anchors": ["graviola/src/high/pkcs1.rs: encode_pss_sig, verify_pss_sig, mgf1"]}
{"id": "C24", "title": "RSA sign then verify succeeds", "statement": "For every valid key whose modulus length is a multiple of 8 bytes and every message, a signature returned by sign_* is accepted by verify_* of the matching public key (given the public operation inverts the private one).", "quantifier": "all keys, messages, randomness", "why_tests_cant": "Universal", "anchors": ["graviola/src/high/rsa.rs"]}
{"id": "C25", "title": "RSA key import validation", "statement": "Imported RSA public keys have an odd modulus of 256..1024 bytes and a non-zero exponent below the advertised limit; private keys satisfy the consistency checks; anything else is rejected; import of an exported key returns the same key.", "quantifier": "all DER inputs", "why_tests_cant": "Universal", "anchors": ["graviola/src/high/rsa.rs", "graviola/src/high/pkcs1.rs", "graviola/src/mid/rsa_pub.rs", "graviola/src/mid/rsa_priv.rs"]}
{"id": "C26", "title": "RSA key generation yields consistent keys", "statement": "Any key returned by generation (for any randomness) has p > q, p and q of exactly half size with two top bits set, gcd(e,p-1)=gcd(e,q-1)=1, n = pq of exactly the requested bit length, and the CRT parameters satisfy their defining congruences; generation never accepts a number that fails trial division or any Miller-Rabin round.", "quantifier": "all random byte streams", "why_tests_cant": "Randomness space is astronomically large", "anchors": ["graviola/src/mid/rsa_priv/generate.rs"]}
{"id": "C27", "title": "Scalars are accepted iff in [1, n-1]", "statement": "Private-key and signature scalar decoding for P-256 and P-384 accepts exactly the byte strings of the right length with value in [1,n-1] (any-size variant: leading zeros ignored), and preserves the value.", "quantifier": "all byte strings", "why_tests_cant": "Boundary values among 2^384", "anchors": ["graviola/src/mid/p256.rs: Scalar", "graviola/src/mid/p384.rs: Scalar", "graviola/src/mid/util.rs"]}
{"id": "C28", "title": "Public points are accepted iff well-formed and on the curve", "statement": "from_x962_uncompressed accepts iff the first byte is 4, the length is right and (x,y) satisfies the curve equation; the accepted point re-encodes to the input when the coordinates are canonical. (Coordinates >= p are accepted and reduced: see design notes.)", "quantifier": "all byte strings", "why_tests_cant": "2^512 inputs", "anchors": ["graviola/src/mid/p256.rs: from_x962_uncompressed", "graviola/src/mid/p384.rs"]}
{"id": "C29", "title": "Scalar multiplication is exact for every scalar", "statement": "The Booth-recoded fixed-window multiplications (base point and arbitrary point, public and secret variants) return k*P for every scalar 1 <= k < n and never hit an undefined case of the incomplete addition formulas.", "quantifier": "all scalars, all points of order n", "why_tests_cant": "Exceptional scalars are too rare to find by testing", "anchors": ["graviola/src/mid/p256.rs: multiply_w7, multiply_w5, BoothRecodeW7, BoothRecodeW5", "graviola/src/mid/p384.rs"]}
{"id": "C30", "title": "ECDSA sign then verify succeeds", "statement": "A signature returned by signing (for any key, message, RNG output) is accepted by verification with the matching public key, in both fixed and ASN.1 forms, whenever s is non-zero.", "quantifier": "all keys, messages, nonces", "why_tests_cant": "Universal", "anchors": ["graviola/src/high/ecdsa.rs", "graviola/src/mid/p256.rs: raw_ecdsa_*", "graviola/src/mid/p384.rs"]}
{"id": "C31", "title": "ECDSA verification accepts exactly the valid signatures", "statement": "verify succeeds iff the signature has the right length/encoding, r,s in [1,n-1] and the x coordinate of (e/s)G + (r/s)Q reduced mod n equals r (infinity rejected).", "quantifier": "all signatures, messages, keys", "why_tests_cant": "Universal; includes exceptional point cases", "anchors": ["graviola/src/high/ecdsa.rs: verify, verify_asn1", "graviola/src/mid/p256.rs: raw_ecdsa_verify"]}
{"id": "C32", "title": "ASN.1 and fixed ECDSA signature forms are equivalent", "statement": "An ASN.1 signature is accepted iff it is the unique DER encoding of the integers of an accepted fixed-size signature; DER signatures with negative, oversized or non-minimal integers or trailing data are rejected.", "quantifier": "all byte strings", "why_tests_cant": "Infinite alternative encodings", "anchors": ["graviola/src/high/ecdsa.rs: verify_asn1, sign_asn1"]}
{"id": "C33", "title": "Diffie-Hellman agreement", "statement": "Both parties derive the same shared secret for P-256, P-384 and X25519; an all-zero X25519 result and an off-curve result are errors rather than secrets.", "quantifier": "all private keys", "why_tests_cant": "Universal", "anchors": ["graviola/src/mid/p256.rs: diffie_hellman", "graviola/src/mid/p384.rs", "graviola/src/mid/x25519.rs"]}
{"id": "C34", "title": "Ed25519 sign/verify correctness and non-malleability of S", "statement": "Every signature produced verifies; verification rejects S >= L and signatures of wrong length; it accepts iff the encoding of S*B - k*A equals the first half.", "quantifier": "all seeds, messages, signatures", "why_tests_cant": "Universal", "anchors": ["graviola/src/mid/ed25519.rs", "graviola/src/high/ed25519.rs"]}
{"id": "C35", "title": "ML-KEM compression and rounding are exact", "statement": "Compress_d/Decompress_d (d=1,4,10) return the FIPS 203 rounded values for every coefficient; byte encodings of width 1, 4, 10, 12 round trip.", "quantifier": "all coefficients 0..3328, all coefficient vectors and byte strings", "why_tests_cant": "Composition over 256 coefficients x packing; the constant-multiplication division must be exact on every value", "anchors": ["graviola/src/mid/mlkem768.rs: compress_*, decompress_*, to_bytes, from_bytes"]}
{"id": "C36", "title": "ML-KEM encapsulation keys are accepted iff canonical", "statement": "EncapKey::from_bytes accepts iff every 12-bit coefficient is < 3329 and as_bytes returns the same bytes.", "quantifier": "all 1184-byte strings", "why_tests_cant": "2^9472 inputs", "anchors": ["graviola/src/mid/mlkem768.rs: EncapKey::from_bytes", "graviola/src/low/generic/mlkem.rs"]}
{"id": "C37", "title": "ML-KEM decapsulation: agreement and implicit rejection", "statement": "If decryption of an honest ciphertext recovers the message, decapsulation returns the encapsulated secret; if the ciphertext differs from the re-encryption, it returns J(z||c); it never fails.", "quantifier": "all keys, ciphertexts, randomness", "why_tests_cant": "Universal over ciphertexts", "anchors": ["graviola/src/mid/mlkem768.rs: encaps_internal, decaps_internal"]}
{"id": "C38", "title": "ML-KEM sampling equals the specification", "statement": "Uniform rejection sampling (vectorised core, tail case, buffer refills) yields the first 256 12-bit values < q of the SHAKE stream; CBD sampling equals the FIPS 203 centred binomial definition.", "quantifier": "all byte streams", "why_tests_cant": "Refill boundary cases depend on rejections", "anchors": ["graviola/src/mid/mlkem768.rs: sample_poly, Shake128ForMlKem, sample_poly_cbd_dual"]}
{"id": "C39", "title": "TLS record protection round trip", "statement": "For TLS1.3 and TLS1.2 with AES-GCM and ChaCha20-Poly1305: a record encrypted with sequence number s decrypts under the same keys and s to the same content type, and payload.", "quantifier": "all payloads, content types, sequence numbers, IVs", "why_tests_cant": "Universal", "anchors": ["rustls-graviola/src/aead.rs"]}
{"id": "C40", "title": "TLS record decryption is total and bounded", "statement": "Decrypting any received record either errors or yields a payload within the protocol limit; short records are errors, never panics.", "quantifier": "all byte strings", "why_tests_cant": "Adversarial input", "anchors": ["rustls-graviola/src/aead.rs"]}
{"id": "C41", "title": "Session tickets", "statement": "For any interleaving of encrypt and decrypt operations, a ticket produced earlier by a ticketer decrypts to its message (non-empty message); any ticket with wrong key name, length or tag yields None; no input panics.", "quantifier": "all operation histories, all tickets", "why_tests_cant": "Unbounded histories", "anchors": ["rustls-graviola/src/ticketer.rs"]}
{"id": "C42", "title": "Hybrid key exchange framing", "statement": "For X25519MLKEM768, splitting a combined share returns the parts that were concatenated; shares of any other length are rejected; both sides derive identical combined secrets when the components agree.", "quantifier": "all shares", "why_tests_cant": "Universal", "anchors": ["rustls-graviola/src/kx/hybrid.rs", "rustls-graviola/src/kx/mlkem.rs"]}
{"id": "C43", "title": "AEAD nonces never repeat within a key", "statement": "For TLS records under one key with 64-bit sequence numbers, two records with different sequence numbers never use the same AEAD nonce.", "quantifier": "all IVs, all pairs of sequence numbers", "why_tests_cant": "2^128 pairs", "anchors": ["rustls-graviola/src/aead.rs"]}
{"id": "C44", "title": "Signature scheme selection respects the peer's offer and the key", "statement": "choose_scheme returns a scheme from the offered list compatible with the key, and the strongest preferred, and None iff none is compatible.", "quantifier": "all offer lists in all orders", "why_tests_cant": "Unbounded lists", "anchors": ["rustls-graviola/src/sign.rs: choose_scheme"]}
{"id": "C45", "title": "Private key loading dispatch", "statement": "Loading a PKCS#8/SEC1/PKCS#1 key gives a signer of the type the document denotes and never of a different type; unsupported documents are errors.", "quantifier": "all byte strings", "why_tests_cant": "Universal", "anchors": ["rustls-graviola/src/sign.rs: load_pkcs8, load_sec1, load_pkcs1"]}
{"id": "C46", "title": "Rejection sampling of private keys terminates and is in range", "statement": "new_random of EC keys makes at most the documented number of RNG requests, returns only in-range keys and propagates RNG failure.", "quantifier": "all RNG behaviours", "why_tests_cant": "All RNG streams", "anchors": ["graviola/src/mid/p256.rs: generate", "graviola/src/mid/p384.rs", "graviola/src/mid/rng.rs"]}
{"id": "C47", "title": "CPU state entry/exit is balanced", "statement": "For every call tree of public entry points, entering and leaving secret/public sections restores the CPU state recorded at the outermost entry.", "quantifier": "all nested call sequences", "why_tests_cant": "All call histories", "anchors": ["graviola/src/low/entry.rs"]}
{"id": "C48", "title": "Little/big endian word conversion is exact", "statement": "Byte<->word conversions used for field elements, scalars and hashes are mutually inverse and value-preserving; the any-size variant accepts exactly inputs whose value fits.", "quantifier": "all byte strings", "why_tests_cant": "Universal", "anchors": ["graviola/src/mid/util.rs"]}
{"id": "C49", "title": "Importing and exporting elliptic-curve private keys is exact", "statement": "SEC1 import accepts exactly the DER ECPrivateKey documents with version 1, a private key of the curve's length in 1..n-1, the curve's name if parameters are present and the matching public key if one is present; exported SEC1 and PKCS#8 documents are the specified encoding and import again as the same key; an exported SPKI carries the key's public point.", "quantifier": "all byte strings offered, all private keys, all output buffers", "why_tests_cant": "Infinitely many documents, and the rejected ones are not enumerable", "anchors": ["graviola/src/high/ecdsa.rs::SigningKey::from_sec1_der", "graviola/src/high/ecdsa.rs::SigningKey::from_pkcs8_der", "graviola/src/high/ecdsa.rs::SigningKey::to_pkcs8_der", "graviola/src/high/ecdsa.rs::SigningKey::to_spki_der"]}
{"id": "C50", "title": "Importing and exporting Ed25519 keys is exact", "statement": "PKCS#8 import of an Ed25519 key accepts exactly the documents naming Ed25519 without parameters whose private key is an OCTET STRING of 32 bytes and whose public key, if present, is that seed's; SPKI import accepts exactly documents naming Ed25519 whose key is a point encoding; exported documents import again as the same key; a buffer that is too short is reported as an error.", "quantifier": "all byte strings offered, all seeds, all output buffers", "why_tests_cant": "Infinitely many documents", "anchors": ["graviola/src/high/ed25519.rs"]}
{"id": "C51", "title": "Wiping memory clears exactly the given bytes", "statement": "For every pointer and every length a Rust object can have, on both architectures the wiping routine terminates; afterwards each of the given bytes is zero and no other memory has changed; no other address is accessed, and the instructions executed and addresses accessed depend only on pointer and length.", "quantifier": "all pointers, all lengths below 2^63 within the address space, all initial memory and register contents, both instruction sequences", "why_tests_cant": "Tests wipe a few buffer sizes and look at the buffer; neither the bytes beyond it, nor all residues of the length, nor the absence of stray accesses can be covered by running examples.", "anchors": ["graviola/src/low/x86_64/cpu.rs:zero_bytes", "graviola/src/low/aarch64/cpu.rs:zero_bytes", "graviola/src/low/generic/zeroise.rs:zeroise"]}
{"id": "C52", "title": "Comparison of secrets is exact and its trace does not depend on them", "statement": "For every two byte ranges of the same length, on both architectures the comparison routine terminates with result zero exactly if the ranges hold the same bytes, changes no memory, reads nothing but the ranges, and executes the same instructions at the same addresses whatever the ranges hold.", "quantifier": "all pointers and lengths within the address space, all memory and register contents, both instruction sequences", "why_tests_cant": "Independence of the executed instructions and addresses from the data is a property of pairs of executions over all contents; timing tests only sample it.", "anchors": ["graviola/src/low/x86_64/cpu.rs:ct_compare_bytes", "graviola/src/low/aarch64/cpu.rs:ct_compare_bytes", "graviola/src/low/generic/ct_equal.rs:ct_equal"]}
{"id": "C53", "title": "TLS signatures: each offered algorithm accepts exactly what its name says, and the offered signers satisfy it", "statement": "Every signature verification algorithm given to the TLS library accepts a key, message and signature exactly if the key is a well-formed key of the type its identifier names and the signature is a valid signature of the type its identifier names; everything else is refused without a panic. The table from TLS signature schemes to algorithms gives each scheme the algorithm the scheme's name means. A signature made by a loaded private key for the scheme it chose verifies with that algorithm under the public key that private key publishes.", "quantifier": "all public key documents, messages, signatures; all offered schemes; all private keys; all random bytes", "why_tests_cant": "The set of accepted (key, message, signature) triples is infinite; tests exercise a few per algorithm and one handshake per key type, and cannot show that nothing else is accepted or that every signature of every key is.", "anchors": ["rustls-graviola/src/verify.rs:ALGORITHMS", "rustls-graviola/src/sign.rs:RsaSigner", "rustls-graviola/src/sign.rs:EcdsaP256", "rustls-graviola/src/sign.rs:Ed25519"]}
{"id": "C54", "title": "SHA-2 digests do not depend on the processor", "statement": "On every supported processor - x86-64 with or without the SHA extensions and with or without BMI2/AVX2, and aarch64 - hashing a message with SHA-256, SHA-384 or SHA-512 gives the FIPS 180-4 digest of the message, however the message is cut into updates. The same holds for HMAC. Two machines always agree.", "quantifier": "all processors of the supported kinds, all messages of all lengths, all ways to cut them, all chaining values and block counts", "why_tests_cant": "A test run executes on one processor and so exercises one of the code paths; the vector code treats runs of four blocks, single blocks and remainders differently and keeps partial schedules in registers, so agreement is a statement about all lengths and all words.", "anchors": ["graviola/src/low/x86_64/sha256.rs:sha256_compress_blocks", "graviola/src/low/x86_64/sha512.rs:sha512_compress_blocks", "graviola/src/low/aarch64/sha256.rs:sha256_compress_blocks", "graviola/src/low/x86_64/sha256_mux.rs:sha256_compress_blocks", "graviola/src/low/x86_64/sha512_mux.rs:sha512_compress_blocks"]}
{"id": "C55", "title": "The elliptic-curve groups are what the signatures and key exchanges rely on", "statement": "The points of P-256 and of P-384 form a commutative group of prime order in which every point is a unique multiple of the base point below the order; hence every public key the library accepts belongs to exactly one private key. The points of edwards25519 form a commutative group with an addition that has no exceptional case, and the base point has exactly the prime order l.", "quantifier": "all points of the curves, all multiples, all encodings of public keys that are accepted", "why_tests_cant": "The groups have about 2^255 to 2^384 elements; neither primality of the field and the order, nor associativity, nor that the base point generates everything can be observed in runs.", "anchors": ["graviola/src/mid/p256.rs:from_x962_uncompressed", "graviola/src/mid/p384.rs:from_x962_uncompressed", "graviola/src/mid/p256/precomp.rs:CURVE_GENERATOR_PRECOMP_W7", "graviola/src/mid/ed25519.rs"]}
{"id": "C56", "title": "AES-GCM on aarch64 interoperates with AES-GCM on x86-64", "statement": "AES and AES-GCM as built for aarch64 are FIPS 197 AES and SP 800-38D GCM: encryption gives the standard's ciphertext and tag, decryption the plaintext for the right tag, and for any other tag, of whatever length, an error and an all-zero buffer. The bytes are those the x86-64 build produces, so what one kind of machine seals the other opens. Keys of other lengths than 16 and 32 bytes panic on both.", "quantifier": "all keys, nonces, additional data, messages and tags, of all lengths (up to the limits of the standard where the standard is quoted; without limit for agreement with the x86-64 code that does not use AVX-512)", "why_tests_cant": "Test machines are of one kind, so agreement across processors is not observed; the aarch64 code has its own key schedule, its own field multiplication and reduction, and separate eight-block, one-block and last-part loops whose combination depends on the length.", "anchors": ["graviola/src/low/aarch64/aes.rs:AesKey", "graviola/src/low/aarch64/ghash.rs:Ghash", "graviola/src/low/aarch64/aes_gcm.rs:encrypt", "graviola/src/low/aarch64/aes_gcm.rs:decrypt", "graviola/src/mid/aes_gcm.rs:AesGcm"]}
{"id": "C57", "title": "ML-KEM-768 agrees whenever the noise is small", "statement": "For every generated key pair and every encapsulation, decapsulation returns the secret that encapsulation returned, provided that the noise of this key and encapsulation (the products of the secret small polynomials plus the rounding of the ciphertext) stays within a quarter of the modulus in every coefficient. Nothing is assumed about decryption itself: the ring arithmetic, the transform, the encodings and the compression contribute no failure of their own. The same holds for the hybrid X25519MLKEM768 key exchange and for FIPS 203 itself.", "quantifier": "all key generation seeds, all messages, all X25519 keys, all matrices and all secret and error polynomials; no bound on sampling", "why_tests_cant": "A test can only draw a few keys; that no key and no message outside the documented noise condition fails to decrypt is a statement about 2^512 seeds and 2^256 messages and needs the ring algebra.", "anchors": ["graviola/src/mid/mlkem768.rs:encaps_internal", "graviola/src/mid/mlkem768.rs:decaps_internal", "rustls-graviola/src/kx/hybrid.rs:Hybrid"]}
{"id": "C58", "title": "Table lookups with a secret index find the right row and read the same memory whatever the index", "statement": "Selecting a precomputed point (P-256, P-384) or a power (RSA) by a secret index returns exactly that row of the table, or zeros for an index without row; on x86-64 and on aarch64 alike, for every row width. Every word of the table is read exactly once and in increasing order, so the addresses read depend neither on the index nor on the contents of the table; this is what 'side-channel silent' is meant to say in the code.", "quantifier": "all tables of 64-bit words of any height and width, all indices, all earlier contents of the output; both processors", "why_tests_cant": "A test that compares results cannot see which addresses were read, and one processor cannot run the other's code; widths select among five implementations and indices outside the table are never tested.", "anchors": ["graviola/src/low/x86_64/bignum_copy_row_from_table_mux.rs:bignum_copy_row_from_table", "graviola/src/low/aarch64/bignum_copy_row_from_table_mux.rs:bignum_copy_row_from_table", "graviola/src/low/x86_64/bignum_point_select_p256.rs:bignum_aff_point_select_p256", "graviola/src/low/aarch64/bignum_point_select_p384.rs:bignum_jac_point_select_p384", "graviola/src/low/posint.rs:mont_exp"]}
{"id": "C59", "title": "A negotiated cipher suite does what its name says", "statement": "Every cipher suite the provider offers uses the hash, the HMAC hash, the AEAD with its key length and nonce lengths, the protocol version and the certificate type of its registered name. Transcript hashing returns, for every sequence of updates, forks and finishes on a context and its forks, the named hash of exactly the bytes given to that context and its origin before the fork. HMAC over pieces is RFC 2104 with that hash. Every TLS1.3 and TLS1.2 record is the one prescribed for the named AEAD, is read back by a peer on any processor, and the exported secrets carry the named cipher with the IV in use. In TLS1.2 a private key is given a signature scheme only if the peer offered it and the suite is for that type of key, and RSA, P-256 and P-384 keys get one whenever the peer offers one they can use. The declared record limits respect RFC 8446.", "quantifier": "all nine suites; all sequences of calls on any number of contexts; all keys, messages and sequence numbers; all lists of offered schemes; all processors", "why_tests_cant": "Interoperability tests run a few handshakes with the suites both ends prefer; a wrong hash or scheme list in a seldom chosen suite, or a fork that shares state with its origin, needs the right suite and the right interleaving to show.", "anchors": ["rustls-graviola/src/suites.rs:ALL_CIPHER_SUITES", "rustls-graviola/src/hash.rs:Sha256Context", "rustls-graviola/src/hmac.rs:Sha256HmacKey", "rustls-graviola/src/aead.rs:TlsAesGcm", "rustls-graviola/src/aead.rs:Chacha20Poly1305", "rustls-graviola/src/lib.rs:default_provider"]}
{"id": "C60", "title": "AES-GCM authentication: all GHASH implementations agree, and few keys let a second message through", "statement": "Fed the same data in the same pieces, the AVX, AVX-512, aarch64 and portable implementations of GHASH return the same 16 bytes, those of SP 800-38D. The multiplication they use makes the 128-bit blocks a field. Therefore, for two different messages under one nonce and any two tags, the keys that accept both have at most as many different hash subkeys as the longer message has blocks, out of 2^128; this includes messages of different lengths and messages that differ only in where the additional data end.", "quantifier": "all subkeys; all sequences of pieces of any length; all pairs of different messages with additional data below 2^61 bytes and ciphertext within the limit of the standard; all tags and all sets of keys; all processors", "why_tests_cant": "How many of 2^128 subkeys let a forgery through cannot be counted by trying; it rests on an algebraic fact about the multiplication and on the encoding of the two lengths, and a multiplication that is wrong in one bit pattern or an encoding that merges two messages passes every test vector that does not hit it.", "anchors": ["graviola/src/low/generic/ghash.rs:mul", "graviola/src/low/generic/ghash.rs:Ghash", "graviola/src/low/x86_64/ghash.rs:Ghash", "graviola/src/low/aarch64/ghash.rs:Ghash", "graviola/src/mid/aes_gcm.rs:decrypt"]}
{"id": "C61", "title": "ChaCha20-Poly1305 authentication: few keys let a second message through", "statement": "For two different messages under one nonce and any two tags, the keys under which decryption accepts both give one-time keys with at most eight times as many different multipliers (the clamped first half of the one-time key, one of 2^106) as the longer message has 16-byte blocks. This includes messages of different lengths and messages that differ only in where the additional data end, and holds for ChaCha20-Poly1305 and XChaCha20-Poly1305. For the authenticator alone it holds for any two different messages, in any pieces.", "quantifier": "all pairs of different messages with parts below 2^64 bytes; all tags; all nonces and all sets of keys; both implementations of the stream cipher; for the authenticator, all messages of any length in any pieces", "why_tests_cant": "How many of 2^106 multipliers let a forgery through cannot be counted by trying; it rests on 2^130 - 5 being prime, on every block carrying a one behind its last byte, and on the encoding of the two lengths. An accumulator that is right on the test vectors but drops that one, a carry or a length lets forgeries through for many keys.", "anchors": ["graviola/src/low/generic/poly1305.rs:Poly1305", "graviola/src/mid/chacha20poly1305.rs:decrypt", "graviola/src/mid/xchacha20poly1305.rs:decrypt"]}
{"id": "C62", "title": "ECDSA: few signatures of a message share their first half, and a signature belongs to few messages", "statement": "If verification accepts the signature r || s of a message under a key, it also accepts r || n - s, which is different: signatures are not unique. There are no further ones: of the signatures with the same first half, at most two are accepted for a message under a key (four if the first half is below p - n, which at most about one signature in 2^128 has). Conversely the messages for which one signature is accepted under one key have at most two (four) different digests modulo n.", "quantifier": "all public keys that are accepted, all messages in any pieces, all signatures and all sets of them; every hash; both curves", "why_tests_cant": "That no third value of s is accepted is a statement about all 2^256 values; it rests on the points of the curve forming a group of prime order, where a field or group routine that is wrong for one input would let another one in.", "anchors": ["graviola/src/high/ecdsa.rs:verify", "graviola/src/mid/p256.rs:Scalar", "graviola/src/mid/p384.rs:Scalar"]}
{"id": "C63", "title": "PKCS#1 v1.5 signatures of a message under a key are one number, in any length", "statement": "Under a public key that belongs to a valid private key, all byte strings accepted as PKCS#1 v1.5 signature of one message are encodings of one number: once one is known, another byte string is accepted if and only if it is the same number read big-endian. Verification does not check the length, though: an accepted signature with any number of zero bytes in front is accepted too, where RFC 8017 rejects every length but that of the modulus.", "quantifier": "all public keys of valid private keys, all messages the hash can take, all signatures of any length; SHA-256, SHA-384 and SHA-512", "why_tests_cant": "That no other of the 2^2048 and more numbers is accepted rests on powers being one-to-one modulo the modulus and on the whole padded block being compared; a check that skips part of the padding accepts others, which no listed test vector need hit. Lengths are unbounded.", "anchors": ["graviola/src/high/rsa.rs:_verify_pkcs1", "graviola/src/low/posint.rs:from_bytes", "graviola/src/mid/rsa_pub.rs:public_op"]}
{"id": "C64", "title": "An Ed25519 signature belongs to one challenge under a key made from a seed, and to every message under the neutral key", "statement": "Under every public key the library makes from a seed, and under every other key of the prime order l, a signature accepted for two messages has the same challenge for both: SHA-512 of its first half, the key and the message agree modulo l. Importing a public key does not check its order: the encoding of the neutral point is accepted as a key, and under it signatures that anyone can write down are accepted for all messages.", "quantifier": "all seeds, all public keys, all signatures, all pairs of messages shorter than 2^63 bytes", "why_tests_cant": "That a signature does not fit a second challenge is a statement about all 2^252 challenges and rests on the order of the key; test vectors use honest keys and one message per signature.", "anchors": ["graviola/src/mid/ed25519.rs:VerifyingKey::from_bytes", "graviola/src/mid/ed25519.rs:VerifyingKey::verify", "graviola/src/high/ed25519.rs"]}
