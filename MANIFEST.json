{
 "claims": [
  {
   "property": "C01",
   "status": "proved",
   "theorems": [
    "C01_der_round_trip",
    "C01_integer_new",
    "C01_integer_new_positive",
    "C01_oid_from_path"
   ],
   "note": "All eight structures; also INTEGER/OID construction."
  },
  {
   "property": "C02",
   "status": "proved",
   "theorems": [
    "C02_der_canonical",
    "C02_reencode_identity",
    "C02_no_two_encodings",
    "C02_integer_unique"
   ],
   "note": "Exact characterisation of accepted inputs."
  },
  {
   "property": "C03",
   "status": "proved",
   "theorems": [
    "C03_decoder_total",
    "C03_truncation_reported"
   ],
   "note": ""
  },
  {
   "property": "C04",
   "status": "proved",
   "theorems": [
    "C04_encode_iff_fits"
   ],
   "note": ""
  },
  {
   "property": "C05",
   "status": "proved",
   "theorems": [
    "C05_trailing_rejected"
   ],
   "note": ""
  },
  {
   "property": "C06",
   "status": "proved",
   "theorems": [
    "C06_import",
    "C06_total",
    "C06_rejections",
    "C06_export",
    "C06_round_trip",
    "C06_whole_slice_refuted"
   ],
   "note": "Finding: data after the outer structure is ignored (C06_whole_slice_refuted)."
  },
  {
   "property": "C07",
   "status": "proved",
   "theorems": [
    "C07_splitting_irrelevant",
    "C07_update_never_fails",
    "C07_clone"
   ],
   "note": ""
  },
  {
   "property": "C08",
   "status": "proved",
   "theorems": [
    "C08_sha256",
    "C08_sha384",
    "C08_sha512",
    "C08_streaming"
   ],
   "note": "Portable code; any compression function equal to the portable one."
  },
  {
   "property": "C09",
   "status": "proved",
   "theorems": [
    "C09_hmac",
    "C09_verify"
   ],
   "note": ""
  },
  {
   "property": "C10",
   "status": "proved",
   "theorems": [
    "C10_hmac_drbg",
    "C10_empty_seed_refuted"
   ],
   "note": "Finding: an empty seed is outside the standard (C10_empty_seed_refuted)."
  },
  {
   "property": "C11",
   "status": "proved",
   "theorems": [
    "C11_round_constants",
    "C11_sha3_256_is_fips202",
    "C11_sha3_512_is_fips202",
    "C11_shake128_stream",
    "C11_shake256_stream",
    "C11_sextet_is_six_shake256",
    "C11_four_way_is_four_shake128"
   ],
   "note": "Keccak-f[1600] is a parameter."
  },
  {
   "property": "C12",
   "status": "proved",
   "theorems": [
    "C12_portable_is_rfc8439",
    "C12_avx2_is_rfc8439",
    "C12_xchacha_is_draft",
    "C12_twice_is_identity",
    "C12_portable_resumes",
    "C12_avx2_counter",
    "C12_avx2_resumes_refuted",
    "C12_length_limit_refuted"
   ],
   "note": "Both implementations. Findings: the AVX2 context skips a counter value after a call whose length mod 128 is in 33..64 (not reachable through the AEADs); no message length limit, so the counter wraps."
  },
  {
   "property": "C13",
   "status": "proved",
   "theorems": [
    "C13_poly1305_is_rfc8439",
    "C13_splitting_irrelevant"
   ],
   "note": ""
  },
  {
   "property": "C14",
   "status": "proved",
   "theorems": [
    "C14_chacha20poly1305_encrypts_per_rfc",
    "C14_xchacha20poly1305_encrypts_per_draft",
    "C14_chacha_round_trip",
    "C14_implementations_agree",
    "C14_aes_gcm_round_trip"
   ],
   "note": "ChaCha20-Poly1305, XChaCha20-Poly1305 (portable and AVX2) and AES-GCM (AVX and AVX-512, x86_64)."
  },
  {
   "property": "C15",
   "status": "proved",
   "theorems": [
    "C15_chacha20poly1305_rejects",
    "C15_xchacha20poly1305_rejects",
    "C15_wrong_length_tag",
    "C15_changed_tag",
    "C15_aes_gcm_rejects",
    "C15_aes_gcm_wrong_length_tag",
    "C15_aes_gcm_changed_tag"
   ],
   "note": "ChaCha20-Poly1305, XChaCha20-Poly1305 (portable and AVX2) and AES-GCM (AVX and AVX-512, x86_64)."
  },
  {
   "property": "C16",
   "status": "proved",
   "theorems": [
    "C16_aes_is_fips197",
    "C16_key_lengths",
    "C16_encrypt_is_gcm",
    "C16_decrypt_is_gcm",
    "C16_length_limit_refuted",
    "C16_avx512_wrap_refuted"
   ],
   "note": "x86_64 code; AES-NI and PCLMULQDQ instructions have their Intel SDM meaning. Findings: the 2^36-32 byte limit is not enforced, and past it the AVX-512 counter carries into the nonce."
  },
  {
   "property": "C17",
   "status": "proved",
   "theorems": [
    "C17_ct_equal",
    "C17_ct_copy",
    "C17_ct_select",
    "C17_hash_output_equal",
    "C17_hash_output_truncated",
    "C17_hash_output_eq"
   ],
   "note": ""
  },
  {
   "property": "C18",
   "status": "proved",
   "theorems": [
    "C18_from_bytes",
    "C18_to_bytes",
    "C18_to_bytes_asn1",
    "C18_read_write",
    "C18_write_read",
    "C18_compare"
   ],
   "note": ""
  },
  {
   "property": "C19",
   "status": "proved",
   "theorems": [
    "C19_public_key",
    "C19_public_op"
   ],
   "note": "Premise: the s2n-bignum routines meet their header comments (S_Bignum.bignum_ok)."
  },
  {
   "property": "C20",
   "status": "proved",
   "theorems": [
    "C20_check",
    "C20_private_op"
   ],
   "note": "Premise: the s2n-bignum routines meet their header comments (S_Bignum.bignum_ok)."
  },
  {
   "property": "C21",
   "status": "proved",
   "theorems": [
    "C21_crt_exact",
    "C21_private_op",
    "C21_p_below_q_refuted"
   ],
   "note": "Premise: the s2n-bignum routines meet their header comments (S_Bignum.bignum_ok). Finding: with p < q the CRT result is wrong, and caught (C21_p_below_q_refuted)."
  },
  {
   "property": "C22",
   "status": "proved",
   "theorems": [
    "C22_verify",
    "C22_one_digest",
    "C22_length_refuted"
   ],
   "note": "Premise: the s2n-bignum routines meet their header comments (S_Bignum.bignum_ok). Finding: modulus byte lengths that are not a multiple of 8 always fail (C22_length_refuted)."
  },
  {
   "property": "C23",
   "status": "proved",
   "theorems": [
    "C23_encode",
    "C23_verify",
    "C23_round_trip",
    "C23_verify_signature"
   ],
   "note": "Premise: the s2n-bignum routines meet their header comments (S_Bignum.bignum_ok)."
  },
  {
   "property": "C24",
   "status": "proved",
   "theorems": [
    "C24_pkcs1",
    "C24_pss"
   ],
   "note": "Premise: the s2n-bignum routines meet their header comments (S_Bignum.bignum_ok). For moduli of a multiple of 64 bits."
  },
  {
   "property": "C25",
   "status": "proved",
   "theorems": [
    "C25_public_import",
    "C25_public_exists",
    "C25_public_total",
    "C25_public_export",
    "C25_public_round_trip",
    "C25_public_round_trip_refuted",
    "C25_spki",
    "C25_private_import",
    "C25_private_exists",
    "C25_private_total",
    "C25_private_export",
    "C25_private_round_trip",
    "C25_pkcs8_round_trip",
    "C25_public_half",
    "C25_consistency_refuted",
    "C25_negative_refuted"
   ],
   "note": "Premise: the s2n-bignum routines meet their header comments (S_Bignum.bignum_ok). Findings: n = pq and the parity of e are not checked, negative numbers are read unsigned, large e does not re-import."
  },
  {
   "property": "C26",
   "status": "partial",
   "theorems": [
    "C26_sizes",
    "C26_sizes_only",
    "C26_miller_rabin",
    "C26_prime_never_rejected",
    "C26_candidate",
    "C26_generated_key",
    "C26_exponents_partial",
    "C26_valid_partial",
    "C26_sign_then_verify_partial",
    "C26_no_panic_partial",
    "C26_every_pair_partial",
    "C26_every_prime_pair_partial",
    "C26_primality_refuted",
    "C26_inversion_refuted"
   ],
   "note": "Everything proved for 2048 to 6144 bits; for 8192 bits d, dp and dq are not covered because the inversion misplaces a carry when the modulus fills its array (C26_inversion_refuted). Findings: no minimum |p-q|; composites pass for chosen bases (Miller-Rabin is only probabilistic)."
  },
  {
   "property": "C27",
   "status": "proved",
   "theorems": [
    "C27_private_key_exact",
    "C27_array_agrees",
    "C27_round_trip"
   ],
   "note": "Premises: the field, scalar and table routines meet their contracts (S_Ec); that the curve is a group of prime order is proved for P-256 and P-384 (C55)."
  },
  {
   "property": "C28",
   "status": "proved",
   "theorems": [
    "C28_point_exact",
    "C28_point_value",
    "C28_round_trip",
    "C28_canonical_refuted"
   ],
   "note": "Premises: the field, scalar and table routines meet their contracts (S_Ec); that the curve is a group of prime order is proved for P-256 and P-384 (C55). Finding: coordinates not below p are accepted and reduced (C28_canonical_refuted)."
  },
  {
   "property": "C29",
   "status": "proved",
   "theorems": [
    "C29_p256_module",
    "C29_p384_module",
    "C29_base_multiply",
    "C29_point_multiply",
    "C29_public_key",
    "C29_diffie_hellman"
   ],
   "note": "Premises: the field, scalar and table routines meet their contracts (S_Ec); that the curve is a group of prime order is proved for P-256 and P-384 (C55). The formulas are checked macro call by macro call; the exceptional case of the incomplete addition is shown unreachable for every scalar."
  },
  {
   "property": "C30",
   "status": "proved",
   "theorems": [
    "C30_sign_exact",
    "C30_short_buffer",
    "C30_sign_verifies",
    "C30_sign_asn1_verifies",
    "C30_unconditional_refuted"
   ],
   "note": "Premises: the field, scalar and table routines meet their contracts (S_Ec); that the curve is a group of prime order is proved for P-256 and P-384 (C55). Finding: no retry when s = 0 (C30_unconditional_refuted)."
  },
  {
   "property": "C31",
   "status": "proved",
   "theorems": [
    "C31_verify_exact"
   ],
   "note": "Premises: the field, scalar and table routines meet their contracts (S_Ec); that the curve is a group of prime order is proved for P-256 and P-384 (C55)."
  },
  {
   "property": "C32",
   "status": "proved",
   "theorems": [
    "C32_asn1_exact",
    "C32_unique",
    "C32_asn1_valid"
   ],
   "note": "Premises: the field, scalar and table routines meet their contracts (S_Ec); that the curve is a group of prime order is proved for P-256 and P-384 (C55)."
  },
  {
   "property": "C33",
   "status": "proved",
   "theorems": [
    "C33_ecdh_agree",
    "C33_x25519_exact",
    "C33_x25519_multiplies",
    "C33_x25519_agreement"
   ],
   "note": "X25519: premise S_X25519.x25519_asm_ok only. P-256 and P-384: premises: the field, scalar and table routines meet their contracts (S_Ec); that the curve is a group of prime order is proved for P-256 and P-384 (C55)."
  },
  {
   "property": "C34",
   "status": "proved",
   "theorems": [
    "C34_public_key",
    "C34_seed_length",
    "C34_sign_exact",
    "C34_key_decode",
    "C34_verify_exact",
    "C34_sign_verifies",
    "C34_public_key_decodes",
    "C34_no_malleability",
    "C34_rejections",
    "C34_reduction_harmless",
    "C34_order",
    "C34_unreduced_challenge_refuted"
   ],
   "note": "Premise: the contract of the assembly (S_EdLow.ed_low_ok). The arithmetic facts about the curve (S_Ed.ed_ok) are proved for edwards25519 (C55). Finding: the challenge is reduced modulo L (C34_unreduced_challenge_refuted)."
  },
  {
   "property": "C35",
   "status": "proved",
   "theorems": [
    "C35_compress",
    "C35_decompress",
    "C35_encode_vectors",
    "C35_decode_vectors",
    "C35_round_trip_values",
    "C35_round_trip_bytes",
    "C35_rounding_error",
    "C35_compress_decompress"
   ],
   "note": ""
  },
  {
   "property": "C36",
   "status": "proved",
   "theorems": [
    "C36_from_bytes_iff_canonical",
    "C36_generated_canonical"
   ],
   "note": "Premise: the ML-KEM assembly meets its contract (S_MlKemAsm.asm_ok); Keccak-f is a parameter."
  },
  {
   "property": "C37",
   "status": "proved",
   "theorems": [
    "C37_keygen",
    "C37_encaps",
    "C37_randomness",
    "C37_decaps",
    "C37_implicit_rejection",
    "C37_agreement"
   ],
   "note": "Premise: the ML-KEM assembly meets its contract (S_MlKemAsm.asm_ok); Keccak-f is a parameter. Agreement is for messages that the decryption recovers; C57 gives a condition on the noise for this."
  },
  {
   "property": "C38",
   "status": "proved",
   "theorems": [
    "C38_rejection_sampling",
    "C38_rejection_sampling_only",
    "C38_iterations_irrelevant",
    "C38_matrix",
    "C38_cbd",
    "C38_cbd_dual"
   ],
   "note": "Premise: the ML-KEM assembly meets its contract (S_MlKemAsm.asm_ok); Keccak-f is a parameter."
  },
  {
   "property": "C39",
   "status": "proved",
   "theorems": [
    "C39_tls13_record",
    "C39_tls13_round_trip",
    "C39_tls12_chacha_round_trip",
    "C39_tls12_gcm_round_trip"
   ],
   "note": "rustls functions modelled from their documentation."
  },
  {
   "property": "C40",
   "status": "proved",
   "theorems": [
    "C40_tls13_decrypt",
    "C40_tls13_bounded",
    "C40_tls12_chacha_decrypt",
    "C40_tls12_chacha_bound_refuted",
    "C40_tls12_gcm_decrypt"
   ],
   "note": "rustls functions modelled from their documentation. Finding: no fragment bound for TLS1.2 ChaCha20 (C40_tls12_chacha_bound_refuted)."
  },
  {
   "property": "C41",
   "status": "proved",
   "theorems": [
    "C41_decrypt_exact",
    "C41_no_panic",
    "C41_ticket_round_trip",
    "C41_new",
    "C41_empty_message_refuted",
    "C41_rng_failure"
   ],
   "note": "Finding: a ticket for the empty message never decrypts (C41_empty_message_refuted)."
  },
  {
   "property": "C42",
   "status": "proved",
   "theorems": [
    "C42_split_concat",
    "C42_wrong_length",
    "C42_hybrid_agreement",
    "C42_x25519mlkem768_agreement"
   ],
   "note": "Premises: the contracts of the X25519 and ML-KEM assembly; the ML-KEM decryption recovers the message (C57: if the noise is small)."
  },
  {
   "property": "C43",
   "status": "proved",
   "theorems": [
    "C43_nonces_never_repeat"
   ],
   "note": ""
  },
  {
   "property": "C44",
   "status": "proved",
   "theorems": [
    "C44_choose_scheme",
    "C44_order_irrelevant"
   ],
   "note": ""
  },
  {
   "property": "C45",
   "status": "proved",
   "theorems": [
    "C45_pkcs8",
    "C45_pkcs1",
    "C45_sec1",
    "C45_sec1_named",
    "C45_sec1_unnamed_refuted"
   ],
   "note": "Finding: SEC1 documents without curve name may load as the wrong curve (C45_sec1_unnamed_refuted)."
  },
  {
   "property": "C46",
   "status": "proved",
   "theorems": [
    "C46_generate"
   ],
   "note": "Premises: the field, scalar and table routines meet their contracts (S_Ec); that the curve is a group of prime order is proved for P-256 and P-384 (C55)."
  },
  {
   "property": "C47",
   "status": "proved",
   "theorems": [
    "C47_dit_restored",
    "C47_dit_set_in_secret",
    "C47_dit_untouched_outside",
    "C47_registers_wiped",
    "C47_features_required",
    "C47_avx512_registers_refuted"
   ],
   "note": "Finding: zmm16-31 are not wiped (C47_avx512_registers_refuted)."
  },
  {
   "property": "C48",
   "status": "proved",
   "theorems": [
    "C48_le_value",
    "C48_le_round_trip_bytes",
    "C48_le_round_trip_words",
    "C48_be_value",
    "C48_be_round_trip_bytes",
    "C48_be_round_trip_words",
    "C48_be_to_bytes_value",
    "C48_slice_exact",
    "C48_any_size",
    "C48_any_size_accepts"
   ],
   "note": ""
  },
  {
   "property": "C49",
   "status": "proved",
   "theorems": [
    "C49_sec1_import",
    "C49_sec1_rejections",
    "C49_sec1_export",
    "C49_pkcs8_import",
    "C49_pkcs8_export",
    "C49_spki_export",
    "C49_wrapper_public_key_refuted"
   ],
   "note": "Premises: the field, scalar and table routines meet their contracts (S_Ec); that the curve is a group of prime order is proved for P-256 and P-384 (C55). Finding: the public key of the PKCS#8 v2 wrapper is ignored (C49_wrapper_public_key_refuted)."
  },
  {
   "property": "C50",
   "status": "proved",
   "theorems": [
    "C50_pkcs8_import",
    "C50_public_key_checked",
    "C50_pkcs8_export",
    "C50_spki_import",
    "C50_spki_parameters_refuted",
    "C50_spki_export",
    "C50_generate"
   ],
   "note": "Premise: the contract of the assembly (S_EdLow.ed_low_ok). The arithmetic facts about the curve (S_Ed.ed_ok) are proved for edwards25519 (C55). Finding: algorithm parameters are not checked (C50_spki_parameters_refuted)."
  },
  {
   "property": "C51",
   "status": "proved",
   "theorems": [
    "C51_wipe",
    "C51_length_refuted"
   ],
   "note": "x86_64 and aarch64 loops, instruction by instruction. Finding: lengths of 2^63 or more wipe nothing (C51_length_refuted)."
  },
  {
   "property": "C52",
   "status": "proved",
   "theorems": [
    "C52_compare",
    "C52_compare_model"
   ],
   "note": "x86_64 and aarch64 loops, instruction by instruction."
  },
  {
   "property": "C53",
   "status": "proved",
   "theorems": [
    "C53_verify",
    "C53_mapping",
    "C53_chosen",
    "C53_p256_signer",
    "C53_p384_signer",
    "C53_ed25519_signer",
    "C53_rsa_signer",
    "C53_rsa_signer_short_refuted"
   ],
   "note": "Premises of C22-C24, C30-C32 and C34. Finding: the RSA signer pads a short signature on the wrong side (C53_rsa_signer_short_refuted)."
  },
  {
   "property": "C54",
   "status": "proved",
   "theorems": [
    "C54_sha256_blocks",
    "C54_sha512_blocks",
    "C54_digest",
    "C54_same_on_every_processor",
    "C54_hmac"
   ],
   "note": "The meaning of the vector and SHA instructions is S_Simd, written from the Intel and Arm manuals."
  },
  {
   "property": "C55",
   "status": "proved",
   "theorems": [
    "C55_p256",
    "C55_p384",
    "C55_edwards25519",
    "C55_p256_one_private_key",
    "C55_p384_one_private_key"
   ],
   "note": "For the constants of FIPS 186-4 and RFC 8032; C29_p256_module and C29_p384_module tie them to the constants of the code."
  },
  {
   "property": "C56",
   "status": "proved",
   "theorems": [
    "C56_aes_is_fips197",
    "C56_key_lengths",
    "C56_same_as_x86",
    "C56_encrypt_is_gcm",
    "C56_decrypt_is_gcm",
    "C56_interoperates",
    "C56_rejects"
   ],
   "note": "The meaning of AESE, AESMC, PMULL and the NEON instructions is given in M_ArmGcm from the Arm manual."
  },
  {
   "property": "C57",
   "status": "proved",
   "theorems": [
    "C57_ntt_is_ring_isomorphism",
    "C57_kpke_decrypts",
    "C57_agreement",
    "C57_fips203_decrypts",
    "C57_x25519mlkem768_agreement"
   ],
   "note": "Premises: the contracts of C37 and C42. How rarely the noise is large is a probability that is not modelled."
  },
  {
   "property": "C58",
   "status": "proved",
   "theorems": [
    "C58_point_lookup",
    "C58_row_lookup",
    "C58_reads_independent_of_secrets",
    "C58_point_reads_independent_of_secrets",
    "C58_exponent_row",
    "C58_curve_lookups"
   ],
   "note": "Addresses and their order, not instruction timing. The meaning of the AVX2 and NEON instructions and of the assembly loops is given in M_Select."
  },
  {
   "property": "C59",
   "status": "proved",
   "theorems": [
    "C59_names",
    "C59_transcript_hash",
    "C59_hmac",
    "C59_tls13_records",
    "C59_tls12_records",
    "C59_signature_schemes",
    "C59_ed25519_tls12_refuted",
    "C59_confidentiality_limits"
   ],
   "note": "C59_ed25519_tls12_refuted is a finding: Ed25519 keys never get a scheme in TLS1.2. The selection inside rustls is modelled from its documentation."
  },
  {
   "property": "C60",
   "status": "proved",
   "theorems": [
    "C60_implementations_agree",
    "C60_blocks_are_a_field",
    "C60_few_subkeys_collide",
    "C60_forgery_bound"
   ],
   "note": "The bound counts subkeys; that AES gives unpredictable subkeys and masks is the usual assumption about AES and is not modelled."
  },
  {
   "property": "C61",
   "status": "proved",
   "theorems": [
    "C61_few_keys_collide",
    "C61_forgery_bound",
    "C61_xchacha_forgery_bound"
   ],
   "note": "The bound counts multipliers; that ChaCha20 gives unpredictable one-time keys is the usual assumption about ChaCha20 and is not modelled."
  },
  {
   "property": "C62",
   "status": "proved",
   "theorems": [
    "C62_companion_signature",
    "C62_few_signatures",
    "C62_few_messages"
   ],
   "note": "For every curve module meeting the contract of C29 and p < 2n, which both curves meet (C62_p256, C62_p384)."
  },
  {
   "property": "C63",
   "status": "proved",
   "theorems": [
    "C63_one_number",
    "C63_valid_key",
    "C63_length_refuted"
   ],
   "note": "C63_length_refuted is a finding: the length check of RFC 8017 section 8.2.2 is missing. Premise: the contract bignum_ok of the bignum routines, as in C22."
  },
  {
   "property": "C64",
   "status": "proved",
   "theorems": [
    "C64_binding",
    "C64_neutral_key_refuted",
    "C64_seed_keys",
    "C64_seed_binding"
   ],
   "note": "Premise: the contract of the assembly (S_EdLow.ed_low_ok), as in C34. C64_neutral_key_refuted is a finding. That SHA-512 seldom agrees modulo l on two messages is the usual assumption about it and is not modelled."
  }
 ]
}