-Q theories Verif
theories/Base.v
theories/L_Base.v
theories/M_Asn1.v
theories/M_Pkix.v
theories/S_Der.v
theories/S_Pkix.v
theories/L_Asn1.v
theories/L_Asn1Int.v
theories/L_Pkix.v
theories/T_Asn1.v
theories/M_Blockwise.v
theories/M_Sha2.v
theories/S_Sha2.v
theories/L_Blocks.v
theories/L_ShaCtx.v
theories/L_Sha2.v
theories/L_Hash.v
theories/M_Ct.v
theories/M_Hmac.v
theories/S_Hmac.v
theories/L_Hmac.v
theories/T_Hash.v
theories/M_Util.v
theories/L_Util.v
theories/T_Util.v
theories/L_Bits.v
theories/M_ChaCha.v
theories/S_ChaCha.v
theories/L_ChaCha.v
theories/M_Poly1305.v
theories/L_Poly1305.v
theories/M_Aead.v
theories/L_Aead.v
theories/T_ChaCha.v
theories/T_Aead.v
theories/M_Sha3.v
theories/S_Sha3.v
theories/L_Sha3.v
theories/T_Sha3.v
theories/S_Aes.v
theories/S_Gcm.v
theories/M_Aes.v
theories/M_Ghash.v
theories/M_AesGcm.v
theories/L_Clmul.v
theories/L_Ghash.v
theories/L_Aes.v
theories/L_GhashAdd.v
theories/L_Gcm.v
theories/T_Gcm.v
theories/M_ArmGcm.v
theories/L_ArmGcm.v
theories/T_ArmGcm.v
theories/S_MlKem.v
theories/M_MlKem.v
theories/S_MlKemAsm.v
theories/L_MlKemEnc.v
theories/L_MlKemSample.v
theories/L_MlKem.v
theories/L_MlKemKem.v
theories/T_MlKem.v
theories/T_MlKemEx.v
theories/M_TlsRecord.v
theories/S_Tls.v
theories/L_TlsRecord.v
theories/T_Tls.v
theories/M_Ticketer.v
theories/T_Ticket.v
theories/S_X25519.v
theories/M_X25519.v
theories/M_Kx.v
theories/T_Kx.v
theories/S_MlKemNoise.v
theories/L_MlKemNtt.v
theories/L_MlKemCorrect.v
theories/T_MlKemNoise.v
theories/M_Sign.v
theories/T_Sign.v
theories/M_PosInt.v
theories/S_Bignum.v
theories/L_PosInt.v
theories/T_PosInt.v
theories/L_Mont.v
theories/L_Fermat.v
theories/L_BignumRef.v
theories/M_Rsa.v
theories/S_Rsa.v
theories/L_Rsa.v
theories/L_RsaCrt.v
theories/T_Rsa.v
theories/T_RsaEx.v
theories/M_Pkcs1.v
theories/S_Pkcs1.v
theories/L_Pkcs1.v
theories/T_Pkcs1.v
theories/T_RsaSig.v
theories/M_Pkcs8.v
theories/T_Pkcs8.v
theories/M_RsaKey.v
theories/T_RsaKey.v
theories/L_Invert.v
theories/M_RsaGen.v
theories/S_Prime.v
theories/L_RsaGen.v
theories/T_RsaGen.v
theories/T_RsaKeyGen.v
theories/T_RsaPairs.v
theories/S_Curve.v
theories/L_Fp.v
theories/L_Curve.v
theories/M_Ec.v
theories/S_Ec.v
theories/L_EcPoint.v
theories/L_Booth.v
theories/L_EcMul.v
theories/L_EcKey.v
theories/L_CurveEx.v
theories/L_EcRef.v
theories/T_Ec.v
theories/M_Ecdsa.v
theories/S_Ecdsa.v
theories/L_Ecdsa.v
theories/L_EcdsaSign.v
theories/T_Ecdsa.v
theories/T_EcdsaKey.v
theories/M_Ed25519.v
theories/S_Ed.v
theories/L_Ed.v
theories/S_EdLow.v
theories/L_EdEx.v
theories/T_Ed25519.v
theories/T_EdKey.v
theories/M_Entry.v
theories/T_Entry.v
theories/M_CpuAsm.v
theories/T_CpuAsm.v
theories/M_Provider.v
theories/T_Provider.v
theories/T_Signer.v
theories/S_Simd.v
theories/M_Sha2Hw.v
theories/L_Sha2Hw.v
theories/L_Sha5Hw.v
theories/L_Sha2Sim.v
theories/T_Sha2Hw.v
theories/L_Weier.v
theories/L_Pock.v
theories/L_Primes256.v
theories/L_Primes384.v
theories/L_Primes25519.v
theories/L_Order.v
theories/L_P256.v
theories/L_P384.v
theories/L_EdOrder.v
theories/L_E25519.v
theories/L_X25519.v
theories/T_Curves.v
theories/M_Select.v
theories/S_Select.v
theories/L_Select.v
theories/L_SelectRow.v
theories/T_Select.v
theories/M_Suites.v
theories/S_Suites.v
theories/T_Suites.v
theories/M_GhashGen.v
theories/L_GhashField.v
theories/L_GhashBound.v
theories/T_Ghash.v
theories/L_Prime1305.v
theories/L_PolyBound.v
theories/T_PolyBound.v
theories/T_EcdsaBound.v
theories/T_RsaUnique.v
theories/T_EdBind.v
