(** Model of rustls-graviola/src/suites.rs (the cipher suites), hash.rs and hmac.rs
    (transcript hash and HMAC objects handed to rustls), and of the key shapes and
    key extraction of aead.rs.  rustls itself is a dependency; a CipherSuite is
    its wire value. *)
Require Import Verif.Base Verif.M_Sha2 Verif.M_Hmac Verif.M_Aead Verif.M_TlsRecord Verif.M_Sign.

(** hash.rs:4, 47: the two implementations of rustls::crypto::hash::Hash *)
Inductive hash_object := HashSha256 | HashSha384.
(** hash.rs:6-9, 49-52: the context each starts *)
Definition ho_alg (o : hash_object) : hash_alg := match o with HashSha256 => Sha256 | HashSha384 => Sha384 end.
(** hash.rs:18-20, 61-63: algorithm(), by the TLS HashAlgorithm number (RFC 5246 7.4.1.4.1) *)
Definition ho_algorithm (o : hash_object) : Z := match o with HashSha256 => 4 | HashSha384 => 5 end.
(** hash.rs:22-24, 65-67: output_len *)
Definition ho_output_len (o : hash_object) : Z := ha_out (ho_alg o).
(** hash.rs:11-16, 54-59: hash *)
Definition ho_hash (o : hash_object) (data : list Z) : res (list Z) :=
  let! c := ha_update (ho_alg o) (ha_new (ho_alg o)) data in ha_finish (ho_alg o) c.

(** Calls on hash contexts: start makes context number 0; fork makes the next
    number.  hash.rs:29-45, 72-88 *)
Inductive hop := HUpdate (i : nat) (data : list Z) | HFork (i : nat) | HForkFinish (i : nat) | HFinish (i : nat).
(** One call.  The state is the list of contexts, None where finish consumed it.
    Calls on contexts that do not exist cannot be written in Rust and do nothing here. hash.rs:29-45, 72-88 *)
Definition h_step (H : hash_alg) (st : list (option (ha_ctx H))) (op : hop) : res (list (option (ha_ctx H)) * list (list Z)) :=
  match op with
  | HUpdate i data =>
      match nth_error st i with
      | Some (Some c) => let! c := ha_update H c data in Ok (upd st i (Some c), [])
      | _ => Ok (st, []) end
  | HFork i => match nth_error st i with Some (Some c) => Ok (st ++ [Some c], []) | _ => Ok (st, []) end
  | HForkFinish i => match nth_error st i with Some (Some c) => let! o := ha_finish H c in Ok (st, [o]) | _ => Ok (st, []) end
  | HFinish i => match nth_error st i with Some (Some c) => let! o := ha_finish H c in Ok (upd st i None, [o]) | _ => Ok (st, []) end
  end.
(** A sequence of such calls and the outputs in order (hash.rs:29-45, 72-88) *)
Fixpoint h_run (H : hash_alg) (st : list (option (ha_ctx H))) (ops : list hop) : res (list (list Z)) :=
  match ops with
  | [] => Ok []
  | op :: ops => let! r := h_step H st op in let! outs := h_run H (fst r) ops in Ok (snd r ++ outs)
  end.
(** Hash::start followed by the calls (hash.rs:7-9, 50-52) *)
Definition ho_session (o : hash_object) (ops : list hop) : res (list (list Z)) := h_run (ho_alg o) [Some (ha_new (ho_alg o))] ops.

(** hmac.rs:5, 35: the two implementations of rustls::crypto::hmac::Hmac *)
Inductive hmac_object := Sha256Hmac | Sha384Hmac.
(** hmac.rs:8-10, 38-40 *)
Definition mo_alg (o : hmac_object) : hash_alg := match o with Sha256Hmac => Sha256 | Sha384Hmac => Sha384 end.
(** hmac.rs:12-14, 42-44, 30-32, 60-62, 65-66: hash_output_len and tag_len *)
Definition mo_tag_len (o : hmac_object) : Z := match o with Sha256Hmac => 32 | Sha384Hmac => 48 end.
(** hmac.rs:8-10, 38-40 with_key, then 19-28, 49-58 sign_concat, which works on a clone of the keyed context *)
Definition mo_sign_concat (o : hmac_object) (key first : list Z) (middle : list (list Z)) (last : list Z) : res (list Z) :=
  let! ctx := hmac_new (mo_alg o) key in
  let! ctx := hmac_update ctx first in
  let! ctx := hmac_updates ctx middle in
  let! ctx := hmac_update ctx last in
  hmac_finish ctx.

(** aead.rs:10, 185: the AEAD objects *)
Inductive aead_object := Chacha20Poly1305 | TlsAesGcm (n : Z).
(** aead.rs:27-29, 196-198: key_len *)
Definition ao_key_len (a : aead_object) : Z := match a with Chacha20Poly1305 => 32 | TlsAesGcm n => n end.
(** aead.rs:55-61, 232-238: key_block_shape: enc_key_len, fixed_iv_len, explicit_nonce_len *)
Definition ao_key_block_shape (a : aead_object) : Z * Z * Z := match a with Chacha20Poly1305 => (32, 12, 0) | TlsAesGcm n => (n, 4, 8) end.
(** The implementation behind an object on a processor: how ChaCha20 runs and whether there is AVX-512
    (see [aead_alg]) *)
Definition ao_alg (s : stream) (have512 : bool) (a : aead_object) : aead_alg :=
  match a with Chacha20Poly1305 => AlgChaCha s | TlsAesGcm _ => AlgGcm have512 end.
(** rustls ConnectionTrafficSecrets *)
Inductive secrets := SecAes128Gcm (key iv : list Z) | SecAes256Gcm (key iv : list Z) | SecChacha (key iv : list Z).
(** aead.rs:204-208, 247-251: the match on the key length *)
Definition gcm_secrets (n : Z) (key iv : list Z) : res secrets :=
  if n =? 16 then Ok (SecAes128Gcm key iv) else if n =? 32 then Ok (SecAes256Gcm key iv) else Panic.
(** aead.rs:31-37, 200-209: extract_keys for TLS1.3 *)
Definition ao_extract13 (a : aead_object) (key iv : list Z) : res secrets :=
  match a with Chacha20Poly1305 => Ok (SecChacha key iv) | TlsAesGcm n => gcm_secrets n key iv end.
(** aead.rs:63-75, 240-252: extract_keys for TLS1.2 *)
Definition ao_extract12 (a : aead_object) (key iv explicit : list Z) : res secrets :=
  match a with
  | Chacha20Poly1305 => if zlen iv =? 12 then Ok (SecChacha key iv) else Panic
  | TlsAesGcm n => let! iv := gcm_iv iv explicit in gcm_secrets n key iv
  end.

(** rustls SupportedCipherSuite with Tls13CipherSuite / Tls12CipherSuite.  [su_sign] is empty for TLS1.3, where
    [su_hmac] is the HMAC under HkdfUsingHmac; for TLS1.2 it is the one under PrfUsingHmac.  All TLS1.2 suites
    here have kx ECDHE. *)
Record suite := { su_code : Z; su_tls13 : bool; su_hash : hash_object; su_limit : Z; su_hmac : hmac_object; su_aead : aead_object;
  su_sign : list scheme }.
(** SignatureScheme::ECDSA_NISTP521_SHA512, by wire value (suites.rs:147) *)
Definition ECDSA_NISTP521_SHA512 : scheme := OtherScheme 0x0603.
(** suites.rs:146-150 *)
Definition TLS12_ECDSA_SCHEMES : list scheme := [ECDSA_NISTP521_SHA512; ECDSA_NISTP384_SHA384; ECDSA_NISTP256_SHA256].
(** suites.rs:152-159 *)
Definition TLS12_RSA_SCHEMES : list scheme :=
  [RSA_PSS_SHA512; RSA_PSS_SHA384; RSA_PSS_SHA256; RSA_PKCS1_SHA512; RSA_PKCS1_SHA384; RSA_PKCS1_SHA256].
(** suites.rs:24-34 *)
Definition TLS13_AES_256_GCM_SHA384 : suite :=
  {| su_code := 0x1302; su_tls13 := true; su_hash := HashSha384; su_limit := 2 ^ 24; su_hmac := Sha384Hmac; su_aead := TlsAesGcm 32; su_sign := [] |}.
(** suites.rs:37-47 *)
Definition TLS13_AES_128_GCM_SHA256 : suite :=
  {| su_code := 0x1301; su_tls13 := true; su_hash := HashSha256; su_limit := 2 ^ 24; su_hmac := Sha256Hmac; su_aead := TlsAesGcm 16; su_sign := [] |}.
(** suites.rs:50-60 *)
Definition TLS13_CHACHA20_POLY1305_SHA256 : suite :=
  {| su_code := 0x1303; su_tls13 := true; su_hash := HashSha256; su_limit := 2 ^ 64 - 1; su_hmac := Sha256Hmac; su_aead := Chacha20Poly1305; su_sign := [] |}.
(** suites.rs:63-74 *)
Definition TLS_ECDHE_RSA_WITH_CHACHA20_POLY1305_SHA256 : suite :=
  {| su_code := 0xcca8; su_tls13 := false; su_hash := HashSha256; su_limit := 2 ^ 64 - 1; su_hmac := Sha256Hmac; su_aead := Chacha20Poly1305;
     su_sign := TLS12_RSA_SCHEMES |}.
(** suites.rs:77-88 *)
Definition TLS_ECDHE_ECDSA_WITH_CHACHA20_POLY1305_SHA256 : suite :=
  {| su_code := 0xcca9; su_tls13 := false; su_hash := HashSha256; su_limit := 2 ^ 64 - 1; su_hmac := Sha256Hmac; su_aead := Chacha20Poly1305;
     su_sign := TLS12_ECDSA_SCHEMES |}.
(** suites.rs:91-102 *)
Definition TLS_ECDHE_RSA_WITH_AES_128_GCM_SHA256 : suite :=
  {| su_code := 0xc02f; su_tls13 := false; su_hash := HashSha256; su_limit := 2 ^ 24; su_hmac := Sha256Hmac; su_aead := TlsAesGcm 16;
     su_sign := TLS12_RSA_SCHEMES |}.
(** suites.rs:105-116 *)
Definition TLS_ECDHE_RSA_WITH_AES_256_GCM_SHA384 : suite :=
  {| su_code := 0xc030; su_tls13 := false; su_hash := HashSha384; su_limit := 2 ^ 24; su_hmac := Sha384Hmac; su_aead := TlsAesGcm 32;
     su_sign := TLS12_RSA_SCHEMES |}.
(** suites.rs:119-130 *)
Definition TLS_ECDHE_ECDSA_WITH_AES_128_GCM_SHA256 : suite :=
  {| su_code := 0xc02b; su_tls13 := false; su_hash := HashSha256; su_limit := 2 ^ 24; su_hmac := Sha256Hmac; su_aead := TlsAesGcm 16;
     su_sign := TLS12_ECDSA_SCHEMES |}.
(** suites.rs:133-144 *)
Definition TLS_ECDHE_ECDSA_WITH_AES_256_GCM_SHA384 : suite :=
  {| su_code := 0xc02c; su_tls13 := false; su_hash := HashSha384; su_limit := 2 ^ 24; su_hmac := Sha384Hmac; su_aead := TlsAesGcm 32;
     su_sign := TLS12_ECDSA_SCHEMES |}.
(** suites.rs:11-21; lib.rs:37 offers exactly these *)
Definition ALL_CIPHER_SUITES : list suite :=
  [TLS13_AES_128_GCM_SHA256; TLS13_AES_256_GCM_SHA384; TLS13_CHACHA20_POLY1305_SHA256;
   TLS_ECDHE_ECDSA_WITH_AES_128_GCM_SHA256; TLS_ECDHE_ECDSA_WITH_AES_256_GCM_SHA384; TLS_ECDHE_ECDSA_WITH_CHACHA20_POLY1305_SHA256;
   TLS_ECDHE_RSA_WITH_AES_128_GCM_SHA256; TLS_ECDHE_RSA_WITH_AES_256_GCM_SHA384; TLS_ECDHE_RSA_WITH_CHACHA20_POLY1305_SHA256].
(** rustls Tls12CipherSuite::resolve_sig_schemes (from its documentation): the schemes of the suite that the peer offered *)
Definition resolve_sig_schemes (s : suite) (offered : list scheme) : list scheme := filter (contains offered) (su_sign s).
