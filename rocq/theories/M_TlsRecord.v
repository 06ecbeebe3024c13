(** Model of rustls-graviola/src/aead.rs: TLS record protection.
    The rustls types it works with are a dependency whose source is not in /repo; the few functions of
    rustls that are called (Nonce::new, make_tls13_aad, make_tls12_aad, into_tls13_unpadded_message,
    into_plain_message, into_plain_message_range, PrefixedPayload) are modelled from the rustls 0.23
    documentation and say so.  A content type is its wire byte, a version its wire u16. *)
Require Import Verif.Base Verif.M_Aead Verif.M_AesGcm.

(** rustls OutboundPlainMessage / OutboundOpaqueMessage / InboundOpaqueMessage / InboundPlainMessage:
    type, version, payload.  An outbound payload (OutboundChunks) is a list of chunks. *)
Record plain_out := mkPlainOut { po_typ : Z; po_ver : Z; po_chunks : list (list Z) }.
(** see [plain_out]; also used for the opaque outbound message *)
Record message := mkMsg { ms_typ : Z; ms_ver : Z; ms_payload : list Z }.

(** rustls: ProtocolVersion::{TLSv1_2, TLSv1_3}, ContentType::ApplicationData *)
Definition TLSv1_2 : Z := 0x0303.
(** see [TLSv1_2] *)
Definition TLSv1_3 : Z := 0x0304.
(** see [TLSv1_2] *)
Definition ApplicationData : Z := 23.

(** The AEAD object held by a cipher (graviola::aead::{ChaCha20Poly1305, AesGcm}): encrypt (new buffer,
    tag) and decrypt (Result, new buffer).  The outer [res] only carries panics. rustls-graviola/src/aead.rs:13-18, 188-194 *)
Record tls_aead := {
  ta_enc : list Z -> list Z -> list Z -> res (list Z * list Z);
  ta_dec : list Z -> list Z -> list Z -> list Z -> res (res unit * list Z)
}.
(** Which AEAD a suite uses and the build/CPU variant of its implementation; rustls-graviola/src/aead.rs:10, 185 *)
Inductive aead_alg := AlgChaCha (s : stream) | AlgGcm (have512 : bool).
(** aead.rs:13-18, 41-46: [key.as_ref().try_into().unwrap()] for ChaCha20-Poly1305 (panics unless 32 bytes);
    aead.rs:188-194, 214-230: AesGcm::new(key.as_ref()) *)
Definition aead_new (alg : aead_alg) (key : list Z) : res tls_aead :=
  match alg with
  | AlgChaCha s =>
      if zlen key =? 32 then Ok {| ta_enc := aead_encrypt s key; ta_dec := aead_decrypt s key |} else Panic
  | AlgGcm have512 =>
      let! g := gcm_new have512 key in
      Ok {| ta_enc := fun n a b => Ok (gcm_encrypt g n a b); ta_dec := fun n a b t => Ok (gcm_decrypt g n a b t) |}
  end.

(** rustls Nonce::new(iv, seq): the big-endian sequence number, left-padded, xored with the IV *)
Definition nonce_new (iv : list Z) (seq : Z) : list Z :=
  map (fun '(a, b) => Z.lxor a b) (combine iv (repeat 0 4 ++ be_bytes 8 seq)).
(** rustls make_tls13_aad(payload_len): type, version 3.3, (len >> 8) as u8, len as u8 *)
Definition make_tls13_aad (len : Z) : list Z := [ApplicationData; 3; 3; (len / 256) mod 256; len mod 256].
(** rustls make_tls12_aad(seq, typ, vers, len): seq as u64, typ, vers as u16, len as u16 *)
Definition make_tls12_aad (seq typ ver len : Z) : list Z := be_bytes 8 seq ++ [typ] ++ be_bytes 2 ver ++ be_bytes 2 (len mod 2 ^ 16).

(** aead.rs:401-408 *)
Definition CHACHAPOLY1305_OVERHEAD : Z := 16.
(** aead.rs:402 *)
Definition AESGCM_TAG : Z := 16.
(** aead.rs:404 *)
Definition MAX_FRAGMENT_LEN : Z := 16384.
(** aead.rs:407 *)
Definition AESGCM_EXPLICIT_NONCE_LEN : Z := 8.
(** aead.rs:408 *)
Definition AESGCM_OVERHEAD : Z := AESGCM_EXPLICIT_NONCE_LEN + AESGCM_TAG.

(** rustls BorrowedPayload::pop in unpad_tls13_payload: drop trailing zeros, then take the type byte;
    [rev_payload] is the payload backwards.  None stands for ContentType::Unknown(0). *)
Fixpoint unpad (rev_payload : list Z) : option (Z * list Z) :=
  match rev_payload with
  | [] => None
  | t :: r => if t =? 0 then unpad r else Some (t, rev r)
  end.
(** rustls InboundOpaqueMessage::into_tls13_unpadded_message *)
Definition into_tls13_unpadded_message (payload : list Z) : res message :=
  if MAX_FRAGMENT_LEN + 1 <? zlen payload then Err PeerSentOversizedRecord else
  match unpad (rev payload) with
  | None => Err IllegalTlsInnerPlaintext
  | Some (typ, p) => if MAX_FRAGMENT_LEN <? zlen p then Err PeerSentOversizedRecord else Ok (mkMsg typ TLSv1_3 p)
  end.

(** the result of an AEAD decrypt followed by [.map_err(|_| DecryptError)?]; rustls-graviola/src/aead.rs, in each decrypt cited below *)
Definition opened (r : res (res unit * list Z)) : res (list Z) :=
  let! d := r in
  match fst d with Ok _ => Ok (snd d) | Err _ => Err DecryptError | Panic => Panic end.

(** aead.rs:81-103  ChaChaTls13Cipher::encrypt *)
Definition chacha_tls13_encrypt (A : tls_aead) (iv : list Z) (m : plain_out) (seq : Z) : res message :=
  let total_len := zlen (concat (po_chunks m)) + 1 + CHACHAPOLY1305_OVERHEAD in
  let payload := concat (po_chunks m) in
  let payload := payload ++ [po_typ m] in
  let nonce := nonce_new iv seq in
  let aad := make_tls13_aad total_len in
  let! e := ta_enc A nonce aad payload in
  Ok (mkMsg ApplicationData TLSv1_2 (fst e ++ snd e)).
(** aead.rs:111-131  ChaChaTls13Cipher::decrypt *)
Definition chacha_tls13_decrypt (A : tls_aead) (iv : list Z) (m : message) (seq : Z) : res message :=
  let payload := ms_payload m in
  let nonce := nonce_new iv seq in
  let aad := make_tls13_aad (zlen payload) in
  if zlen payload <? CHACHAPOLY1305_OVERHEAD then Err DecryptError else
  let cipher_len := zlen payload - CHACHAPOLY1305_OVERHEAD in
  let! p := opened (ta_dec A nonce aad (ztake cipher_len payload) (zdrop cipher_len payload)) in
  into_tls13_unpadded_message p.
(** aead.rs:137-154  ChaChaTls12Cipher::encrypt *)
Definition chacha_tls12_encrypt (A : tls_aead) (iv : list Z) (m : plain_out) (seq : Z) : res message :=
  let payload := concat (po_chunks m) in
  let nonce := nonce_new iv seq in
  let aad := make_tls12_aad seq (po_typ m) (po_ver m) (zlen payload) in
  let! e := ta_enc A nonce aad payload in
  Ok (mkMsg (po_typ m) (po_ver m) (fst e ++ snd e)).
(** aead.rs:162-182  ChaChaTls12Cipher::decrypt *)
Definition chacha_tls12_decrypt (A : tls_aead) (iv : list Z) (m : message) (seq : Z) : res message :=
  let payload := ms_payload m in
  let nonce := nonce_new iv seq in
  if zlen payload <? CHACHAPOLY1305_OVERHEAD then Err DecryptError else
  let cipher_len := zlen payload - CHACHAPOLY1305_OVERHEAD in
  let aad := make_tls12_aad seq (ms_typ m) (ms_ver m) cipher_len in
  let! p := opened (ta_dec A nonce aad (ztake cipher_len payload) (zdrop cipher_len payload)) in
  Ok (mkMsg (ms_typ m) (ms_ver m) p).
(** aead.rs:383-399  gcm_iv (the copies panic unless the lengths are 4 and 8) *)
Definition gcm_iv (write_iv explicit : list Z) : res (list Z) :=
  if (zlen write_iv =? 4) && (zlen explicit =? 8) then Ok (write_iv ++ explicit) else Panic.
(** aead.rs:297-320  GcmTls12MessageEncrypter::encrypt *)
Definition gcm_tls12_encrypt (A : tls_aead) (iv : list Z) (m : plain_out) (seq : Z) : res message :=
  let nonce := nonce_new iv seq in
  let aad := make_tls12_aad seq (po_typ m) (po_ver m) (zlen (concat (po_chunks m))) in
  let payload := zdrop 4 nonce in
  let payload := payload ++ concat (po_chunks m) in
  let! e := ta_enc A nonce aad (zdrop AESGCM_EXPLICIT_NONCE_LEN payload) in
  Ok (mkMsg (po_typ m) (po_ver m) (ztake AESGCM_EXPLICIT_NONCE_LEN payload ++ fst e ++ snd e)).
(** aead.rs:257-291  GcmTls12MessageDecrypter::decrypt; [salt] is the four-byte implicit part *)
Definition gcm_tls12_decrypt (A : tls_aead) (salt : list Z) (m : message) (seq : Z) : res message :=
  let payload := ms_payload m in
  if zlen payload <? AESGCM_OVERHEAD then Err DecryptError else
  let nonce := splice (splice (repeat 0 12) 0 salt) 4 (ztake 8 payload) in
  let plain_len := zlen payload - AESGCM_OVERHEAD in
  let aad := make_tls12_aad seq (ms_typ m) (ms_ver m) plain_len in
  let cipher := zdrop AESGCM_EXPLICIT_NONCE_LEN payload in
  let tag := zdrop (zlen cipher - AESGCM_TAG) cipher in
  let cipher := ztake (zlen cipher - AESGCM_TAG) cipher in
  let! p := opened (ta_dec A nonce aad cipher tag) in
  if MAX_FRAGMENT_LEN <? plain_len then Err PeerSentOversizedRecord else
  let payload := ztake AESGCM_EXPLICIT_NONCE_LEN payload ++ p ++ tag in
  Ok (mkMsg (ms_typ m) (ms_ver m) (ztake plain_len (zdrop AESGCM_EXPLICIT_NONCE_LEN payload))).
(** aead.rs:330-352  GcmTls13Cipher::encrypt *)
Definition gcm_tls13_encrypt (A : tls_aead) (iv : list Z) (m : plain_out) (seq : Z) : res message :=
  let total_len := zlen (concat (po_chunks m)) + 1 + AESGCM_TAG in
  let nonce := nonce_new iv seq in
  let aad := make_tls13_aad total_len in
  let payload := concat (po_chunks m) ++ [po_typ m] in
  let! e := ta_enc A nonce aad payload in
  Ok (mkMsg ApplicationData TLSv1_2 (fst e ++ snd e)).
(** aead.rs:360-380  GcmTls13Cipher::decrypt *)
Definition gcm_tls13_decrypt (A : tls_aead) (iv : list Z) (m : message) (seq : Z) : res message :=
  let payload := ms_payload m in
  if zlen payload <? AESGCM_TAG then Err DecryptError else
  let nonce := nonce_new iv seq in
  let aad := make_tls13_aad (zlen payload) in
  let plain_len := zlen payload - AESGCM_TAG in
  let! p := opened (ta_dec A nonce aad (ztake plain_len payload) (zdrop plain_len payload)) in
  into_tls13_unpadded_message p.

(** The encrypters and decrypters a suite hands to rustls.
    aead.rs:13-25, 188-194 (Tls13AeadAlgorithm), 41-53, 214-230 (Tls12AeadAlgorithm).
    [iv] is the 12-byte TLS1.3 IV, or the fixed part of the TLS1.2 IV (12 bytes for ChaCha20-Poly1305,
    4 for AES-GCM); [explicit] is the TLS1.2 explicit nonce from the key block (8 bytes for AES-GCM, unused
    for ChaCha20-Poly1305).  [Iv::copy] and [try_into().unwrap()] panic on any other length. *)
Definition tls13_encrypter (alg : aead_alg) (key iv : list Z) : res (plain_out -> Z -> res message) :=
  let! A := aead_new alg key in
  match alg with AlgChaCha _ => Ok (chacha_tls13_encrypt A iv) | AlgGcm _ => Ok (gcm_tls13_encrypt A iv) end.
(** see [tls13_encrypter] *)
Definition tls13_decrypter (alg : aead_alg) (key iv : list Z) : res (message -> Z -> res message) :=
  let! A := aead_new alg key in
  match alg with AlgChaCha _ => Ok (chacha_tls13_decrypt A iv) | AlgGcm _ => Ok (gcm_tls13_decrypt A iv) end.
(** see [tls13_encrypter] *)
Definition tls12_encrypter (alg : aead_alg) (key iv explicit : list Z) : res (plain_out -> Z -> res message) :=
  match alg with
  | AlgChaCha _ => let! A := aead_new alg key in if zlen iv =? 12 then Ok (chacha_tls12_encrypt A iv) else Panic
  | AlgGcm _ => let! iv := gcm_iv iv explicit in let! A := aead_new alg key in Ok (gcm_tls12_encrypt A iv)
  end.
(** see [tls13_encrypter] *)
Definition tls12_decrypter (alg : aead_alg) (key iv : list Z) : res (message -> Z -> res message) :=
  match alg with
  | AlgChaCha _ => let! A := aead_new alg key in if zlen iv =? 12 then Ok (chacha_tls12_decrypt A iv) else Panic
  | AlgGcm _ => let! A := aead_new alg key in if zlen iv =? 4 then Ok (gcm_tls12_decrypt A iv) else Panic
  end.
