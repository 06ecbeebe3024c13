(** What the names of the cipher suites mean, and what a hash context is.  Spec only. *)
Require Import Verif.Base Verif.S_Sha2 Verif.S_Tls Verif.M_Sign Verif.M_Suites.

(** The parts of a cipher suite name.  (Spec only.) *)
Inductive cipher := AES_128_GCM | AES_256_GCM | CHACHA20_POLY1305.
(** Who signs the handshake: anything (TLS1.3), an ECDSA or an RSA certificate.  (Spec only.) *)
Inductive auth := AnyAuth | EcdsaAuth | RsaAuth.
(** A hash in a name.  (Spec only.) *)
Inductive hash_name := NSHA256 | NSHA384.
(** (Spec only.) *)
Record named := Named { nm_tls13 : bool; nm_auth : auth; nm_cipher : cipher; nm_hash : hash_name }.
(** IANA, TLS Cipher Suites registry (RFC 8446 B.4, RFC 5289 3.2, RFC 7905 2).  (Spec only.) *)
Definition registry (code : Z) : option named :=
  if code =? 0x1301 then Some (Named true AnyAuth AES_128_GCM NSHA256)
  else if code =? 0x1302 then Some (Named true AnyAuth AES_256_GCM NSHA384)
  else if code =? 0x1303 then Some (Named true AnyAuth CHACHA20_POLY1305 NSHA256)
  else if code =? 0xc02b then Some (Named false EcdsaAuth AES_128_GCM NSHA256)
  else if code =? 0xc02c then Some (Named false EcdsaAuth AES_256_GCM NSHA384)
  else if code =? 0xc02f then Some (Named false RsaAuth AES_128_GCM NSHA256)
  else if code =? 0xc030 then Some (Named false RsaAuth AES_256_GCM NSHA384)
  else if code =? 0xcca8 then Some (Named false RsaAuth CHACHA20_POLY1305 NSHA256)
  else if code =? 0xcca9 then Some (Named false EcdsaAuth CHACHA20_POLY1305 NSHA256)
  else None.
(** FIPS 180-4: function, block length and digest length in bytes.  (Spec only.) *)
Definition name_fn (h : hash_name) : list Z -> list Z := match h with NSHA256 => SHA256 | NSHA384 => SHA384 end.
Definition name_block (h : hash_name) : Z := match h with NSHA256 => 64 | NSHA384 => 128 end.
Definition name_out (h : hash_name) : Z := match h with NSHA256 => 32 | NSHA384 => 48 end.
(** TLS HashAlgorithm numbers, RFC 5246 7.4.1.4.1.  (Spec only.) *)
Definition name_number (h : hash_name) : Z := match h with NSHA256 => 4 | NSHA384 => 5 end.
(** RFC 5288 3, RFC 7905 2, RFC 8446 5.3: key length; salt and explicit nonce length in TLS1.2.  (Spec only.) *)
Definition cipher_key (c : cipher) : Z := match c with AES_128_GCM => 16 | AES_256_GCM => 32 | CHACHA20_POLY1305 => 32 end.
Definition cipher_salt (c : cipher) : Z := match c with CHACHA20_POLY1305 => 12 | _ => 4 end.
Definition cipher_explicit (c : cipher) : Z := match c with CHACHA20_POLY1305 => 0 | _ => 8 end.
(** The AEAD of a cipher (for AES-GCM the key length says which AES).  (Spec only.) *)
Definition cipher_aead (c : cipher) (key : list Z) : saead := match c with CHACHA20_POLY1305 => s_chacha key | _ => s_gcm key end.
(** The secrets as exported for a cipher.  (Spec only.) *)
Definition cipher_secrets (c : cipher) (key iv : list Z) : secrets :=
  match c with AES_128_GCM => SecAes128Gcm key iv | AES_256_GCM => SecAes256Gcm key iv | CHACHA20_POLY1305 => SecChacha key iv end.
(** The key types and schemes a certificate type stands for (RFC 8446 4.2.3, RFC 8422 5.1, 5.10).  (Spec only.) *)
Definition auth_key (a : auth) (k : key_kind) : Prop :=
  match a with AnyAuth => True | RsaAuth => k = KRsa | EcdsaAuth => k <> KRsa end.

(** What the contexts should be: each has the bytes it was given; a fork has
    those of its origin.  (Spec only.) *)
Definition t_step (f : list Z -> list Z) (st : list (option (list Z))) (op : hop) : list (option (list Z)) * list (list Z) :=
  match op with
  | HUpdate i data => match nth_error st i with Some (Some h) => (upd st i (Some (h ++ data)), []) | _ => (st, []) end
  | HFork i => match nth_error st i with Some (Some h) => (st ++ [Some h], []) | _ => (st, []) end
  | HForkFinish i => match nth_error st i with Some (Some h) => (st, [f h]) | _ => (st, []) end
  | HFinish i => match nth_error st i with Some (Some h) => (upd st i None, [f h]) | _ => (st, []) end
  end.
(** (Spec only.) *)
Fixpoint t_run (f : list Z -> list Z) (st : list (option (list Z))) (ops : list hop) : list (list Z) :=
  match ops with [] => [] | op :: ops => let '(st, o) := t_step f st op in o ++ t_run f st ops end.
(** All bytes given to contexts.  (Spec only.) *)
Definition op_data (op : hop) : list Z := match op with HUpdate _ d => d | _ => [] end.
