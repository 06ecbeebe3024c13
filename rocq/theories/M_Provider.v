(** Model of rustls-graviola/src/sign.rs (loading private keys, signing) and
    rustls-graviola/src/verify.rs (the table of verification algorithms).  Key
    kinds and the choice of scheme are in M_Sign.  Error messages are dropped. *)
Require Import Verif.Base Verif.M_Sha2 Verif.M_Hmac Verif.M_Pkix Verif.M_Ec Verif.M_Ecdsa Verif.M_Ed25519.
Require Import Verif.M_PosInt Verif.M_Rsa Verif.M_RsaKey Verif.M_Pkcs1 Verif.M_Sign.

(** The assembly below the four key types (graviola/src/low; see M_PosInt, M_Ec, M_Ed25519). *)
Record lows := { lw_bn : bignum; lw_p256 : ec; lw_p384 : ec; lw_ed : ed_low }.

(** pki_types::PrivateKeyDer (dependency), as matched in sign.rs:17-22; the last stands for variants added to that enum *)
Inductive private_key_der := Pkcs8 (b : list Z) | Pkcs1 (b : list Z) | Sec1 (b : list Z) | OtherKey (b : list Z).
(** sign.rs:75, 172, 222, 272: the types implementing sign::SigningKey *)
Inductive any_key := ARsa (k : rsa_priv) | AP256 (d : Z) | AP384 (d : Z) | AEd25519 (k : signing_key).
(** sign.rs:75, 172, 222, 272 *)
Definition kind_of (k : any_key) : key_kind :=
  match k with ARsa _ => KRsa | AP256 _ => KP256 | AP384 _ => KP384 | AEd25519 _ => KEd25519 end.

(** [if let Ok(k) = r { return Ok(f(k)) }] followed by [rest] (sign.rs:29-45) *)
Definition if_ok {A} (r : res A) (f : A -> any_key) (rest : res any_key) : res any_key :=
  match r with Ok k => Ok (f k) | Err _ => rest | Panic => Panic end.

Section Provider.
Variable W : lows.

(** sign.rs:26-48 *)
Definition load_pkcs8 (b : list Z) : res any_key :=
  if_ok (sk_from_pkcs8_der (lw_bn W) b) ARsa
  (if_ok (from_pkcs8_der (lw_p256 W) id_prime256v1 b) AP256
  (if_ok (from_pkcs8_der (lw_p384 W) id_secp384r1 b) AP384
  (if_ok (ed_from_pkcs8_der (lw_ed W) b) AEd25519
  (Err GeneralError)))).
(** sign.rs:50-57 *)
Definition load_pkcs1 (b : list Z) : res any_key :=
  let! rsa := map_err (sk_from_pkcs1_der (lw_bn W) b) (fun _ => GeneralError) in Ok (ARsa rsa).
(** sign.rs:59-73 *)
Definition load_sec1 (b : list Z) : res any_key :=
  if_ok (from_sec1_der (lw_p256 W) id_prime256v1 b) AP256
  (if_ok (from_sec1_der (lw_p384 W) id_secp384r1 b) AP384
  (Err GeneralError)).
(** sign.rs:13-23 *)
Definition load_private_key (k : private_key_der) : res any_key :=
  match k with
  | Pkcs8 b => load_pkcs8 b | Pkcs1 b => load_pkcs1 b | Sec1 b => load_sec1 b
  | OtherKey _ => Err GeneralError
  end.

(** sign.rs:121-130 (RSA), 190-197 (P-256), 240-247 (P-384), 290-296 (Ed25519): public_key; [None] for any error *)
Definition public_key_spki (k : any_key) : res (option (list Z)) :=
  let ok (r : res (list Z * Z)) := match r with Ok (buf, n) => Ok (Some (ztake n buf)) | Err _ => Ok None | Panic => Panic end in
  match k with
  | ARsa k => ok (vk_to_spki_der (sk_public_key k) (repeat 0 (Z.to_nat (sk_modulus_len k + 64))))
  | AP256 d => ok (to_spki_der (lw_p256 W) id_prime256v1 d (repeat 0 128))
  | AP384 d => ok (to_spki_der (lw_p384 W) id_secp384r1 d (repeat 0 128))
  | AEd25519 k => ok (ed_to_spki_der (sg_vk k) (repeat 0 64))
  end.

(** the buffer [vec![0u8; n]] after [s] was written to its front (sign.rs:146, 158); callers have [zlen s <= n] *)
Definition zero_fill (n : Z) (s : list Z) : list Z := s ++ repeat 0 (Z.to_nat (n - zlen s)).
(** sign.rs:145-159 RsaSigner::sign.  The slice returned by the signing function is not used: the whole buffer is. *)
Definition rsa_signer_sign (k : rsa_priv) (s : scheme) (rng : Z -> res (list Z)) (message : list Z) : res (list Z) :=
  let n := sk_modulus_len k in
  let! sig := map_err
    (match s with
     | RSA_PKCS1_SHA256 => sign_pkcs1_sha256 (lw_bn W) k n message
     | RSA_PKCS1_SHA384 => sign_pkcs1_sha384 (lw_bn W) k n message
     | RSA_PKCS1_SHA512 => sign_pkcs1_sha512 (lw_bn W) k n message
     | RSA_PSS_SHA256 => sign_pss (lw_bn W) Sha256 rng k n message
     | RSA_PSS_SHA384 => sign_pss (lw_bn W) Sha384 rng k n message
     | RSA_PSS_SHA512 => sign_pss (lw_bn W) Sha512 rng k n message
     | _ => Panic
     end) (fun _ => GeneralError) in
  Ok (zero_fill n sig).
(** sign.rs:201-209, 251-259: EcdsaP256::sign, EcdsaP384::sign *)
Definition ecdsa_signer_sign (E : ec) (H : hash_alg) (d : Z) (rng : Z -> res (list Z)) (fuel : nat) (message : list Z) : option (res (list Z)) :=
  match ecdsa_sign_asn1 E H rng fuel d [message] (repeat 0 128) with
  | Some (Ok (buf, n)) => Some (Ok (ztake n buf))
  | Some (Err _) => Some (Err GeneralError)
  | Some Panic => Some Panic
  | None => None
  end.
(** The signer for a key and the scheme chosen for it (sign.rs:145-159, 201-209, 251-259, 301-303).  [fuel] as in
    [ecdsa_sign]. *)
Definition signer_sign (k : any_key) (s : scheme) (rng : Z -> res (list Z)) (fuel : nat) (message : list Z) : option (res (list Z)) :=
  match k with
  | ARsa k => Some (rsa_signer_sign k s rng message)
  | AP256 d => ecdsa_signer_sign (lw_p256 W) Sha256 d rng fuel message
  | AP384 d => ecdsa_signer_sign (lw_p384 W) Sha384 d rng fuel message
  | AEd25519 k => Some (sk_sign (lw_ed W) k message)
  end.

(** *** verify.rs *)
(** pki_types::alg_id constants (dependency) named in verify.rs:45-102, 115, 143, 173, 199, 203 *)
Inductive alg_id := ID_RSA_ENCRYPTION | ID_ECDSA_P256 | ID_ECDSA_P384 | ID_ED25519
  | ID_ECDSA_SHA256 | ID_ECDSA_SHA384 | ID_ECDSA_SHA512
  | ID_RSA_PSS_SHA256 | ID_RSA_PSS_SHA384 | ID_RSA_PSS_SHA512
  | ID_RSA_PKCS1_SHA256 | ID_RSA_PKCS1_SHA384 | ID_RSA_PKCS1_SHA512.
(** [dyn SignatureVerificationAlgorithm]: public_key_alg_id, signature_alg_id, verify_signature(public_key, message, signature); rustls-graviola/src/verify.rs:44-104 are its instances *)
Record valg := { va_key : alg_id; va_sig : alg_id; va_verify : list Z -> list Z -> list Z -> res unit }.

(** verify.rs:106-132 RsaVerify *)
Definition rsa_verify (id : alg_id) (verify : rsa_pub -> list Z -> list Z -> res unit) : valg :=
  {| va_key := ID_RSA_ENCRYPTION; va_sig := id;
     va_verify := fun public_key message signature =>
       map_err (let! pk := vk_from_pkcs1_der (lw_bn W) public_key in verify pk signature message) (fun _ => InvalidSignature) |}.
(** verify.rs:134-162 EcdsaP256Verify, 164-192 EcdsaP384Verify *)
Definition ec_verify (kid : alg_id) (E : ec) (id : alg_id) (H : hash_alg) : valg :=
  {| va_key := kid; va_sig := id;
     va_verify := fun public_key message signature =>
       map_err (let! pk := pk_from_x962 E public_key in ecdsa_verify_asn1 E H pk [message] signature) (fun _ => InvalidSignature) |}.
(** verify.rs:44-57 *)
Definition V_P256_SHA256 := ec_verify ID_ECDSA_P256 (lw_p256 W) ID_ECDSA_SHA256 Sha256.
(** verify.rs:49-52 *)
Definition V_P256_SHA384 := ec_verify ID_ECDSA_P256 (lw_p256 W) ID_ECDSA_SHA384 Sha384.
(** verify.rs:54-57 *)
Definition V_P256_SHA512 := ec_verify ID_ECDSA_P256 (lw_p256 W) ID_ECDSA_SHA512 Sha512.
(** verify.rs:59-72 *)
Definition V_P384_SHA256 := ec_verify ID_ECDSA_P384 (lw_p384 W) ID_ECDSA_SHA256 Sha256.
(** verify.rs:64-67 *)
Definition V_P384_SHA384 := ec_verify ID_ECDSA_P384 (lw_p384 W) ID_ECDSA_SHA384 Sha384.
(** verify.rs:69-72 *)
Definition V_P384_SHA512 := ec_verify ID_ECDSA_P384 (lw_p384 W) ID_ECDSA_SHA512 Sha512.
(** verify.rs:74, 194-217 *)
Definition V_ED25519 : valg :=
  {| va_key := ID_ED25519; va_sig := ID_ED25519;
     va_verify := fun public_key message signature =>
       map_err (let! pk := vk_from_bytes (lw_ed W) public_key in ed25519_verify (lw_ed W) pk signature message) (fun _ => InvalidSignature) |}.
(** verify.rs:76-89 *)
Definition V_PSS_SHA256 := rsa_verify ID_RSA_PSS_SHA256 (verify_pss (lw_bn W) Sha256).
(** verify.rs:81-84 *)
Definition V_PSS_SHA384 := rsa_verify ID_RSA_PSS_SHA384 (verify_pss (lw_bn W) Sha384).
(** verify.rs:86-89 *)
Definition V_PSS_SHA512 := rsa_verify ID_RSA_PSS_SHA512 (verify_pss (lw_bn W) Sha512).
(** verify.rs:91-104 *)
Definition V_PKCS1_SHA256 := rsa_verify ID_RSA_PKCS1_SHA256 (verify_pkcs1_sha256 (lw_bn W)).
(** verify.rs:96-99 *)
Definition V_PKCS1_SHA384 := rsa_verify ID_RSA_PKCS1_SHA384 (verify_pkcs1_sha384 (lw_bn W)).
(** verify.rs:101-104 *)
Definition V_PKCS1_SHA512 := rsa_verify ID_RSA_PKCS1_SHA512 (verify_pkcs1_sha512 (lw_bn W)).

(** verify.rs:10-24 *)
Definition all_algorithms : list valg :=
  [ V_P256_SHA512; V_P256_SHA384; V_P256_SHA256; V_P384_SHA512; V_P384_SHA384; V_P384_SHA256; V_ED25519;
    V_PSS_SHA512; V_PSS_SHA384; V_PSS_SHA256; V_PKCS1_SHA512; V_PKCS1_SHA384; V_PKCS1_SHA256 ].
(** verify.rs:25-41 *)
Definition mapping : list (scheme * list valg) :=
  [ (ECDSA_NISTP256_SHA256, [V_P256_SHA256; V_P384_SHA256]);
    (ECDSA_NISTP384_SHA384, [V_P384_SHA384; V_P256_SHA384]);
    (ED25519, [V_ED25519]);
    (RSA_PSS_SHA512, [V_PSS_SHA512]);
    (RSA_PSS_SHA384, [V_PSS_SHA384]);
    (RSA_PSS_SHA256, [V_PSS_SHA256]);
    (RSA_PKCS1_SHA512, [V_PKCS1_SHA512]);
    (RSA_PKCS1_SHA384, [V_PKCS1_SHA384]);
    (RSA_PKCS1_SHA256, [V_PKCS1_SHA256]) ].
End Provider.
