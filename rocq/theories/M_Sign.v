(** Model of the scheme selection in rustls-graviola/src/sign.rs. *)
Require Import Verif.Base.

(** rustls SignatureScheme, by wire value: the ones sign.rs names *)
Inductive scheme := RSA_PKCS1_SHA256 | RSA_PKCS1_SHA384 | RSA_PKCS1_SHA512 | RSA_PSS_SHA256 | RSA_PSS_SHA384 | RSA_PSS_SHA512
  | ECDSA_NISTP256_SHA256 | ECDSA_NISTP384_SHA384 | ED25519 | OtherScheme (code : Z).
(** rustls: equality of schemes (derived PartialEq) *)
Definition scheme_eqb (a b : scheme) : bool :=
  match a, b with
  | RSA_PKCS1_SHA256, RSA_PKCS1_SHA256 | RSA_PKCS1_SHA384, RSA_PKCS1_SHA384 | RSA_PKCS1_SHA512, RSA_PKCS1_SHA512
  | RSA_PSS_SHA256, RSA_PSS_SHA256 | RSA_PSS_SHA384, RSA_PSS_SHA384 | RSA_PSS_SHA512, RSA_PSS_SHA512
  | ECDSA_NISTP256_SHA256, ECDSA_NISTP256_SHA256 | ECDSA_NISTP384_SHA384, ECDSA_NISTP384_SHA384 | ED25519, ED25519 => true
  | OtherScheme x, OtherScheme y => x =? y
  | _, _ => false
  end.
(** core: slice::contains *)
Definition contains (l : list scheme) (s : scheme) : bool := existsb (scheme_eqb s) l.
(** sign.rs:75, 174, 224, 274: the four kinds of signing key *)
Inductive key_kind := KRsa | KP256 | KP384 | KEd25519.
(** sign.rs:78-115 (RSA), 177-186 (P-256), 227-236 (P-384), 277-286 (Ed25519): choose_scheme; the result is
    the [scheme()] of the signer returned (sign.rs:161-163, 211-213, 261-263, 305-307) *)
Definition choose_scheme (k : key_kind) (schemes : list scheme) : option scheme :=
  match k with
  | KRsa =>
      if contains schemes RSA_PSS_SHA512 then Some RSA_PSS_SHA512
      else if contains schemes RSA_PSS_SHA384 then Some RSA_PSS_SHA384
      else if contains schemes RSA_PSS_SHA256 then Some RSA_PSS_SHA256
      else if contains schemes RSA_PKCS1_SHA512 then Some RSA_PKCS1_SHA512
      else if contains schemes RSA_PKCS1_SHA384 then Some RSA_PKCS1_SHA384
      else if contains schemes RSA_PKCS1_SHA256 then Some RSA_PKCS1_SHA256
      else None
  | KP256 => if contains schemes ECDSA_NISTP256_SHA256 then Some ECDSA_NISTP256_SHA256 else None
  | KP384 => if contains schemes ECDSA_NISTP384_SHA384 then Some ECDSA_NISTP384_SHA384 else None
  | KEd25519 => if contains schemes ED25519 then Some ED25519 else None
  end.
