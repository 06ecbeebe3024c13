(** Model of graviola/src/high/asn1/pkix.rs and asn1/oid.rs: the concrete structures. *)
Require Import Verif.Base Verif.M_Asn1.

(** pkix.rs:25-27, 40-42, 60-62 *)
Definition Version := Enum [0; 1].
(** pkix.rs:40-42 *)
Definition Pkcs8Version := Enum [0; 1].
(** pkix.rs:60-62 *)
Definition EcPrivateKeyVer := Enum [1].

(** pkix.rs:4-9  RSAPublicKey = (modulus, publicExponent) *)
Definition RSAPublicKey := Struct (f_cons Integer (f_last Integer)).

(** pkix.rs:11-23  RSAPrivateKey *)
Definition RSAPrivateKey := Struct
  (f_cons Version (f_cons Integer (f_cons Integer (f_cons Integer (f_cons Integer
  (f_cons Integer (f_cons Integer (f_cons Integer (f_last Integer))))))))).

(** pkix.rs:44-49  AlgorithmIdentifier = (algorithm, parameters) *)
Definition AlgorithmIdentifier := Struct (f_cons ObjectId (f_last (Optional Any))).

(** pkix.rs:30-38  OneAsymmetricKey = (version, (privateKeyAlgorithm, (privateKey, publicKey))) *)
Definition OneAsymmetricKey := Struct
  (f_cons Pkcs8Version (f_cons AlgorithmIdentifier (f_cons OctetString
  (f_last (Context 1 false BitString))))).

(** pkix.rs:51-58  EcPrivateKey = (version, (privateKey, (parameters, publicKey))) *)
Definition EcPrivateKey := Struct
  (f_cons EcPrivateKeyVer (f_cons OctetString (f_cons (Context 0 true ObjectId)
  (f_last (Context 1 true BitString))))).

(** pkix.rs:64-69  SubjectPublicKeyInfo = (algorithm, subjectPublicKey) *)
Definition SubjectPublicKeyInfo := Struct (f_cons AlgorithmIdentifier (f_last BitString)).

(** pkix.rs:71-76  DigestInfo = (digestAlgorithm, digest) *)
Definition DigestInfo := Struct (f_cons AlgorithmIdentifier (f_last OctetString)).

(** pkix.rs:78-83  EcdsaSigValue = (r, s) *)
Definition EcdsaSigValue := Struct (f_cons Integer (f_last Integer)).

(** oid.rs:6-54: paths; evaluated by ObjectId::from_path at compile time *)
Definition path_ecPublicKey := [1; 2; 840; 10045; 2; 1].
(** oid.rs:12-16 *)
Definition path_prime256v1 := [1; 2; 840; 10045; 3; 1; 7].
(** oid.rs:18-22 *)
Definition path_secp384r1 := [1; 3; 132; 0; 34].
(** oid.rs:24-29 *)
Definition path_rsaEncryption := [1; 2; 840; 113549; 1; 1; 1].
(** oid.rs:31-36 *)
Definition path_sha256 := [2; 16; 840; 1; 101; 3; 4; 2; 1].
(** oid.rs:38-43 *)
Definition path_sha384 := [2; 16; 840; 1; 101; 3; 4; 2; 2].
(** oid.rs:45-50 *)
Definition path_sha512 := [2; 16; 840; 1; 101; 3; 4; 2; 3].
(** oid.rs:52-54 *)
Definition path_ed25519 := [1; 3; 101; 112].

(** the static is the from_path result (a compile-time panic would be a build failure); asn1.rs:126-130 asn1_oid! *)
Definition oid_static (p : list Z) : list Z :=
  match oid_from_path p with Ok b => b | _ => [] end.
(** oid.rs:6-10 *)
Definition id_ecPublicKey := oid_static path_ecPublicKey.
(** oid.rs:12-16 *)
Definition id_prime256v1 := oid_static path_prime256v1.
(** oid.rs:18-22 *)
Definition id_secp384r1 := oid_static path_secp384r1.
(** oid.rs:24-29 *)
Definition id_rsaEncryption := oid_static path_rsaEncryption.
(** oid.rs:31-36 *)
Definition id_sha256 := oid_static path_sha256.
(** oid.rs:38-43 *)
Definition id_sha384 := oid_static path_sha384.
(** oid.rs:45-50 *)
Definition id_sha512 := oid_static path_sha512.
(** oid.rs:52-54 *)
Definition id_ed25519 := oid_static path_ed25519.
