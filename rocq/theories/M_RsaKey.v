(** Model of graviola/src/high/rsa.rs: key import and export (signing and verification are in M_Pkcs1).
    The CPU-state entries ([Entry::new_public], [Entry::new_secret]) are modelled in M_Entry.v; buffer zeroisation
    is left out. *)
Require Import Verif.Base Verif.M_Asn1 Verif.M_Pkix Verif.M_PosInt Verif.M_Rsa Verif.M_Pkcs8.

(** rsa.rs:42, 291: [usize] to [u32] *)
Definition to_u32 (e : Z) : res Z := if e <? 2 ^ 32 then Ok e else Err OutOfRange.

Section RsaKey.
Variable bn : bignum.

(** rsa.rs:29-48  VerifyingKey::from_pkcs1_der *)
Definition vk_from_pkcs1_der (b : list Z) : res rsa_pub :=
  let! decoded := from_bytes RSAPublicKey b in
  let '(modulus, publicExponent) := decoded in
  if integer_is_negative modulus then Err OutOfRange
  else
    let! n := pfrom_bytes MAX_PUBLIC_MODULUS_WORDS modulus in
    let! e := integer_as_usize publicExponent in
    let! e := to_u32 e in
    pub_new bn n e.

(** rsa.rs:83-101  VerifyingKey::to_pkcs1_der: the output buffer afterwards and the length of the returned slice *)
Definition vk_to_pkcs1_der (k : rsa_pub) (output : list Z) : res (list Z * Z) :=
  let! public_modulus := pto_bytes_asn1 (pub_n k) (MAX_PUBLIC_MODULUS_BYTES + 1) in
  let public_exponent := be_bytes 4 (pub_e k) in
  let pub_key := (integer_new public_modulus, integer_new public_exponent) in
  let! (output, used) := encode_into RSAPublicKey pub_key output in
  if zlen output <? used then Panic else Ok (output, used).

(** rsa.rs:57-75  VerifyingKey::to_spki_der *)
Definition vk_to_spki_der (k : rsa_pub) (output : list Z) : res (list Z * Z) :=
  let! (pub_key_buffer, used) := vk_to_pkcs1_der k (repeat 0 (Z.to_nat (MAX_PUBLIC_MODULUS_BYTES + 64))) in
  let pub_key_buffer := ztake used pub_key_buffer in
  let spki := ((id_rsaEncryption, Some AnyNull), pub_key_buffer) in
  let! (output, len) := encode_into SubjectPublicKeyInfo spki output in
  if zlen output <? len then Panic else Ok (output, len).

(** rsa.rs:274-304  SigningKey::from_pkcs1_der *)
Definition sk_from_pkcs1_der (b : list Z) : res rsa_priv :=
  let! decoded := from_bytes RSAPrivateKey b in
  let '(version, (modulus, (publicExponent, (privateExponent, (prime1, (prime2, (exponent1, (exponent2,
        coefficient)))))))) := decoded in
  if negb (version =? 0) then Err OutOfRange
  else if integer_is_negative modulus then Err OutOfRange
  else
    let! n := pfrom_bytes MAX_PUBLIC_MODULUS_WORDS modulus in
    let! e := integer_as_usize publicExponent in
    let! e := to_u32 e in
    let! p := pfrom_bytes MAX_PRIVATE_MODULUS_WORDS prime1 in
    let! q := pfrom_bytes MAX_PRIVATE_MODULUS_WORDS prime2 in
    let! d := pfrom_bytes MAX_PUBLIC_MODULUS_WORDS privateExponent in
    let! dp := pfrom_bytes MAX_PRIVATE_MODULUS_WORDS exponent1 in
    let! dq := pfrom_bytes MAX_PRIVATE_MODULUS_WORDS exponent2 in
    let! iqmp := pfrom_bytes MAX_PRIVATE_MODULUS_WORDS coefficient in
    priv_new bn p q d dp dq iqmp n e.

(** rsa.rs:310-331  SigningKey::to_pkcs1_der *)
Definition sk_to_pkcs1_der (k : rsa_priv) (output : list Z) : res (list Z * Z) :=
  let! c := encode_components k in
  let key := (0, (integer_new (co_modulus c), (integer_new (co_exponent c), (integer_new (co_d c),
    (integer_new (co_p c), (integer_new (co_q c), (integer_new (co_dp c), (integer_new (co_dq c),
     integer_new (co_iqmp c))))))))) in
  let! (output, used) := encode_into RSAPrivateKey key output in
  if zlen output <? used then Err WrongLength else Ok (output, used).

(** rsa.rs:333-334, rsa_priv.rs:213-219 *)
Definition RSA_COMPONENTS_LEN := (MAX_PUBLIC_MODULUS_BYTES + 1) * 2 + 4 + (MAX_PRIVATE_MODULUS_BYTES + 1) * 5.
(** rsa.rs:334 *)
Definition MAX_PKCS1_BUFFER_LEN := RSA_COMPONENTS_LEN + 128.
(** rsa.rs:342-359  SigningKey::to_pkcs8_der *)
Definition sk_to_pkcs8_der (k : rsa_priv) (output : list Z) : res (list Z * Z) :=
  let! (pkcs1_buffer, used) := sk_to_pkcs1_der k (repeat 0 (Z.to_nat MAX_PKCS1_BUFFER_LEN)) in
  pkcs8_encode (pkcs8_construct (ztake used pkcs1_buffer) None id_rsaEncryption (Some AnyNull)) output.

(** rsa.rs:367-375  SigningKey::from_pkcs8_der *)
Definition sk_from_pkcs8_der (b : list Z) : res rsa_priv :=
  let! k := pkcs8_decode b id_rsaEncryption (Some AnyNull) in
  sk_from_pkcs1_der (pkcs8_private_key k).

(** rsa.rs:378-381, 384-387  SigningKey::public_key, modulus_len_bytes *)
Definition sk_public_key (k : rsa_priv) : rsa_pub := pr_public k.
(** rsa.rs:384-387 *)
Definition sk_modulus_len (k : rsa_priv) : Z := pub_modulus_len (sk_public_key k).
End RsaKey.
