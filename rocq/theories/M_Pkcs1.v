(** Model of graviola/src/high/pkcs1.rs and of the signing and verification functions of graviola/src/high/rsa.rs.
    Output buffers are represented by their length, the result is the part written.  The random source is a function
    from the number of bytes asked for to the bytes (or an error), as in M_MlKem. *)
Require Import Verif.Base Verif.M_Ct Verif.M_Sha2 Verif.M_PosInt Verif.M_Rsa.

(** pkcs1.rs:17-57 encode_pkcs1_sig; [out_len] is the length of [out], which is overwritten completely.  The three
    [unwrap]s cannot fail after the assertion. *)
Definition encode_pkcs1_sig (out_len : Z) (digest_info hash : list Z) : res (list Z) :=
  let t_len := zlen digest_info + zlen hash in
  let em_len := out_len in
  if negb (t_len + 11 <=? em_len) then Panic
  else
    let ps := repeat 0xff (Z.to_nat (em_len - t_len - 3)) in
    Ok ([0x00; 0x01] ++ ps ++ [0x00] ++ digest_info ++ hash).

(** pkcs1.rs:59-72 *)
Definition DIGESTINFO_SHA256 : list Z :=
  [0x30; 0x31; 0x30; 0x0d; 0x06; 0x09; 0x60; 0x86; 0x48; 0x01; 0x65; 0x03; 0x04; 0x02; 0x01; 0x05; 0x00; 0x04; 0x20].
(** see [DIGESTINFO_SHA256] *)
Definition DIGESTINFO_SHA384 : list Z :=
  [0x30; 0x41; 0x30; 0x0d; 0x06; 0x09; 0x60; 0x86; 0x48; 0x01; 0x65; 0x03; 0x04; 0x02; 0x02; 0x05; 0x00; 0x04; 0x30].
(** see [DIGESTINFO_SHA256] *)
Definition DIGESTINFO_SHA512 : list Z :=
  [0x30; 0x51; 0x30; 0x0d; 0x06; 0x09; 0x60; 0x86; 0x48; 0x01; 0x65; 0x03; 0x04; 0x02; 0x03; 0x05; 0x00; 0x04; 0x40].

(** pkcs1.rs:240-242: xor the term into the chunk, as far as both go *)
Fixpoint xor_zip (chunk term : list Z) : list Z :=
  match chunk, term with
  | o :: chunk, t :: term => Z.lxor o t :: xor_zip chunk term
  | _, _ => chunk
  end.
(** pkcs1.rs:234-243: the loop, from a given counter.  The counter is a u32 ([be_bytes 4] takes it modulo 2^32). *)
Fixpoint mgf1_chunks (H : hash_alg) (seed : list Z) (counter : Z) (cs : list (list Z)) : res (list Z) :=
  match cs with
  | [] => Ok []
  | chunk :: cs =>
    let! ctx := ha_update H (ha_new H) seed in
    let! ctx := ha_update H ctx (be_bytes 4 counter) in
    let! term := ha_finish H ctx in
    let! rest := mgf1_chunks H seed (counter + 1) cs in
    Ok (xor_zip chunk term ++ rest)
  end.
(** pkcs1.rs:233-244 mgf1_xor; [chunks_mut(0)] panics *)
Definition mgf1_xor (H : hash_alg) (seed : list Z) (h_len : Z) (out : list Z) : res (list Z) :=
  if h_len =? 0 then Panic else mgf1_chunks H seed 0 (chunks h_len out).

(** pkcs1.rs:108-115 and 214-221: hash of the three parts of M' *)
Definition hash_m_prime (H : hash_alg) (hash salt : list Z) : res (list Z) :=
  let! ctx := ha_update H (ha_new H) (repeat 0 8) in
  let! ctx := ha_update H ctx hash in
  let! ctx := ha_update H ctx salt in
  ha_finish H ctx.
(** pkcs1.rs:135 and 195: [db[0] &= 0x7f], a panic on an empty slice *)
Definition mask_first (db : list Z) : res (list Z) :=
  match db with [] => Panic | x :: r => Ok (Z.land x 0x7f :: r) end.

(** pkcs1.rs:81-144 encode_pss_sig *)
Definition encode_pss_sig (H : hash_alg) (rng : Z -> res (list Z)) (out_len : Z) (hash : list Z) : res (list Z) :=
  let s_len := zlen hash in
  let h_len := zlen hash in
  let em_len := out_len in
  if negb (h_len + s_len + 2 <=? em_len) then Panic else
  if negb (ha_out H =? s_len) then Panic else
  let! salt := rng (ha_out H) in
  let! h := hash_m_prime H hash salt in
  if negb (zlen h =? h_len) then Panic else
  let db := repeat 0x00 (Z.to_nat (em_len - s_len - h_len - 2)) ++ [0x01] ++ salt in
  let! db := mgf1_xor H h h_len db in
  let! db := mask_first db in
  Ok (db ++ h ++ [0xbc]).

(** pkcs1.rs:155-231 verify_pss_sig.  [split_last], [split_at] cannot fail after the length test. *)
Definition verify_pss_sig (H : hash_alg) (em m_hash : list Z) : res unit :=
  let em_len := zlen em in
  let h_len := zlen m_hash in
  let s_len := h_len in
  if em_len <? h_len + s_len + 2 then Err BadSignature else
  let bc := znth em (Z.to_nat (em_len - 1)) in
  let em := ztake (em_len - 1) em in
  if negb (bc =? 0xbc) then Err BadSignature else
  let masked_db := ztake (em_len - h_len - 1) em in
  let h := zdrop (em_len - h_len - 1) em in
  if negb (Z.land (znth masked_db 0%nat) 0x80 =? 0x00) then Err BadSignature else
  let! db := mgf1_xor H h h_len masked_db in
  let! db := mask_first db in
  let zeroes := ztake (em_len - h_len - s_len - 2) db in
  match zdrop (em_len - h_len - s_len - 2) db with
  | [] => Panic
  | one :: salt =>
    if existsb (fun z => negb (z =? 0x00)) zeroes || negb (one =? 0x01) then Err BadSignature else
    let! h_prime := hash_m_prime H m_hash salt in
    if ct_equal h_prime h then Ok tt else Err BadSignature
  end.

Section RsaHigh.
Variable bn : bignum.

(** rsa.rs:136-156 _verify_pkcs1 *)
Definition verify_pkcs1_inner (k : rsa_pub) (signature digest_info hash : list Z) : res unit :=
  let! c := map_err (pfrom_bytes MAX_PUBLIC_MODULUS_WORDS signature) (fun _ => BadSignature) in
  let! m := map_err (public_op bn k c) (fun _ => BadSignature) in
  let! m_bytes := pto_bytes m MAX_PUBLIC_MODULUS_BYTES in
  let! actual_m := encode_pkcs1_sig (pub_modulus_len k) digest_info hash in
  if list_eqb actual_m m_bytes then Ok tt else Err BadSignature.

(** rsa.rs:212-226 _verify_pss; also verify_pss_sha256, _sha384, _sha512 at 171-210 (the hash is the parameter) *)
Definition verify_pss (H : hash_alg) (k : rsa_pub) (signature message : list Z) : res unit :=
  let! hash := hash_oneshot H message in
  if pub_modulus_len k <? zlen signature then Err BadSignature else
  let! c := map_err (pfrom_bytes MAX_PUBLIC_MODULUS_WORDS signature) (fun _ => BadSignature) in
  let! m := map_err (public_op bn k c) (fun _ => BadSignature) in
  let! m_bytes := pto_bytes m MAX_PUBLIC_MODULUS_BYTES in
  verify_pss_sig H m_bytes hash.

(** rsa.rs:509-526 _sign_pkcs1; [sig_len] is the length of the output buffer *)
Definition sign_pkcs1_inner (k : rsa_priv) (sig_len : Z) (digest_info hash : list Z) : res (list Z) :=
  if sig_len <? pub_modulus_len (pr_public k) then Err OutOfRange else
  let! m := encode_pkcs1_sig (pub_modulus_len (pr_public k)) digest_info hash in
  let! m := pfrom_bytes MAX_PUBLIC_MODULUS_WORDS m in
  let! c := map_err (private_op bn k m) (fun _ => BadSignature) in
  pto_bytes c sig_len.

(** rsa.rs:528-547 _sign_pss; also sign_pss_sha256, _sha384, _sha512 at 458-507 *)
Definition sign_pss (H : hash_alg) (rng : Z -> res (list Z)) (k : rsa_priv) (sig_len : Z) (message : list Z) : res (list Z) :=
  if sig_len <? pub_modulus_len (pr_public k) then Err OutOfRange else
  let! hash := hash_oneshot H message in
  let! m := encode_pss_sig H rng (pub_modulus_len (pr_public k)) hash in
  let! m := pfrom_bytes MAX_PUBLIC_MODULUS_WORDS m in
  let! c := map_err (private_op bn k m) (fun _ => BadSignature) in
  pto_bytes c sig_len.

(** rsa.rs:106-110 verify_pkcs1_sha256, 118-122 verify_pkcs1_sha384, 130-134 verify_pkcs1_sha512 *)
Definition verify_pkcs1_sha256 (k : rsa_pub) (signature message : list Z) : res unit :=
  let! hash := hash_oneshot Sha256 message in verify_pkcs1_inner k signature DIGESTINFO_SHA256 hash.
(** see [verify_pkcs1_sha256] *)
Definition verify_pkcs1_sha384 (k : rsa_pub) (signature message : list Z) : res unit :=
  let! hash := hash_oneshot Sha384 message in verify_pkcs1_inner k signature DIGESTINFO_SHA384 hash.
(** see [verify_pkcs1_sha256] *)
Definition verify_pkcs1_sha512 (k : rsa_pub) (signature message : list Z) : res unit :=
  let! hash := hash_oneshot Sha512 message in verify_pkcs1_inner k signature DIGESTINFO_SHA512 hash.
(** rsa.rs:398-406 sign_pkcs1_sha256, 417-425 sign_pkcs1_sha384, 436-444 sign_pkcs1_sha512 *)
Definition sign_pkcs1_sha256 (k : rsa_priv) (sig_len : Z) (message : list Z) : res (list Z) :=
  let! hash := hash_oneshot Sha256 message in sign_pkcs1_inner k sig_len DIGESTINFO_SHA256 hash.
(** see [sign_pkcs1_sha256] *)
Definition sign_pkcs1_sha384 (k : rsa_priv) (sig_len : Z) (message : list Z) : res (list Z) :=
  let! hash := hash_oneshot Sha384 message in sign_pkcs1_inner k sig_len DIGESTINFO_SHA384 hash.
(** see [sign_pkcs1_sha256] *)
Definition sign_pkcs1_sha512 (k : rsa_priv) (sig_len : Z) (message : list Z) : res (list Z) :=
  let! hash := hash_oneshot Sha512 message in sign_pkcs1_inner k sig_len DIGESTINFO_SHA512 hash.
End RsaHigh.
