(** Model of graviola/src/high/ecdsa.rs over both curves: [E] is the curve
    module (p256.rs or p384.rs, see M_Ec) and [oid] the curve's identifier
    (high/curve.rs:135-137, :225-227).  The entry guards (Entry::new_secret,
    new_public) and [zeroise] have no effect here; see M_Entry for the former. *)
Require Import Verif.Base Verif.M_Blockwise Verif.M_Sha2 Verif.M_Hmac Verif.M_Asn1 Verif.M_Pkix Verif.M_Pkcs8 Verif.M_Ec.

(** high/curve.rs:120 *)
Definition MAX_SCALAR_LEN : Z := 48.
(** high/curve.rs:121 *)
Definition MAX_UNCOMPRESSED_PUBLIC_KEY_LEN : Z := 97.

(** core: [slice[i..]] / [slice[..n]] on a fixed buffer of [have] bytes *)
Definition need (have n : Z) : res unit := if have <? n then Panic else Ok tt.

Section Ecdsa.
Variable E : ec.
Variable oid : list Z.
Local Notation len := (ec_bytes E).

(** PrivateKey::encode, high/curve.rs:151-158 / :241-248, into a buffer of
    [out_len] bytes: the returned prefix *)
Definition sk_encode (k out_len : Z) : res (list Z) :=
  if out_len <? len then Err OutOfRange else Ok (sk_to_bytes E k).

(** PrivateKey::public_key_encode_uncompressed, high/curve.rs:164-171 / :254-261 *)
Definition sk_encode_public (k out_len : Z) : res (list Z) :=
  if out_len <? ec_point_bytes E then Err OutOfRange else sk_public_key E k.

(** ecdsa.rs:333-342; from_bytes_reduced unwraps, high/curve.rs:200-202 / :290-292 *)
Definition hash_to_scalar (hash : list Z) : res Z :=
  let hash := if len <? zlen hash then ztake len hash else hash in
  unwrap (scalar_from_bytes_reduced E hash).

(** ecdsa.rs:344-359: what [out] holds afterwards; [out_len] is its length *)
Definition write_fixed (out_len : Z) (value : list Z) : res (list Z) :=
  let value := match value with
               | b :: r => if b =? 0 then r else value
               | [] => value
               end in
  if out_len <? zlen value then Err BadSignature
  else Ok (repeat 0 (Z.to_nat (out_len - zlen value)) ++ value).

(** [for m in message { ctx.update(m) }], ecdsa.rs:233-235, :301-303 *)
Fixpoint hash_updates (H : hash_alg) (ctx : ha_ctx H) (message : list (list Z)) : res (ha_ctx H) :=
  match message with
  | [] => Ok ctx
  | m :: r => let! ctx := ha_update H ctx m in hash_updates H ctx r
  end.

(** *** signing *)

(** hmac_drbg.rs:93-117 as the RandomSource passed to generate_random_key,
    ecdsa.rs:252: asked for [n] bytes, it answers and moves to a new state *)
Definition drbg_source (H : hash_alg) (d : drbg) (n : Z) : res (list Z) * drbg :=
  match drbg_fill H d (repeat 0 (Z.to_nat n)) with
  | Ok (d, w) => (Ok w, d)
  | Err e => (Err e, d)
  | Panic => (Panic, d)
  end.

(** ecdsa.rs:251-257.  The loop has no bound; [None] is for not having ended
    after [fuel] rounds. *)
Fixpoint nonce_loop (H : hash_alg) (fuel : nat) (rng : drbg) : option (res (Z * Z)) :=
  match fuel with
  | O => None
  | S fuel =>
      match sk_generate E (drbg_source H) rng with
      | (Ok k, rng) =>
          match sk_public_x_scalar E k with
          | Ok x => if x =? 0 then nonce_loop H fuel rng else Some (Ok (k, x))
          | Err e => Some (Err e)
          | Panic => Some Panic
          end
      | (Err e, _) => Some (Err e)
      | (Panic, _) => Some Panic
      end
  end.

(** ecdsa.rs:222-265, rfc6979_sign_with_random.  [signature] is the caller's
    buffer; the result is the buffer afterwards and the length of the returned
    prefix.  After an error the buffer is not described. *)
Definition sign_with_random (H : hash_alg) (fuel : nat) (d : Z) (message : list (list Z)) (random signature : list Z)
  : option (res (list Z * Z)) :=
  if zlen signature <? len * 2 then Some (Err WrongLength) else
  let pre :=
    let! ctx := hash_updates H (ha_new H) message in
    let! hash := ha_finish H ctx in
    let! encoded_private_key := sk_encode d MAX_SCALAR_LEN in
    let! e := hash_to_scalar hash in
    let! _ := need MAX_SCALAR_LEN len in
    let! rng := drbg_new H encoded_private_key (to_be E e) random in
    Ok (e, rng) in
  match pre with
  | Ok (e, rng) =>
      match nonce_loop H fuel rng with
      | Some (Ok (k, r)) =>
          let s := raw_ecdsa_sign E d k e r in
          Some (Ok (splice signature 0 (to_be E r ++ to_be E s), len * 2))
      | Some (Err e) => Some (Err e)
      | Some Panic => Some Panic
      | None => None
      end
  | Err e => Some (Err e)
  | Panic => Some Panic
  end.

(** ecdsa.rs:167-177; [rng] is SystemRandom (any function) *)
Definition ecdsa_sign (H : hash_alg) (rng : Z -> res (list Z)) (fuel : nat) (d : Z) (message : list (list Z)) (signature : list Z)
  : option (res (list Z * Z)) :=
  match rng 16 with
  | Ok random => sign_with_random H fuel d message random signature
  | Err e => Some (Err e)
  | Panic => Some Panic
  end.

(** ecdsa.rs:194-208 *)
Definition fixed_to_asn1 (fixed_signature asn1_signature : list Z) : res (list Z * Z) :=
  let! r := integer_new_positive (MAX_SCALAR_LEN + 1) (ztake len fixed_signature) in
  let! s := integer_new_positive (MAX_SCALAR_LEN + 1) (zdrop len fixed_signature) in
  let! (out, sig_len) := encode_into EcdsaSigValue (r, s) asn1_signature in
  let! _ := need (zlen out) sig_len in
  Ok (out, sig_len).

(** ecdsa.rs:182-192 *)
Definition ecdsa_sign_asn1 (H : hash_alg) (rng : Z -> res (list Z)) (fuel : nat) (d : Z) (message : list (list Z)) (asn1_signature : list Z)
  : option (res (list Z * Z)) :=
  match ecdsa_sign H rng fuel d message (repeat 0 (Z.to_nat (MAX_SCALAR_LEN * 2))) with
  | Some (Ok (buf, n)) => Some (fixed_to_asn1 (ztake n buf) asn1_signature)
  | Some (Err e) => Some (Err e)
  | Some Panic => Some Panic
  | None => None
  end.

(** *** verifying *)

(** ecdsa.rs:288-313 *)
Definition ecdsa_verify (H : hash_alg) (pk : public_key) (message : list (list Z)) (signature : list Z) : res unit :=
  if negb (zlen signature =? len * 2) then Err WrongLength else
  let! r := map_err (scalar_from_bytes_checked E (ztake len signature)) (fun _ => BadSignature) in
  let! s := map_err (scalar_from_bytes_checked E (zdrop len signature)) (fun _ => BadSignature) in
  let! ctx := hash_updates H (ha_new H) message in
  let! hash := ha_finish H ctx in
  let! e := hash_to_scalar hash in
  raw_ecdsa_verify E pk r s e.

(** ecdsa.rs:318-330 *)
Definition ecdsa_verify_asn1 (H : hash_alg) (pk : public_key) (message : list (list Z)) (signature : list Z) : res unit :=
  let! (r, s) := map_err (from_bytes EcdsaSigValue signature) (fun _ => BadSignature) in
  if integer_is_negative r || integer_is_negative s then Err BadSignature else
  let! _ := need (MAX_SCALAR_LEN * 2) (len * 2) in
  let! r := write_fixed len r in
  let! s := write_fixed len s in
  ecdsa_verify H pk message (r ++ s).

(** *** keys *)

(** ecdsa.rs:27-31 *)
Definition ecdsa_generate {St} (fill : St -> Z -> res (list Z) * St) (s : St) : res Z * St := sk_generate E fill s.

(** ecdsa.rs:65-91 *)
Definition from_sec1_der (b : list Z) : res Z :=
  let! (_, (privateKey, (parameters, publicKey))) := from_bytes EcPrivateKey b in
  let! _ := match parameters with
            | Some x => if list_eqb x oid then Ok tt else Err MismatchedSec1Curve
            | None => Ok tt
            end in
  let! private_key := sk_from_bytes E privateKey in
  let! _ := match publicKey with
            | Some expected =>
                let! encoded := sk_encode_public private_key MAX_UNCOMPRESSED_PUBLIC_KEY_LEN in
                if list_eqb encoded expected then Ok tt else Err MismatchedSec1PublicKey
            | None => Ok tt
            end in
  Ok private_key.

(** ecdsa.rs:34-42 *)
Definition from_pkcs8_der (b : list Z) : res Z :=
  let! k := pkcs8_decode b id_ecPublicKey (Some (AnyObjectId oid)) in
  from_sec1_der (pkcs8_private_key k).

(** ecdsa.rs:103-131: the buffer afterwards and the length of the returned prefix *)
Definition to_sec1_der_detail (k : Z) (parameters : option (list Z)) (output : list Z) : res (list Z * Z) :=
  let! encoded_private_key := sk_encode k MAX_SCALAR_LEN in
  let! encoded_public_key := sk_encode_public k MAX_UNCOMPRESSED_PUBLIC_KEY_LEN in
  let! (out, used) := encode_into EcPrivateKey (1, (encoded_private_key, (parameters, Some encoded_public_key))) output in
  if zlen out <? used then Err WrongLength else Ok (out, used).

(** ecdsa.rs:98-101 *)
Definition to_sec1_der (k : Z) (output : list Z) : res (list Z * Z) := to_sec1_der_detail k (Some oid) output.

(** ecdsa.rs:49-62 *)
Definition to_pkcs8_der (k : Z) (output : list Z) : res (list Z * Z) :=
  let sec1_buf := repeat 0 (Z.to_nat (MAX_SCALAR_LEN + MAX_UNCOMPRESSED_PUBLIC_KEY_LEN + 128)) in
  let! (buf, used) := to_sec1_der_detail k None sec1_buf in
  pkcs8_encode (pkcs8_construct (ztake used buf) None id_ecPublicKey (Some (AnyObjectId oid))) output.

(** ecdsa.rs:138-157 *)
Definition to_spki_der (k : Z) (output : list Z) : res (list Z * Z) :=
  let! pub_key := sk_encode_public k MAX_UNCOMPRESSED_PUBLIC_KEY_LEN in
  let! (out, n) := encode_into SubjectPublicKeyInfo ((id_ecPublicKey, Some (AnyObjectId oid)), pub_key) output in
  let! _ := need (zlen out) n in
  Ok (out, n).
End Ecdsa.
