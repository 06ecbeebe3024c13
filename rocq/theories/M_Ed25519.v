(** Model of graviola/src/mid/ed25519.rs and graviola/src/high/ed25519.rs.
    The assembly routines are fields of the record [ed_low]; their contract is
    in S_EdLow.v.  Entry guards, constant-time markers and zeroisation are left
    out (see M_Entry.v for the guards).  In citations "mid" and "high" are the
    two files. *)
Require Import Verif.Base Verif.M_Util Verif.M_Sha2 Verif.M_Asn1 Verif.M_Pkix Verif.M_Pkcs8.

(** The routines of low/x86_64 used, and the constant ORDER (mid:8-15), which is
    a field so that the theorems can be exercised on a small curve. *)
Record ed_low := {
  el_order : list Z;                                     (* mid:10-15 *)
  el_decode : list Z -> option (list Z);                 (* edwards25519_decode.rs *)
  el_mulbase : list Z -> list Z;                         (* edwards25519_scalarmulbase.rs *)
  el_muldouble : list Z -> list Z -> list Z -> list Z;   (* edwards25519_scalarmuldouble.rs *)
  el_neg : list Z -> list Z;                             (* bignum_neg_p25519.rs *)
  el_mod_n : list Z -> list Z;                           (* bignum_mod_n25519.rs *)
  el_madd_n : list Z -> list Z -> list Z -> list Z }.    (* bignum_madd_n25519.rs *)

(** mid:10-15 *)
Definition ORDER : list Z := [0x5812631a5cf5d3ed; 0x14def9dea2f79cd6; 0; 0x1000000000000000].

(** low/x86_64/bignum_cmp_lt.rs:8-16, its documented meaning (as in M_PosInt.v) *)
Definition words_lt (a b : list Z) : bool := limbs_val a <? limbs_val b.

(** mid:109-113 VerifyingKey: the bytes and the point *)
Definition verifying_key := (list Z * list Z)%type.
(** mid:17-22 SigningKey: seed, s, prefix, verifying key *)
Record signing_key := { sg_seed : list Z; sg_s : list Z; sg_prefix : list Z; sg_vk : verifying_key }.

(** mid:337-343 ed25519_digest *)
Definition ed25519_digest (x1 x2 x3 : list Z) : res (list Z) :=
  let! h := ha_update Sha512 (ha_new Sha512) x1 in
  let! h := ha_update Sha512 h x2 in
  let! h := ha_update Sha512 h x3 in
  ha_finish Sha512 h.

(** mid:240-264 EdwardsPoint::compress *)
Definition ed_compress (p : list Z) : list Z :=
  let xb := znth p 0 in
  let y3 := Z.lor (Z.land (znth p 7) 0x7fffffffffffffff) (Z.shiftl xb 63 mod 2 ^ 64) in
  le_bytes 8 (znth p 4) ++ le_bytes 8 (znth p 5) ++ le_bytes 8 (znth p 6) ++ le_bytes 8 y3.

(** mid:272-283 UnreducedScalar::clamp_from_le_bytes *)
Definition clamp_from_le_bytes (x : list Z) : list Z :=
  let x := upd x 0 (Z.land (znth x 0) 0xf8) in
  let x := upd x 31 (Z.land (znth x 31) 0x7f) in
  let x := upd x 31 (Z.lor (znth x 31) 0x40) in
  le_to_u64s x.

Section Ed25519.
Variable L : ed_low.

(** mid:214-224 EdwardsPoint::negate *)
Definition ed_negate (p : list Z) : list Z := el_neg L (ztake 4 p) ++ zdrop 4 p.

(** mid:300-304 Scalar::try_from_le_bytes *)
Definition scalar_try_from (x : list Z) : option (list Z) :=
  let s := le_to_u64s x in if words_lt s (el_order L) then Some s else None.

(** mid:307-311 Scalar::reduce_from_le_bytes *)
Definition scalar_reduce_from (x : list Z) : list Z := el_mod_n L (le_to_u64s x).

(** mid:25-52 SigningKey::from_seed *)
Definition from_seed (seed : list Z) : res signing_key :=
  let! ctx := ha_update Sha512 (ha_new Sha512) seed in
  let! h := ha_finish Sha512 ctx in
  let s := clamp_from_le_bytes (ztake 32 h) in
  let point := el_mulbase L s in
  Ok {| sg_seed := seed; sg_s := s; sg_prefix := zdrop 32 h; sg_vk := (ed_compress point, point) |}.

(** mid:55-87 SigningKey::sign *)
Definition sk_sign (k : signing_key) (msg : list Z) : res (list Z) :=
  let! r := ed25519_digest (sg_prefix k) msg [] in
  let r := scalar_reduce_from r in
  let sig_r := ed_compress (el_mulbase L r) in
  let! c := ed25519_digest sig_r (fst (sg_vk k)) msg in
  let c := scalar_reduce_from c in
  let s := el_madd_n L c (sg_s k) r in
  Ok (sig_r ++ u64s_to_le s).

(** mid:116-125 VerifyingKey::from_bytes, with mid:230-237 EdwardsPoint::decompress_from;
    also high:52-55 *)
Definition vk_from_bytes (b : list Z) : res verifying_key :=
  if zlen b =? 32 then match el_decode L b with Some point => Ok (b, point) | None => Err NotOnCurve end
  else Err WrongLength.

(** mid:128-155 VerifyingKey::verify *)
Definition vk_verify (vk : verifying_key) (sig msg : list Z) : res unit :=
  let r_sig := ztake 32 sig in
  match scalar_try_from (zdrop 32 sig) with
  | None => Err BadSignature
  | Some s =>
      let! k := ed25519_digest r_sig (fst vk) msg in
      let k := scalar_reduce_from k in
      let r := ed_compress (el_muldouble L k (ed_negate (snd vk)) s) in
      if list_eqb r_sig r then Ok tt else Err BadSignature
  end.

(** high:67-74 Ed25519VerifyingKey::verify *)
Definition ed25519_verify (vk : verifying_key) (signature message : list Z) : res unit :=
  if zlen signature =? 64 then vk_verify vk signature message else Err BadSignature.

(** high:18-27 from_spki_der *)
Definition ed_from_spki_der (b : list Z) : res verifying_key :=
  let! ((algorithm, _), subjectPublicKey) := from_bytes SubjectPublicKeyInfo b in
  if list_eqb algorithm id_ed25519 then vk_from_bytes subjectPublicKey else Err MismatchedSpkiAlgorithm.

(** high:34-49 to_spki_der: the buffer afterwards and the length of the prefix returned *)
Definition ed_to_spki_der (vk : verifying_key) (output : list Z) : res (list Z * Z) :=
  let! (out, len) := map_err (encode_into SubjectPublicKeyInfo ((id_ed25519, None), fst vk) output) (fun _ => WrongLength) in
  if zlen out <? len then Panic else Ok (out, len).

(** high:82-89 generate *)
Definition ed_generate (rng : Z -> res (list Z)) : res signing_key := let! seed := rng 32 in from_seed seed.

(** high:161-166 from_bytes *)
Definition ed_from_bytes (seed : list Z) : res signing_key := if zlen seed =? 32 then from_seed seed else Err WrongLength.

(** high:107-124 from_pkcs8_der *)
Definition ed_from_pkcs8_der (b : list Z) : res signing_key :=
  let! p8 := pkcs8_decode b id_ed25519 None in
  let! pk := from_bytes OctetString (pkcs8_private_key p8) in
  let! key := ed_from_bytes pk in
  match pkcs8_public_key p8 with
  | Some alleged => if list_eqb alleged (fst (sg_vk key)) then Ok key else Err MismatchedPkcs8PublicKey
  | None => Ok key
  end.

(** high:133-159 to_pkcs8_der *)
Definition ed_to_pkcs8_der (k : signing_key) (output : list Z) : res (list Z * Z) :=
  let! (private_key_buf, private_key_len) := encode_into OctetString (sg_seed k) (repeat 0 34) in
  if private_key_len =? 34 then
    pkcs8_encode (pkcs8_construct private_key_buf (Some (fst (sg_vk k))) id_ed25519 None) output
  else Panic.
End Ed25519.
