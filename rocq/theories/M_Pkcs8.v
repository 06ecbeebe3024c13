(** Model of graviola/src/high/pkcs8.rs. *)
Require Import Verif.Base Verif.M_Asn1 Verif.M_Pkix.

(** pkcs8.rs:8  [struct Key(pkix::OneAsymmetricKey)]; the tuple is that of [OneAsymmetricKey]
    (M_Pkix, pkix.rs:30-38): (version, ((algorithm, parameters), (privateKey, publicKey))) *)
Definition pkcs8_key := (Z * ((list Z * option any) * (list Z * option (list Z))))%type.

(** asn1.rs:154, derived [PartialEq] of [Any] *)
Definition any_eqb (a b : any) : bool :=
  match a, b with
  | AnyNull, AnyNull => true
  | AnyInteger x, AnyInteger y | AnyOctetString x, AnyOctetString y
  | AnyBitString x, AnyBitString y | AnyObjectId x, AnyObjectId y => list_eqb x y
  | _, _ => false
  end.
(** pkcs8.rs:43, [PartialEq] of [Option<Any>] *)
Definition opt_any_eqb (a b : option any) : bool :=
  match a, b with
  | None, None => true | Some x, Some y => any_eqb x y | _, _ => false
  end.

(** pkcs8.rs:25-48  Key::decode.  The parser is dropped without [check_end]. *)
Definition pkcs8_decode (slice : list Z) (algorithm : list Z) (parameters : option any)
  : res pkcs8_key :=
  let! (oak, _) := parse OneAsymmetricKey slice in
  let '(version, ((alg, params), (privateKey, publicKey))) := oak in
  let! _ := match publicKey with
            | None => if version =? 0 then Ok tt else Err UnsupportedPkcs8Version
            | Some _ => if version =? 1 then Ok tt else Err UnsupportedPkcs8Version
            end in
  if negb (list_eqb alg algorithm) then Err MismatchedPkcs8Algorithm
  else if negb (opt_any_eqb params parameters) then Err MismatchedPkcs8Parameters
  else Ok oak.

(** pkcs8.rs:55-80  Key::construct *)
Definition pkcs8_construct (private_key_encoding : list Z) (public_key_encoding : option (list Z))
  (algorithm : list Z) (parameters : option any) : pkcs8_key :=
  let '(public, version) := match public_key_encoding with
                            | Some pub_key => (Some pub_key, 1)
                            | None => (None, 0)
                            end in
  (version, ((algorithm, parameters), (private_key_encoding, public))).

(** pkcs8.rs:83-90  Key::encode: the output buffer afterwards, and the length of the returned
    prefix *)
Definition pkcs8_encode (k : pkcs8_key) (output : list Z) : res (list Z * Z) :=
  let! (output, len) := encode_into OneAsymmetricKey k output in
  if zlen output <? len then Err WrongLength else Ok (output, len).

(** pkcs8.rs:95-97  Key::private_key *)
Definition pkcs8_private_key (k : pkcs8_key) : list Z := fst (snd (snd k)).
(** pkcs8.rs:103-105  Key::public_key *)
Definition pkcs8_public_key (k : pkcs8_key) : option (list Z) := snd (snd (snd k)).
