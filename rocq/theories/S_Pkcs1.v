(** RFC 8017: EMSA-PKCS1-v1_5 (9.2), MGF1 (B.2.1), EMSA-PSS (9.1), written from the RFC with lists of octets. *)
Require Import Verif.Base.

(** ** DigestInfo (9.2 step 2, A.2.4): SEQUENCE { SEQUENCE { OID, NULL }, OCTET STRING } in DER, all lengths short *)
Definition tlv (tag : Z) (content : list Z) : list Z := tag :: zlen content :: content.
(** 2.16.840.1.101.3.4.2.x, base 128: 2*40+16; 840 = 6*128 + 72 *)
Definition nist_hash_oid (x : Z) : list Z := [2 * 40 + 16; 128 + 6; 72; 1; 101; 3; 4; 2; x].
Definition DigestInfo (oid hash : list Z) : list Z := tlv 48 (tlv 48 (tlv 6 oid ++ tlv 5 []) ++ tlv 4 hash).
Definition id_sha256 : list Z := nist_hash_oid 1.
Definition id_sha384 : list Z := nist_hash_oid 2.
Definition id_sha512 : list Z := nist_hash_oid 3.

(** EM = 0x00 || 0x01 || PS || 0x00 || T *)
Definition EMSA_PKCS1 (emLen : Z) (T : list Z) : option (list Z) :=
  if emLen <? zlen T + 11 then None
  else Some ([0; 1] ++ repeat 255 (Z.to_nat (emLen - zlen T - 3)) ++ [0] ++ T).

(** ** MGF1: T = Hash(seed || C(0)) || Hash(seed || C(1)) || ..., the leading maskLen octets; C is I2OSP of 4 octets *)
Section Pss.
Variable Hash : list Z -> list Z.
Variable hLen : Z.
Definition MGF1 (seed : list Z) (maskLen : Z) : list Z :=
  ztake maskLen (concat (map (fun i => Hash (seed ++ be_bytes 4 (Z.of_nat i)))
                             (seq 0 (Z.to_nat ((maskLen + hLen - 1) / hLen))))).
Definition xor_bytes (a b : list Z) : list Z := map (fun p => Z.lxor (fst p) (snd p)) (combine a b).
(** set the leftmost 8 emLen - emBits bits of the leftmost octet to zero *)
Definition clear_bits (n : Z) (l : list Z) : list Z :=
  match l with [] => [] | x :: r => x mod 2 ^ (8 - n) :: r end.
Definition M_prime (mHash salt : list Z) : list Z := repeat 0 8 ++ mHash ++ salt.

(** 9.1.1, with the salt given; sLen is its length *)
Definition EMSA_PSS_ENCODE (mHash salt : list Z) (emBits : Z) : option (list Z) :=
  let emLen := (emBits + 7) / 8 in
  let sLen := zlen salt in
  if emLen <? hLen + sLen + 2 then None else
  let H := Hash (M_prime mHash salt) in
  let DB := repeat 0 (Z.to_nat (emLen - sLen - hLen - 2)) ++ [1] ++ salt in
  let maskedDB := xor_bytes DB (MGF1 H (emLen - hLen - 1)) in
  Some (clear_bits (8 * emLen - emBits) maskedDB ++ H ++ [188]).

(** 9.1.2, "consistent" as a proposition.  The steps are conditions on EM = maskedDB || H || 0xbc. *)
Definition EMSA_PSS_VERIFY (mHash EM : list Z) (emBits sLen : Z) : Prop :=
  let emLen := (emBits + 7) / 8 in
  hLen + sLen + 2 <= emLen /\
  exists maskedDB H salt,
    zlen maskedDB = emLen - hLen - 1 /\ zlen H = hLen /\ zlen salt = sLen /\
    EM = maskedDB ++ H ++ [188] /\
    clear_bits (8 * emLen - emBits) maskedDB = maskedDB /\
    clear_bits (8 * emLen - emBits) (xor_bytes maskedDB (MGF1 H (emLen - hLen - 1)))
      = repeat 0 (Z.to_nat (emLen - hLen - sLen - 2)) ++ [1] ++ salt /\
    H = Hash (M_prime mHash salt).
End Pss.
