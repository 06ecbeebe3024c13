(** Model of graviola/src/mid/rsa_pub.rs and graviola/src/mid/rsa_priv.rs (key construction, the public and the
    private operation, component export).  Zeroisation on drop and the [SecretPosInt] wrapper (which only marks
    values) are left out. *)
Require Import Verif.Base Verif.M_PosInt.

(** rsa_pub.rs:85-90 *)
Definition MAX_PUBLIC_MODULUS_BITS : Z := 8192.
(** rsa_pub.rs:86 *)
Definition MAX_PUBLIC_MODULUS_WORDS : Z := MAX_PUBLIC_MODULUS_BITS / 64.
(** rsa_pub.rs:87 *)
Definition MAX_PUBLIC_MODULUS_BYTES : Z := MAX_PUBLIC_MODULUS_BITS / 8.
(** rsa_pub.rs:89 *)
Definition MIN_PUBLIC_MODULUS_BITS : Z := 2048.
(** rsa_pub.rs:90 *)
Definition MIN_PUBLIC_MODULUS_BYTES : Z := MIN_PUBLIC_MODULUS_BITS / 8.
(** rsa_priv.rs:229-234 *)
Definition MAX_PRIVATE_MODULUS_BITS : Z := 4096.
(** rsa_priv.rs:230 *)
Definition MAX_PRIVATE_MODULUS_WORDS : Z := MAX_PRIVATE_MODULUS_BITS / 64.
(** rsa_priv.rs:231 *)
Definition MAX_PRIVATE_MODULUS_BYTES : Z := MAX_PRIVATE_MODULUS_BITS / 8.
(** rsa_priv.rs:233 *)
Definition MIN_PRIVATE_MODULUS_BITS : Z := 1024.
(** rsa_priv.rs:234 *)
Definition MIN_PRIVATE_MODULUS_BYTES : Z := MIN_PRIVATE_MODULUS_BITS / 8.

(** rsa_pub.rs:8-15 *)
Record rsa_pub := mkPub { pub_n : posint; pub_e : Z; pub_mf : posint; pub_one : posint; pub_n0 : Z }.
(** rsa_priv.rs:12-28 *)
Record rsa_priv := mkPriv {
  pr_public : rsa_pub;
  pr_p : posint; pr_q : posint; pr_d : posint; pr_dp : posint; pr_dq : posint; pr_iqmp : posint;
  pr_iqmp_mont : posint; pr_p_mf : posint; pr_q_mf : posint; pr_p0 : Z; pr_q0 : Z }.

Section Rsa.
Variable bn : bignum.

(** rsa_pub.rs:27-42: the values precomputed by [new] *)
Definition pub_make (n : posint) (e : Z) : rsa_pub :=
  let mf := montifier bn n in
  let n0 := mont_neg_inverse bn n in
  let one := mont_mul bn (fixed_one n) mf n n0 in
  mkPub n e mf one n0.
(** rsa_pub.rs:18-43 new *)
Definition pub_new (n : posint) (e : Z) : res rsa_pub :=
  let n_len := len_bytes n in
  if is_even n || negb ((MIN_PUBLIC_MODULUS_BYTES <=? n_len) && (n_len <=? MAX_PUBLIC_MODULUS_BYTES)) || (e =? 0)
  then Err OutOfRange else Ok (pub_make n e).
(** rsa_pub.rs:45-47 modulus_len_bytes *)
Definition pub_modulus_len (k : rsa_pub) : Z := len_bytes (pub_n k).

(** rsa_pub.rs:63-77: one iteration, for bit number [bit] of the exponent *)
Definition public_step (k : rsa_pub) (c_mont : posint) (s : posint * bool) (bit : Z) : posint * bool :=
  let (accum, first) := s in
  let tmp := if first then accum else mont_sqr bn accum (pub_n k) (pub_n0 k) in
  let mask := Z.shiftl 1 bit in
  if Z.land (pub_e k) mask =? mask then (mont_mul bn tmp c_mont (pub_n k) (pub_n0 k), false) else (tmp, false).
(** rsa_pub.rs:63: the bit numbers ilog2(e) .. 0 *)
Definition exponent_bits (e : Z) : list Z := map Z.of_nat (rev (seq 0 (Z.to_nat (Z.log2 e + 1)))).
(** rsa_pub.rs:50-81 public_op.  [e.ilog2()] panics for e = 0, which [new] excludes. *)
Definition public_op (k : rsa_pub) (c : posint) : res posint :=
  if negb (less_than c (pub_n k)) then Err OutOfRange
  else
    let c := pexpand c (pub_n k) in
    let c_mont := to_montgomery bn c (pub_mf k) (pub_n k) in
    if pub_e k =? 0 then Panic
    else
      let (accum, _) := fold_left (public_step k c_mont) (exponent_bits (pub_e k)) (pub_one k, true) in
      Ok (from_montgomery bn accum (pub_n k)).

(** rsa_priv.rs:49-76: the values precomputed by [new] *)
Definition priv_make (public : rsa_pub) (p q d dp dq iqmp : posint) : rsa_priv :=
  let p_mf := montifier bn p in
  let q_mf := montifier bn q in
  let iqmp_mont := to_montgomery bn iqmp p_mf p in
  mkPriv public p q d dp dq iqmp iqmp_mont p_mf q_mf (mont_neg_inverse bn p) (mont_neg_inverse bn q).
(** rsa_priv.rs:31-77 new *)
Definition priv_new (p q d dp dq iqmp n : posint) (e : Z) : res rsa_priv :=
  let p_len := len_bytes p in
  if is_even p || is_even q || negb ((MIN_PRIVATE_MODULUS_BYTES <=? p_len) && (p_len <=? MAX_PRIVATE_MODULUS_BYTES))
  then Err OutOfRange
  else let! public := pub_new n e in Ok (priv_make public p q d dp dq iqmp).

(** rsa_priv.rs:156-179: steps i to iv, the result recombined from the two halves *)
Definition private_crt (k : rsa_priv) (c : posint) : res posint :=
  let! cmp := preduce bn c (pr_p k) (pr_p_mf k) in
  let! m_1 := mod_exp bn cmp (pr_dp k) (pr_p k) (pr_p_mf k) (pr_p0 k) in
  let! cmq := preduce bn c (pr_q k) (pr_q_mf k) in
  let! m_2 := mod_exp bn cmq (pr_dq k) (pr_q k) (pr_q_mf k) (pr_q0 k) in
  let h := mont_mul bn (sub_mod m_1 m_2 (pr_p k)) (pr_iqmp_mont k) (pr_p k) (pr_p0 k) in
  Ok (padd (pwiden MAX_PUBLIC_MODULUS_WORDS m_2) (pmul MAX_PUBLIC_MODULUS_WORDS (pr_q k) h)).
(** rsa_priv.rs:181-190: the check of the result *)
Definition private_check (k : rsa_priv) (c m : posint) : res posint :=
  let! c2 := public_op (pr_public k) m in
  if pequals c2 c then Ok m else Err DecryptFailed.
(** rsa_priv.rs:141-191 private_op *)
Definition private_op (k : rsa_priv) (c : posint) : res posint :=
  if negb (less_than c (pub_n (pr_public k))) then Err OutOfRange
  else let! m := private_crt k c in private_check k c m.

(** rsa_priv.rs:95-138 encode_components and rsa_priv.rs:200-209: the eight byte strings, each written into its own
    part of the buffer.  The exponent is [u32::to_be_bytes]. *)
Record rsa_components := mkComps {
  co_modulus : list Z; co_exponent : list Z; co_p : list Z; co_q : list Z; co_d : list Z;
  co_dp : list Z; co_dq : list Z; co_iqmp : list Z }.
(** rsa_priv.rs:95-138  encode_components *)
Definition encode_components (k : rsa_priv) : res rsa_components :=
  let pub := MAX_PUBLIC_MODULUS_BYTES + 1 in let prv := MAX_PRIVATE_MODULUS_BYTES + 1 in
  let! n := pto_bytes_asn1 (pub_n (pr_public k)) pub in
  let e := be_bytes 4 (pub_e (pr_public k)) in
  let! p := pto_bytes_asn1 (pr_p k) prv in
  let! q := pto_bytes_asn1 (pr_q k) prv in
  let! d := pto_bytes_asn1 (pr_d k) pub in
  let! dp := pto_bytes_asn1 (pr_dp k) prv in
  let! dq := pto_bytes_asn1 (pr_dq k) prv in
  let! iqmp := pto_bytes_asn1 (pr_iqmp k) prv in
  Ok (mkComps n e p q d dp dq iqmp).
End Rsa.
