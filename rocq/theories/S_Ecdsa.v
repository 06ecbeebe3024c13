(** Specification of ECDSA (SEC 1 v2 section 4.1, FIPS 186-4 section 6) and of
    the choice of nonce (RFC 6979 with the additional data of section 3.6),
    over the textbook curve of S_Curve and an abstract hash function. *)
Require Import Verif.Base Verif.S_Curve Verif.S_Hmac Verif.S_Der Verif.S_Pkix.

(** The number signed: the leftmost [len] bytes of the digest, modulo n.  (Both
    curve orders are a whole number of bytes long.) *)
Definition ecdsa_e (c : curve) (len : Z) (digest : list Z) : Z := be_val (ztake len digest) mod c_n c.

(** SEC 1, 4.1.4: (r, s) is a valid signature of e under the public key Q. *)
Definition ecdsa_valid (c : curve) (Q : point) (e r s : Z) : Prop :=
  1 <= r < c_n c /\ 1 <= s < c_n c /\
  exists w x y, (s * w) mod c_n c = 1 /\
    pt_add c (pt_mul c (e * w) (Some (c_g c))) (pt_mul c (r * w) Q) = Some (x, y) /\ x mod c_n c = r.

(** SEC 1, 4.1.3: (r, s) is the signature of e by the private key d with nonce
    k.  [s = 0] is not excluded here. *)
Definition ecdsa_signature (c : curve) (d e k r s : Z) : Prop :=
  (exists x y, pt_mul c k (Some (c_g c)) = Some (x, y) /\ r = x mod c_n c) /\
  0 <= s < c_n c /\ (s * k) mod c_n c = (e + d * r) mod c_n c.

(** The two ways of writing a signature. *)
Definition fixed_sig (len r s : Z) : list Z := be_bytes (Z.to_nat len) r ++ be_bytes (Z.to_nat len) s.

(** [b] is the DER encoding of ECDSA-Sig-Value with these two numbers. *)
Definition der_sig (b : list Z) (r s : Z) : Prop :=
  exists ri si, is_int ri /\ is_int si /\ int_value ri = r /\ int_value si = s /\
    b = der_enc (tree_EcdsaSigValue (ri, si)).

(** RFC 6979 section 3.2: candidate number [j] for the nonce: the [j]th request of [len]
    bytes to HMAC_DRBG seeded with the private key, the reduced digest and the
    additional data. *)
Definition nonce_candidate (Hs : list Z -> list Z) (block outlen len d e : Z) (extra : list Z) (j : nat) : Z :=
  be_val (last (Generates Hs block (repeat len (S j))
    (Instantiate Hs block outlen (be_bytes (Z.to_nat len) d) (be_bytes (Z.to_nat len) e) extra)) []).

(** A candidate that RFC 6979 step h.3 takes: in range, and giving r <> 0. *)
Definition nonce_usable (c : curve) (k : Z) : Prop :=
  1 <= k < c_n c /\ exists x y, pt_mul c k (Some (c_g c)) = Some (x, y) /\ x mod c_n c <> 0.
