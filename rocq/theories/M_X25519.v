(** Model of graviola/src/mid/x25519.rs.  low::{curve25519_x25519, curve25519_x25519base} are assembly:
    section variables, with their contract in S_X25519.v.  Entry guards and zeroisation are left out. *)
Require Import Verif.Base Verif.M_Util.

(** low/x86_64/bignum_eq.rs: equality of two numbers of the same length (its documented meaning) *)
Definition bignum_eq (a b : list Z) : bool := limbs_val a =? limbs_val b.

Section X25519.
(** low::curve25519_x25519(res, scalar, point) and low::curve25519_x25519base(res, scalar) *)
Variable xmul : list Z -> list Z -> list Z.
Variable xbase : list Z -> list Z.

(** x25519.rs:23-29  PrivateKey::new_random (a private key is its four words); [fill n] is SystemRandom *)
Definition x_new_random (fill : Z -> res (list Z)) : res (list Z) := let! r := fill 32 in Ok (le_to_u64s r).
(** x25519.rs:32-37  PrivateKey::public_key *)
Definition x_public_key (k : list Z) : list Z := xbase k.
(** x25519.rs:48-59  PrivateKey::diffie_hellman; also 131-134 StaticPrivateKey::diffie_hellman *)
Definition x_diffie_hellman (k peer : list Z) : res (list Z) :=
  let res := xmul k peer in
  if bignum_eq res [0; 0; 0; 0] then Err NotOnCurve else Ok (u64s_to_le res).
(** x25519.rs:85-91  StaticPrivateKey::try_from_slice *)
Definition x_static_from_slice (b : list Z) : res (list Z) :=
  match le_slice_to_u64s 4 b with Some k => Ok k | None => Err WrongLength end.
(** x25519.rs:101-106  StaticPrivateKey::as_bytes *)
Definition x_static_as_bytes (k : list Z) : list Z := u64s_to_le k.
(** x25519.rs:146-151  PublicKey::try_from_slice *)
Definition x_public_from_slice (b : list Z) : res (list Z) :=
  match le_slice_to_u64s 4 b with Some k => Ok k | None => Err WrongLength end.
(** x25519.rs:160-163  PublicKey::as_bytes *)
Definition x_public_as_bytes (p : list Z) : list Z := u64s_to_le p.
End X25519.
