(** X25519 as RFC 7748 section 5 defines it, and the contract of the two assembly routines. *)
Require Import Verif.Base Verif.M_Util Verif.L_Util Verif.S_Curve.

Definition p25519 : Z := 2 ^ 255 - 19.
(** decodeScalar25519: clear the low three bits and the top bit, set bit 254 *)
Definition decode_scalar (k : list Z) : Z := 8 * ((le_val k mod 2 ^ 254) / 8) + 2 ^ 254.
(** decodeUCoordinate with bits = 255: the top bit is ignored, non-canonical values are reduced *)
Definition decode_u (u : list Z) : Z := (le_val u mod 2 ^ 255) mod p25519.
Definition fadd (a b : Z) : Z := (a + b) mod p25519.
Definition fsub (a b : Z) : Z := (a - b) mod p25519.
Definition fmul (a b : Z) : Z := (a * b) mod p25519.
(** one iteration for bit [kt], without the conditional swaps *)
Definition ladder_step (x1 x2 z2 x3 z3 : Z) : Z * Z * Z * Z :=
  let A := fadd x2 z2 in let AA := fmul A A in
  let B := fsub x2 z2 in let BB := fmul B B in
  let E := fsub AA BB in
  let C := fadd x3 z3 in let D := fsub x3 z3 in
  let DA := fmul D A in let CB := fmul C B in
  (fmul AA BB, fmul E (fadd AA (fmul 121665 E)),
   fmul (fadd DA CB) (fadd DA CB), fmul x1 (fmul (fsub DA CB) (fsub DA CB))).
Definition ladder_bit (x1 : Z) (s : Z * Z * Z * Z) (kt : bool) : Z * Z * Z * Z :=
  let '(x2, z2, x3, z3) := s in
  if kt then let '(x3', z3', x2', z2') := ladder_step x1 x3 z3 x2 z2 in (x2', z2', x3', z3')
  else ladder_step x1 x2 z2 x3 z3.
(** bits 254 .. 0, most significant first *)
Definition scalar_bits (k : Z) : list bool := map (fun i => Z.testbit k (Z.of_nat i)) (rev (seq 0 255)).
Fixpoint fpow_pos (a : Z) (e : positive) : Z :=
  match e with
  | xH => a
  | xO e => let r := fpow_pos a e in fmul r r
  | xI e => let r := fpow_pos a e in fmul a (fmul r r)
  end.
Definition finv (a : Z) : Z := match p25519 - 2 with Zpos e => fpow_pos a e | _ => 0 end.
Definition X25519 (k u : list Z) : list Z :=
  let x1 := decode_u u in
  let '(x2, z2, _, _) := fold_left (ladder_bit x1) (scalar_bits (decode_scalar k)) (1, 0, x1, 1) in
  le_bytes 32 (fmul x2 (finv z2)).
(** the u-coordinate of the base point *)
Definition u_nine : list Z := 9 :: repeat 0 31.

(** Contract of low::{curve25519_x25519, curve25519_x25519base} (assembly; see the comments at the top of
    low/x86_64/curve25519_x25519.rs and low/x86_64/curve25519_x25519base.rs), on four-word arrays. *)
Definition u64x4 (v : list Z) : Prop := length v = 4%nat /\ Forall u64 v.
Record x25519_asm_ok (xmul : list Z -> list Z -> list Z) (xbase : list Z -> list Z) : Prop := {
  xmul_ok : forall s p, u64x4 s -> u64x4 p -> xmul s p = le_to_u64s (X25519 (u64s_to_le s) (u64s_to_le p));
  xbase_ok : forall s, u64x4 s -> xbase s = le_to_u64s (X25519 (u64s_to_le s) u_nine)
}.
(** The u-coordinate of a point of edwards25519, RFC 7748 section 4.1; 0 stands for the neutral point.  (Spec
    only.) *)
Definition u_of (P : Z * Z) : Z := ((1 + snd P) * inv_mod p25519 (1 - snd P)) mod p25519.
