(** What Ed25519 is, as RFC 8032 puts it, with no reference to the program:
    the points of -x^2 + y^2 = 1 + d x^2 y^2 over the integers modulo p, their
    addition, multiples, 32-byte encodings, and the signature equations; then
    the contract of the assembly routines.  Nothing here models /repo. *)
Require Import ZArith Znumtheory.
Require Import Verif.Base Verif.S_Curve.
Local Open Scope Z_scope.

(** A curve, with a base point of prime order l.  Spec only. *)
Record edcurve := EdCurve { ed_p : Z; ed_d : Z; ed_l : Z; ed_b : Z * Z }.

(** Coordinates in range and satisfying the equation.  Spec only. *)
Definition on_ed (c : edcurve) (P : Z * Z) : Prop :=
  let '(x, y) := P in
  0 <= x < ed_p c /\ 0 <= y < ed_p c /\
  (y * y - x * x) mod ed_p c = (1 + ed_d c * x * x * y * y) mod ed_p c.

(** The neutral point.  Spec only. *)
Definition ed_zero : Z * Z := (0, 1).

(** Addition, RFC 8032 section 5.1.4 with a = -1.  Spec only. *)
Definition ed_add (c : edcurve) (P Q : Z * Z) : Z * Z :=
  let p := ed_p c in
  let '(x1, y1) := P in
  let '(x2, y2) := Q in
  let t := ed_d c * x1 * x2 * y1 * y2 in
  (((x1 * y2 + x2 * y1) * inv_mod p (1 + t)) mod p,
   ((y1 * y2 + x1 * x2) * inv_mod p (1 - t)) mod p).

(** The opposite point.  Spec only. *)
Definition ed_neg (c : edcurve) (P : Z * Z) : Z * Z := let '(x, y) := P in ((- x) mod ed_p c, y).

(** The multiple k.P for k >= 0: P added to the neutral point k times.
    Spec only. *)
Definition ed_mul (c : edcurve) (k : Z) (P : Z * Z) : Z * Z := Z.iter k (ed_add c P) ed_zero.

(** The arithmetic facts about the constants: primes, -1 a square and d not
    one (so that the addition is defined everywhere), and the base point's
    order.  Theorems stated for any such curve take them as a premise; they
    are proved for the constants of RFC 8032 in L_E25519, and for a small
    curve in L_EdEx.  Spec only. *)
Record ed_ok (c : edcurve) : Prop := {
  eo_p : prime (ed_p c);
  eo_p2 : 2 < ed_p c;
  eo_255 : ed_p c < 2 ^ 255;
  eo_i : exists i, (i * i + 1) mod ed_p c = 0;
  eo_d : forall a, (a * a) mod ed_p c <> ed_d c mod ed_p c;
  eo_b : on_ed c (ed_b c);
  eo_b0 : ed_b c <> ed_zero;
  eo_l : prime (ed_l c);
  eo_l256 : ed_l c < 2 ^ 256;
  eo_lb : ed_mul c (ed_l c) (ed_b c) = ed_zero }.

(** Encoding of a point, RFC 8032 section 5.1.2: y, with the low bit of x on
    top.  Spec only. *)
Definition ed_enc (P : Z * Z) : list Z := let '(x, y) := P in le_bytes 32 (y + 2 ^ 255 * (x mod 2)).

Section Scheme.
Variable c : edcurve.
(** SHA-512 *)
Variable H : list Z -> list Z.

(** RFC 8032 section 5.1.5: the secret scalar, prefix and public key of a
    32-byte seed.  Spec only. *)
Definition rfc_scalar (seed : list Z) : Z := 2 ^ 254 + 8 * ((le_val (ztake 32 (H seed)) mod 2 ^ 254) / 8).
(** As above. *)
Definition rfc_prefix (seed : list Z) : list Z := zdrop 32 (H seed).
(** As above. *)
Definition rfc_public (seed : list Z) : list Z := ed_enc (ed_mul c (rfc_scalar seed) (ed_b c)).

(** The challenge k of sections 5.1.6 and 5.1.7, as the number the hash is and
    reduced modulo l.  Section 5.1.6 has it reduced "for efficiency"; 5.1.7 does
    not say.  Spec only. *)
Definition rfc_challenge (R A m : list Z) : Z := le_val (H (R ++ A ++ m)).
(** As above. *)
Definition rfc_k (R A m : list Z) : Z := rfc_challenge R A m mod ed_l c.

(** RFC 8032 section 5.1.6, signing.  Spec only. *)
Definition rfc_sign (seed m : list Z) : list Z :=
  let r := le_val (H (rfc_prefix seed ++ m)) mod ed_l c in
  let R := ed_enc (ed_mul c r (ed_b c)) in
  let k := rfc_challenge R (rfc_public seed) m in
  R ++ le_bytes 32 ((r + k * rfc_scalar seed) mod ed_l c).

(** RFC 8032 section 5.1.7, verification, in the variant without the
    cofactor and with the challenge reduced modulo l: the signature is 64
    bytes, its halves encode a point R and a number S < l, and S.B = R + k.A.
    Spec only. *)
Definition rfc_valid (A : Z * Z) (m sig : list Z) : Prop :=
  zlen sig = 64 /\ exists R, on_ed c R /\ ztake 32 sig = ed_enc R /\
  let S := le_val (zdrop 32 sig) in
  S < ed_l c /\
  ed_mul c S (ed_b c) = ed_add c R (ed_mul c (rfc_k (ed_enc R) (ed_enc A) m) A).

(** The same with the challenge not reduced.  Spec only. *)
Definition rfc_valid_unreduced (A : Z * Z) (m sig : list Z) : Prop :=
  zlen sig = 64 /\ exists R, on_ed c R /\ ztake 32 sig = ed_enc R /\
  let S := le_val (zdrop 32 sig) in
  S < ed_l c /\
  ed_mul c S (ed_b c) = ed_add c R (ed_mul c (rfc_challenge (ed_enc R) (ed_enc A) m) A).
End Scheme.

(** The curve of RFC 8032 section 5.1.  Spec only. *)
Definition edwards25519 : edcurve :=
  EdCurve (2 ^ 255 - 19)
    0x52036cee2b6ffe738cc740797779e89800700a4d4141d8ab75eb4dca135978a3
    (2 ^ 252 + 27742317777372353535851937790883648493)
    (0x216936d3cd6e53fec0a4e231fdd6dc5c692cc7609525a7b2c9562d608f25d51a,
     0x6666666666666666666666666666666666666666666666666666666666666658).
