(** What the NIST curves are, as SEC 1 / FIPS 186 put it, with no reference
    to the program: points of y^2 = x^3 - 3x + b over the integers modulo p,
    the chord-and-tangent addition, and multiples of a point.  Nothing here
    models /repo. *)
Require Import ZArith Znumtheory Zpow_facts List.
Import ListNotations.
Local Open Scope Z_scope.

(** A curve y^2 = x^3 - 3x + b modulo p with a base point g of order n.
    Spec only: no lines of /repo are modelled. *)
Record curve := Curve { c_p : Z; c_b : Z; c_n : Z; c_g : Z * Z }.

(** A point: [None] is the point at infinity.  Spec only. *)
Definition point := option (Z * Z).

(** Coordinates in range and satisfying the equation.  Spec only. *)
Definition on_curve (c : curve) (P : point) : Prop :=
  match P with
  | None => True
  | Some (x, y) =>
      0 <= x < c_p c /\ 0 <= y < c_p c /\
      (y * y) mod c_p c = (x * x * x - 3 * x + c_b c) mod c_p c
  end.

(** The inverse modulo a prime, by Fermat's theorem.  Spec only. *)
Definition inv_mod (p x : Z) : Z := Zpow_mod x (p - 2) p.

(** The third point on the line of slope [l] through a point and another
    whose abscissa is [x2], reflected.  Spec only. *)
Definition pt_third (p l x1 y1 x2 : Z) : point :=
  let x3 := (l * l - x1 - x2) mod p in
  Some (x3, (l * (x1 - x3) - y1) mod p).

(** Chord-and-tangent addition, SEC 1 section 2.2.1.  Spec only. *)
Definition pt_add (c : curve) (P Q : point) : point :=
  let p := c_p c in
  match P, Q with
  | None, _ => Q
  | _, None => P
  | Some (x1, y1), Some (x2, y2) =>
      if x1 =? x2 then
        if (y1 + y2) mod p =? 0 then None
        else pt_third p ((3 * x1 * x1 - 3) * inv_mod p (2 * y1)) x1 y1 x2
      else pt_third p ((y2 - y1) * inv_mod p (x2 - x1)) x1 y1 x2
  end.

(** The opposite point.  Spec only. *)
Definition pt_neg (c : curve) (P : point) : point :=
  match P with None => None | Some (x, y) => Some (x, (- y) mod c_p c) end.

(** The multiple k.P, for any integer k: P added to infinity k times.
    Spec only. *)
Definition pt_mul (c : curve) (k : Z) (P : point) : point :=
  match k with
  | Z0 => None
  | Zpos m => Pos.iter (pt_add c P) None m
  | Zneg m => Pos.iter (pt_add c (pt_neg c P)) None m
  end.

(** What makes such a curve a group of prime order: the numbers are primes,
    the curve is not singular, and every point has order dividing n.  That
    the addition is then associative is proved in L_Weier.  Theorems stated
    for any curve take these as a premise; it is proved for the curves of the
    library in L_P256 and L_P384, and for a small one in L_CurveEx.  Spec
    only. *)
Record curve_group (c : curve) : Prop := {
  cg_p : prime (c_p c);
  cg_p3 : 3 < c_p c;
  cg_n : prime (c_n c);
  cg_b : 0 < c_b c < c_p c;
  cg_g : on_curve c (Some (c_g c));
  cg_ns : (c_b c * c_b c) mod c_p c <> 4 mod c_p c;
  cg_order : forall P, on_curve c P -> pt_mul c (c_n c) P = None }.

(** The curve P-256, FIPS 186-4 D.1.2.3.  Spec only. *)
Definition P256 : curve :=
  Curve (2 ^ 256 - 2 ^ 224 + 2 ^ 192 + 2 ^ 96 - 1)
    0x5ac635d8aa3a93e7b3ebbd55769886bc651d06b0cc53b0f63bce3c3e27d2604b
    0xffffffff00000000ffffffffffffffffbce6faada7179e84f3b9cac2fc632551
    (0x6b17d1f2e12c4247f8bce6e563a440f277037d812deb33a0f4a13945d898c296,
     0x4fe342e2fe1a7f9b8ee7eb4a7c0f9e162bce33576b315ececbb6406837bf51f5).

(** The curve P-384, FIPS 186-4 D.1.2.4.  Spec only. *)
Definition P384 : curve :=
  Curve (2 ^ 384 - 2 ^ 128 - 2 ^ 96 + 2 ^ 32 - 1)
    0xb3312fa7e23ee7e4988e056be3f82d19181d9c6efe8141120314088f5013875ac656398d8a2ed19d2a85c8edd3ec2aef
    0xffffffffffffffffffffffffffffffffffffffffffffffffc7634d81f4372ddf581a0db248b0a77aecec196accc52973
    (0xaa87ca22be8b05378eb1c71ef320ad746e1d3b628ba79b9859f741e082542a385502f25dbf55296c3a545e3872760ab7,
     0x3617de4a96262c6f5d9e98bf9292dc29f8f41dbd289a147ce9da3113b5f0b8c00a60b1ce1d7e819d7a431d7c90ea0e5f).
