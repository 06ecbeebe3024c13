(** Contracts of the assembly routines used by mid/p256.rs and mid/p384.rs,
    as the comments on those routines state them (low/x86_64/bignum_*_p256.rs,
    bignum_*_p384.rs, bignum_montmul.rs, bignum_demont.rs, bignum_modinv.rs,
    bignum_modadd.rs).  They are premises of the theorems; L_EcRef gives
    functions meeting them. *)
Require Import Verif.Base Verif.S_Curve Verif.M_Ec.

(** Field routines modulo p, for arrays holding numbers below R = 2^(64k):
    bignum_montmul_p256.rs:55-61, bignum_montsqr_p256.rs:58-63,
    bignum_add_p256.rs:78-80, bignum_neg_p256.rs:78-80,
    bignum_demont_p256.rs:45-50, bignum_tomont_p256.rs:71-73,
    bignum_inv_p256.rs:1034-1042, the macros of p256_montjadd.rs:318-450 and
    p256_montjdouble.rs (sub, weakadd, cmsub), and the p384 files. *)
Record field_ok (p R : Z) (F : field_asm) : Prop := {
  fo_montmul : forall x y, 0 <= x < R -> 0 <= y < R -> x * y <= R * p ->
    0 <= f_montmul F x y < p /\ (f_montmul F x y * R) mod p = (x * y) mod p;
  fo_montsqr : forall x, 0 <= x < p ->
    0 <= f_montsqr F x < p /\ (f_montsqr F x * R) mod p = (x * x) mod p;
  fo_amontsqr : forall x, 0 <= x < p ->
    0 <= f_amontsqr F x < R /\ (f_amontsqr F x * R) mod p = (x * x) mod p;
  fo_add : forall x y, 0 <= x < p -> 0 <= y < p -> f_add F x y = (x + y) mod p;
  fo_weakadd : forall x y, 0 <= x < p -> 0 <= y < p ->
    0 <= f_weakadd F x y < R /\ f_weakadd F x y mod p = (x + y) mod p;
  fo_sub : forall x y, 0 <= x < p -> 0 <= y < p -> f_sub F x y = (x - y) mod p;
  fo_neg : forall x, 0 <= x < p -> f_neg F x = (- x) mod p;
  fo_cmsub : forall c x d y, 0 <= x < p -> 0 <= y < p ->
    (c, d) = (12, 9) \/ (c, d) = (4, 1) \/ (c, d) = (3, 8) ->
    f_cmsub F c x d y = (c * x - d * y) mod p;
  fo_demont : forall x, 0 <= x < p ->
    0 <= f_demont F x < p /\ (f_demont F x * R) mod p = x mod p;
  fo_tomont : forall x, 0 <= x < R -> f_tomont F x = (x * R) mod p;
  fo_inv : forall x, 0 <= x < p ->
    (x = 0 -> f_inv F x = 0) /\
    (x <> 0 -> 0 <= f_inv F x < p /\ (f_inv F x * x) mod p = 1) }.

(** Routines modulo the odd group order n: bignum_mod_n256.rs:82-86,
    bignum_montmul.rs:140-145, bignum_demont.rs:115-121,
    bignum_modinv.rs:260-266, bignum_modadd.rs:65-67. *)
Record scalar_ok (n R : Z) (S : scalar_asm) : Prop := {
  so_mod_n : forall x, 0 <= x < R -> s_mod_n S x = x mod n;
  so_montmul : forall x y, 0 <= x < n -> 0 <= y < n ->
    0 <= s_montmul S x y n < n /\ (s_montmul S x y n * R) mod n = (x * y) mod n;
  so_demont : forall x, 0 <= x < R ->
    0 <= s_demont S x n < n /\ (s_demont S x n * R) mod n = x mod n;
  so_modinv : forall x, 0 < x < n -> Z.gcd x n = 1 ->
    0 <= s_modinv S x n < n /\ (s_modinv S x n * x) mod n = 1;
  so_modadd : forall x y, 0 <= x < n -> 0 <= y < n -> s_modadd S x y n = (x + y) mod n }.

(** What a pair or triple of field elements in Montgomery form stands for.
    [dm] takes a number out of Montgomery form.  Spec only; the encoding is
    described at p256_montjadd.rs:502-504. *)
Definition dm (p R x : Z) : Z := x * inv_mod p R.

(** An affine point in Montgomery form.  Spec only. *)
Definition aff_is (c : curve) (R : Z) (a : aff) (x y : Z) : Prop :=
  let p := c_p c in
  0 <= fst a < p /\ 0 <= snd a < p /\ 0 <= x < p /\ 0 <= y < p /\
  dm p R (fst a) mod p = x mod p /\ dm p R (snd a) mod p = y mod p.

(** A Jacobian point (x/z^2, y/z^3) in Montgomery form; z = 0 is the point at
    infinity.  Spec only. *)
Definition jac_is (c : curve) (R : Z) (j : jac) (Q : point) : Prop :=
  let p := c_p c in
  let '(X, Y, Z) := j in
  0 <= X < p /\ 0 <= Y < p /\ 0 <= Z < p /\
  match Q with
  | None => Z = 0
  | Some (x, y) =>
      Z <> 0 /\ 0 <= x < p /\ 0 <= y < p /\
      dm p R X mod p = (x * (dm p R Z * dm p R Z)) mod p /\
      dm p R Y mod p = (y * (dm p R Z * dm p R Z * dm p R Z)) mod p
  end.

(** The precomputed tables for the base point hold what their comments say:
    row i of p256/precomp.rs holds d * 2^(7i) * G for d = 1 .. 64
    (p256.rs:1061-1065), p384/precomp.rs holds d * G for d = 1 .. 16. *)
Definition base_ok (c : curve) (R : Z) (t : base) : Prop :=
  match t with
  | BaseW7 rows =>
      forall i d, 0 <= i < 37 -> 1 <= d <= 64 ->
        exists row a x y, nth_error rows (Z.to_nat i) = Some row /\
          nth_error row (Z.to_nat (d - 1)) = Some a /\
          pt_mul c (d * 2 ^ (7 * i)) (Some (c_g c)) = Some (x, y) /\ aff_is c R a x y
  | BaseW5 row =>
      forall d, 1 <= d <= 16 ->
        exists a, nth_error row (Z.to_nat (d - 1)) = Some a /\
          jac_is c R a (pt_mul c d (Some (c_g c)))
  end.

(** The modules p256.rs and p384.rs with assembly meeting its contract, as an
    implementation of a curve: constants p256.rs:1069-1102 / p384.rs:899-942. *)
Record ec_ok (c : curve) (E : ec) : Prop := {
  eo_limbs : 0 < ec_limbs (e_par E);
  eo_field : field_ok (c_p c) (2 ^ (64 * ec_limbs (e_par E))) (e_f E);
  eo_scalar : scalar_ok (c_n c) (2 ^ (64 * ec_limbs (e_par E))) (e_s E);
  eo_base : base_ok c (2 ^ (64 * ec_limbs (e_par E))) (e_base E) }.

(** The constants of the files, p256.rs:1069-1102 / p384.rs:899-942, are the
    Montgomery forms of 1, -3 and b for words holding numbers below R. *)
Record consts_ok (c : curve) (R : Z) (P : params) : Prop := {
  co_one : ec_one_mont P = R mod c_p c;
  co_a : ec_a_mont P = (- 3 * R) mod c_p c;
  co_b : ec_b_mont P = (c_b c * R) mod c_p c;
  co_R : exists k, 0 <= k /\ R = 2 ^ k }.

(** All the constants fit the curve, and the shapes of the two window
    recodings fit the sizes: p256.rs:1016, :901-908 / p384.rs:850, :794-796.
    Checked for both files in L_EcRef (par256_ok, par384_ok). *)
Record par_ok (c : curve) (E : ec) : Prop := {
  po_consts : consts_ok c (2 ^ (64 * ec_limbs (e_par E))) (e_par E);
  po_order : ec_order (e_par E) = c_n c;
  po_mm : ec_order_mm (e_par E) = (2 ^ (64 * ec_limbs (e_par E)) * 2 ^ (64 * ec_limbs (e_par E))) mod c_n c;
  po_p : c_p c < 2 ^ (64 * ec_limbs (e_par E));
  po_n : c_n c < 2 ^ (64 * ec_limbs (e_par E));
  po_n34 : 34 <= c_n c;
  po_n32 : 16 < c_n c mod 32;
  po_start : exists t, ec_w5_start (e_par E) = 5 * Z.of_nat t /\ (1 <= t < 99)%nat /\
    64 * ec_limbs (e_par E) <= 5 * Z.of_nat t + 4 /\ 5 * Z.of_nat t <= 64 * ec_limbs (e_par E);
  po_base : match e_base E with BaseW7 _ => ec_limbs (e_par E) = 4 /\ 2 ^ 256 - 2 ^ 250 < c_n c < 2 ^ 256 | BaseW5 _ => True end }.

(** 2^(bits of a field element).  Spec only. *)
Definition radix (E : ec) := 2 ^ (64 * ec_limbs (e_par E)).

(** A curve module: a curve whose classical facts hold, assembly meeting its
    contract, and the right constants.  This is the premise of the theorems
    about p256.rs and p384.rs. *)
Record ec_impl (c : curve) (E : ec) : Prop := {
  ei_group : curve_group c;
  ei_asm : ec_ok c E;
  ei_par : par_ok c E }.

(** The uncompressed encoding of SEC 1 section 2.3.3.  Spec only. *)
Definition sec1 (len x y : Z) : list Z := 4 :: be_bytes (Z.to_nat len) x ++ be_bytes (Z.to_nat len) y.

(** The state of a randomness source after [i] requests of [len] bytes, and
    the answer to request number [i].  Spec only. *)
Fixpoint rng_after {St} (fill : St -> Z -> res (list Z) * St) (len : Z) (s : St) (i : nat) : St :=
  match i with O => s | S i => rng_after fill len (snd (fill s len)) i end.
(** As above. *)
Definition rng_output {St} (fill : St -> Z -> res (list Z) * St) (len : Z) (s : St) (i : nat) : res (list Z) :=
  fst (fill (rng_after fill len s i) len).
