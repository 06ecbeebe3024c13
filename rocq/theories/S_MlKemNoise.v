(** When ML-KEM decryption succeeds: K-PKE of FIPS 203 as arithmetic in R_q = Z_q[X] / (X^256 + 1), without the
    number-theoretic transform (FIPS 203, 2.4.4 and 3.2; the error analysis of the CRYSTALS-Kyber submission, Theorem 1). *)
Require Import Verif.Base Verif.S_Sha3 Verif.S_MlKem.

(** product in R_q: the schoolbook product, with X^256 = -1 *)
Definition ring_mul (f g : list Z) : list Z :=
  poly (fun k => zsum 256 (fun j => if (j <=? k)%nat then coef f j * coef g (k - j) else - (coef f j * coef g (256 + k - j)))).
(** inner product of two vectors over R_q *)
Definition inner (a b : list (list Z)) : list Z :=
  fold_right (fun '(f, g) acc => poly_add (ring_mul f g) acc) zero_poly (combine a b).
(** a polynomial after compression to d bits and decompression (4.7, 4.8) *)
Definition rounded (d : Z) (f : list Z) : list Z := map (fun x => Decompress d (Compress d x)) f.
(** componentwise difference of vectors *)
Definition vec_sub (a b : list (list Z)) : list (list Z) := map (fun '(f, g) => poly_sub f g) (combine a b).

(** The error left after decryption when matrix, secret, key noise, encryption randomness, encryption noise and encoded
    message are A, s, e, y, e1, e2, mu: e.y + e2 + (rounding of v) - s.(e1 + rounding of u), where t = A s + e,
    u = A^T y + e1 and v = t.y + e2 + mu. *)
Definition error_of (A : list (list (list Z))) (s e y e1 : list (list Z)) (e2 mu : list Z) : list Z :=
  let t := vec_add (map (fun row => inner row s) A) e in
  let u := vec_add (map (fun col => inner col y) (transpose A)) e1 in
  let v := poly_add (poly_add (inner t y) e2) mu in
  poly_sub (poly_add (poly_add (inner e y) e2) (poly_sub (rounded 4 v) v))
           (inner s (vec_add e1 (vec_sub (map (rounded 10) u) u))).
(** ... for the key of seed [d] and an encryption of [m] with randomness [r] (Algorithms 13 and 14) *)
Definition decryption_noise (it : Z) (d m r : list Z) : list Z :=
  let '(rho, sigma) := HashG (d ++ [3]) in
  error_of (map (map NTT_inv) (matrix_A it rho)) (noise sigma 0) (noise sigma 3) (noise r 0) (noise r 3)
           (SamplePolyCBD (PRF2 r 6)) (map (Decompress 1) (ByteDecode 1 m)).

(** the representative of [x] modulo q closest to 0 (2.4.1, mod+-) lies within a quarter of q *)
Definition small_coef (x : Z) : Prop := let c := if x mod q <=? 1664 then x mod q else x mod q - q in -832 <= c <= 831.
Definition decryptable (it : Z) (d m r : list Z) : Prop := Forall small_coef (decryption_noise it d m r).
