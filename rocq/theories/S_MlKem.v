(** FIPS 203 (ML-KEM), parameter set ML-KEM-768, written from the standard.  Section and algorithm
    numbers are those of FIPS 203. *)
Require Import Verif.Base Verif.S_Sha3.

(** ** 2.3, 8: constants *)
Definition q : Z := 3329.
Definition n256 : nat := 256.
Definition k3 : nat := 3.
Definition zeta : Z := 17.
Definition zeta_inv : Z := 1175.   (* 17 * 1175 = 1 mod q *)

(** ** 4.2.1: compression.  [round_div a b] is a / b rounded to the nearest integer, 1/2 upwards. *)
Definition round_div (a b : Z) : Z := (2 * a + b) / (2 * b).
Definition Compress (d x : Z) : Z := round_div (2 ^ d * x) q mod 2 ^ d.
Definition Decompress (d y : Z) : Z := round_div (q * y) (2 ^ d).

(** ** Algorithms 5 and 6: ByteEncode_d and ByteDecode_d.  BytesToBits and BitsToBytes (Algorithms 3,
    4) are [bits_of_bytes] and [bytes_of_bits] of S_Sha3. *)
Definition int_bits (d : nat) (x : Z) : list bool := map (fun i => Z.testbit x (Z.of_nat i)) (seq 0 d).
Definition bits_int (l : list bool) : Z := byte_of_bits l.   (* sum of b[j] 2^j *)
Definition ByteEncode (d : nat) (F : list Z) : list Z := bytes_of_bits (concat (map (int_bits d) F)).
(** integers of [d] bits *)
Definition ByteDecode_raw (d : nat) (B : list Z) : list Z := map bits_int (chunks_exact (Z.of_nat d) (bits_of_bytes B)).
(** m = 2^d for d < 12 and q for d = 12 *)
Definition ByteDecode (d : nat) (B : list Z) : list Z :=
  map (fun x => x mod (if (d <? 12)%nat then 2 ^ Z.of_nat d else q)) (ByteDecode_raw d B).

(** ** Polynomials: 256 coefficients, natural order *)
Definition coef (f : list Z) (i : nat) : Z := nth i f 0.
Fixpoint zsum (m : nat) (f : nat -> Z) : Z := match m with O => 0 | S m' => zsum m' f + f m' end.
Definition poly (f : nat -> Z) : list Z := map (fun i => f i mod q) (seq 0 n256).
Definition poly_add (f g : list Z) : list Z := poly (fun i => coef f i + coef g i).
Definition poly_sub (f g : list Z) : list Z := poly (fun i => coef f i - coef g i).

(** ** 4.3: the number-theoretic transform.  BitRev7 reverses a seven-bit integer; block [i] of the
    transform is the residue of f modulo X^2 - zeta^(2 BitRev7(i) + 1) (4.12), that is, the even and
    the odd coefficients of f evaluated at that power. *)
Definition BitRev7 (i : nat) : Z :=
  fold_right (fun j acc => acc + (if Z.testbit (Z.of_nat i) (Z.of_nat j) then 2 ^ (6 - Z.of_nat j) else 0)) 0 (seq 0 7).
Definition root_exp (i : nat) : Z := 2 * BitRev7 i + 1.
Definition NTT (f : list Z) : list Z :=
  poly (fun i => zsum 128 (fun j => coef f (2 * j + i mod 2) * zeta ^ (root_exp (i / 2) * Z.of_nat j))).
(** its inverse; 3303 = 128^-1 mod q *)
Definition NTT_inv (F : list Z) : list Z :=
  poly (fun i => 3303 * zsum 128 (fun b => coef F (2 * b + i mod 2) * zeta_inv ^ (root_exp b * Z.of_nat (i / 2)))).
(** Algorithms 11 and 12: products in every Z_q[X] / (X^2 - zeta^(2 BitRev7(i) + 1)) *)
Definition MultiplyNTTs (F G : list Z) : list Z :=
  poly (fun i => let b := (i / 2)%nat in
    let a0 := coef F (2 * b) in let a1 := coef F (2 * b + 1) in
    let b0 := coef G (2 * b) in let b1 := coef G (2 * b + 1) in
    if (i mod 2 =? 0)%nat then a0 * b0 + a1 * b1 * zeta ^ root_exp b else a0 * b1 + a1 * b0).

(** 2.4.6 - 2.4.8: vectors and matrices over T_q (lists of polynomials, lists of rows) *)
Definition zero_poly : list Z := poly (fun _ => 0).
Definition dot (a b : list (list Z)) : list Z :=
  fold_right (fun '(f, g) acc => poly_add (MultiplyNTTs f g) acc) zero_poly (combine a b).
Definition mat_vec (A : list (list (list Z))) (v : list (list Z)) : list (list Z) := map (fun row => dot row v) A.
Definition vec_add (a b : list (list Z)) : list (list Z) := map (fun '(f, g) => poly_add f g) (combine a b).

(** ** 4.1: hash functions *)
Definition PRF2 (s : list Z) (b : Z) : list Z := SHAKE256 (s ++ [b]) 128.
Definition HashH (s : list Z) : list Z := SHA3_256 s.
Definition HashJ (s : list Z) : list Z := SHAKE256 s 32.
Definition HashG (c : list Z) : list Z * list Z := (ztake 32 (SHA3_512 c), zdrop 32 (SHA3_512 c)).

(** ** Algorithm 7: SampleNTT.  [twelve_bits] are d1, d2 of each three bytes; after [it] iterations
    of the loop the coefficients found are the first 256 candidates below q of the first 3 it bytes. *)
Fixpoint twelve_bits (C : list Z) : list Z :=
  match C with
  | c0 :: c1 :: c2 :: r => (c0 + 256 * (c1 mod 16)) :: (c1 / 16 + 16 * c2) :: twelve_bits r
  | _ => []
  end.
Definition accepted (C : list Z) : list Z := filter (fun d => d <? q) (twelve_bits C).
Definition SampleNTT (it : Z) (B : list Z) : list Z := firstn n256 (accepted (SHAKE128 B (3 * it))).
(** the loop has ended within [it] iterations *)
Definition sampled (it : Z) (B : list Z) : Prop := length (SampleNTT it B) = n256.

(** ** Algorithm 8: SamplePolyCBD, eta = 2 *)
Definition SamplePolyCBD (B : list Z) : list Z :=
  let b := fun i => if nth i (bits_of_bytes B) false then 1 else 0 in
  poly (fun i => (b (4 * i)%nat + b (4 * i + 1)%nat) - (b (4 * i + 2)%nat + b (4 * i + 3)%nat)).

(** ** 5: K-PKE *)
Definition matrix_A (it : Z) (rho : list Z) : list (list (list Z)) :=
  map (fun i => map (fun j => SampleNTT it (rho ++ [j; i])) [0; 1; 2]) [0; 1; 2].
Definition transpose (A : list (list (list Z))) : list (list (list Z)) :=
  map (fun j => map (fun row => nth j row []) A) (seq 0 k3).
(** three noise polynomials with PRF counters from [N] *)
Definition noise (s : list Z) (N : Z) : list (list Z) := map (fun i => SamplePolyCBD (PRF2 s (N + i))) [0; 1; 2].

(** Algorithm 13, K-PKE.KeyGen(d) *)
Definition KPKE_KeyGen (it : Z) (d : list Z) : list Z * list Z :=
  let '(rho, sigma) := HashG (d ++ [3]) in
  let A := matrix_A it rho in
  let s := noise sigma 0 in
  let e := noise sigma 3 in
  let s_hat := map NTT s in
  let e_hat := map NTT e in
  let t_hat := vec_add (mat_vec A s_hat) e_hat in
  (concat (map (ByteEncode 12) t_hat) ++ rho, concat (map (ByteEncode 12) s_hat)).

Definition decode_vec12 (b : list Z) : list (list Z) := map (ByteDecode 12) (chunks_exact 384 b).

(** Algorithm 14, K-PKE.Encrypt(ek, m, r); Compress and Decompress apply to every coefficient *)
Definition KPKE_Encrypt (it : Z) (ek m r : list Z) : list Z :=
  let t_hat := decode_vec12 (ztake 1152 ek) in
  let rho := zdrop 1152 ek in
  let A := matrix_A it rho in
  let y := noise r 0 in
  let e1 := noise r 3 in
  let e2 := SamplePolyCBD (PRF2 r 6) in
  let y_hat := map NTT y in
  let u := vec_add (map NTT_inv (mat_vec (transpose A) y_hat)) e1 in
  let mu := map (Decompress 1) (ByteDecode 1 m) in
  let v := poly_add (poly_add (NTT_inv (dot t_hat y_hat)) e2) mu in
  concat (map (fun f => ByteEncode 10 (map (Compress 10) f)) u) ++ ByteEncode 4 (map (Compress 4) v).

(** Algorithm 15, K-PKE.Decrypt(dk, c) *)
Definition KPKE_Decrypt (dk c : list Z) : list Z :=
  let c1 := ztake 960 c in
  let c2 := zdrop 960 c in
  let u' := map (fun b => map (Decompress 10) (ByteDecode 10 b)) (chunks_exact 320 c1) in
  let v' := map (Decompress 4) (ByteDecode 4 c2) in
  let s_hat := decode_vec12 dk in
  let w := poly_sub v' (NTT_inv (dot s_hat (map NTT u'))) in
  ByteEncode 1 (map (Compress 1) w).

(** ** 6: internal algorithms *)
(** Algorithm 16 *)
Definition KeyGen_internal (it : Z) (d z : list Z) : list Z * list Z :=
  let '(ek, dk) := KPKE_KeyGen it d in (ek, dk ++ ek ++ HashH ek ++ z).
(** Algorithm 17 *)
Definition Encaps_internal (it : Z) (ek m : list Z) : list Z * list Z :=
  let '(K, r) := HashG (m ++ HashH ek) in (K, KPKE_Encrypt it ek m r).
(** Algorithm 18 *)
Definition Decaps_internal (it : Z) (dk c : list Z) : list Z :=
  let dk_pke := ztake 1152 dk in
  let ek := ztake 1184 (zdrop 1152 dk) in
  let h := ztake 32 (zdrop 2336 dk) in
  let z := ztake 32 (zdrop 2368 dk) in
  let m' := KPKE_Decrypt dk_pke c in
  let '(K', r') := HashG (m' ++ h) in
  let K_bar := HashJ (z ++ c) in
  let c' := KPKE_Encrypt it ek m' r' in
  if list_eqb c c' then K' else K_bar.

(** 7.2: encapsulation key check (type check and modulus check) *)
Definition ek_ok (ek : list Z) : Prop :=
  zlen ek = 1184 /\ concat (map (ByteEncode 12) (decode_vec12 (ztake 1152 ek))) = ztake 1152 ek.
