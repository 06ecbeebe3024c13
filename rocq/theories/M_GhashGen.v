(** Model of graviola/src/low/generic/ghash.rs, the portable GHASH.  A u128 is an integer below 2^128. *)
Require Import Verif.Base.

(** low/generic/ghash.rs:78  R *)
Definition gen_R : Z := 0xe1000000000000000000000000000000.
(** low/generic/ghash.rs:63, 73  u128::wrapping_neg *)
Definition neg128 (a : Z) : Z := (- a) mod 2 ^ 128.
(** low/generic/ghash.rs:72-76  double *)
Definition gen_double (a : Z) : Z :=
  let mask := neg128 (Z.land a 1) in
  let b := Z.shiftr a 1 in
  Z.lxor b (Z.land mask gen_R).
(** low/generic/ghash.rs:61-67  one iteration of the loop of mul; [!mask] is xor with all ones *)
Definition gen_mul_step (y : Z) (zv : Z * Z) (i : nat) : Z * Z :=
  let '(z, v) := zv in
  let bit := 127 - Z.of_nat i in
  let mask := neg128 (Z.land (Z.shiftr y bit) 1) in
  let sum := Z.lxor z v in
  let z := Z.lor (Z.land z (Z.lxor mask (Z.ones 128))) (Z.land sum mask) in
  (z, gen_double v).
(** low/generic/ghash.rs:57-70  mul *)
Definition gen_mul (x y : Z) : Z := fst (fold_left (gen_mul_step y) (seq 0 128) (0, x)).
(** low/generic/ghash.rs:51-54  one_block, as a function of the accumulator; the table is the subkey (lines 7-15) *)
Definition gen_one_block (h current block : Z) : Z := gen_mul (Z.lxor current block) h.
(** low/generic/ghash.rs:22-24  Ghash::new *)
Definition gen_ghash_new : Z := 0.
(** low/generic/ghash.rs:29-45  Ghash::add, as a function of the accumulator *)
Definition gen_ghash_add (h current : Z) (bytes : list Z) : Z :=
  let current := fold_left (fun c chunk => gen_one_block h c (be_val chunk)) (chunks_exact 16 bytes) current in
  let bytes := zdrop (16 * (zlen bytes / 16)) bytes in
  if zlen bytes =? 0 then current
  else gen_one_block h current (be_val (splice (repeat 0 16) 0 bytes)).
(** low/generic/ghash.rs:47-49  into_bytes *)
Definition gen_into_bytes (current : Z) : list Z := be_bytes 16 current.
