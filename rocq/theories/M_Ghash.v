(** Model of graviola/src/low/x86_64/ghash.rs.  An __m128i used as a field element is its 128-bit
    little-endian value, an __m512i a list of four such lanes (lane 0 lowest).  The PCLMULQDQ, shuffle
    and shift instructions are given their documented meaning. *)
Require Import Verif.Base.

(** the carry-less product computed by PCLMULQDQ: polynomials over GF(2) as integers; used in x86_64/ghash.rs:255-280 *)
Fixpoint clmul_pos (a : Z) (b : positive) : Z :=
  match b with
  | xH => a
  | xO b => 2 * clmul_pos a b
  | xI b => Z.lxor a (2 * clmul_pos a b)
  end.
(** the same for all arguments (used in x86_64/ghash.rs:255-280) *)
Definition clmul (a b : Z) : Z := match b with Zpos b => clmul_pos a b | _ => 0 end.

(** one 64-bit half of a register; the operands of x86_64/ghash.rs:255-264 *)
Definition half (hi : bool) (v : Z) : Z := if hi then Z.shiftr v 64 else Z.land v (Z.ones 64).
(** _mm_clmulepi64_si128(x, y, imm): bit 0 of the immediate selects the half of x, bit 4 that of y; x86_64/ghash.rs:255-264 *)
Definition clmulepi64 (x y imm : Z) : Z := clmul (half (Z.testbit imm 0) x) (half (Z.testbit imm 4) y).
(** _mm_shuffle_epi32(x, 0b01_00_11_10): exchange the halves; x86_64/ghash.rs:258, 274, 279 *)
Definition swap64 (v : Z) : Z := Z.lor (half true v) (Z.shiftl (half false v) 64).

(** ghash.rs:433, 437-438, 441-442: the constants *)
Definition GF128_POLY_HI : Z := 0xc200000000000000.
(** ghash.rs:437-438 *)
Definition GF128_POLY_LO : Z := 0xc2000000000000000000000000000000.
(** ghash.rs:441-442 *)
Definition GF128_POLY_CARRY_MASK : Z := 0xc2000000000000010000000000000001.

(** 32-bit lane i, and a register from four 32-bit lanes, lowest first; x86_64/ghash.rs:384 *)
Definition lane32z (v i : Z) : Z := Z.shiftr v (32 * i) mod 2 ^ 32.
(** a register from four 32-bit lanes, x86_64/ghash.rs:384 *)
Definition of_lanes (a b c d : Z) : Z := a + 2 ^ 32 * b + 2 ^ 64 * c + 2 ^ 96 * d.
(** _mm_srai_epi32(_, 31) on one lane; x86_64/ghash.rs:385 *)
Definition srai31 (l : Z) : Z := if Z.testbit l 31 then 2 ^ 32 - 1 else 0.

(** ghash.rs:381-389  gf128_big_endian *)
Definition gf128_big_endian (h : Z) : Z :=
  let t := of_lanes (srai31 (lane32z h 3)) (srai31 (lane32z h 0)) (srai31 (lane32z h 1)) (srai31 (lane32z h 3)) in
  let h := (half false h + half false h) mod 2 ^ 64 + 2 ^ 64 * ((half true h + half true h) mod 2 ^ 64) in
  let t := Z.land GF128_POLY_CARRY_MASK t in
  Z.lxor h t.

(** ghash.rs:392-395  xor_halves *)
Definition xor_halves (h : Z) : Z := Z.lxor (swap64 h) h.

(** ghash.rs:253-267  mul!: accumulate one Karatsuba product into (lo, mi, hi) *)
Definition mul_acc (acc : Z * Z * Z) (x h hx : Z) : Z * Z * Z :=
  let '(lo, mi, hi) := acc in
  let tlo := clmulepi64 x h 0x00 in
  let lo := Z.lxor tlo lo in
  let xx := swap64 x in
  let xx := Z.lxor xx x in
  let thi := clmulepi64 x h 0x11 in
  let hi := Z.lxor thi hi in
  let tmi := clmulepi64 xx hx 0x00 in
  let mi := Z.lxor tmi mi in
  (lo, mi, hi).

(** ghash.rs:269-285  reduce! *)
Definition reduce (acc : Z * Z * Z) : Z :=
  let '(lo, mi, hi) := acc in
  let mi := Z.lxor mi lo in
  let mi := Z.lxor mi hi in
  let ls := swap64 lo in
  let lo := clmulepi64 GF128_POLY_HI lo 0x00 in
  let mi := Z.lxor mi ls in
  let mi := Z.lxor mi lo in
  let ms := swap64 mi in
  let mi := clmulepi64 GF128_POLY_HI mi 0x00 in
  let hi := Z.lxor hi ms in
  let hi := Z.lxor hi mi in
  hi.

(** ghash.rs:289-295  _mul *)
Definition mul1 (a b : Z) : Z :=
  let bx := xor_halves b in
  reduce (mul_acc (0, 0, 0) a b bx).

(** ghash.rs:49-57  GhashTableAvx *)
Record avx_table := mkAvx { powers : list Z; powers_xor : list Z }.

(** ghash.rs:70-73  powers[i] = _mul(powers[i-1], h), n further powers after p *)
Fixpoint more_powers (n : nat) (p h : Z) : list Z :=
  match n with O => [] | S n => let p := mul1 p h in p :: more_powers n p h end.

(** ghash.rs:61-81  GhashTableAvx::new *)
Definition avx_new (h : Z) : avx_table :=
  let h := gf128_big_endian h in
  let powers := h :: more_powers 7 h h in
  mkAvx powers (map xor_halves powers).

(** ghash.rs:299-320  _mul8: x1 with powers[7] down to x8 with powers[0] *)
Definition mul8 (t : avx_table) (xs : list Z) : Z :=
  reduce (fold_left (fun acc '(x, (h, hx)) => mul_acc acc x h hx)
            (combine xs (combine (rev (powers t)) (rev (powers_xor t)))) (0, 0, 0)).

(** __m512i as four 128-bit lanes, lowest first, x86_64/ghash.rs:322-379 *)
Definition m512 : Type := list Z.
(** lane-wise _mm512_xor_epi32/epi64, _mm512_ternarylogic(TERNARY_XOR), _mm512_clmulepi64_epi128,
    _mm512_shuffle_epi32(0b01_00_11_10); x86_64/ghash.rs:333-369 *)
Definition xor512 (a b : m512) : m512 := map (fun '(x, y) => Z.lxor x y) (combine a b).
(** _mm512_ternarylogic(TERNARY_XOR), x86_64/ghash.rs:339 *)
Definition xor3_512 (a b c : m512) : m512 := xor512 (xor512 a b) c.
(** _mm512_clmulepi64_epi128, x86_64/ghash.rs:333 *)
Definition clmul512 (a b : m512) (imm : Z) : m512 := map (fun '(x, y) => clmulepi64 x y imm) (combine a b).
(** _mm512_shuffle_epi32(0b01_00_11_10), x86_64/ghash.rs:357 *)
Definition swap512 (a : m512) : m512 := map swap64 a.

(** ghash.rs:116-121  GhashTableAvx512 (the token is dropped) *)
Record avx512_table := mkAvx512 { powers512 : list m512; avx : avx_table }.

(** ghash.rs:405-410  join512: the last argument in lane 0 *)
Definition join512 (a b c d : Z) : m512 := [d; c; b; a].

(** ghash.rs:124-149  GhashTableAvx512::new *)
Definition avx512_new (h : Z) : avx512_table :=
  let avx := avx_new h in
  let p := powers avx in
  let p := p ++ more_powers 8 (nth 7 p 0) (nth 0 p 0) in
  let g i := nth i p 0 in
  mkAvx512 [join512 (g 0) (g 1) (g 2) (g 3); join512 (g 4) (g 5) (g 6) (g 7);
            join512 (g 8) (g 9) (g 10) (g 11); join512 (g 12) (g 13) (g 14) (g 15)]%nat avx.

(** ghash.rs:324-378  _mul16 *)
Definition mul16 (t : avx512_table) (x0123 x4567 x89ab xcdef : m512) : Z :=
  let gfpoly := repeat GF128_POLY_LO 4 in
  let pw i := nth i (powers512 t) [] in
  let lo0 := clmul512 x0123 (pw 3%nat) 0x00 in
  let lo1 := clmul512 x4567 (pw 2%nat) 0x00 in
  let lo2 := clmul512 x89ab (pw 1%nat) 0x00 in
  let lo01 := xor512 lo0 lo1 in
  let lo3 := clmul512 xcdef (pw 0%nat) 0x00 in
  let lo := xor3_512 lo2 lo3 lo01 in
  let mi0 := clmul512 x0123 (pw 3%nat) 0x01 in
  let mi1 := clmul512 x4567 (pw 2%nat) 0x01 in
  let mi2 := clmul512 x89ab (pw 1%nat) 0x01 in
  let mi012 := xor3_512 mi0 mi1 mi2 in
  let mi3 := clmul512 xcdef (pw 0%nat) 0x01 in
  let mi4 := clmul512 x0123 (pw 3%nat) 0x10 in
  let mi01234 := xor3_512 mi012 mi3 mi4 in
  let mi5 := clmul512 x4567 (pw 2%nat) 0x10 in
  let mi6 := clmul512 x89ab (pw 1%nat) 0x10 in
  let mi := xor3_512 mi01234 mi5 mi6 in
  let lo_r := clmul512 gfpoly lo 0x01 in
  let mi7 := clmul512 xcdef (pw 0%nat) 0x10 in
  let mi := xor512 mi7 mi in
  let lo_s := swap512 lo in
  let hi0 := clmul512 x0123 (pw 3%nat) 0x11 in
  let hi1 := clmul512 x4567 (pw 2%nat) 0x11 in
  let hi2 := clmul512 x89ab (pw 1%nat) 0x11 in
  let mi := xor3_512 lo_r lo_s mi in
  let hi3 := clmul512 xcdef (pw 0%nat) 0x11 in
  let hi012 := xor3_512 hi0 hi1 hi2 in
  let mi_r := clmul512 gfpoly mi 0x01 in
  let hi := xor512 hi012 hi3 in
  let mi_s := swap512 mi in
  let r := xor3_512 mi_r mi_s hi in
  let a := nth 0 r 0 in
  let b := nth 1 r 0 in
  let c := nth 2 r 0 in
  let d := nth 3 r 0 in
  let ab := Z.lxor a b in
  Z.lxor (Z.lxor ab c) d.

(** ghash.rs:18-39  GhashTable; which variant [new] picks depends on the CPU *)
Inductive ghash_table := Avx (t : avx_table) | Avx512 (t : avx512_table).
(** ghash.rs:25-31  GhashTable::new, with the result of the CPU check as an argument *)
Definition ghash_table_new (have512 : bool) (h : Z) : ghash_table :=
  if have512 then Avx512 (avx512_new h) else Avx (avx_new h).
(** ghash.rs:33-38  GhashTable::avx *)
Definition table_avx (t : ghash_table) : avx_table := match t with Avx a => a | Avx512 t => avx t end.

(** a 16-byte block loaded and byte-swapped (BYTESWAP), or u128::from_be_bytes of it; x86_64/ghash.rs:83-113, 419 *)
Definition load_be (b : list Z) : Z := le_val (rev b).
(** the current value is added to the first block, x86_64/ghash.rs:83-113 *)
Definition xor_first (c : Z) (l : list Z) : list Z := match l with x :: r => Z.lxor c x :: r | [] => [] end.

(** ghash.rs:83-113  GhashTableAvx::add_wide *)
Definition add_wide_avx (t : avx_table) (bytes : list Z) (current : Z) : Z * list Z :=
  (fold_left (fun current chunk8 => mul8 t (xor_first current (map load_be (chunks_exact 16 chunk8))))
     (chunks_exact 128 bytes) current,
   zdrop (128 * (zlen bytes / 128)) bytes).

(** four 16-byte blocks at offset [o] of [chunk], each byte-swapped; x86_64/ghash.rs:153-171 *)
Definition load512 (chunk : list Z) (o : Z) : m512 := map load_be (chunks_exact 16 (ztake 64 (zdrop o chunk))).
(** _mm512_inserti32x4::<0>(_mm512_setzero_si512(), current); x86_64/ghash.rs:172 *)
Definition lane0_512 (c : Z) : m512 := [c; 0; 0; 0].

(** ghash.rs:152-179  GhashTableAvx512::add_wide *)
Definition add_wide_avx512 (t : avx512_table) (bytes : list Z) (current : Z) : Z * list Z :=
  (fold_left (fun current chunk16 =>
     mul16 t (xor512 (load512 chunk16 0) (lane0_512 current)) (load512 chunk16 64) (load512 chunk16 128) (load512 chunk16 192))
     (chunks_exact 256 bytes) current,
   zdrop (256 * (zlen bytes / 256)) bytes).

(** ghash.rs:236-250  one_block and h() *)
Definition one_block (t : ghash_table) (current block : Z) : Z :=
  mul1 (Z.lxor current block) (nth 0 (powers (table_avx t)) 0).

(** ghash.rs:198-220  Ghash::add, as a function of the accumulator *)
Definition ghash_add (t : ghash_table) (current : Z) (bytes : list Z) : Z :=
  let '(current, bytes) :=
    match t with Avx a => add_wide_avx a bytes current | Avx512 a => add_wide_avx512 a bytes current end in
  let current := fold_left (fun c b => one_block t c (load_be b)) (chunks_exact 16 bytes) current in
  let bytes := zdrop (16 * (zlen bytes / 16)) bytes in
  if zlen bytes =? 0 then current
  else one_block t current (load_be (bytes ++ repeat 0 (Z.to_nat (16 - zlen bytes)))).

(** ghash.rs:188-193  Ghash::new *)
Definition ghash_new : Z := 0.
(** ghash.rs:222-234  into_bytes *)
Definition ghash_into_bytes (current : Z) : list Z := rev (le_bytes 16 current).
