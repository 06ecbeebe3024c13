(** Model of the lookups in tables with a secret index: the selection of a
    precomputed point (P-256 and P-384) and of a row of the table of powers
    (RSA), as built for x86-64 (AVX2) and aarch64 (NEON), and the generic
    assembly.  Every function returns the words written and the list of reads
    from the table, each as (offset, number of words), in order.

    Simplifications: memory is a list of 64-bit words and an address an offset
    in words; a vector register is its 64-bit words, lowest first; the
    prefetch of the table (x86_64/cpu.rs) and the reads of [z] are not
    recorded. *)
Require Import Verif.Base.

(** *** vector instructions (Intel SDM, Arm ARM), as used by the files below *)

(** A lane operation on 64-bit words, for lanes of [e] = 32 or 64 bits, as in
    {x86_64,aarch64}/bignum_point_select_p256.rs:49-50 *)
Definition lane_op (e : Z) (f : Z -> Z -> Z) (x y : Z) : Z :=
  if e =? 64 then f x y else f (x mod 2 ^ 32) (y mod 2 ^ 32) + 2 ^ 32 * f (x / 2 ^ 32) (y / 2 ^ 32).
(** Word by word on two registers, as in
    {x86_64,aarch64}/bignum_point_select_p256.rs:49-56 *)
Definition map2 (f : Z -> Z -> Z) (a b : list Z) : list Z := map (fun '(x, y) => f x y) (combine a b).
(** _mm256_cmpeq_epi32, _mm256_cmpeq_epi64, vceqq_u32: a lane of ones where equal;
    {x86_64,aarch64}/bignum_point_select_p256.rs:49 *)
Definition vcmpeq (e : Z) : list Z -> list Z -> list Z := map2 (lane_op e (fun x y => if x =? y then 2 ^ e - 1 else 0)).
(** _mm256_add_epi32, _mm256_add_epi64, vaddq_u32;
    {x86_64,aarch64}/bignum_point_select_p256.rs:50 *)
Definition vadd (e : Z) : list Z -> list Z -> list Z := map2 (lane_op e (fun x y => (x + y) mod 2 ^ e)).
(** _mm_set1_epi32 / _mm_set1_epi64x with _mm256_setr_m128i, vdupq_n_u32: [w] words;
    {x86_64,aarch64}/bignum_point_select_p256.rs:32-35 *)
Definition vset1 (e : Z) (w : nat) (x : Z) : list Z := repeat (if e =? 64 then x else x + 2 ^ 32 * x) w.
(** _mm256_and_si256, vandq_u32;
    {x86_64,aarch64}/bignum_point_select_p256.rs:52-53 *)
Definition vand : list Z -> list Z -> list Z := map2 Z.land.
(** _mm256_xor_si256, veorq_u32;
    {x86_64,aarch64}/bignum_point_select_p256.rs:55-60 *)
Definition vxor : list Z -> list Z -> list Z := map2 Z.lxor.
(** BIT: bits of [n] where the mask is set, else those of [d];
    aarch64/bignum_copy_row_from_table_8n.rs:119 and the other copy_row files there *)
Definition vbit (d n m : list Z) : list Z := map2 Z.lor (map2 Z.land d (map (fun x => Z.lxor x (2 ^ 64 - 1)) m)) (map2 Z.land n m).
(** _mm256_loadu_si256, vld1q_u32 at word offset o; (o, n) with n below the
    register size stands for the copy into a zeroed buffer of
    x86_64/bignum_point_select_p384.rs:43-46 *)
Definition load (w : nat) (row : list Z) (ld : Z * Z) : list Z :=
  let '(o, n) := ld in ztake n (zdrop o row) ++ repeat 0 (w - Z.to_nat n).
(** _mm256_storeu_si256, vst1q_u32 at word offset o, or the copy of n words of
    x86_64/bignum_point_select_p384.rs:72-75 *)
Definition store (z : list Z) (ld : Z * Z) (v : list Z) : list Z := splice z (fst ld) (ztake (snd ld) v).

(** *** selection of a point *)

(** One row of the loops cited below: load, compare, count, mask, accumulate.
    Registers of [w] words, lanes of [e] bits, rows of [k] words. x86_64 and aarch64 bignum_point_select_p256.rs, bignum_point_select_p384.rs *)
Definition sel_step (e : Z) (w : nat) (k : Z) (loads : list (Z * Z)) (desired ones : list Z)
    (s : list (list Z) * list Z * Z * list (Z * Z)) (row : list Z) :=
  let '(acc, index, pos, reads) := s in
  let rows := map (load w row) loads in
  let mask := vcmpeq e index desired in
  let index := vadd e index ones in
  let rows := map (fun r => vand r mask) rows in
  (map (fun '(a, r) => vxor a r) (combine acc rows), index, pos + k, reads ++ map (fun '(o, n) => (pos + o, n)) loads).
(** The whole function: zero accumulators, a counter from [start], the loop over
    table.chunks_exact(k), the stores. x86_64 and aarch64 bignum_point_select_p256.rs, bignum_point_select_p384.rs *)
Definition sel (e : Z) (w : nat) (k : Z) (loads stores : list (Z * Z)) (start : Z) (table : list Z) (index : Z) : list Z * list (Z * Z) :=
  let '(acc, _, _, reads) :=
    fold_left (sel_step e w k loads (vset1 e w index) (vset1 e w 1)) (chunks_exact k table)
      (map (fun _ => repeat 0 w) loads, vset1 e w start, 0, []) in
  (fold_left (fun z '(ld, a) => store z ld a) (combine stores acc) (repeat 0 (Z.to_nat k)), reads).

(** bignum_aff_point_select_p256, x86_64/bignum_point_select_p256.rs:12-15, :26-64 *)
Definition x86_aff_select_p256 : list Z -> Z -> list Z * list (Z * Z) := sel 32 4 8 [(0, 4); (4, 4)] [(0, 4); (4, 4)] 1.
(** bignum_jac_point_select_p256, x86_64/bignum_point_select_p256.rs:20-23, :67-110 *)
Definition x86_jac_select_p256 : list Z -> Z -> list Z * list (Z * Z) :=
  sel 32 4 12 [(0, 4); (4, 4); (8, 4)] [(0, 4); (4, 4); (8, 4)] 1.
(** bignum_jac_point_select_p384, x86_64/bignum_point_select_p384.rs:9-76 *)
Definition x86_jac_select_p384 : list Z -> Z -> list Z * list (Z * Z) :=
  sel 32 4 18 [(0, 4); (4, 4); (8, 4); (12, 4); (16, 2)] [(0, 4); (4, 4); (8, 4); (12, 4); (16, 2)] 1.
(** bignum_aff_point_select_p256, aarch64/bignum_point_select_p256.rs:13-16, :27-70 *)
Definition arm_aff_select_p256 : list Z -> Z -> list Z * list (Z * Z) :=
  sel 32 2 8 [(0, 2); (2, 2); (4, 2); (6, 2)] [(0, 2); (2, 2); (4, 2); (6, 2)] 1.
(** bignum_jac_point_select_p256, aarch64/bignum_point_select_p256.rs:21-24, :73-126 *)
Definition arm_jac_select_p256 : list Z -> Z -> list Z * list (Z * Z) :=
  sel 32 2 12 [(0, 2); (2, 2); (4, 2); (6, 2); (8, 2); (10, 2)] [(0, 2); (2, 2); (4, 2); (6, 2); (8, 2); (10, 2)] 1.
(** bignum_jac_point_select_p384, aarch64/bignum_point_select_p384.rs:10-84 *)
Definition arm_jac_select_p384 : list Z -> Z -> list Z * list (Z * Z) :=
  sel 32 2 18 [(0, 2); (2, 2); (4, 2); (6, 2); (8, 2); (10, 2); (12, 2); (14, 2); (16, 2)]
    [(0, 2); (2, 2); (4, 2); (6, 2); (8, 2); (10, 2); (12, 2); (14, 2); (16, 2)] 1.
(** bignum_copy_row_from_table_16_avx2, x86_64/bignum_copy_row_from_table_16_avx2.rs:6-69 *)
Definition x86_row_16 : list Z -> Z -> list Z * list (Z * Z) :=
  sel 64 4 16 [(0, 4); (4, 4); (8, 4); (12, 4)] [(0, 4); (4, 4); (8, 4); (12, 4)] 0.

(** *** copying a row of any width *)

(** The inner loop of x86_64/bignum_copy_row_from_table_8n_avx2.rs:42-67 over
    z.chunks_exact_mut(8), [i] being the number of the chunk; a shorter rest of
    z is left as it is. *)
Fixpoint row_8n_inner (mask row : list Z) (i : Z) (zs : list (list Z)) : list Z :=
  match zs with
  | [] => []
  | zz :: zs =>
      let row0 := vand (load 4 row (i * 8, 4)) mask in
      let row1 := vand (load 4 row (i * 8 + 4, 4)) mask in
      vxor (load 4 zz (0, 4)) row0 ++ vxor (load 4 zz (4, 4)) row1 ++ row_8n_inner mask row (i + 1) zs
  end.
(** One row of the loop, x86_64/bignum_copy_row_from_table_8n_avx2.rs:38-68 *)
Definition row_8n_step (width : Z) (desired ones : list Z) (s : list Z * list Z * Z * list (Z * Z)) (row : list Z) :=
  let '(z, index, pos, reads) := s in
  let mask := vcmpeq 64 index desired in
  let zs := chunks_exact 8 z in
  (row_8n_inner mask row 0 zs ++ zdrop (8 * zlen zs) z, vadd 64 index ones, pos + width,
   reads ++ flat_map (fun i => [(pos + i * 8, 4); (pos + (i * 8 + 4), 4)]) (map Z.of_nat (seq 0 (length zs)))).
(** bignum_copy_row_from_table_8n_avx2, x86_64/bignum_copy_row_from_table_8n_avx2.rs:6-69 *)
Definition x86_row_8n (z table : list Z) (width index : Z) : list Z * list (Z * Z) :=
  let '(z, _, _, reads) :=
    fold_left (row_8n_step width (vset1 64 4 index) (vset1 64 4 1)) (chunks_exact width table)
      (repeat 0 (length z), vset1 64 4 0, 0, []) in
  (z, reads).

(** A counter running over 0 .. n-1.  (The loops below test at the end; they
    are entered with n > 0.); bignum_copy_row_from_table*.rs *)
Definition zrange (n : Z) : list Z := map Z.of_nat (seq 0 (Z.to_nat n)).
(** A 64-bit load; the theorems show that the offset is inside. bignum_copy_row_from_table*.rs *)
Definition word (l : list Z) (o : Z) : Z := nth (Z.to_nat o) l 0.
(** The loop that zeroes [width] words of z: x86_64/bignum_copy_row_from_table.rs:83-87,
    aarch64/bignum_copy_row_from_table.rs:87-91, aarch64/bignum_copy_row_from_table_8n.rs:94-101 *)
Definition init_zero (z : list Z) (width : Z) : list Z := repeat 0 (Z.to_nat width) ++ zdrop width z.

(** The generic assembly for x86-64, x86_64/bignum_copy_row_from_table.rs:75-112:
    cmove of the word into a zeroed register, or into z.  The pointer rax is
    table + 8 * i * width. *)
Definition x86_row_any (z table : list Z) (height width index : Z) : list Z * list (Z * Z) :=
  if height =? 0 then (z, []) else if width =? 0 then (z, []) else
  fold_left (fun s i =>
      fold_left (fun '(z, reads) j =>
          let r11 := if i =? index then word table (i * width + j) else 0 in
          (upd z (Z.to_nat j) (Z.lor (word z j) r11), reads ++ [(i * width + j, 1)])) (zrange width) s)
    (zrange height) (init_zero z width, []).
(** The generic assembly for aarch64, aarch64/bignum_copy_row_from_table.rs:82-124:
    the mask by csetm, then and, orr. *)
Definition arm_row_any (z table : list Z) (height width index : Z) : list Z * list (Z * Z) :=
  if height =? 0 then (z, []) else if width =? 0 then (z, []) else
  fold_left (fun s i =>
      let mask := if i =? index then 2 ^ 64 - 1 else 0 in
      fold_left (fun '(z, reads) j =>
          let x10 := Z.land (word table (i * width + j)) mask in
          (upd z (Z.to_nat j) (Z.lor (word z j) x10), reads ++ [(i * width + j, 1)])) (zrange width) s)
    (zrange height) (init_zero z width, []).
(** A pair of words replaced by BIT in memory: ldr, ldr, bit, str of
    aarch64/bignum_copy_row_from_table_8n.rs:117-135 *)
Definition bit_pair (mask : Z) (table : list Z) (pos : Z) (z : list Z) (o : Z) : list Z :=
  splice z o (vbit (load 2 z (o, 2)) (load 2 table (pos, 2)) [mask; mask]).
(** aarch64/bignum_copy_row_from_table_8n.rs:88-147; the pointers x8 and x9 are
    table + 8 * (i * width + 8 * j) and z + 8 * 8 * j *)
Definition arm_row_8n (z table : list Z) (height width index : Z) : list Z * list (Z * Z) :=
  if height =? 0 then (z, []) else if width =? 0 then (z, []) else
  fold_left (fun s i =>
      let mask := if i =? index then 2 ^ 64 - 1 else 0 in
      fold_left (fun '(z, reads) j =>
          let p := i * width + 8 * j in
          (fold_left (fun z o => bit_pair mask table (p + o) z (8 * j + o)) [0; 2; 4; 6] z,
           reads ++ map (fun o => (p + o, 2)) [0; 2; 4; 6])) (zrange (width / 8)) s)
    (zrange height) (init_zero z width, []).
(** aarch64/bignum_copy_row_from_table_16.rs:173-232 with n = 8 accumulators and
    aarch64/bignum_copy_row_from_table_32.rs:249-347 with n = 16, which are the
    same text: rows of 2 * n words.  The loop tests the height only after a row,
    so a height of 0 is not covered. *)
Definition arm_row_fixed (n : nat) (table : list Z) (height index : Z) : list Z * list (Z * Z) :=
  let width := 2 * Z.of_nat n in
  let '(acc, reads) :=
    fold_left (fun '(acc, reads) i =>
        let mask := if i =? index then 2 ^ 64 - 1 else 0 in
        (map (fun '(r, a) => vbit a (load 2 table (i * width + 2 * Z.of_nat r, 2)) [mask; mask]) (combine (seq 0 n) acc),
         reads ++ map (fun r => (i * width + 2 * Z.of_nat r, 2)) (seq 0 n)))
      (zrange height) (repeat [0; 0] n, []) in
  (concat acc, reads).

(** bignum_copy_row_from_table, x86_64/bignum_copy_row_from_table_mux.rs:6-26 *)
Definition x86_copy_row (z table : list Z) (height width index : Z) : list Z * list (Z * Z) :=
  if width =? 16 then x86_row_16 table index
  else if width mod 8 =? 0 then x86_row_8n z table width index
  else x86_row_any z table height width index.
(** bignum_copy_row_from_table, aarch64/bignum_copy_row_from_table_mux.rs:6-29 *)
Definition arm_copy_row (z table : list Z) (height width index : Z) : list Z * list (Z * Z) :=
  if width =? 32 then arm_row_fixed 16 table height index
  else if width =? 16 then arm_row_fixed 8 table height index
  else if width mod 8 =? 0 then arm_row_8n z table height width index
  else arm_row_any z table height width index.
