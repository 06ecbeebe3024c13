(** What the vector instructions used by the hardware hash code do, from the architecture manuals
    (Intel SDM vol. 2; Arm ARM, section "SHA256 hash update" and following).  Each definition stands for the
    core::arch intrinsic of the same name; it is named beside the definition with a place in /repo that
    uses it.  These meanings are trusted, like the manuals.
    A register is four lanes, lane 0 (the lowest bits) first: 32-bit lanes for __m128i / uint32x4_t,
    64-bit lanes for __m256i. *)
Require Import Verif.Base Verif.S_Sha2.

Record v4 := V4 { l0 : Z; l1 : Z; l2 : Z; l3 : Z }.

Definition lanes (v : v4) : list Z := [l0 v; l1 v; l2 v; l3 v].
Definition of_lanes (l : list Z) : v4 := V4 (nth 0 l 0) (nth 1 l 0) (nth 2 l 0) (nth 3 l 0).

(** the register as bytes in memory order, lanes of [wb] bytes *)
Definition to_mem (wb : nat) (v : v4) : list Z := flat_map (le_bytes wb) (lanes v).
(** _mm_loadu_si128 (x86_64/sha256.rs:92), _mm256_loadu_si256 (x86_64/sha512.rs:346), vld1q_u32
    (aarch64/sha256.rs:78): read 4 lanes of [wb] bytes *)
Definition of_mem (wb : nat) (m : list Z) : v4 :=
  let lane i := le_val (firstn wb (skipn (i * wb) m)) in V4 (lane 0%nat) (lane 1%nat) (lane 2%nat) (lane 3%nat).

Definition map1 (f : Z -> Z) (a : v4) : v4 := V4 (f (l0 a)) (f (l1 a)) (f (l2 a)) (f (l3 a)).
Definition map2 (f : Z -> Z -> Z) (a b : v4) : v4 :=
  V4 (f (l0 a) (l0 b)) (f (l1 a) (l1 b)) (f (l2 a) (l2 b)) (f (l3 a) (l3 b)).

(** _mm_add_epi32 (sha256.rs:28), vaddq_u32 (aarch64/sha256.rs:23), _mm256_add_epi64 (sha512.rs:100) *)
Definition vadd (w : Z) : v4 -> v4 -> v4 := map2 (fun x y => (x + y) mod 2 ^ w).
(** _mm256_xor_si256 (sha512.rs:67) *)
Definition vxor : v4 -> v4 -> v4 := map2 Z.lxor.
(** _mm256_srli_epi64, _mm256_slli_epi64 (sha512.rs:69-70) *)
Definition srli_epi64 (a : v4) (n : Z) : v4 := map1 (fun x => x / 2 ^ n) a.
Definition slli_epi64 (a : v4) (n : Z) : v4 := map1 (fun x => (x * 2 ^ n) mod 2 ^ 64) a.

(** two bits of an immediate, as a lane number *)
Definition imm2 (imm i : Z) : nat := Z.to_nat (imm / 4 ^ i mod 4).
(** _mm_shuffle_epi32 (sha256.rs:30), _mm256_permute4x64_epi64 (sha512.rs:378) *)
Definition permute4 (a : v4) (imm : Z) : v4 :=
  V4 (nth (imm2 imm 0) (lanes a) 0) (nth (imm2 imm 1) (lanes a) 0)
     (nth (imm2 imm 2) (lanes a) 0) (nth (imm2 imm 3) (lanes a) 0).

(** PSHUFB on 16 bytes: a mask byte selects a byte by its low four bits, or zero if its top bit is set *)
Definition pshufb (src mask : list Z) : list Z :=
  map (fun m => if 128 <=? m then 0 else nth (Z.to_nat (m mod 16)) src 0) mask.
(** _mm_shuffle_epi8 (sha256.rs:99); the mask in memory order *)
Definition mm_shuffle_epi8 (a : v4) (mask : list Z) : v4 := of_mem 4 (pshufb (to_mem 4 a) mask).
(** _mm256_shuffle_epi8 (sha512.rs:113): the two 128-bit halves separately *)
Definition mm256_shuffle_epi8 (a : v4) (mask : list Z) : v4 :=
  let m := to_mem 8 a in
  of_mem 8 (pshufb (firstn 16 m) (firstn 16 mask) ++ pshufb (skipn 16 m) (skipn 16 mask)).

(** PALIGNR on 16-byte values: the 32-byte value with [a] above [b], shifted down [n] bytes *)
Definition palignr (a b : list Z) (n : nat) : list Z := firstn 16 (skipn n (b ++ a)).
(** _mm_alignr_epi8 (sha256.rs:42) *)
Definition mm_alignr_epi8 (a b : v4) (n : nat) : v4 := of_mem 4 (palignr (to_mem 4 a) (to_mem 4 b) n).
(** _mm256_alignr_epi8 (sha512.rs:369): the two 128-bit halves separately *)
Definition mm256_alignr_epi8 (a b : v4) (n : nat) : v4 :=
  let a := to_mem 8 a in
  let b := to_mem 8 b in
  of_mem 8 (palignr (firstn 16 a) (firstn 16 b) n ++ palignr (skipn 16 a) (skipn 16 b) n).

(** _mm_blend_epi16 (sha256.rs:66): bit i of the immediate selects 16-bit word i of [b] *)
Definition mm_blend_epi16 (a b : v4) (imm : Z) : v4 :=
  let word i := Z.testbit imm i in
  let lane i x y := (if word (2 * i) then y else x) mod 2 ^ 16
                    + 2 ^ 16 * ((if word (2 * i + 1) then y else x) / 2 ^ 16) in
  V4 (lane 0 (l0 a) (l0 b)) (lane 1 (l1 a) (l1 b)) (lane 2 (l2 a) (l2 b)) (lane 3 (l3 a) (l3 b)).

(** _mm256_permute2x128_si256 (sha512.rs:368): each nibble of the immediate selects a half of [a] or [b], or
    zero if its top bit is set *)
Definition permute2x128 (a b : v4) (imm : Z) : v4 :=
  let pick c := if 8 <=? c then (0, 0) else
    match c mod 4 with 0 => (l0 a, l1 a) | 1 => (l2 a, l3 a) | 2 => (l0 b, l1 b) | _ => (l2 b, l3 b) end in
  let lo := pick (imm mod 16) in
  let hi := pick (imm / 16 mod 16) in
  V4 (fst lo) (snd lo) (fst hi) (snd hi).

(** _mm256_i64gather_epi64 with scale 8 (sha512.rs:112): four 64-bit reads at [base] + 8 * index *)
Definition i64gather (mem : list Z) (base : Z) (idx : v4) : v4 :=
  map1 (fun i => le_val (ztake 8 (zdrop (8 * (base + i)) mem))) idx.

(** ** SHA extensions, Intel SDM *)
Definition add32 (x y : Z) : Z := (x + y) mod 2 ^ 32.

(** one round of the pseudocode of SHA256RNDS2, on A..H; [wk] is the sum of message word and constant *)
Definition rnds_step (s : Z * Z * Z * Z * Z * Z * Z * Z) (wk : Z) :=
  let '(a, b, c, d, e, f, g, h) := s in
  let t := add32 (add32 (add32 (Ch 32 e f g) (f_S1 fips256 e)) wk) h in
  (add32 (add32 t (Maj a b c)) (f_S0 fips256 a), a, b, c, add32 t d, e, f, g).
(** _mm_sha256rnds2_epu32 (sha256.rs:29): [x] holds C, D, G, H and [y] holds A, B, E, F, highest lane first *)
Definition sha256rnds2 (x y k : v4) : v4 :=
  let s := (l3 y, l2 y, l3 x, l2 x, l1 y, l0 y, l1 x, l0 x) in
  let '(a, b, c, d, e, f, g, h) := rnds_step (rnds_step s (l0 k)) (l1 k) in
  V4 f e b a.
(** _mm_sha256msg1_epu32 (sha256.rs:36) *)
Definition sha256msg1 (x y : v4) : v4 :=
  let s0 := f_s0 fips256 in
  V4 (add32 (l0 x) (s0 (l1 x))) (add32 (l1 x) (s0 (l2 x))) (add32 (l2 x) (s0 (l3 x))) (add32 (l3 x) (s0 (l0 y))).
(** _mm_sha256msg2_epu32 (sha256.rs:44) *)
Definition sha256msg2 (x y : v4) : v4 :=
  let s1 := f_s1 fips256 in
  let w16 := add32 (l0 x) (s1 (l2 y)) in
  let w17 := add32 (l1 x) (s1 (l3 y)) in
  let w18 := add32 (l2 x) (s1 w16) in
  let w19 := add32 (l3 x) (s1 w17) in
  V4 w16 w17 w18 w19.

(** ** SHA-2 extension, Arm ARM *)
(** SHAchoose, SHAmajority *)
Definition SHAchoose (x y z : Z) : Z := Z.lxor (Z.land (Z.lxor y z) x) z.
Definition SHAmajority (x y z : Z) : Z := Z.lor (Z.land x y) (Z.land (Z.lor x y) z).
(** one iteration of SHA256hash(X, Y, W, part1); the last line is ROL(Y:X, 32) *)
Definition sha256hash_step (xy : v4 * v4) (w : Z) : v4 * v4 :=
  let (x, y) := xy in
  let chs := SHAchoose (l0 y) (l1 y) (l2 y) in
  let maj := SHAmajority (l0 x) (l1 x) (l2 x) in
  let t := add32 (add32 (add32 (l3 y) (f_S1 fips256 (l0 y))) chs) w in
  let x3 := add32 t (l3 x) in
  let y3 := add32 (add32 t (f_S0 fips256 (l0 x))) maj in
  (V4 y3 (l0 x) (l1 x) (l2 x), V4 x3 (l0 y) (l1 y) (l2 y)).
Definition sha256hash (x y w : v4) : v4 * v4 := fold_left sha256hash_step (lanes w) (x, y).
(** vsha256hq_u32(abcd, efgh, wk), vsha256h2q_u32(efgh, abcd, wk) (aarch64/sha256.rs:25-26) *)
Definition vsha256h (abcd efgh wk : v4) : v4 := fst (sha256hash abcd efgh wk).
Definition vsha256h2 (efgh abcd wk : v4) : v4 := snd (sha256hash abcd efgh wk).
(** vsha256su0q_u32 (aarch64/sha256.rs:27) *)
Definition vsha256su0 (d n : v4) : v4 := vadd 32 (map1 (f_s0 fips256) (V4 (l1 d) (l2 d) (l3 d) (l0 n))) d.
(** vsha256su1q_u32 (aarch64/sha256.rs:28) *)
Definition vsha256su1 (d n m : v4) : v4 :=
  let s1 := f_s1 fips256 in
  let t := V4 (l1 n) (l2 n) (l3 n) (l0 m) in
  let r0 := add32 (add32 (s1 (l2 m)) (l0 d)) (l0 t) in
  let r1 := add32 (add32 (s1 (l3 m)) (l1 d)) (l1 t) in
  let r2 := add32 (add32 (s1 r0) (l2 d)) (l2 t) in
  let r3 := add32 (add32 (s1 r1) (l3 d)) (l3 t) in
  V4 r0 r1 r2 r3.
(** vrev32q_u8 (aarch64/sha256.rs:85): the bytes of every 32-bit lane reversed *)
Definition vrev32 (a : v4) : v4 := map1 (fun x => be_val (le_bytes 4 x)) a.
