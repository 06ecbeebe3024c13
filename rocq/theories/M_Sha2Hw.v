(** Model of the hardware-accelerated SHA-2 block functions: low/x86_64/sha256.rs (SHA extensions),
    low/x86_64/sha512.rs (AVX2/BMI2), low/aarch64/sha256.rs, and of the choice between them and the generic
    code: low/x86_64/sha256_mux.rs, sha512_mux.rs and low/mod.rs.  The instructions mean what S_Simd says.
    Simplified: the K vectors the code loads once before the loop (k0..k15) are read where they are used;
    prefetches are left out; the state array is the tuple of its eight words. *)
Require Import Verif.Base Verif.M_Sha2 Verif.S_Simd.

(** the state array as two registers, and back (_mm_loadu_si128 / vld1q_u32 / _mm256_loadu_si256 and stores:
    x86_64/sha256.rs:56-61, 133-136; aarch64/sha256.rs:42-47, 115-118; sha512.rs:203-208, 333-336) *)
Definition lo_hi (s : regs) : v4 * v4 :=
  let '(a, b, c, d, e, f, g, h) := s in (V4 a b c d, V4 e f g h).
(** the way back, x86_64/sha256.rs:133-136; aarch64/sha256.rs:115-118; sha512.rs:333-336 *)
Definition of_lo_hi (x y : v4) : regs := (l0 x, l1 x, l2 x, l3 x, l0 y, l1 y, l2 y, l3 y).

(** a table entry pair of registers: K.as_ptr().add(i), four consecutive words
    (x86_64/sha256.rs:22, aarch64/sha256.rs:17, sha512.rs:349, 433, 441) *)
Definition k_at (K : list Z) (i : nat) : v4 := of_lanes (skipn i K).

(** ** low/x86_64/sha256.rs *)
(** sha256.rs:142-151 *)
Definition NI_K : list Z :=
   [0x428a2f98; 0x71374491; 0xb5c0fbcf; 0xe9b5dba5; 0x3956c25b; 0x59f111f1; 0x923f82a4; 0xab1c5ed5;
    0xd807aa98; 0x12835b01; 0x243185be; 0x550c7dc3; 0x72be5d74; 0x80deb1fe; 0x9bdc06a7; 0xc19bf174;
    0xe49b69c1; 0xefbe4786; 0x0fc19dc6; 0x240ca1cc; 0x2de92c6f; 0x4a7484aa; 0x5cb0a9dc; 0x76f988da;
    0x983e5152; 0xa831c66d; 0xb00327c8; 0xbf597fc7; 0xc6e00bf3; 0xd5a79147; 0x06ca6351; 0x14292967;
    0x27b70a85; 0x2e1b2138; 0x4d2c6dfc; 0x53380d13; 0x650a7354; 0x766a0abb; 0x81c2c92e; 0x92722c85;
    0xa2bfe8a1; 0xa81a664b; 0xc24b8b70; 0xc76c51a3; 0xd192e819; 0xd6990624; 0xf40e3585; 0x106aa070;
    0x19a4c116; 0x1e376c08; 0x2748774c; 0x34b0bcb5; 0x391c0cb3; 0x4ed8aa4a; 0x5b9cca4f; 0x682e6ff3;
    0x748f82ee; 0x78a5636f; 0x84c87814; 0x8cc70208; 0x90befffa; 0xa4506ceb; 0xbef9a3f7; 0xc67178f2].

(** sha256.rs:53 _mm_set_epi64x(0x0c0d0e0f08090a0b, 0x0405060700010203), in memory order *)
Definition little_endian_shuffle : list Z := le_bytes 8 0x0405060700010203 ++ le_bytes 8 0x0c0d0e0f08090a0b.

(** sha256.rs:27-32: round!(msg_cur, state0, state1, k) *)
Definition ni_round4 (msg_cur state0 state1 k : v4) : v4 * v4 :=
  let msg := vadd 32 msg_cur k in
  let state1 := sha256rnds2 state1 state0 msg in
  let msg := permute4 msg 0x0e in
  let state0 := sha256rnds2 state0 state1 msg in
  (state0, state1).

(** sha256.rs:34-37: round!(msg_cur, msg_prev, state0, state1, k); also gives the new msg_prev *)
Definition ni_round5 (msg_cur msg_prev state0 state1 k : v4) : v4 * v4 * v4 :=
  let '(state0, state1) := ni_round4 msg_cur state0 state1 k in
  let msg_prev := sha256msg1 msg_prev msg_cur in
  (state0, state1, msg_prev).

(** sha256.rs:39-48: round!(msg_cur, msg_prev, msg_next, state0, state1, k); also gives the new
    msg_prev and msg_next *)
Definition ni_round6 (msg_cur msg_prev msg_next state0 state1 k : v4) : v4 * v4 * v4 * v4 :=
  let msg := vadd 32 msg_cur k in
  let state1 := sha256rnds2 state1 state0 msg in
  let tmp := mm_alignr_epi8 msg_cur msg_prev 4 in
  let msg_next := vadd 32 msg_next tmp in
  let msg_next := sha256msg2 msg_next msg_cur in
  let msg := permute4 msg 0x0e in
  let state0 := sha256rnds2 state0 state1 msg in
  let msg_prev := sha256msg1 msg_prev msg_cur in
  (state0, state1, msg_prev, msg_next).

(** the loop body, sha256.rs:85-125 *)
Definition ni_block (st : v4 * v4) (block : list Z) : v4 * v4 :=
  let '(state0, state1) := st in
  let state0_prev := state0 in
  let state1_prev := state1 in
  let k i := k_at NI_K (i * 4) in
  let msg0 := of_mem 4 block in
  let msg1 := of_mem 4 (skipn 16 block) in
  let msg2 := of_mem 4 (skipn 32 block) in
  let msg3 := of_mem 4 (skipn 48 block) in
  let msg0 := mm_shuffle_epi8 msg0 little_endian_shuffle in
  let msg1 := mm_shuffle_epi8 msg1 little_endian_shuffle in
  let msg2 := mm_shuffle_epi8 msg2 little_endian_shuffle in
  let msg3 := mm_shuffle_epi8 msg3 little_endian_shuffle in
  let '(state0, state1) := ni_round4 msg0 state0 state1 (k 0%nat) in
  let '(state0, state1, msg0) := ni_round5 msg1 msg0 state0 state1 (k 1%nat) in
  let '(state0, state1, msg1) := ni_round5 msg2 msg1 state0 state1 (k 2%nat) in
  let '(state0, state1, msg2, msg0) := ni_round6 msg3 msg2 msg0 state0 state1 (k 3%nat) in
  let '(state0, state1, msg3, msg1) := ni_round6 msg0 msg3 msg1 state0 state1 (k 4%nat) in
  let '(state0, state1, msg0, msg2) := ni_round6 msg1 msg0 msg2 state0 state1 (k 5%nat) in
  let '(state0, state1, msg1, msg3) := ni_round6 msg2 msg1 msg3 state0 state1 (k 6%nat) in
  let '(state0, state1, msg2, msg0) := ni_round6 msg3 msg2 msg0 state0 state1 (k 7%nat) in
  let '(state0, state1, msg3, msg1) := ni_round6 msg0 msg3 msg1 state0 state1 (k 8%nat) in
  let '(state0, state1, msg0, msg2) := ni_round6 msg1 msg0 msg2 state0 state1 (k 9%nat) in
  let '(state0, state1, msg1, msg3) := ni_round6 msg2 msg1 msg3 state0 state1 (k 10%nat) in
  let '(state0, state1, msg2, msg0) := ni_round6 msg3 msg2 msg0 state0 state1 (k 11%nat) in
  let '(state0, state1, msg3, msg1) := ni_round6 msg0 msg3 msg1 state0 state1 (k 12%nat) in
  let '(state0, state1, msg0, msg2) := ni_round6 msg1 msg0 msg2 state0 state1 (k 13%nat) in
  let '(state0, state1, msg1, msg3) := ni_round6 msg2 msg1 msg3 state0 state1 (k 14%nat) in
  let '(state0, state1) := ni_round4 msg3 state0 state1 (k 15%nat) in
  (vadd 32 state0 state0_prev, vadd 32 state1 state1_prev).

(** sha256.rs:51-137 sha256 *)
Definition ni_sha256 (state : regs) (blocks : list Z) : regs :=
  let '(state0, state1) := lo_hi state in
  let tmp := permute4 state0 0xb1 in
  let state1 := permute4 state1 0x1b in
  let state0 := mm_alignr_epi8 tmp state1 8 in
  let state1 := mm_blend_epi16 state1 tmp 0xf0 in
  let '(state0, state1) := fold_left ni_block (chunks_exact 64 blocks) (state0, state1) in
  let tmp := permute4 state0 0x1b in
  let state1 := permute4 state1 0xb1 in
  let state0 := mm_blend_epi16 tmp state1 0xf0 in
  let state1 := mm_alignr_epi8 state1 tmp 8 in
  of_lo_hi state0 state1.

(** ** low/aarch64/sha256.rs *)
(** aarch64/sha256.rs:124-133 *)
Definition ARM_K : list Z :=
   [0x428a2f98; 0x71374491; 0xb5c0fbcf; 0xe9b5dba5; 0x3956c25b; 0x59f111f1; 0x923f82a4; 0xab1c5ed5;
    0xd807aa98; 0x12835b01; 0x243185be; 0x550c7dc3; 0x72be5d74; 0x80deb1fe; 0x9bdc06a7; 0xc19bf174;
    0xe49b69c1; 0xefbe4786; 0x0fc19dc6; 0x240ca1cc; 0x2de92c6f; 0x4a7484aa; 0x5cb0a9dc; 0x76f988da;
    0x983e5152; 0xa831c66d; 0xb00327c8; 0xbf597fc7; 0xc6e00bf3; 0xd5a79147; 0x06ca6351; 0x14292967;
    0x27b70a85; 0x2e1b2138; 0x4d2c6dfc; 0x53380d13; 0x650a7354; 0x766a0abb; 0x81c2c92e; 0x92722c85;
    0xa2bfe8a1; 0xa81a664b; 0xc24b8b70; 0xc76c51a3; 0xd192e819; 0xd6990624; 0xf40e3585; 0x106aa070;
    0x19a4c116; 0x1e376c08; 0x2748774c; 0x34b0bcb5; 0x391c0cb3; 0x4ed8aa4a; 0x5b9cca4f; 0x682e6ff3;
    0x748f82ee; 0x78a5636f; 0x84c87814; 0x8cc70208; 0x90befffa; 0xa4506ceb; 0xbef9a3f7; 0xc67178f2].

(** aarch64/sha256.rs:31-36: round!(msg, state0, state1, k) *)
Definition arm_round4 (msg state0 state1 k : v4) : v4 * v4 :=
  let t0 := vadd 32 msg k in
  let t1 := state0 in
  let state0 := vsha256h state0 state1 t0 in
  let state1 := vsha256h2 state1 t1 t0 in
  (state0, state1).

(** aarch64/sha256.rs:22-29: round!(msg0, msg1, msg2, msg3, state0, state1, k); also gives the new msg0 *)
Definition arm_round7 (msg0 msg1 msg2 msg3 state0 state1 k : v4) : v4 * v4 * v4 :=
  let t0 := vadd 32 msg0 k in
  let t1 := state0 in
  let state0 := vsha256h state0 state1 t0 in
  let state1 := vsha256h2 state1 t1 t0 in
  let msg0 := vsha256su0 msg0 msg1 in
  let msg0 := vsha256su1 msg0 msg2 msg3 in
  (state0, state1, msg0).

(** the loop body, aarch64/sha256.rs:66-112 *)
Definition arm_block (st : v4 * v4) (block : list Z) : v4 * v4 :=
  let '(state0, state1) := st in
  let state0_prev := state0 in
  let state1_prev := state1 in
  let k i := k_at ARM_K (i * 4) in
  let msg0 := of_mem 4 block in
  let msg1 := of_mem 4 (skipn 16 block) in
  let msg2 := of_mem 4 (skipn 32 block) in
  let msg3 := of_mem 4 (skipn 48 block) in
  let msg0 := vrev32 msg0 in
  let msg1 := vrev32 msg1 in
  let msg2 := vrev32 msg2 in
  let msg3 := vrev32 msg3 in
  let '(state0, state1, msg0) := arm_round7 msg0 msg1 msg2 msg3 state0 state1 (k 0%nat) in
  let '(state0, state1, msg1) := arm_round7 msg1 msg2 msg3 msg0 state0 state1 (k 1%nat) in
  let '(state0, state1, msg2) := arm_round7 msg2 msg3 msg0 msg1 state0 state1 (k 2%nat) in
  let '(state0, state1, msg3) := arm_round7 msg3 msg0 msg1 msg2 state0 state1 (k 3%nat) in
  let '(state0, state1, msg0) := arm_round7 msg0 msg1 msg2 msg3 state0 state1 (k 4%nat) in
  let '(state0, state1, msg1) := arm_round7 msg1 msg2 msg3 msg0 state0 state1 (k 5%nat) in
  let '(state0, state1, msg2) := arm_round7 msg2 msg3 msg0 msg1 state0 state1 (k 6%nat) in
  let '(state0, state1, msg3) := arm_round7 msg3 msg0 msg1 msg2 state0 state1 (k 7%nat) in
  let '(state0, state1, msg0) := arm_round7 msg0 msg1 msg2 msg3 state0 state1 (k 8%nat) in
  let '(state0, state1, msg1) := arm_round7 msg1 msg2 msg3 msg0 state0 state1 (k 9%nat) in
  let '(state0, state1, msg2) := arm_round7 msg2 msg3 msg0 msg1 state0 state1 (k 10%nat) in
  let '(state0, state1, msg3) := arm_round7 msg3 msg0 msg1 msg2 state0 state1 (k 11%nat) in
  let '(state0, state1) := arm_round4 msg0 state0 state1 (k 12%nat) in
  let '(state0, state1) := arm_round4 msg1 state0 state1 (k 13%nat) in
  let '(state0, state1) := arm_round4 msg2 state0 state1 (k 14%nat) in
  let '(state0, state1) := arm_round4 msg3 state0 state1 (k 15%nat) in
  (vadd 32 state0 state0_prev, vadd 32 state1 state1_prev).

(** aarch64/sha256.rs:39-119 sha256 *)
Definition arm_sha256 (state : regs) (blocks : list Z) : regs :=
  let '(state0, state1) := fold_left arm_block (chunks_exact 64 blocks) (lo_hi state) in
  of_lo_hi state0 state1.

(** ** low/x86_64/sha512.rs *)
(** sha512.rs:491-572 *)
Definition AVX_K : list Z :=
   [0x428a2f98d728ae22; 0x7137449123ef65cd; 0xb5c0fbcfec4d3b2f; 0xe9b5dba58189dbbc;
    0x3956c25bf348b538; 0x59f111f1b605d019; 0x923f82a4af194f9b; 0xab1c5ed5da6d8118;
    0xd807aa98a3030242; 0x12835b0145706fbe; 0x243185be4ee4b28c; 0x550c7dc3d5ffb4e2;
    0x72be5d74f27b896f; 0x80deb1fe3b1696b1; 0x9bdc06a725c71235; 0xc19bf174cf692694;
    0xe49b69c19ef14ad2; 0xefbe4786384f25e3; 0x0fc19dc68b8cd5b5; 0x240ca1cc77ac9c65;
    0x2de92c6f592b0275; 0x4a7484aa6ea6e483; 0x5cb0a9dcbd41fbd4; 0x76f988da831153b5;
    0x983e5152ee66dfab; 0xa831c66d2db43210; 0xb00327c898fb213f; 0xbf597fc7beef0ee4;
    0xc6e00bf33da88fc2; 0xd5a79147930aa725; 0x06ca6351e003826f; 0x142929670a0e6e70;
    0x27b70a8546d22ffc; 0x2e1b21385c26c926; 0x4d2c6dfc5ac42aed; 0x53380d139d95b3df;
    0x650a73548baf63de; 0x766a0abb3c77b2a8; 0x81c2c92e47edaee6; 0x92722c851482353b;
    0xa2bfe8a14cf10364; 0xa81a664bbc423001; 0xc24b8b70d0f89791; 0xc76c51a30654be30;
    0xd192e819d6ef5218; 0xd69906245565a910; 0xf40e35855771202a; 0x106aa07032bbd1b8;
    0x19a4c116b8d2d0c8; 0x1e376c085141ab53; 0x2748774cdf8eeb99; 0x34b0bcb5e19b48a8;
    0x391c0cb3c5c95a63; 0x4ed8aa4ae3418acb; 0x5b9cca4f7763e373; 0x682e6ff3d6b2b8a3;
    0x748f82ee5defb2fc; 0x78a5636f43172f60; 0x84c87814a1f0ab72; 0x8cc702081a6439ec;
    0x90befffa23631e28; 0xa4506cebde82bde9; 0xbef9a3f7b2c67915; 0xc67178f2e372532b;
    0xca273eceea26619c; 0xd186b8c721c0c207; 0xeada7dd6cde0eb1e; 0xf57d4f7fee6ed178;
    0x06f067aa72176fba; 0x0a637dc5a2c898a6; 0x113f9804bef90dae; 0x1b710b35131c471b;
    0x28db77f523047d84; 0x32caab7b40c72493; 0x3c9ebe0a15c9bebc; 0x431d67c49c100d4c;
    0x4cc5d4becb3e42b6; 0x597f299cfc657e2a; 0x5fcb6fab3ad6faec; 0x6c44198c4a475817].

(** sha512.rs:484-489, in memory order *)
Definition BSWAP_SHUFFLE : list Z :=
  [7; 6; 5; 4; 3; 2; 1; 0; 15; 14; 13; 12; 11; 10; 9; 8; 7; 6; 5; 4; 3; 2; 1; 0; 15; 14; 13;
   12; 11; 10; 9; 8].

(** sha512.rs:12-14, 17-19 ch, maj *)
Definition ch (x y z : Z) : Z := Z.lxor (Z.land x y) (Z.land (wnot 64 x) z).
(** sha512.rs:17-19 *)
Definition maj (x y z : Z) : Z := Z.lxor (Z.lxor (Z.land x y) (Z.land x z)) (Z.land y z).
(** sha512.rs:22-41, 44-62 bsig0, bsig1: the five instructions of the assembly blocks *)
Definition bsig0 (x : Z) : Z :=
  let t := rotr 64 x 28 in
  let r := rotr 64 x 34 in
  let r := Z.lxor r t in
  let t := rotr 64 x 39 in
  Z.lxor r t.
(** sha512.rs:44-62 *)
Definition bsig1 (x : Z) : Z :=
  let t := rotr 64 x 14 in
  let r := rotr 64 x 18 in
  let r := Z.lxor r t in
  let t := rotr 64 x 41 in
  Z.lxor r t.

(** sha512.rs:66-74 sigma_0 *)
Definition sigma_0 (w : v4) : v4 :=
  vxor (vxor (vxor (srli_epi64 w 7) (srli_epi64 w 8)) (vxor (srli_epi64 w 1) (slli_epi64 w 56)))
       (slli_epi64 w 63).
(** sha512.rs:78-86 sigma_1 *)
Definition sigma_1 (w : v4) : v4 :=
  vxor (vxor (vxor (srli_epi64 w 6) (srli_epi64 w 61)) (vxor (srli_epi64 w 19) (slli_epi64 w 3)))
       (slli_epi64 w 45).

(** sha512.rs:88-92 k!: one table word in all four lanes *)
Definition k_all (i : nat) : v4 := let k := znth AVX_K i in V4 k k k k.

(** sha512.rs:95-105 schedule_round!: gives the new schedule array and the new value of $w3; the step
    [$i += 1] is taken at the call *)
Definition schedule_round (sched : list v4) (i : nat) (w1 w2 w3 w4 : v4) : list v4 * v4 :=
  let k := k_all i in
  let s0 := sigma_0 w1 in
  let s1 := sigma_1 w2 in
  let sched := upd sched i (vadd 64 w3 k) in
  (sched, vadd 64 (vadd 64 w3 w4) (vadd 64 s0 s1)).

(** sha512.rs:111-143: word [j] of each of the four blocks, byte-swapped *)
Definition gather_word (message : list Z) (j : Z) : v4 :=
  mm256_shuffle_epi8 (i64gather message j (V4 0 16 32 48)) BSWAP_SHUFFLE.

(** w0..w15 of sha512.rs:110-143 *)
Definition win16 := (v4 * v4 * v4 * v4 * v4 * v4 * v4 * v4 * v4 * v4 * v4 * v4 * v4 * v4 * v4 * v4)%type.

(** one iteration of the loop sha512.rs:146-163, from index [i] *)
Definition quad_loop_body (sw : list v4 * win16) (i : nat) : list v4 * win16 :=
  let '(schedule, (w0, w1, w2, w3, w4, w5, w6, w7, w8, w9, w10, w11, w12, w13, w14, w15)) := sw in
  let '(schedule, w0) := schedule_round schedule (i + 0) w1 w14 w0 w9 in
  let '(schedule, w1) := schedule_round schedule (i + 1) w2 w15 w1 w10 in
  let '(schedule, w2) := schedule_round schedule (i + 2) w3 w0 w2 w11 in
  let '(schedule, w3) := schedule_round schedule (i + 3) w4 w1 w3 w12 in
  let '(schedule, w4) := schedule_round schedule (i + 4) w5 w2 w4 w13 in
  let '(schedule, w5) := schedule_round schedule (i + 5) w6 w3 w5 w14 in
  let '(schedule, w6) := schedule_round schedule (i + 6) w7 w4 w6 w15 in
  let '(schedule, w7) := schedule_round schedule (i + 7) w8 w5 w7 w0 in
  let '(schedule, w8) := schedule_round schedule (i + 8) w9 w6 w8 w1 in
  let '(schedule, w9) := schedule_round schedule (i + 9) w10 w7 w9 w2 in
  let '(schedule, w10) := schedule_round schedule (i + 10) w11 w8 w10 w3 in
  let '(schedule, w11) := schedule_round schedule (i + 11) w12 w9 w11 w4 in
  let '(schedule, w12) := schedule_round schedule (i + 12) w13 w10 w12 w5 in
  let '(schedule, w13) := schedule_round schedule (i + 13) w14 w11 w13 w6 in
  let '(schedule, w14) := schedule_round schedule (i + 14) w15 w12 w14 w7 in
  let '(schedule, w15) := schedule_round schedule (i + 15) w0 w13 w15 w8 in
  (schedule, (w0, w1, w2, w3, w4, w5, w6, w7, w8, w9, w10, w11, w12, w13, w14, w15)).

(** sha512.rs:107-181 sha512_quad_message_schedule, on the zeroed array of its caller (sha512.rs:197) *)
Definition quad_message_schedule (message : list Z) : list v4 :=
  let g := gather_word message in
  let w := (g 0, g 1, g 2, g 3, g 4, g 5, g 6, g 7, g 8, g 9, g 10, g 11, g 12, g 13, g 14, g 15) in
  let '(schedule, (w0, w1, w2, w3, w4, w5, w6, w7, w8, w9, w10, w11, w12, w13, w14, w15)) :=
    fold_left quad_loop_body [0; 16; 32; 48]%nat (repeat (V4 0 0 0 0) 80, w) in
  let schedule := upd schedule 64 (vadd 64 w0 (k_all 64)) in
  let schedule := upd schedule 65 (vadd 64 w1 (k_all 65)) in
  let schedule := upd schedule 66 (vadd 64 w2 (k_all 66)) in
  let schedule := upd schedule 67 (vadd 64 w3 (k_all 67)) in
  let schedule := upd schedule 68 (vadd 64 w4 (k_all 68)) in
  let schedule := upd schedule 69 (vadd 64 w5 (k_all 69)) in
  let schedule := upd schedule 70 (vadd 64 w6 (k_all 70)) in
  let schedule := upd schedule 71 (vadd 64 w7 (k_all 71)) in
  let schedule := upd schedule 72 (vadd 64 w8 (k_all 72)) in
  let schedule := upd schedule 73 (vadd 64 w9 (k_all 73)) in
  let schedule := upd schedule 74 (vadd 64 w10 (k_all 74)) in
  let schedule := upd schedule 75 (vadd 64 w11 (k_all 75)) in
  let schedule := upd schedule 76 (vadd 64 w12 (k_all 76)) in
  let schedule := upd schedule 77 (vadd 64 w13 (k_all 77)) in
  let schedule := upd schedule 78 (vadd 64 w14 (k_all 78)) in
  let schedule := upd schedule 79 (vadd 64 w15 (k_all 79)) in
  schedule.

(** sha512.rs:183-193 round!: gives the new $d and $h *)
Definition avx_round (a b c d e f g h w_t : Z) : Z * Z :=
  let t1 := wadd 64 (wadd 64 (wadd 64 h (bsig1 e)) (ch e f g)) w_t in
  let t2 := wadd 64 (bsig0 a) (maj a b c) in
  (wadd 64 d t1, wadd 64 t1 t2).

(** the four calls of round! that start from a (sha512.rs:221-224 and the same in the other blocks, 408-411,
    417-420, 435-438) *)
Definition rounds_a (s : regs) (x0 x1 x2 x3 : Z) : regs :=
  let '(a, b, c, d, e, f, g, h) := s in
  let '(d, h) := avx_round a b c d e f g h x0 in
  let '(c, g) := avx_round h a b c d e f g x1 in
  let '(b, f) := avx_round g h a b c d e f x2 in
  let '(a, e) := avx_round f g h a b c d e x3 in
  (a, b, c, d, e, f, g, h).
(** the four calls of round! that start from e (sha512.rs:225-228 and the same in the other blocks, 413-416,
    422-425, 443-446) *)
Definition rounds_e (s : regs) (x0 x1 x2 x3 : Z) : regs :=
  let '(a, b, c, d, e, f, g, h) := s in
  let '(h, d) := avx_round e f g h a b c d x0 in
  let '(g, c) := avx_round d e f g h a b c x1 in
  let '(f, b) := avx_round c d e f g h a b x2 in
  let '(e, a) := avx_round b c d e f g h a x3 in
  (a, b, c, d, e, f, g, h).

(** the loops over w.chunks_exact(8), e.g. sha512.rs:220-229; [lane] is the second argument of
    _mm256_extract_epi64 *)
Definition lane_rounds (lane : v4 -> Z) (s : regs) (w_t : list v4) : regs :=
  let x i := lane (nth i w_t (V4 0 0 0 0)) in
  rounds_e (rounds_a s (x 0%nat) (x 1%nat) (x 2%nat) (x 3%nat)) (x 4%nat) (x 5%nat) (x 6%nat) (x 7%nat).

(** one of the four blocks: sha512.rs:211-239 (240-268, 270-299, 301-330): extract, rounds, add *)
Definition lane_block (lane : v4 -> Z) (w : list v4) (save : v4 * v4) : v4 * v4 :=
  let '(save_abcd, save_efgh) := save in
  let '(a, b, c, d, e, f, g, h) := fold_left (lane_rounds lane) (chunks_exact 8 w) (of_lo_hi save_abcd save_efgh) in
  (vadd 64 save_abcd (V4 a b c d), vadd 64 save_efgh (V4 e f g h)).

(** sha512.rs:195-337 sha512_compress_4_blocks *)
Definition compress_4_blocks (state : regs) (block4 : list Z) : regs :=
  let w := quad_message_schedule block4 in
  let save := lo_hi state in
  let save := lane_block l0 w save in
  let save := lane_block l1 w save in
  let save := lane_block l2 w save in
  let save := lane_block l3 w save in
  of_lo_hi (fst save) (snd save).

(** sha512.rs:343-353 input!: W and W + K *)
Definition input (block : list Z) (i : nat) : v4 * v4 :=
  let w := of_mem 8 (skipn (i * 32) block) in
  let w := mm256_shuffle_epi8 w BSWAP_SHUFFLE in
  let k := k_at AVX_K (i * 4) in
  (w, vadd 64 w k).

(** sha512.rs:358-393 schedule!: the next four words of W, and W + K *)
Definition schedule4 (wm16 wm12 wm8 wm4 k : v4) : v4 * v4 :=
  let wm16_13 := wm16 in
  let wm14_11 := permute2x128 wm16 wm12 0x21 in
  let wm15_12 := mm256_alignr_epi8 wm14_11 wm16 8 in
  let wm6_3 := permute2x128 wm8 wm4 0x21 in
  let wm7_4 := mm256_alignr_epi8 wm6_3 wm8 8 in
  let s0_wm15_12 := sigma_0 wm15_12 in
  let w01xx := permute4 wm4 0xee in
  let s1_w01xx := sigma_1 w01xx in
  let tmp := vadd 64 s0_wm15_12 wm16_13 in
  let tmp := vadd 64 wm7_4 tmp in
  let w01xx := vadd 64 s1_w01xx tmp in
  let w0101 := permute4 w01xx 0x44 in
  let s1_w0101 := sigma_1 w0101 in
  let wxx23 := vadd 64 s1_w0101 tmp in
  let w := permute2x128 w01xx wxx23 0x30 in
  (w, vadd 64 w k).

(** four rounds with the lanes of one register (_mm256_extract_epi64(_, 0..3)); x86_64/sha512.rs:431-452 *)
Definition quad_a (s : regs) (wk : v4) : regs := rounds_a s (l0 wk) (l1 wk) (l2 wk) (l3 wk).
(** x86_64/sha512.rs:431-452 *)
Definition quad_e (s : regs) (wk : v4) : regs := rounds_e s (l0 wk) (l1 wk) (l2 wk) (l3 wk).

(** the loop body, sha512.rs:431-452, for [t] *)
Definition avx_loop_body (sw : regs * (v4 * v4 * v4 * v4)) (t : nat) : regs * (v4 * v4 * v4 * v4) :=
  let '(s, (wm4, wm3, wm2, wm1)) := sw in
  let k0 := k_at AVX_K t in
  let '(w_t, wk_t) := schedule4 wm4 wm3 wm2 wm1 k0 in
  let s := quad_a s wk_t in
  let k4 := k_at AVX_K (t + 4) in
  let '(w_t1, wk_t1) := schedule4 wm3 wm2 wm1 w_t k4 in
  let s := quad_e s wk_t1 in
  (s, (wm2, wm1, w_t, w_t1)).

(** sha512.rs:404-462 sha512_compress_block *)
Definition avx_compress_block (state : regs) (block : list Z) : regs :=
  let s := state in
  let '(w0_3, wk0_3) := input block 0 in
  let s := quad_a s wk0_3 in
  let '(w4_7, wk4_7) := input block 1 in
  let s := quad_e s wk4_7 in
  let '(w8_11, wk8_11) := input block 2 in
  let s := quad_a s wk8_11 in
  let '(w12_15, wk12_15) := input block 3 in
  let s := quad_e s wk12_15 in
  let '(s, _) := fold_left avx_loop_body [16; 24; 32; 40; 48; 56; 64; 72]%nat (s, (w0_3, w4_7, w8_11, w12_15)) in
  let '(a, b, c, d, e, f, g, h) := s in
  let '(a0, b0, c0, d0, e0, f0, g0, h0) := state in
  (wadd 64 a0 a, wadd 64 b0 b, wadd 64 c0 c, wadd 64 d0 d,
   wadd 64 e0 e, wadd 64 f0 f, wadd 64 g0 g, wadd 64 h0 h).

(** sha512.rs:464-481 sha512_compress_blocks *)
Definition avx_sha512 (state : regs) (blocks : list Z) : regs :=
  let state := fold_left compress_4_blocks (chunks_exact 512 blocks) state in
  let blocks := zdrop (zlen blocks / 512 * 512) blocks in
  fold_left avx_compress_block (chunks_exact 128 blocks) state.

(** ** Which code runs *)
(** The processors the crate supports: x86-64 with or without the SHA extensions and BMI2
    (x86_64/cpu.rs, HaveSha256 / HaveBmi2), or aarch64 with the SHA-2 extension it requires *)
Inductive cpu := X86_64 (have_sha256 have_bmi2 : bool) | Aarch64.

(** low::sha256_compress_blocks: x86_64/sha256_mux.rs:7-13, low/mod.rs:122, 201 *)
Definition low_sha256 (c : cpu) : regs -> list Z -> regs :=
  match c with
  | X86_64 true _ => ni_sha256
  | X86_64 false _ => compress_blocks sha256_params
  | Aarch64 => arm_sha256
  end.
(** low::sha512_compress_blocks: x86_64/sha512_mux.rs:7-14, low/mod.rs:123, 207 *)
Definition low_sha512 (c : cpu) : regs -> list Z -> regs :=
  match c with
  | X86_64 _ true => avx_sha512
  | X86_64 _ false => compress_blocks sha512_params
  | Aarch64 => compress_blocks sha512_params
  end.

(** high/hash.rs:147-184, 190-227, 233-270 on a given processor *)
Definition Sha256_on (c : cpu) : hash_alg := {|
  ha_ctx := sha_ctx regs;
  ha_new := ctx_new 64 sha256_iv;
  ha_update := ctx_update (low_sha256 c) 64;
  ha_finish := ctx_finish (low_sha256 c) 64 8 (2^64) (regs_bytes 4);
  ha_block := 64; ha_out := 32 |}.
(** high/hash.rs:190-227 on a given processor *)
Definition Sha384_on (c : cpu) : hash_alg := {|
  ha_ctx := sha_ctx regs;
  ha_new := ctx_new 128 sha384_iv;
  ha_update := ctx_update (low_sha512 c) 128;
  ha_finish := fun x => let! o := ctx_finish (low_sha512 c) 128 16 (2^128) (regs_bytes 8) x in Ok (ztake 48 o);
  ha_block := 128; ha_out := 48 |}.
(** high/hash.rs:233-270 on a given processor *)
Definition Sha512_on (c : cpu) : hash_alg := {|
  ha_ctx := sha_ctx regs;
  ha_new := ctx_new 128 sha512_iv;
  ha_update := ctx_update (low_sha512 c) 128;
  ha_finish := ctx_finish (low_sha512 c) 128 16 (2^128) (regs_bytes 8);
  ha_block := 128; ha_out := 64 |}.
