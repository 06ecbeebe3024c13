(** Model of graviola/src/low/generic/chacha20.rs and graviola/src/low/x86_64/chacha20.rs. *)
Require Import Verif.Base.

(** [u32; 4] (generic/chacha20.rs:5-9), also an __m128i seen as four 32-bit lanes, lane 0 first *)
Definition q4 : Type := Z * Z * Z * Z.

(** generic/chacha20.rs:5-9  struct ChaCha20 *)
Record chacha := { cc_key0 : q4; cc_key1 : q4; cc_nonce : q4 }.

(** u32::from_le_bytes(b[i..i + 4]); generic/chacha20.rs:13-16 *)
Definition le32_at (b : list Z) (i : Z) : Z := le_val (ztake 4 (zdrop i b)).
(** generic/chacha20.rs:11-18  four *)
Definition four (b : list Z) : q4 := (le32_at b 0, le32_at b 4, le32_at b 8, le32_at b 12).

(** generic/chacha20.rs:21-27  ChaCha20::new; key is 32 bytes, nonce 16 *)
Definition chacha_new (key nonce : list Z) : chacha :=
  {| cc_key0 := four (ztake 16 key); cc_key1 := four (ztake 16 (zdrop 16 key)); cc_nonce := four nonce |}.

(** generic/chacha20.rs:171-172  SIGMA *)
Definition SIGMA : q4 := (0x61707865, 0x3320646e, 0x79622d32, 0x6b206574).

(** u32::wrapping_add, generic/chacha20.rs:80-86 *)
Definition add32 (x y : Z) : Z := wadd 32 x y.
(** u32::rotate_left, generic/chacha20.rs:81-87 *)
Definition rol32 (x n : Z) : Z := rotl 32 x n.

(** generic/chacha20.rs:78-89 (and 143-154)  quarter! *)
Definition quarter (a b c d : Z) : Z * Z * Z * Z :=
  let a := add32 a b in
  let d := rol32 (Z.lxor d a) 16 in
  let c := add32 c d in
  let b := rol32 (Z.lxor b c) 12 in
  let a := add32 a b in
  let d := rol32 (Z.lxor d a) 8 in
  let c := add32 c d in
  let b := rol32 (Z.lxor b c) 7 in
  (a, b, c, d).

(** the sixteen locals z0..zf as four rows; generic/chacha20.rs:69-72 *)
Definition rows : Type := q4 * q4 * q4 * q4.

(** generic/chacha20.rs:91-100 (and 156-165): the body of the loop *)
Definition double_round (z : rows) : rows :=
  let '((z0, z1, z2, z3), (z4, z5, z6, z7), (z8, z9, za, zb), (zc, zd, ze, zf)) := z in
  let '(z0, z4, z8, zc) := quarter z0 z4 z8 zc in
  let '(z1, z5, z9, zd) := quarter z1 z5 z9 zd in
  let '(z2, z6, za, ze) := quarter z2 z6 za ze in
  let '(z3, z7, zb, zf) := quarter z3 z7 zb zf in
  let '(z0, z5, za, zf) := quarter z0 z5 za zf in
  let '(z1, z6, zb, zc) := quarter z1 z6 zb zc in
  let '(z2, z7, z8, zd) := quarter z2 z7 z8 zd in
  let '(z3, z4, z9, ze) := quarter z3 z4 z9 ze in
  ((z0, z1, z2, z3), (z4, z5, z6, z7), (z8, z9, za, zb), (zc, zd, ze, zf)).

(** [for _ in 0..n]; generic/chacha20.rs:91 *)
Fixpoint iter {A} (n : nat) (f : A -> A) (x : A) : A :=
  match n with O => x | S k => iter k f (f x) end.

(** one row of generic/chacha20.rs:102-117 *)
Definition add4 (a b : q4) : q4 :=
  let '(a0, a1, a2, a3) := a in let '(b0, b1, b2, b3) := b in
  (add32 a0 b0, add32 a1 b1, add32 a2 b2, add32 a3 b3).
(** the four to_le_bytes copies per row; generic/chacha20.rs:119-134 *)
Definition q4_bytes (a : q4) : list Z :=
  let '(a0, a1, a2, a3) := a in le_bytes 4 a0 ++ le_bytes 4 a1 ++ le_bytes 4 a2 ++ le_bytes 4 a3.

(** generic/chacha20.rs:68-135  core: the 64 bytes of keystream *)
Definition core (key0 key1 nonce : q4) : list Z :=
  let '(r0, r1, r2, r3) := iter 10 double_round (SIGMA, key0, key1, nonce) in
  q4_bytes (add4 SIGMA r0) ++ q4_bytes (add4 key0 r1) ++ q4_bytes (add4 key1 r2) ++ q4_bytes (add4 nonce r3).

(** [for (o, k) in out.iter_mut().zip(key) { *o ^= *k }]: bytes beyond the key are unchanged; generic/chacha20.rs:33-35 *)
Fixpoint xor_zip (out key : list Z) : list Z :=
  match out, key with
  | o :: out', k :: key' => Z.lxor o k :: xor_zip out' key'
  | _, _ => out
  end.

(** [self.nonce[0] = self.nonce[0].wrapping_add(n)]; generic/chacha20.rs:37 *)
Definition bump (c : chacha) (n : Z) : chacha :=
  let '(n0, n1, n2, n3) := cc_nonce c in
  {| cc_key0 := cc_key0 c; cc_key1 := cc_key1 c; cc_nonce := (add32 n0 n, n1, n2, n3) |}.

(** generic/chacha20.rs:29-39  cipher, as a fold over buffer.chunks_mut(64) *)
Fixpoint cipher_chunks (c : chacha) (cs : list (list Z)) : list Z * chacha :=
  match cs with
  | [] => ([], c)
  | block :: r =>
      let out := xor_zip block (core (cc_key0 c) (cc_key1 c) (cc_nonce c)) in
      let '(rest, c') := cipher_chunks (bump c 1) r in (out ++ rest, c')
  end.
(** generic/chacha20.rs:29-39  cipher *)
Definition cipher_generic (c : chacha) (buffer : list Z) : list Z * chacha :=
  cipher_chunks c (chunks 64 buffer).

(** generic/chacha20.rs:137-169  hchacha: the new (key0, key1) *)
Definition hchacha (key0 key1 nonce : q4) : q4 * q4 :=
  let '(r0, r1, r2, r3) := iter 10 double_round (SIGMA, key0, key1, nonce) in (r0, r3).

(** generic/chacha20.rs:45-61  XChaCha20::new; key 32 bytes, nonce 24 *)
Definition xchacha_new (key nonce : list Z) : chacha :=
  let hnonce := four (ztake 16 nonce) in
  let '(k0, k1) := hchacha (four (ztake 16 key)) (four (ztake 16 (zdrop 16 key))) hnonce in
  {| cc_key0 := k0; cc_key1 := k1;
     cc_nonce := four (splice (repeat 0 16) 8 (ztake 8 (zdrop 16 nonce))) |}.

(** * The x86_64 (AVX2) implementation.
    A __m256i is a pair (high 128 bits, low 128 bits) of four 32-bit lanes each (Intel SDM semantics of
    the intrinsics named below; that the compiler maps them so is trusted). *)
Definition m256 : Type := q4 * q4.
(** the high half, as in _mm256_extracti128_si256(x, 1), x86_64/chacha20.rs:122 *)
Definition hi (x : m256) : q4 := fst x.
(** the low half, as in _mm256_extracti128_si256(x, 0), x86_64/chacha20.rs:123 *)
Definition lo (x : m256) : q4 := snd x.

(** _mm_add_epi32 / _mm256_add_epi32; x86_64/chacha20.rs:144 *)
Definition mm256_add (a b : m256) : m256 := (add4 (hi a) (hi b), add4 (lo a) (lo b)).
(** the same operation on four lanes, for the shifts of x86_64/chacha20.rs:50-97 *)
Definition map4 (f : Z -> Z) (a : q4) : q4 := let '(a0, a1, a2, a3) := a in (f a0, f a1, f a2, f a3).
(** _mm_xor_si128 / _mm256_xor_si256 on lanes; x86_64/chacha20.rs:147 *)
Definition xor4 (a b : q4) : q4 :=
  let '(a0, a1, a2, a3) := a in let '(b0, b1, b2, b3) := b in
  (Z.lxor a0 b0, Z.lxor a1 b1, Z.lxor a2 b2, Z.lxor a3 b3).
(** _mm256_xor_si256, x86_64/chacha20.rs:147 *)
Definition mm256_xor (a b : m256) : m256 := (xor4 (hi a) (hi b), xor4 (lo a) (lo b)).
(** _mm_shuffle_epi8 (per 128-bit half): destination byte i is source byte idx[i]; the indices
    used have the top bit clear.  [set] is the argument list of _mm_set_epi8, highest byte first. x86_64/chacha20.rs:82-95 *)
Definition shuffle_epi8 (set : list Z) (a : q4) : q4 :=
  let src := q4_bytes a in four (map (fun i => nth (Z.to_nat i) src 0) (rev set)).
(** x86_64/chacha20.rs:79-97  rotate_left_128! (and per half of rotate_left! 50-77) *)
Definition rot8_set : list Z := [14; 13; 12; 15; 10; 9; 8; 11; 6; 5; 4; 7; 2; 1; 0; 3].
(** x86_64/chacha20.rs:79-97: the byte selection for a rotation by 16 *)
Definition rot16_set : list Z := [13; 12; 15; 14; 9; 8; 11; 10; 5; 4; 7; 6; 1; 0; 3; 2].
(** x86_64/chacha20.rs:79-97  rotate_left_128! *)
Definition rotate_left_128 (a : q4) (n : Z) : q4 :=
  if n =? 8 then shuffle_epi8 rot8_set a
  else if n =? 16 then shuffle_epi8 rot16_set a
  else map4 (fun x => Z.lor (Z.shiftl x n mod 2 ^ 32) (Z.shiftr x (32 - n))) a.
(** x86_64/chacha20.rs:50-77  rotate_left! *)
Definition rotate_left (a : m256) (n : Z) : m256 := (rotate_left_128 (hi a) n, rotate_left_128 (lo a) n).
(** _mm_shuffle_epi32: lane i of the result is lane (imm >> 2i) & 3; x86_64/chacha20.rs:184-190 *)
Definition sel4 (a : q4) (n : Z) : Z :=
  let '(a0, a1, a2, a3) := a in if n =? 0 then a0 else if n =? 1 then a1 else if n =? 2 then a2 else a3.
(** _mm_shuffle_epi32, x86_64/chacha20.rs:469-521 *)
Definition shuffle_epi32 (a : q4) (imm : Z) : q4 :=
  (sel4 a (Z.land imm 3), sel4 a (Z.land (Z.shiftr imm 2) 3),
   sel4 a (Z.land (Z.shiftr imm 4) 3), sel4 a (Z.land (Z.shiftr imm 6) 3)).
(** _mm256_shuffle_epi32, x86_64/chacha20.rs:184-190 *)
Definition mm256_shuffle_epi32 (a : m256) (imm : Z) : m256 :=
  (shuffle_epi32 (hi a) imm, shuffle_epi32 (lo a) imm).
(** _mm256_broadcastsi128_si256(_mm256_extracti128_si256(x, i)); x86_64/chacha20.rs:122-125 *)
Definition bcast_extract (x : m256) (i : Z) : m256 := let h := if i =? 1 then hi x else lo x in (h, h).
(** _mm256_permute2x128_si256 with no zeroing bits; x86_64/chacha20.rs:258-276 *)
Definition permute2x128 (a b : m256) (imm : Z) : m256 :=
  let sel n := if n =? 0 then lo a else if n =? 1 then hi a else if n =? 2 then lo b else hi b in
  (sel (Z.land (Z.shiftr imm 4) 3), sel (Z.land imm 3)).
(** _mm256_set_epi32(e7, e6, e5, e4, e3, e2, e1, e0); x86_64/chacha20.rs:137-140 *)
Definition set_epi32 (e7 e6 e5 e4 e3 e2 e1 e0 : Z) : m256 := ((e4, e5, e6, e7), (e0, e1, e2, e3)).
(** _mm256_storeu_si256: 32 bytes, low half first; x86_64/chacha20.rs:284-306 *)
Definition m256_bytes (a : m256) : list Z := q4_bytes (lo a) ++ q4_bytes (hi a).

(** x86_64/chacha20.rs:7-10  struct ChaCha20 *)
Record chacha_x86 := { z07 : m256; z8f : m256 }.

(** x86_64/chacha20.rs:99-114  format_key; SIGMA (line 536) is the bytes of "expand 32-byte k" *)
Definition SIGMA_bytes : list Z := [101; 120; 112; 97; 110; 100; 32; 51; 50; 45; 98; 121; 116; 101; 32; 107].
(** x86_64/chacha20.rs:99-114  format_key *)
Definition format_key (key nonce : list Z) : chacha_x86 :=
  {| z07 := (four SIGMA_bytes, four (ztake 16 key));
     z8f := (four (ztake 16 (zdrop 16 key)), four nonce) |}.

(** one row-wise half round: x86_64/chacha20.rs:379-393 (core_2x), 143-179 (core_8x) *)
Definition vquarter (z : m256 * m256 * m256 * m256) : m256 * m256 * m256 * m256 :=
  let '(a, b, c, d) := z in
  let a := mm256_add a b in let d := mm256_xor d a in let d := rotate_left d 16 in
  let c := mm256_add c d in let b := mm256_xor b c in let b := rotate_left b 12 in
  let a := mm256_add a b in let d := mm256_xor d a in let d := rotate_left d 8 in
  let c := mm256_add c d in let b := mm256_xor b c in let b := rotate_left b 7 in
  (a, b, c, d).
(** the loop body: x86_64/chacha20.rs:378-418 (core_2x); 142-241 (core_8x: the four independent
    copies i = 0..3 are computed one after the other here) *)
Definition vdouble (z : m256 * m256 * m256 * m256) : m256 * m256 * m256 * m256 :=
  let '(a, b, c, d) := vquarter z in
  let b := mm256_shuffle_epi32 b 57 (* 0b00_11_10_01 *) in
  let c := mm256_shuffle_epi32 c 78 (* 0b01_00_11_10 *) in
  let d := mm256_shuffle_epi32 d 147 (* 0b10_01_00_11 *) in
  let '(a, b, c, d) := vquarter (a, b, c, d) in
  let b := mm256_shuffle_epi32 b 147 (* 0b10_01_00_11 *) in
  let c := mm256_shuffle_epi32 c 78 (* 0b01_00_11_10 *) in
  let d := mm256_shuffle_epi32 d 57 (* 0b00_11_10_01 *) in
  (a, b, c, d).

(** x86_64/chacha20.rs:119-277  one of the four copies of core_8x: the blocks (a0 a1) and (e0 e1) *)
Definition core_8x_lane (t07 t8f adj : m256) : list Z * list Z :=
  let s03 := bcast_extract t07 1 in let s47 := bcast_extract t07 0 in
  let s8b := bcast_extract t8f 1 in let scf := bcast_extract t8f 0 in
  let '(z03, z47, z8b, zcf) := iter 10 vdouble (s03, s47, s8b, mm256_add scf adj) in
  let z03 := mm256_add z03 s03 in let z47 := mm256_add z47 s47 in
  let z8b := mm256_add z8b s8b in let zcf := mm256_add (mm256_add zcf scf) adj in
  (m256_bytes (permute2x128 z03 z47 49) ++ m256_bytes (permute2x128 z8b zcf 49),
   m256_bytes (permute2x128 z03 z47 32) ++ m256_bytes (permute2x128 z8b zcf 32)).

(** x86_64/chacha20.rs:116-356  core_8x: new z8f and the 512 output bytes *)
Definition core_8x (t07 t8f : m256) (xor_out_512 : list Z) : list Z * m256 :=
  let '(a, e) := core_8x_lane t07 t8f (set_epi32 0 0 0 0 0 0 0 4) in
  let '(b, f) := core_8x_lane t07 t8f (set_epi32 0 0 0 1 0 0 0 5) in
  let '(c, g) := core_8x_lane t07 t8f (set_epi32 0 0 0 2 0 0 0 6) in
  let '(d, h) := core_8x_lane t07 t8f (set_epi32 0 0 0 3 0 0 0 7) in
  (xor_zip xor_out_512 (a ++ b ++ c ++ d ++ e ++ f ++ g ++ h),
   mm256_add t8f (set_epi32 0 0 0 0 0 0 0 8)).

(** x86_64/chacha20.rs:358-467  core_2x.  The 128-byte, 32-byte and slow paths write the same bytes
    (keystream a0 a1 b0 b1 xored over the buffer); they are kept as three cases. *)
Definition core_2x (t07 t8f : m256) (xor_out : list Z) : list Z * m256 :=
  let blocks_used := if 32 <? zlen xor_out then 2 else 1 in
  let z8f' := mm256_add t8f (set_epi32 0 0 0 0 0 0 0 blocks_used) in
  let s03 := bcast_extract t07 1 in let s47 := bcast_extract t07 0 in
  let s8b := bcast_extract t8f 1 in
  let scf := mm256_add (bcast_extract t8f 0) (set_epi32 0 0 0 0 0 0 0 1) in
  let '(z03, z47, z8b, zcf) := iter 10 vdouble (s03, s47, s8b, scf) in
  let z03 := mm256_add z03 s03 in let z47 := mm256_add z47 s47 in
  let z8b := mm256_add z8b s8b in let zcf := mm256_add zcf scf in
  let a0 := m256_bytes (permute2x128 z03 z47 49) in let a1 := m256_bytes (permute2x128 z8b zcf 49) in
  let b0 := m256_bytes (permute2x128 z03 z47 32) in let b1 := m256_bytes (permute2x128 z8b zcf 32) in
  let out :=
    if zlen xor_out =? 128 then
      xor_zip (ztake 32 xor_out) a0 ++ xor_zip (ztake 32 (zdrop 32 xor_out)) a1 ++
      xor_zip (ztake 32 (zdrop 64 xor_out)) b0 ++ xor_zip (ztake 32 (zdrop 96 xor_out)) b1
    else if zlen xor_out =? 32 then xor_zip xor_out a0
    else xor_zip xor_out (a0 ++ a1 ++ b0 ++ b1) in
  (out, z8f').

(** x86_64/chacha20.rs:18-34: the loops of cipher over pieces of one size *)
Fixpoint x86_chunks (core : m256 -> m256 -> list Z -> list Z * m256) (t07 t8f : m256) (cs : list (list Z))
  : list Z * m256 :=
  match cs with
  | [] => ([], t8f)
  | block :: r =>
      let '(out, t8f) := core t07 t8f block in
      let '(rest, t8f) := x86_chunks core t07 t8f r in (out ++ rest, t8f)
  end.

(** x86_64/chacha20.rs:18-34  cipher *)
Definition cipher_x86 (c : chacha_x86) (buffer : list Z) : list Z * chacha_x86 :=
  let whole := zlen buffer / 512 * 512 in
  let '(o1, t8f) := x86_chunks core_8x (z07 c) (z8f c) (chunks_exact 512 (ztake whole buffer)) in
  let '(o2, t8f) := x86_chunks core_2x (z07 c) t8f (chunks 128 (zdrop whole buffer)) in
  (o1 ++ o2, {| z07 := z07 c; z8f := t8f |}).

(** one half of the loop body of x86_64/chacha20.rs:481-521 hchacha, which is the __m128i version of
    [vquarter]/[vdouble] *)
Definition hquarter (z : rows) : rows :=
  let '(a, b, c, d) := z in
  let a := add4 a b in let d := xor4 d a in let d := rotate_left_128 d 16 in
  let c := add4 c d in let b := xor4 b c in let b := rotate_left_128 b 12 in
  let a := add4 a b in let d := xor4 d a in let d := rotate_left_128 d 8 in
  let c := add4 c d in let b := xor4 b c in let b := rotate_left_128 b 7 in
  (a, b, c, d).
(** the loop body of x86_64/chacha20.rs:481-521 *)
Definition hdouble (z : rows) : rows :=
  let '(a, b, c, d) := hquarter z in
  let b := shuffle_epi32 b 57 in let c := shuffle_epi32 c 78 in let d := shuffle_epi32 d 147 in
  let '(a, b, c, d) := hquarter (a, b, c, d) in
  let b := shuffle_epi32 b 147 in let c := shuffle_epi32 c 78 in let d := shuffle_epi32 d 57 in
  (a, b, c, d).
(** x86_64/chacha20.rs:469-534  hchacha (also XChaCha20::new, 40-43) *)
Definition xchacha_new_x86 (key nonce : list Z) : chacha_x86 :=
  let '(z03, z47, z8b, zcf) :=
    iter 10 hdouble (four SIGMA_bytes, four (ztake 16 key), four (ztake 16 (zdrop 16 key)), four (ztake 16 nonce)) in
  let chacha_nonce := splice (repeat 0 16) 8 (ztake 8 (zdrop 16 nonce)) in
  {| z07 := (four SIGMA_bytes, z03); z8f := (zcf, four chacha_nonce) |}.
