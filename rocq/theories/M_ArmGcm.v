(** Model of graviola/src/low/aarch64/{aes.rs, ghash.rs, aes_gcm.rs}, and of mid/aes_gcm.rs on top of them.
    A uint8x16_t is its 16 bytes (lane 0 first), a uint32x4_t the list of its four lanes (lane 0 first), a uint64x2_t
    used as a field element its 128-bit value (lane 0 low).  The NEON and AES instructions are given their documented
    meaning (Arm ARM), AESE and AESMC in terms of the FIPS 197 transformations of S_Aes.  Prefetch hints and the Entry
    guard are dropped. *)
Require Import Verif.Base Verif.M_Ct Verif.S_Aes Verif.M_Ghash Verif.M_AesGcm.

(** lane or array element [i] (indices in the code are in range; [d] is never used); indexing as in aarch64/aes.rs and aarch64/aes_gcm.rs *)
Definition idx {A} (d : A) (l : list A) (i : Z) : A := nth (Z.to_nat i) l d.
(** veorq_u8 (Arm ARM, EOR (vector)); used in aes.rs:199, 315 and aes_gcm.rs:112-119, 158, 191 *)
Definition veorq_u8 (a b : list Z) : list Z := map2 Z.lxor a b.
(** vaeseq_u8 (Arm ARM, AESE: xor with the key, ShiftRows, SubBytes); used in aes.rs:158, 180-198, 205-219 *)
Definition vaeseq_u8 (a k : list Z) : list Z := SubBytes (ShiftRows (veorq_u8 a k)).
(** vaesmcq_u8 (Arm ARM, AESMC); used in aes.rs:181-197, 206-220 *)
Definition vaesmcq_u8 (a : list Z) : list Z := MixColumns a.
(** vreinterpretq_u8_u32, and a load of u32s as bytes (the target is little-endian); aes.rs:74, 156, aes_gcm.rs:56 *)
Definition vreinterpretq_u8_u32 (l : list Z) : list Z := concat (map (le_bytes 4) l).
(** vreinterpretq_u32_u8; aes.rs:160, aes_gcm.rs:46, 49 *)
Definition vreinterpretq_u32_u8 (l : list Z) : list Z := map le_val (chunks_exact 4 l).
(** vrev32q_u8: reverse the bytes of each 32-bit lane; aes.rs:74, 123, aes_gcm.rs:46-70 *)
Definition vrev32q_u8 (l : list Z) : list Z := concat (map (@rev Z) (chunks_exact 4 l)).
(** vrev64q_u8: reverse the bytes of each 64-bit lane; ghash.rs:340 *)
Definition vrev64q_u8 (l : list Z) : list Z := concat (map (@rev Z) (chunks_exact 8 l)).
(** vaddq_u32: lane-wise, modulo 2^32; aes_gcm.rs:55 *)
Definition vaddq_u32 (a b : list Z) : list Z := map2 (fun x y => (x + y) mod 2 ^ 32) a b.

(** aes.rs:166  RCON *)
Definition arm_RCON : list Z := [0x01; 0x02; 0x04; 0x08; 0x10; 0x20; 0x40; 0x80; 0x1b; 0x36].
(** aes.rs:144-164  sub_word: vdupq_n_u32, AESE with a zero key, lane 0 *)
Definition arm_sub_word (w : Z) : Z :=
  nth 0 (vreinterpretq_u32_u8 (vaeseq_u8 (vreinterpretq_u8_u32 (repeat w 4)) (repeat 0 16))) 0.
(** u32::rotate_left(8), aes.rs:65, 113 *)
Definition arm_rotl8 (w : Z) : Z := rotl 32 w 8.
(** aes.rs:66-68, 115-117  the last three words of a step *)
Definition arm_rest (c0 p1 p2 p3 : Z) : list Z :=
  let c1 := Z.lxor c0 p1 in
  let c2 := Z.lxor c1 p2 in
  let c3 := Z.lxor c2 p3 in
  [c0; c1; c2; c3].
(** aes.rs:63-69  the loop body for r of AesKey128::new; [rk32] is the part of the array already filled, 4r words *)
Definition arm_step128 (rk32 : list Z) (r : Z) : list Z :=
  let prev := ztake 4 (zdrop ((r - 1) * 4) rk32) in
  let c0 := Z.lxor (Z.lxor (arm_sub_word (arm_rotl8 (idx 0 prev 3))) (Z.shiftl (idx 0 arm_RCON (r - 1)) 24 mod 2 ^ 32)) (idx 0 prev 0) in
  rk32 ++ arm_rest c0 (idx 0 prev 1) (idx 0 prev 2) (idx 0 prev 3).
(** aes.rs:106-118  the loop body for r of AesKey256::new *)
Definition arm_step256 (rk32 : list Z) (r : Z) : list Z :=
  let prev := ztake 8 (zdrop ((r - 2) * 4) rk32) in
  let c0 :=
    if Z.land r 1 =? 1 then Z.lxor (arm_sub_word (idx 0 prev 7)) (idx 0 prev 0)
    else Z.lxor (Z.lxor (arm_sub_word (arm_rotl8 (idx 0 prev 7))) (Z.shiftl (idx 0 arm_RCON ((r - 1) / 2)) 24 mod 2 ^ 32)) (idx 0 prev 0) in
  rk32 ++ arm_rest c0 (idx 0 prev 1) (idx 0 prev 2) (idx 0 prev 3).
(** aes.rs:58-61, 97-104  the key as u32 words (from_be_bytes) *)
Definition arm_key_words (key : list Z) : list Z := map be_val (chunks_exact 4 key).
(** aes.rs:71-75, 120-124  the words as round keys *)
Definition arm_round_keys (rk32 : list Z) : list (list Z) :=
  map (fun rk => vrev32q_u8 (vreinterpretq_u8_u32 rk)) (chunks_exact 4 rk32).
(** aes.rs:54-78  AesKey128::new *)
Definition arm_aes128_new (key : list Z) : list (list Z) :=
  arm_round_keys (fold_left arm_step128 [1; 2; 3; 4; 5; 6; 7; 8; 9; 10] (arm_key_words key)).
(** aes.rs:95-127  AesKey256::new *)
Definition arm_aes256_new (key : list Z) : list (list Z) :=
  arm_round_keys (fold_left arm_step256 [2; 3; 4; 5; 6; 7; 8; 9; 10; 11; 12; 13; 14] (arm_key_words key)).
(** aes.rs:15-18, 24-31  AesKey::new (a key is its round keys, 11 or 15 of them); other lengths panic *)
Definition arm_key_new (key : list Z) : res (list (list Z)) :=
  if zlen key =? 16 then Ok (arm_aes128_new key)
  else if zlen key =? 32 then Ok (arm_aes256_new key)
  else Panic.
(** aes.rs:179-200, 287-316  _aes128_block, _aes256_block, written out there round by round: AESE and AESMC with
    all but the last two round keys, AESE with the last but one, xor with the last *)
Fixpoint arm_rounds (rk : list (list Z)) (block : list Z) : list Z :=
  match rk with
  | [] => block
  | [k] => veorq_u8 block k
  | [k; kl] => veorq_u8 (vaeseq_u8 block k) kl
  | k :: r => arm_rounds r (vaesmcq_u8 (vaeseq_u8 block k))
  end.
(** aes.rs:33-38, 80-83, 129-132, 168-175, 276-283  encrypt_block *)
Definition arm_encrypt_block (rk : list (list Z)) (inout : list Z) : list Z := arm_rounds rk inout.

(** vextq_u64(x, x, 1): exchange the lanes; ghash.rs:206, 222, 227, 270, 344 *)
Definition vextq1 (x : Z) : Z := Z.lor (Z.shiftr x 64) (Z.shiftl (x mod 2 ^ 64) 64).
(** ghash.rs:297-305  vmull_p64_fix: carry-less product of lanes 0 *)
Definition vmull_p64_fix (a b : Z) : Z := clmul (half false a) (half false b).
(** ghash.rs:307-315  vmull_high_p64_fix: of lanes 1 *)
Definition vmull_high_p64_fix (a b : Z) : Z := clmul (half true a) (half true b).
(** ghash.rs:348-349 *)
Definition ARM_POLY_HI : Z := 0xc200000000000000c200000000000000.
(** ghash.rs:352-353 *)
Definition ARM_POLY_CARRY_MASK : Z := 0xc2000000000000010000000000000001.

(** vshrq_n_s32(_, 31) on one lane (given as its 32 bits), ghash.rs:289 *)
Definition vshr31 (l : Z) : Z := if Z.testbit l 31 then 2 ^ 32 - 1 else 0.
(** ghash.rs:275-293  gf128_big_endian *)
Definition arm_gf128_big_endian (h : Z) : Z :=
  let t := [lane32z h 0; lane32z h 1; lane32z h 2; lane32z h 3] in
  let a := idx 0 t 3 in
  let c := idx 0 t 1 in
  let d := idx 0 t 0 in
  let t := upd t 3 a in
  let t := upd t 2 c in
  let t := upd t 1 d in
  let t := upd t 0 a in
  let t := map vshr31 t in
  let t := of_lanes (idx 0 t 0) (idx 0 t 1) (idx 0 t 2) (idx 0 t 3) in
  let h := (half false h + half false h) mod 2 ^ 64 + 2 ^ 64 * ((half true h + half true h) mod 2 ^ 64) in
  let t := Z.land ARM_POLY_CARRY_MASK t in
  Z.lxor h t.
(** ghash.rs:269-272  xor_halves *)
Definition arm_xor_halves (h : Z) : Z := Z.lxor (vextq1 h) h.
(** ghash.rs:201-215  mul! *)
Definition arm_mul_acc (acc : Z * Z * Z) (x h hx : Z) : Z * Z * Z :=
  let '(lo, mi, hi) := acc in
  let tlo := vmull_p64_fix x h in
  let lo := Z.lxor tlo lo in
  let xx := vextq1 x in
  let xx := Z.lxor xx x in
  let thi := vmull_high_p64_fix x h in
  let hi := Z.lxor thi hi in
  let tmi := vmull_p64_fix xx hx in
  let mi := Z.lxor tmi mi in
  (lo, mi, hi).
(** ghash.rs:217-233  reduce! *)
Definition arm_reduce (acc : Z * Z * Z) : Z :=
  let '(lo, mi, hi) := acc in
  let mi := Z.lxor mi lo in
  let mi := Z.lxor mi hi in
  let ls := vextq1 lo in
  let lo := vmull_p64_fix ARM_POLY_HI lo in
  let mi := Z.lxor mi ls in
  let mi := Z.lxor mi lo in
  let ms := vextq1 mi in
  let mi := vmull_p64_fix ARM_POLY_HI mi in
  let hi := Z.lxor hi ms in
  let hi := Z.lxor hi mi in
  hi.
(** ghash.rs:179-183, 235-241  mul, _mul *)
Definition arm_mul (a b : Z) : Z :=
  let bx := arm_xor_halves b in
  arm_reduce (arm_mul_acc (0, 0, 0) a b bx).
(** ghash.rs:13-16  GhashTable *)
Record arm_table := mkArmTable { arm_powers : list Z; arm_powers_xor : list Z }.
(** ghash.rs:19-46  GhashTable::new *)
Definition arm_table_new (h : Z) : arm_table :=
  let h := arm_gf128_big_endian h in
  let h2 := arm_mul h h in
  let h3 := arm_mul h2 h in
  let h4 := arm_mul h3 h in
  let h5 := arm_mul h4 h in
  let h6 := arm_mul h5 h in
  let h7 := arm_mul h6 h in
  let h8 := arm_mul h7 h in
  let powers := [h; h2; h3; h4; h5; h6; h7; h8] in
  mkArmTable powers (map arm_xor_halves powers).
(** ghash.rs:185-199, 243-266  mul8, _mul8: a with powers[7], ..., h with powers[0] *)
Definition arm_mul8 (t : arm_table) (xs : list Z) : Z :=
  let p i := idx 0 (arm_powers t) i in
  let px i := idx 0 (arm_powers_xor t) i in
  let x i := idx 0 xs i in
  let acc := arm_mul_acc (0, 0, 0) (x 0) (p 7) (px 7) in
  let acc := arm_mul_acc acc (x 1) (p 6) (px 6) in
  let acc := arm_mul_acc acc (x 2) (p 5) (px 5) in
  let acc := arm_mul_acc acc (x 3) (p 4) (px 4) in
  let acc := arm_mul_acc acc (x 4) (p 3) (px 3) in
  let acc := arm_mul_acc acc (x 5) (p 2) (px 2) in
  let acc := arm_mul_acc acc (x 6) (p 1) (px 1) in
  let acc := arm_mul_acc acc (x 7) (p 0) (px 0) in
  arm_reduce acc.
(** ghash.rs:109-113  one_block (the block as its u128) *)
Definition arm_one_block (t : arm_table) (current block : Z) : Z :=
  arm_mul (Z.lxor current block) (idx 0 (arm_powers t) 0).
(** ghash.rs:122-147  eight_blocks (the blocks as u128s); the first is xored with the accumulator *)
Definition arm_eight_blocks (t : arm_table) (current : Z) (bs : list Z) : Z :=
  arm_mul8 t (Z.lxor current (idx 0 bs 0) :: tl bs).
(** ghash.rs:335-345  to_uint64x2_be *)
Definition to_uint64x2_be (u : list Z) : Z := vextq1 (le_val (vrev64q_u8 u)).
(** ghash.rs:115-120  add_block *)
Definition arm_add_block (t : arm_table) (current : Z) (block : list Z) : Z :=
  arm_mul (Z.lxor current (to_uint64x2_be block)) (idx 0 (arm_powers t) 0).
(** ghash.rs:149-176  add_eight_blocks *)
Definition arm_add_eight_blocks (t : arm_table) (current : Z) (bs : list (list Z)) : Z :=
  arm_mul8 t (Z.lxor current (to_uint64x2_be (idx [] bs 0)) :: map to_uint64x2_be (tl bs)).
(** ghash.rs:72-103  Ghash::add, as a function of the accumulator *)
Definition arm_ghash_add (t : arm_table) (current : Z) (bytes : list Z) : Z :=
  let current := fold_left (fun c chunk8 => arm_eight_blocks t c (map be_val (chunks_exact 16 chunk8))) (chunks_exact 128 bytes) current in
  let bytes := zdrop (128 * (zlen bytes / 128)) bytes in
  let current := fold_left (fun c chunk => arm_one_block t c (be_val chunk)) (chunks_exact 16 bytes) current in
  let bytes := zdrop (16 * (zlen bytes / 16)) bytes in
  if zlen bytes =? 0 then current
  else arm_one_block t current (be_val (splice (repeat 0 16) 0 bytes)).
(** ghash.rs:62-67  Ghash::new *)
Definition arm_ghash_new : Z := 0.
(** ghash.rs:105-107  into_bytes *)
Definition arm_into_bytes (current : Z) : list Z := be_bytes 16 current.

(** aes_gcm.rs:43-46  the counter, as loaded *)
Definition arm_counter_new (initial_counter : list Z) : list Z := vreinterpretq_u32_u8 (vrev32q_u8 initial_counter).
(** aes_gcm.rs:48-49  inc: byte 15 is 1 *)
Definition arm_inc : list Z := vreinterpretq_u32_u8 (vrev32q_u8 (upd (repeat 0 16) 15 1)).
(** aes_gcm.rs:55-56, 144-145, 177-178  the next counter and its block *)
Definition arm_next (counter : list Z) : list Z * list Z :=
  let counter := vaddq_u32 counter arm_inc in
  (vrev32q_u8 (vreinterpretq_u8_u32 counter), counter).
(** aes_gcm.rs:55-70  n successive times *)
Fixpoint arm_nexts (n : nat) (counter : list Z) : list (list Z) * list Z :=
  match n with
  | O => ([], counter)
  | S n => let '(b, counter) := arm_next counter in let '(r, counter) := arm_nexts n counter in (b :: r, counter)
  end.
(** aes_gcm.rs:53-134  one 128-byte step: state is (counter, accumulator, output so far).  _aes128_8_blocks and
    _aes256_8_blocks (aes.rs:202-274, 318-372) apply the rounds of _aes128_block / _aes256_block to each block. *)
Definition arm_step8 (enc : bool) (rk : list (list Z)) (t : arm_table) (st : list Z * Z * list Z) (cipher8 : list Z) : list Z * Z * list Z :=
  let '(counter, current, out) := st in
  let '(bs, counter) := arm_nexts 8 counter in
  let bs := map (arm_rounds rk) bs in
  let as_ := chunks_exact 16 cipher8 in
  let current := if enc then current else arm_add_eight_blocks t current as_ in
  let bs := map2 veorq_u8 as_ bs in
  let out := out ++ concat bs in
  let current := if enc then arm_add_eight_blocks t current bs else current in
  (counter, current, out).
(** aes_gcm.rs:138-164  one whole block *)
Definition arm_single (enc : bool) (rk : list (list Z)) (t : arm_table) (st : list Z * Z * list Z) (input_block : list Z) : list Z * Z * list Z :=
  let '(counter, current, out) := st in
  let current := if enc then current else arm_add_block t current input_block in
  let '(block, counter) := arm_next counter in
  let block := arm_rounds rk block in
  let block := veorq_u8 input_block block in
  let out := out ++ block in
  let current := if enc then arm_add_block t current block else current in
  (counter, current, out).
(** aes_gcm.rs:166-200  the rest, shorter than a block: (accumulator, output) *)
Definition arm_last (enc : bool) (rk : list (list Z)) (t : arm_table) (counter : list Z) (current : Z) (rest : list Z) : Z * list Z :=
  if zlen rest =? 0 then (current, [])
  else
    let current := if enc then current else arm_ghash_add t current rest in
    let cipher := splice (repeat 0 16) 0 rest in
    let '(block, counter) := arm_next counter in
    let block := arm_rounds rk block in
    let block := veorq_u8 cipher block in
    let out := ztake (zlen rest) block in
    (if enc then arm_ghash_add t current out else current, out).
(** aes_gcm.rs:10-201  encrypt, decrypt and _cipher: (accumulator, buffer) *)
Definition arm_cipher (enc : bool) (rk : list (list Z)) (t : arm_table) (current : Z) (initial_counter aad inout : list Z) : Z * list Z :=
  let current := arm_ghash_add t current aad in
  let counter := arm_counter_new initial_counter in
  let '(counter, current, out) := fold_left (arm_step8 enc rk t) (chunks_exact 128 inout) (counter, current, []) in
  let inout := zdrop (128 * (zlen inout / 128)) inout in
  let '(counter, current, out) := fold_left (arm_single enc rk t) (chunks_exact 16 inout) (counter, current, out) in
  let '(current, rest) := arm_last enc rk t counter current (zdrop (16 * (zlen inout / 16)) inout) in
  (current, out ++ rest).

(** mid/aes_gcm.rs:19-22  AesGcm on aarch64 *)
Record arm_gcm := mkArmGcm { arm_gcm_key : list (list Z); arm_gcm_gh : arm_table }.
(** mid/aes_gcm.rs:30-40  AesGcm::new *)
Definition arm_gcm_new (key : list Z) : res arm_gcm :=
  let! key := arm_key_new key in
  let h := arm_encrypt_block key (repeat 0 16) in
  Ok (mkArmGcm key (arm_table_new (be_val h))).
(** mid/aes_gcm.rs:57-78, 100-118  the common part of encrypt and decrypt: (buffer, computed tag).  nonce_to_y0 and the
    lengths block are those of M_AesGcm. *)
Definition arm_gcm_run (enc : bool) (g : arm_gcm) (nonce aad inout : list Z) : list Z * list Z :=
  let counter := nonce_to_y0 nonce in
  let e_y0 := arm_encrypt_block (arm_gcm_key g) counter in
  let '(current, out) := arm_cipher enc (arm_gcm_key g) (arm_gcm_gh g) arm_ghash_new counter aad inout in
  let current := arm_ghash_add (arm_gcm_gh g) current (lengths_block aad out) in
  let final_xi := arm_into_bytes current in
  (out, map2 Z.lxor final_xi e_y0).
(** mid/aes_gcm.rs:50-79  encrypt: (cipher_inout, tag_out) afterwards *)
Definition arm_gcm_encrypt (g : arm_gcm) (nonce aad inout : list Z) : list Z * list Z := arm_gcm_run true g nonce aad inout.
(** mid/aes_gcm.rs:93-127  decrypt: (returned Result, buffer afterwards) *)
Definition arm_gcm_decrypt (g : arm_gcm) (nonce aad inout tag : list Z) : res unit * list Z :=
  let '(out, actual_tag) := arm_gcm_run false g nonce aad inout in
  if ct_equal actual_tag tag then (Ok tt, out) else (Err DecryptFailed, repeat 0 (length out)).
