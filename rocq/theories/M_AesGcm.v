(** Model of graviola/src/low/x86_64/aes_gcm.rs and graviola/src/mid/aes_gcm.rs.  Prefetch hints and the
    Entry guard are dropped.  The 512-bit AES instructions act on the four 128-bit lanes with the round
    keys of key.round_keys() broadcast (aes.rs:53-90), so a 512-bit value is a list of four blocks. *)
Require Import Verif.Base Verif.M_Ct Verif.S_Aes Verif.M_Aes Verif.M_Ghash.

(** aes_gcm.rs:429  Counter: after the BYTESWAP_EPI64 shuffle, the two 64-bit lanes (low, high); each is
    the big-endian value of 8 bytes of the counter block *)
Definition counter : Type := Z * Z.
(** _mm_add_epi32(c, COUNTER_1), COUNTER_1 = 1 << 64 (aes_gcm.rs:454): only 32-bit lane 2 changes *)
Definition add_counter_1 (c : counter) : counter :=
  let '(lo, hi) := c in (lo, hi / 2 ^ 32 * 2 ^ 32 + (hi mod 2 ^ 32 + 1) mod 2 ^ 32).
(** aes_gcm.rs:434-441  Counter::new *)
Definition counter_new (bytes : list Z) : counter :=
  add_counter_1 (be_val (ztake 8 bytes), be_val (ztake 8 (zdrop 8 bytes))).
(** the BYTESWAP_EPI64 shuffle of a counter, stored; x86_64/aes_gcm.rs:447, 470 *)
Definition counter_block (c : counter) : m128 := be_bytes 8 (fst c) ++ be_bytes 8 (snd c).
(** aes_gcm.rs:446-450  Counter::next *)
Definition counter_next (c : counter) : m128 * counter := (counter_block c, add_counter_1 c).
(** n successive calls of next; as in x86_64/aes_gcm.rs:73-80, 397-400 *)
Fixpoint counter_nexts (n : nat) (c : counter) : list m128 * counter :=
  match n with
  | O => ([], c)
  | S n => let '(b, c) := counter_next c in let '(r, c) := counter_nexts n c in (b :: r, c)
  end.

(** aes_gcm.rs:388  Counter512: four counters, lane 0 first *)
Definition counter512 : Type := list counter.
(** a stored block loaded with the BYTESWAP_EPI64 shuffle; x86_64/aes_gcm.rs:403-406 *)
Definition counter_load (b : m128) : counter := (be_val (ztake 8 b), be_val (ztake 8 (zdrop 8 b))).
(** aes_gcm.rs:393-407  Counter512::new *)
Definition counter512_new (bytes : list Z) : counter512 := map counter_load (fst (counter_nexts 4 (counter_new bytes))).
(** aes_gcm.rs:412-414  into_128 *)
Definition into_128 (c : counter512) : counter := hd (0, 0) c.
(** aes_gcm.rs:419-424  next4: _mm512_add_epi64(self.0, COUNTER_512_4), a 64-bit addition per lane *)
Definition next4 (c : counter512) : list m128 * counter512 :=
  (map counter_block c, map (fun '(lo, hi) => (lo, (hi + 4) mod 2 ^ 64)) c).

(** a loop over two sequences in step, as the eight blocks of x86_64/aes_gcm.rs:73-170 *)
Definition map2 {A B C} (f : A -> B -> C) (a : list A) (b : list B) : list C := map (fun '(x, y) => f x y) (combine a b).

(** aes_gcm.rs:175-190, 305-321  one whole block of the tail *)
Definition tail_block (key : aes_key) (st : counter * list Z) (block : list Z) : counter * list Z :=
  let '(ctr, out) := st in
  let '(c1, ctr) := counter_next ctr in
  let c1 := aes_rounds (round_keys key) c1 in
  (ctr, out ++ mm_xor c1 block).

(** aes_gcm.rs:168-223, 298-378  the code after the wide loop, the same in _cipher and _cipher_avx512:
    (accumulator, tail of the buffer) *)
Definition cipher_tail (enc : bool) (key : aes_key) (t : ghash_table) (ctr : counter) (current : Z) (inout : list Z) : Z * list Z :=
  let current := if enc then current else ghash_add t current inout in
  let '(ctr, out) := fold_left (tail_block key) (chunks_exact 16 inout) (ctr, []) in
  let rest := zdrop (16 * (zlen inout / 16)) inout in
  let out :=
    if zlen rest =? 0 then out
    else
      let block := rest ++ repeat 0 (Z.to_nat (16 - zlen rest)) in
      let '(c1, ctr) := counter_next ctr in
      let c1 := aes_rounds (round_keys key) c1 in
      let c1 := mm_xor c1 block in
      out ++ ztake (zlen rest) c1 in
  (if enc then ghash_add t current out else current, out).

(** aes_gcm.rs:67-164  one 128-byte step *)
Definition step8 (enc : bool) (key : aes_key) (t : avx_table) (st : counter * Z * list Z) (blocks : list Z) : counter * Z * list Z :=
  let '(ctr, current, out) := st in
  let '(cs, ctr) := counter_nexts 8 ctr in
  let cs := map (aes_rounds (round_keys key)) cs in
  let ps := chunks_exact 16 blocks in
  let cs := map2 mm_xor cs ps in
  let out := out ++ concat cs in
  let xs := map load_be (if enc then cs else ps) in
  (ctr, mul8 t (xor_first current xs), out).

(** aes_gcm.rs:54-224  _cipher: (accumulator, buffer) *)
Definition cipher (enc : bool) (key : aes_key) (t : ghash_table) (current : Z) (initial_counter aad inout : list Z) : Z * list Z :=
  let current := ghash_add t current aad in
  let ctr := counter_new initial_counter in
  let '(ctr, current, out) := fold_left (step8 enc key (table_avx t)) (chunks_exact 128 inout) (ctr, current, []) in
  let '(current, rest) := cipher_tail enc key t ctr current (zdrop (128 * (zlen inout / 128)) inout) in
  (current, out ++ rest).

(** aes_gcm.rs:250-296  one 256-byte step *)
Definition step16 (enc : bool) (key : aes_key) (t : avx512_table) (st : counter512 * Z * list Z) (blocks : list Z)
    : counter512 * Z * list Z :=
  let '(ctr, current, out) := st in
  let '(c0123, ctr) := next4 ctr in
  let '(c4567, ctr) := next4 ctr in
  let '(c89ab, ctr) := next4 ctr in
  let '(ccdef, ctr) := next4 ctr in
  let aes4 := map (aes_rounds (round_keys key)) in
  let load o := chunks_exact 16 (ztake 64 (zdrop o blocks)) in
  let p0123 := load 0 in
  let p4567 := load 64 in
  let p89ab := load 128 in
  let pcdef := load 192 in
  let c0123 := map2 mm_xor (aes4 c0123) p0123 in
  let c4567 := map2 mm_xor (aes4 c4567) p4567 in
  let c89ab := map2 mm_xor (aes4 c89ab) p89ab in
  let ccdef := map2 mm_xor (aes4 ccdef) pcdef in
  let out := out ++ concat c0123 ++ concat c4567 ++ concat c89ab ++ concat ccdef in
  let swap := map load_be in
  let a0123 := swap (if enc then c0123 else p0123) in
  let a4567 := swap (if enc then c4567 else p4567) in
  let a89ab := swap (if enc then c89ab else p89ab) in
  let acdef := swap (if enc then ccdef else pcdef) in
  let a0123 := xor512 a0123 (lane0_512 current) in
  (ctr, mul16 t a0123 a4567 a89ab acdef, out).

(** aes_gcm.rs:229-379  _cipher_avx512; the table variant was matched by the caller (lines 21-27, 41-47) *)
Definition cipher_avx512 (enc : bool) (key : aes_key) (t : avx512_table) (current : Z) (initial_counter aad inout : list Z) : Z * list Z :=
  let current := ghash_add (Avx512 t) current aad in
  let ctr := counter512_new initial_counter in
  let '(ctr, current, out) := fold_left (step16 enc key t) (chunks_exact 256 inout) (ctr, current, []) in
  let '(current, rest) := cipher_tail enc key (Avx512 t) (into_128 ctr) current (zdrop (256 * (zlen inout / 256)) inout) in
  (current, out ++ rest).

(** aes_gcm.rs:14-51  encrypt and decrypt; 384 AVX512_MINIMUM_CIPHER_LEN *)
Definition low_cipher (enc : bool) (key : aes_key) (t : ghash_table) (current : Z) (initial_counter aad inout : list Z) : Z * list Z :=
  match t with
  | Avx512 t' => if 256 <=? zlen inout then cipher_avx512 enc key t' current initial_counter aad inout
                 else cipher enc key t current initial_counter aad inout
  | Avx _ => cipher enc key t current initial_counter aad inout
  end.

(** mid/aes_gcm.rs:19-22  AesGcm *)
Record aes_gcm := mkGcm { gcm_key : aes_key; gcm_gh : ghash_table }.
(** mid/aes_gcm.rs:30-40  AesGcm::new *)
Definition gcm_new (have512 : bool) (key : list Z) : res aes_gcm :=
  let! key := aes_key_new key in
  let h := encrypt_block key (repeat 0 16) in
  Ok (mkGcm key (ghash_table_new have512 (be_val h))).
(** mid/aes_gcm.rs:129-134  nonce_to_y0 *)
Definition nonce_to_y0 (nonce : list Z) : list Z := upd (splice (repeat 0 16) 0 nonce) 15 1.
(** mid/aes_gcm.rs:68-71, 110-113  the lengths block; len * 8 is a 64-bit product *)
Definition lengths_block (aad inout : list Z) : list Z :=
  be_bytes 8 ((zlen aad * 8) mod 2 ^ 64) ++ be_bytes 8 ((zlen inout * 8) mod 2 ^ 64).
(** the common part of encrypt and decrypt: (buffer, computed tag); mid/aes_gcm.rs:encrypt and decrypt, cited below *)
Definition gcm_run (enc : bool) (g : aes_gcm) (nonce aad inout : list Z) : list Z * list Z :=
  let counter := nonce_to_y0 nonce in
  let e_y0 := encrypt_block (gcm_key g) counter in
  let '(current, out) := low_cipher enc (gcm_key g) (gcm_gh g) ghash_new counter aad inout in
  let current := ghash_add (gcm_gh g) current (lengths_block aad out) in
  let final_xi := ghash_into_bytes current in
  (out, map2 Z.lxor final_xi e_y0).
(** mid/aes_gcm.rs:50-79  encrypt: (cipher_inout, tag_out) afterwards *)
Definition gcm_encrypt (g : aes_gcm) (nonce aad inout : list Z) : list Z * list Z := gcm_run true g nonce aad inout.
(** mid/aes_gcm.rs:93-127  decrypt: (returned Result, buffer afterwards) *)
Definition gcm_decrypt (g : aes_gcm) (nonce aad inout tag : list Z) : res unit * list Z :=
  let '(out, actual_tag) := gcm_run false g nonce aad inout in
  if ct_equal actual_tag tag then (Ok tt, out) else (Err DecryptFailed, repeat 0 (length out)).
