(** Model of graviola/src/low/x86_64/aes.rs.  An __m128i holding AES data is its 16 bytes in memory
    order.  The AES-NI instructions are given their documented meaning (Intel SDM), which is in terms
    of the FIPS 197 transformations of S_Aes. *)
Require Import Verif.Base Verif.S_Aes.

Definition m128 : Type := list Z.
(** _mm_xor_si128; as in x86_64/aes.rs:176, 277 *)
Definition mm_xor (a b : m128) : m128 := map (fun '(x, y) => Z.lxor x y) (combine a b).
(** 32-bit lane [i] (lane 0 is the first four bytes); register layout behind x86_64/aes.rs:173 *)
Definition lane32 (a : m128) (i : Z) : list Z := ztake 4 (zdrop (4 * i) a).
(** _mm_shuffle_epi32 with the four 2-bit selectors of the immediate, lowest first; x86_64/aes.rs:173, 211, 228 *)
Definition mm_shuffle_epi32 (a : m128) (i0 i1 i2 i3 : Z) : m128 := lane32 a i0 ++ lane32 a i1 ++ lane32 a i2 ++ lane32 a i3.
(** _mm_slli_si128(a, 4): byte shift towards higher addresses; x86_64/aes.rs:175-181 *)
Definition mm_slli4 (a : m128) : m128 := repeat 0 4 ++ ztake 12 a.
(** _mm_aesenc_si128, _mm_aesenclast_si128 (SDM AESENC, AESENCLAST: ShiftRows, SubBytes,
    [MixColumns], xor) *)
Definition aesenc (a rk : m128) : m128 := mm_xor (MixColumns (SubBytes (ShiftRows a))) rk.
(** _mm_aesenclast_si128, the last round of x86_64/aes.rs:287 *)
Definition aesenclast (a rk : m128) : m128 := mm_xor (SubBytes (ShiftRows a)) rk.
(** _mm_aeskeygenassist_si128 (SDM AESKEYGENASSIST) *)
Definition aeskeygenassist (a : m128) (rcon : Z) : m128 :=
  let X1 := lane32 a 1 in
  let X3 := lane32 a 3 in
  SubWord X1 ++ xor_word (RotWord (SubWord X1)) [rcon; 0; 0; 0] ++
  SubWord X3 ++ xor_word (RotWord (SubWord X3)) [rcon; 0; 0; 0].

(** aes.rs:165-188  expand_128! *)
Definition expand_128 (rcon : Z) (t1 : m128) : m128 :=
  let t2 := aeskeygenassist t1 rcon in
  let t2 := mm_shuffle_epi32 t2 3 3 3 3 in
  let t3 := mm_slli4 t1 in
  let t1 := mm_xor t1 t3 in
  let t3 := mm_slli4 t3 in
  let t1 := mm_xor t1 t3 in
  let t3 := mm_slli4 t3 in
  let t1 := mm_xor t1 t3 in
  mm_xor t1 t2.

(** aes.rs:191-206  aes128_expand: out[0] and then one expansion per listed rcon *)
Fixpoint expand_128s (rcons : list Z) (t1 : m128) : list m128 :=
  match rcons with [] => [] | r :: rs => let t1 := expand_128 r t1 in t1 :: expand_128s rs t1 end.
(** aes.rs:191-206  the whole of aes128_expand *)
Definition aes128_expand (key : list Z) : list m128 :=
  key :: expand_128s [0x01; 0x02; 0x04; 0x08; 0x10; 0x20; 0x40; 0x80; 0x1b; 0x36] key.

(** aes.rs:209-225  expand_256!(Odd): the new t1 *)
Definition expand_256_odd (rcon : Z) (t1 t3 : m128) : m128 :=
  let t2 := aeskeygenassist t3 rcon in
  let t2 := mm_shuffle_epi32 t2 3 3 3 3 in
  let u := mm_slli4 t1 in
  let t1 := mm_xor t1 u in
  let u := mm_slli4 u in
  let t1 := mm_xor t1 u in
  let u := mm_slli4 u in
  let t1 := mm_xor t1 u in
  mm_xor t1 t2.
(** aes.rs:226-241  expand_256!(Even): the new t3 *)
Definition expand_256_even (t1 t3 : m128) : m128 :=
  let t4 := aeskeygenassist t1 0 in
  let t2 := mm_shuffle_epi32 t4 2 2 2 2 in
  let t4 := mm_slli4 t3 in
  let t3 := mm_xor t3 t4 in
  let t4 := mm_slli4 t4 in
  let t3 := mm_xor t3 t4 in
  let t4 := mm_slli4 t4 in
  let t3 := mm_xor t3 t4 in
  mm_xor t3 t2.
(** aes.rs:245-271  aes256_expand: alternating odd and even steps, ending with an odd one *)
Fixpoint expand_256s (rcons : list Z) (t1 t3 : m128) : list m128 :=
  match rcons with
  | [] => []
  | [r] => [expand_256_odd r t1 t3]
  | r :: rs =>
      let t1 := expand_256_odd r t1 t3 in
      let t3 := expand_256_even t1 t3 in
      t1 :: t3 :: expand_256s rs t1 t3
  end.
(** aes.rs:245-271  the whole of aes256_expand *)
Definition aes256_expand (key : list Z) : list m128 :=
  let t1 := ztake 16 key in
  let t3 := zdrop 16 key in
  t1 :: t3 :: expand_256s [0x01; 0x02; 0x04; 0x08; 0x10; 0x20; 0x40] t1 t3.

(** aes.rs:12-15  AesKey: the round keys (11 or 15 of them) *)
Definition aes_key : Type := list m128.
(** aes.rs:21-28  AesKey::new; other lengths panic *)
Definition aes_key_new (key : list Z) : res aes_key :=
  if zlen key =? 16 then Ok (aes128_expand key)
  else if zlen key =? 32 then Ok (aes256_expand key)
  else Panic.
(** aes.rs:37-50  round_keys: first, middle, last *)
Definition round_keys (k : aes_key) : m128 * list m128 * m128 := (hd [] k, removelast (tl k), last k []).

(** the code shared by aes128_block/aes256_block (aes.rs:274-313), written out there round by round,
    and by aes_gcm.rs:176-182, 200-206: xor, aesenc with each middle key, aesenclast *)
Definition aes_rounds (rk : m128 * list m128 * m128) (block : m128) : m128 :=
  let '(rk_first, rks, rk_last) := rk in
  aesenclast (fold_left aesenc rks (mm_xor block rk_first)) rk_last.
(** aes.rs:30-35  encrypt_block *)
Definition encrypt_block (k : aes_key) (inout : list Z) : list Z := aes_rounds (round_keys k) inout.
