(** Model of graviola/src/mid/sha2.rs and low/generic/{sha256,sha512}.rs.
    SHA-256 and SHA-512 share their shape; [sha2_params] carries the differences. *)
Require Import Verif.Base Verif.M_Blockwise.

(** The per-algorithm constants and the macros BSIG0.. of sha256.rs:16-38 / sha512.rs:16-38. *)
Record sha2_params := {
  p_w : Z;                 (* word size in bits: u32 / u64 *)
  p_rounds : nat;          (* sha256.rs:53 / sha512.rs:53 *)
  p_bsig0 : Z -> Z; p_bsig1 : Z -> Z; p_ssig0 : Z -> Z; p_ssig1 : Z -> Z;
  p_K : list Z;            (* sha256.rs:107-116 / sha512.rs:107-188 *)
  p_lenbytes : nat;        (* bytes of the length field: sha2.rs:66-69 u64 / 199 u128 *)
  p_limit : Z }.           (* bit lengths >= this panic: sha2.rs:63-65 / 195-197 *)

(** sha256.rs:4-14 CH!, MAJ! (same text in sha512.rs:4-14) *)
Definition CH (w x y z : Z) : Z := Z.lxor (Z.land x y) (Z.land (wnot w x) z).
(** sha256.rs:10-14 *)
Definition MAJ (x y z : Z) : Z := Z.lxor (Z.lxor (Z.land x y) (Z.land x z)) (Z.land y z).

(** the working variables a..h; generic/sha256.rs:40-50, sha512.rs:40-50 *)
Definition regs := (Z * Z * Z * Z * Z * Z * Z * Z)%type.

Section Compress.
  Context (P : sha2_params).
  (** bits per word: u32 in sha256.rs, u64 in sha512.rs *)
  Let w := p_w P.
  (** bytes per word; sha256.rs:40-60, sha512.rs:40-60 *)
  Let wb := p_w P / 8.

  (** sha256.rs:60-71 / sha512.rs:60-71: w_t and the 16-word window *)
  Definition sched_step (block : list Z) (win : list Z) (t : nat) : Z * list Z :=
    if (t <? 16)%nat then
      let w_t := be_val (ztake wb (zdrop (Z.of_nat t * wb) block)) in
      (w_t, upd win t w_t)
    else
      let w_t := wadd w (wadd w (wadd w (p_ssig1 P (znth win ((t - 2) mod 16)))
                   (znth win ((t - 7) mod 16))) (p_ssig0 P (znth win ((t - 15) mod 16))))
                   (znth win ((t - 16) mod 16)) in
      (w_t, upd win (t mod 16) w_t).

  (** sha256.rs:73-87 / sha512.rs:73-87 *)
  Definition round_step (s : regs) (k w_t : Z) : regs :=
    let '(a, b, c, d, e, f, g, h) := s in
    let t1 := wadd w (wadd w (wadd w (wadd w h (p_bsig1 P e)) (CH w e f g)) k) w_t in
    let t2 := wadd w (p_bsig0 P a) (MAJ a b c) in
    (wadd w t1 t2, a, b, c, wadd w d t1, e, f, g).

  (** loop body, sha256.rs:53-88 / sha512.rs:53-88 *)
  Definition loop_step (block : list Z) (sw : regs * list Z) (t : nat) : regs * list Z :=
    let '(s, win) := sw in
    let '(w_t, win) := sched_step block win t in
    (round_step s (znth (p_K P) t) w_t, win).

  (** sha256_compress_block sha256.rs:40-97 / sha512_compress_block sha512.rs:40-97 *)
  Definition compress_block (state : regs) (block : list Z) : regs :=
    let '(s, _) := fold_left (loop_step block) (seq 0 (p_rounds P)) (state, repeat 0 16) in
    let '(a, b, c, d, e, f, g, h) := s in
    let '(a0, b0, c0, d0, e0, f0, g0, h0) := state in
    (wadd w a0 a, wadd w b0 b, wadd w c0 c, wadd w d0 d,
     wadd w e0 e, wadd w f0 f, wadd w g0 g, wadd w h0 h).

  (** sha256.rs:99-105 / sha512.rs:99-105 compress_blocks *)
  Definition block_sz : Z := 16 * wb.   (* sha2.rs:88 / 218 *)
  Definition compress_blocks (state : regs) (blocks : list Z) : regs :=
    fold_left compress_block (chunks_exact block_sz blocks) state.
End Compress.

(** Sha256Context / Sha512Context (sha2.rs:13-17, 139-143), generic in the block compression
    function [low::shaNNN_compress_blocks] (sha2.rs:82, 212) and its state. *)
Record sha_ctx (S : Type) := { sc_h : S; sc_bw : blockwise; sc_nblocks : Z }.
Arguments sc_h {S} _.
Arguments sc_bw {S} _.
Arguments sc_nblocks {S} _.

Section Ctx.
  Context {S : Type} (compress : S -> list Z -> S) (N : Z) (iv : S).
  Context (lenbytes : nat) (limit : Z) (output : S -> list Z).

  (** sha2.rs:21-30 / 147-162 new *)
  Definition ctx_new : sha_ctx S := {| sc_h := iv; sc_bw := bw_new N; sc_nblocks := 0 |}.

  (** sha2.rs:79-85 / 209-215 update_blocks *)
  Definition ctx_update_blocks (c : sha_ctx S) (blocks : list Z) : sha_ctx S :=
    if zlen blocks =? 0 then c
    else {| sc_h := compress (sc_h c) blocks; sc_bw := sc_bw c;
            sc_nblocks := Z.min USIZE_MAX (sc_nblocks c + zlen blocks / N) |}.

  (** assignment to the blockwise field, sha2.rs:33-52 / 165-185 *)
  Definition with_bw (c : sha_ctx S) (b : blockwise) : sha_ctx S :=
    {| sc_h := sc_h c; sc_bw := b; sc_nblocks := sc_nblocks c |}.

  (** sha2.rs:33-53 / 165-185 update *)
  Definition ctx_update (c : sha_ctx S) (bytes : list Z) : res (sha_ctx S) :=
    if (bw_used (sc_bw c) =? 0) && (zlen bytes mod N =? 0)
    then Ok (ctx_update_blocks c bytes)
    else
      let '(bw, bytes) := bw_add_leading N (sc_bw c) bytes in
      let '(blk, bw) := bw_take N bw in
      let c := with_bw c bw in
      let c := match blk with Some block => ctx_update_blocks c block | None => c end in
      let whole_len := zlen bytes - Z.land (zlen bytes) (N - 1) in
      let c := ctx_update_blocks c (ztake whole_len bytes) in
      let! bw := bw_add_trailing N (sc_bw c) (zdrop whole_len bytes) in
      Ok (with_bw c bw).

  (** sha2.rs:56-77 / 188-207 finish; [limit] is the value at which [checked_mul(8)] fails *)
  Definition ctx_finish (c : sha_ctx S) : res (list Z) :=
    let bytes := sc_nblocks c * N in
    if USIZE_MAX <? bytes then Panic
    else let bytes := bytes + bw_used (sc_bw c) in
    if USIZE_MAX <? bytes then Panic
    else if limit <=? bytes * 8 then Panic
    else
      let! (last, bw) := bw_md_pad_with_length N (sc_bw c) (be_bytes lenbytes (bytes * 8)) in
      let c := ctx_update_blocks (with_bw c bw) last in
      Ok (output (sc_h c)).
End Ctx.

(** sha2.rs:72-76 / 202-206: words to big-endian bytes *)
Definition regs_bytes (wb : nat) (s : regs) : list Z :=
  let '(a, b, c, d, e, f, g, h) := s in
  flat_map (be_bytes wb) [a; b; c; d; e; f; g; h].

(** sha256.rs:107-116 *)
Definition K256 : list Z :=
   [0x428a2f98; 0x71374491; 0xb5c0fbcf; 0xe9b5dba5; 0x3956c25b; 0x59f111f1; 0x923f82a4; 0xab1c5ed5;
    0xd807aa98; 0x12835b01; 0x243185be; 0x550c7dc3; 0x72be5d74; 0x80deb1fe; 0x9bdc06a7; 0xc19bf174;
    0xe49b69c1; 0xefbe4786; 0x0fc19dc6; 0x240ca1cc; 0x2de92c6f; 0x4a7484aa; 0x5cb0a9dc; 0x76f988da;
    0x983e5152; 0xa831c66d; 0xb00327c8; 0xbf597fc7; 0xc6e00bf3; 0xd5a79147; 0x06ca6351; 0x14292967;
    0x27b70a85; 0x2e1b2138; 0x4d2c6dfc; 0x53380d13; 0x650a7354; 0x766a0abb; 0x81c2c92e; 0x92722c85;
    0xa2bfe8a1; 0xa81a664b; 0xc24b8b70; 0xc76c51a3; 0xd192e819; 0xd6990624; 0xf40e3585; 0x106aa070;
    0x19a4c116; 0x1e376c08; 0x2748774c; 0x34b0bcb5; 0x391c0cb3; 0x4ed8aa4a; 0x5b9cca4f; 0x682e6ff3;
    0x748f82ee; 0x78a5636f; 0x84c87814; 0x8cc70208; 0x90befffa; 0xa4506ceb; 0xbef9a3f7; 0xc67178f2].

(** sha512.rs:107-188 *)
Definition K512 : list Z :=
   [0x428a2f98d728ae22; 0x7137449123ef65cd; 0xb5c0fbcfec4d3b2f; 0xe9b5dba58189dbbc;
    0x3956c25bf348b538; 0x59f111f1b605d019; 0x923f82a4af194f9b; 0xab1c5ed5da6d8118;
    0xd807aa98a3030242; 0x12835b0145706fbe; 0x243185be4ee4b28c; 0x550c7dc3d5ffb4e2;
    0x72be5d74f27b896f; 0x80deb1fe3b1696b1; 0x9bdc06a725c71235; 0xc19bf174cf692694;
    0xe49b69c19ef14ad2; 0xefbe4786384f25e3; 0x0fc19dc68b8cd5b5; 0x240ca1cc77ac9c65;
    0x2de92c6f592b0275; 0x4a7484aa6ea6e483; 0x5cb0a9dcbd41fbd4; 0x76f988da831153b5;
    0x983e5152ee66dfab; 0xa831c66d2db43210; 0xb00327c898fb213f; 0xbf597fc7beef0ee4;
    0xc6e00bf33da88fc2; 0xd5a79147930aa725; 0x06ca6351e003826f; 0x142929670a0e6e70;
    0x27b70a8546d22ffc; 0x2e1b21385c26c926; 0x4d2c6dfc5ac42aed; 0x53380d139d95b3df;
    0x650a73548baf63de; 0x766a0abb3c77b2a8; 0x81c2c92e47edaee6; 0x92722c851482353b;
    0xa2bfe8a14cf10364; 0xa81a664bbc423001; 0xc24b8b70d0f89791; 0xc76c51a30654be30;
    0xd192e819d6ef5218; 0xd69906245565a910; 0xf40e35855771202a; 0x106aa07032bbd1b8;
    0x19a4c116b8d2d0c8; 0x1e376c085141ab53; 0x2748774cdf8eeb99; 0x34b0bcb5e19b48a8;
    0x391c0cb3c5c95a63; 0x4ed8aa4ae3418acb; 0x5b9cca4f7763e373; 0x682e6ff3d6b2b8a3;
    0x748f82ee5defb2fc; 0x78a5636f43172f60; 0x84c87814a1f0ab72; 0x8cc702081a6439ec;
    0x90befffa23631e28; 0xa4506cebde82bde9; 0xbef9a3f7b2c67915; 0xc67178f2e372532b;
    0xca273eceea26619c; 0xd186b8c721c0c207; 0xeada7dd6cde0eb1e; 0xf57d4f7fee6ed178;
    0x06f067aa72176fba; 0x0a637dc5a2c898a6; 0x113f9804bef90dae; 0x1b710b35131c471b;
    0x28db77f523047d84; 0x32caab7b40c72493; 0x3c9ebe0a15c9bebc; 0x431d67c49c100d4c;
    0x4cc5d4becb3e42b6; 0x597f299cfc657e2a; 0x5fcb6fab3ad6faec; 0x6c44198c4a475817].

(** sha256.rs:16-38 *)
Definition sha256_params : sha2_params := {|
  p_w := 32; p_rounds := 64;
  p_bsig0 := fun x => Z.lxor (Z.lxor (rotr 32 x 2) (rotr 32 x 13)) (rotr 32 x 22);
  p_bsig1 := fun x => Z.lxor (Z.lxor (rotr 32 x 6) (rotr 32 x 11)) (rotr 32 x 25);
  p_ssig0 := fun x => Z.lxor (Z.lxor (rotr 32 x 7) (rotr 32 x 18)) (Z.shiftr x 3);
  p_ssig1 := fun x => Z.lxor (Z.lxor (rotr 32 x 17) (rotr 32 x 19)) (Z.shiftr x 10);
  p_K := K256;
  p_lenbytes := 8; p_limit := 2 ^ 64 |}.

(** sha512.rs:16-38 *)
Definition sha512_params : sha2_params := {|
  p_w := 64; p_rounds := 80;
  p_bsig0 := fun x => Z.lxor (Z.lxor (rotr 64 x 28) (rotr 64 x 34)) (rotr 64 x 39);
  p_bsig1 := fun x => Z.lxor (Z.lxor (rotr 64 x 14) (rotr 64 x 18)) (rotr 64 x 41);
  p_ssig0 := fun x => Z.lxor (Z.lxor (rotr 64 x 1) (rotr 64 x 8)) (Z.shiftr x 7);
  p_ssig1 := fun x => Z.lxor (Z.lxor (rotr 64 x 19) (rotr 64 x 61)) (Z.shiftr x 6);
  p_K := K512;
  p_lenbytes := 16; p_limit := 2 ^ 128 |}.

(** sha2.rs:23-26 *)
Definition sha256_iv : regs :=
  (0x6a09e667, 0xbb67ae85, 0x3c6ef372, 0xa54ff53a, 0x510e527f, 0x9b05688c, 0x1f83d9ab, 0x5be0cd19).
(** sha2.rs:105-114 *)
Definition sha384_iv : regs :=
  (0xcbbb9d5dc1059ed8, 0x629a292a367cd507, 0x9159015a3070dd17, 0x152fecd8f70e5939,
   0x67332667ffc00b31, 0x8eb44a8768581511, 0xdb0c2e0d64f98fa7, 0x47b5481dbefa4fa4).
(** sha2.rs:149-158 *)
Definition sha512_iv : regs :=
  (0x6a09e667f3bcc908, 0xbb67ae8584caa73b, 0x3c6ef372fe94f82b, 0xa54ff53a5f1d36f1,
   0x510e527fade682d1, 0x9b05688c2b3e6c1f, 0x1f83d9abfb41bd6b, 0x5be0cd19137e2179).

(** ** The public hash interface (high/hash.rs:111-127, 143-300): one record per algorithm.
    Simplified: the HashOutput enum (hash.rs:13-20) is its byte slice; HashBlock is [zeroed_block]. *)
Record hash_alg := {
  ha_ctx : Type;
  ha_new : ha_ctx;                                   (* Hash::new *)
  ha_update : ha_ctx -> list Z -> res ha_ctx;        (* HashContext::update *)
  ha_finish : ha_ctx -> res (list Z);                (* HashContext::finish *)
  ha_block : Z;                                      (* zeroed_block().len() *)
  ha_out : Z }.                                      (* zeroed_output().len() *)

(** high/hash.rs Hash::hash, e.g. 154-158 *)
Definition hash_oneshot (H : hash_alg) (bytes : list Z) : res (list Z) :=
  let! c := ha_update H (ha_new H) bytes in ha_finish H c.

(** high/hash.rs:147-184 *)
Definition Sha256 : hash_alg := {|
  ha_ctx := sha_ctx regs;
  ha_new := ctx_new 64 sha256_iv;
  ha_update := ctx_update (compress_blocks sha256_params) 64;
  ha_finish := ctx_finish (compress_blocks sha256_params) 64 8 (2^64) (regs_bytes 4);
  ha_block := 64; ha_out := 32 |}.
(** high/hash.rs:190-227, sha2.rs:122-131 *)
Definition Sha384 : hash_alg := {|
  ha_ctx := sha_ctx regs;
  ha_new := ctx_new 128 sha384_iv;
  ha_update := ctx_update (compress_blocks sha512_params) 128;
  ha_finish := fun c => let! o := ctx_finish (compress_blocks sha512_params) 128 16 (2^128) (regs_bytes 8) c in
                        Ok (ztake 48 o);
  ha_block := 128; ha_out := 48 |}.
(** high/hash.rs:233-270 *)
Definition Sha512 : hash_alg := {|
  ha_ctx := sha_ctx regs;
  ha_new := ctx_new 128 sha512_iv;
  ha_update := ctx_update (compress_blocks sha512_params) 128;
  ha_finish := ctx_finish (compress_blocks sha512_params) 128 16 (2^128) (regs_bytes 8);
  ha_block := 128; ha_out := 64 |}.
