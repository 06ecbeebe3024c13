(** Model of graviola/src/mid/chacha20poly1305.rs and graviola/src/mid/xchacha20poly1305.rs.
    The two files differ only in the stream cipher; so do the portable and the x86_64 builds.  The model is
    therefore written once over a stream cipher and instantiated four times. *)
Require Import Verif.Base Verif.M_Ct Verif.M_ChaCha Verif.M_Poly1305.

(** low::chacha20::{ChaCha20, XChaCha20}: a type of contexts with [new] (key, nonce as given to the AEAD)
    and [cipher] (in-place, returns the new buffer and context); low/x86_64/chacha20.rs:7-48, low/generic/chacha20.rs:5-66 *)
Record stream := { st_ctx : Type; st_new : list Z -> list Z -> st_ctx; st_cipher : st_ctx -> list Z -> list Z * st_ctx }.

(** chacha20poly1305.rs:81-82  the 16-byte nonce: zero counter then the 12-byte nonce *)
Definition full_nonce12 (nonce : list Z) : list Z := splice (repeat 0 16) 4 nonce.
(** generic/chacha20.rs:20-39 behind chacha20poly1305.rs:81-87 *)
Definition chacha_portable : stream :=
  {| st_ctx := chacha; st_new := fun key nonce => chacha_new key (full_nonce12 nonce); st_cipher := cipher_generic |}.
(** x86_64/chacha20.rs:12-34 behind chacha20poly1305.rs:81-87 *)
Definition chacha_avx2 : stream :=
  {| st_ctx := chacha_x86; st_new := fun key nonce => format_key key (full_nonce12 nonce); st_cipher := cipher_x86 |}.
(** generic/chacha20.rs:42-66 behind xchacha20poly1305.rs:84 *)
Definition xchacha_portable : stream := {| st_ctx := chacha; st_new := xchacha_new; st_cipher := cipher_generic |}.
(** x86_64/chacha20.rs:37-48 behind xchacha20poly1305.rs:84 *)
Definition xchacha_avx2 : stream := {| st_ctx := chacha_x86; st_new := xchacha_new_x86; st_cipher := cipher_x86 |}.

(** chacha20poly1305.rs:94-100, xchacha20poly1305.rs:91-97  pad *)
Definition aead_pad (poly : poly1305) (len : Z) : res poly1305 :=
  let pad_len := 16 - Z.land len 0xf in
  if pad_len =? 16 then Ok poly else poly_add_bytes poly (ztake pad_len (repeat 0 16)).

(** chacha20poly1305.rs:73-120, xchacha20poly1305.rs:73-117  cipher: (new cipher_inout, tag_out).
    [as u64] of a usize length is the identity. *)
Definition aead_cipher (s : stream) (key nonce aad inout : list Z) (encrypt : bool) : res (list Z * list Z) :=
  let c := st_new s key nonce in
  let '(polykey, c) := st_cipher s c (repeat 0 32) in
  let! poly := poly_new polykey in
  let! poly := poly_add_bytes poly aad in
  let! poly := aead_pad poly (zlen aad) in
  let! r :=
    if encrypt then
      let '(out, c) := st_cipher s c inout in
      let! poly := poly_add_bytes poly out in
      Ok (out, poly)
    else
      let! poly := poly_add_bytes poly inout in
      let '(out, c) := st_cipher s c inout in
      Ok (out, poly) in
  let '(out, poly) := r in
  let! poly := aead_pad poly (zlen out) in
  let! poly := poly_add_bytes poly (le_bytes 8 (zlen aad)) in
  let! poly := poly_add_bytes poly (le_bytes 8 (zlen out)) in
  let! tag := poly_finish poly in
  Ok (out, tag).

(** chacha20poly1305.rs:30-39, xchacha20poly1305.rs:30-39  encrypt *)
Definition aead_encrypt (s : stream) (key nonce aad inout : list Z) : res (list Z * list Z) :=
  aead_cipher s key nonce aad inout true.

(** chacha20poly1305.rs:53-71, xchacha20poly1305.rs:53-71  decrypt.  The outer [res] only carries panics;
    the pair is (returned Result, buffer afterwards). *)
Definition aead_decrypt (s : stream) (key nonce aad inout tag : list Z) : res (res unit * list Z) :=
  let! r := aead_cipher s key nonce aad inout false in
  let '(out, actual_tag) := r in
  if ct_equal actual_tag tag then Ok (Ok tt, out) else Ok (Err DecryptFailed, repeat 0 (length out)).
