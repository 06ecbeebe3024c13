(** RFC 8439 (ChaCha20, Poly1305 and the AEAD) and draft-irtf-cfrg-xchacha-03 (HChaCha20, XChaCha20),
    written from the documents, independently of the model. *)
Require Import Verif.Base.

(** ** ChaCha20, RFC 8439 section 2.1 to 2.4 *)
Definition W32 : Z := 2 ^ 32.
Definition plus32 (a b : Z) : Z := (a + b) mod W32.
(** <<< n *)
Definition roll (x n : Z) : Z := (x * 2 ^ n) mod W32 + x / 2 ^ (32 - n).

(** 2.1: one "x += y; z ^= x; z <<<= n" step on a vector of sixteen words *)
Definition step (s : list Z) (x y z : nat) (n : Z) : list Z :=
  let s := upd s x (plus32 (nth x s 0) (nth y s 0)) in
  upd s z (roll (Z.lxor (nth z s 0) (nth x s 0)) n).
(** 2.2 QUARTERROUND(a, b, c, d) *)
Definition QUARTERROUND (s : list Z) (a b c d : nat) : list Z :=
  let s := step s a b d 16 in
  let s := step s c d b 12 in
  let s := step s a b d 8 in
  step s c d b 7.
(** 2.3.1 inner_block *)
Definition inner_block (s : list Z) : list Z :=
  let s := QUARTERROUND s 0 4 8 12 in
  let s := QUARTERROUND s 1 5 9 13 in
  let s := QUARTERROUND s 2 6 10 14 in
  let s := QUARTERROUND s 3 7 11 15 in
  let s := QUARTERROUND s 0 5 10 15 in
  let s := QUARTERROUND s 1 6 11 12 in
  let s := QUARTERROUND s 2 7 8 13 in
  QUARTERROUND s 3 4 9 14.
Fixpoint times (n : nat) (f : list Z -> list Z) (s : list Z) : list Z :=
  match n with O => s | S k => times k f (f s) end.
(** little-endian 32-bit words of a byte string *)
Fixpoint words32 (b : list Z) : list Z :=
  match b with
  | a :: b' :: c :: d :: r => (a + 256 * b' + 65536 * c + 16777216 * d) :: words32 r
  | _ => []
  end.
Definition constants : list Z := [0x61707865; 0x3320646e; 0x79622d32; 0x6b206574].
(** 2.3: the initial state: constants, key, then the 16 bytes counter || nonce *)
Definition init_state (key tail : list Z) : list Z := constants ++ words32 key ++ words32 tail.
Fixpoint add_states (a b : list Z) : list Z :=
  match a, b with x :: a', y :: b' => plus32 x y :: add_states a' b' | _, _ => [] end.
Definition serialize (s : list Z) : list Z := flat_map (le_bytes 4) s.
Definition block_of_state (s : list Z) : list Z := serialize (add_states s (times 10 inner_block s)).
(** chacha20_block(key, counter, nonce) *)
Definition chacha20_block (key : list Z) (counter : Z) (nonce : list Z) : list Z :=
  block_of_state (constants ++ words32 key ++ [counter] ++ words32 nonce).
(** 2.4.1: key stream of n blocks from a counter.  The RFC's counter is a 32-bit number; it does not
    define what happens beyond 2^32 - 1; here it is reduced mod 2^32. *)
Definition key_stream (key : list Z) (counter : Z) (nonce : list Z) (n : nat) : list Z :=
  flat_map (fun j => chacha20_block key ((counter + Z.of_nat j) mod W32) nonce) (seq 0 n).
Definition xor_bytes (a b : list Z) : list Z := map (fun p => Z.lxor (fst p) (snd p)) (combine a b).
(** chacha20_encrypt: as many blocks as needed, the last one truncated *)
Definition chacha20_encrypt (key : list Z) (counter : Z) (nonce plaintext : list Z) : list Z :=
  xor_bytes plaintext (key_stream key counter nonce (Z.to_nat ((zlen plaintext + 63) / 64))).

(** ** HChaCha20 / XChaCha20, draft-irtf-cfrg-xchacha-03 section 2.2, 2.3 *)
Definition hchacha20 (key nonce16 : list Z) : list Z :=
  let s := times 10 inner_block (init_state key nonce16) in
  serialize (firstn 4 s ++ skipn 12 s).

(** ** Poly1305, RFC 8439 section 2.5 *)
Definition P1305 : Z := 2 ^ 130 - 5.
Definition clamp (r : Z) : Z := Z.land r 0x0ffffffc0ffffffc0ffffffc0fffffff.
(** blocks of 16 bytes (last one possibly shorter), each with 0x01 appended, read little-endian *)
Definition poly1305_acc (r : Z) (blocks : list (list Z)) : Z :=
  fold_left (fun a b => ((a + le_val (b ++ [1])) * r) mod P1305) blocks 0.
Definition poly1305_mac (key msg : list Z) : list Z :=
  let r := clamp (le_val (ztake 16 key)) in
  let s := le_val (zdrop 16 key) in
  le_bytes 16 (poly1305_acc r (chunks 16 msg) + s).

(** ** AEAD, RFC 8439 section 2.6, 2.8; parameterised by how (key, nonce) select ChaCha20 inputs *)
Definition pad16 (x : list Z) : list Z := repeat 0 (Z.to_nat ((- zlen x) mod 16)).
Definition poly1305_key_gen (key nonce : list Z) : list Z := ztake 32 (chacha20_block key 0 nonce).
Definition mac_data (aad ct : list Z) : list Z :=
  aad ++ pad16 aad ++ ct ++ pad16 ct ++ le_bytes 8 (zlen aad) ++ le_bytes 8 (zlen ct).
Definition aead_ciphertext (key nonce plaintext : list Z) : list Z := chacha20_encrypt key 1 nonce plaintext.
Definition aead_tag (key nonce aad ct : list Z) : list Z :=
  poly1305_mac (poly1305_key_gen key nonce) (mac_data aad ct).
(** XChaCha20 (draft section 2.3): subkey from the first 16 nonce bytes, nonce 0^4 || last 8 bytes *)
Definition xkey (key nonce24 : list Z) : list Z := hchacha20 key (ztake 16 nonce24).
Definition xnonce (nonce24 : list Z) : list Z := repeat 0 4 ++ zdrop 16 nonce24.
