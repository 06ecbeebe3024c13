(** Model of graviola/src/mid/sha3.rs: SHA3-256/512, SHAKE128/256 and the multi-way variants used
    by ML-KEM.  The Keccak-f[1600] permutation itself is assembly (sha3_keccak_f1600 and friends):
    it is the parameter [kf], called with the state and the round-constant table. *)
Require Import Verif.Base Verif.M_Blockwise.

(** sha3.rs:438-463  RC *)
Definition RC : list Z :=
  [0x0000000000000001; 0x0000000000008082; 0x800000000000808A; 0x8000000080008000;
   0x000000000000808B; 0x0000000080000001; 0x8000000080008081; 0x8000000000008009;
   0x000000000000008A; 0x0000000000000088; 0x0000000080008009; 0x000000008000000A;
   0x000000008000808B; 0x800000000000008B; 0x8000000000008089; 0x8000000000008003;
   0x8000000000008002; 0x8000000000000080; 0x000000000000800A; 0x800000008000000A;
   0x8000000080008081; 0x8000000000008080; 0x0000000080000001; 0x8000000080008008].

(** sha3.rs:465-471 *)
Definition SHAKE_128_R_BYTES : Z := (1600 - 256) / 8.
(** sha3.rs:468 *)
Definition SHAKE_256_R_BYTES : Z := (1600 - 512) / 8.
(** sha3.rs:470 *)
Definition SHA3_256_R_BYTES : Z := (1600 - 512) / 8.
(** sha3.rs:471 *)
Definition SHA3_512_R_BYTES : Z := (1600 - 1024) / 8.
(** sha3.rs:465 *)
Definition R_ZEROES : list Z := repeat 0 (Z.to_nat SHAKE_128_R_BYTES).
(** sha3.rs:477 and 483 *)
Definition SHA_PAD_BYTE : Z := 0x06.
(** sha3.rs:483 *)
Definition SHAKE_PAD_BYTE : Z := 0x1f.

(** sha3.rs:374-377  Sponge: the 25-word state and the partial block *)
Record sponge := { sp_s : list Z; sp_buffer : blockwise }.

(** sha3.rs:380-385  Sponge::new *)
Definition sponge_new (R : Z) : sponge := {| sp_s := repeat 0 25; sp_buffer := bw_new R |}.

(** sha3.rs:431-433  xor consecutive words into the state ([s[i]] cannot be out of range: the rates
    are at most 168 bytes, 21 words) *)
Fixpoint xor_words (s ws : list Z) : list Z :=
  match s, ws with
  | x :: s', w :: ws' => Z.lxor x w :: xor_words s' ws'
  | _, _ => s
  end.

(** sha3.rs:232-236  squeeze_current into a buffer of [n] bytes; [self.s[i]] panics past word 24 *)
Fixpoint squeeze_current (s : list Z) (n : Z) : res (list Z) :=
  if n <=? 0 then Ok []
  else match s with
       | [] => Panic
       | w :: s' => let! r := squeeze_current s' (n - 8) in Ok (ztake (Z.min 8 n) (le_bytes 8 w) ++ r)
       end.

(** sha3.rs:151-153 (and 157, 163, 169, 188, 194, 287, 293, 299, 305): overwrite leading words *)
Fixpoint set_words (s ws : list Z) : list Z :=
  match s, ws with
  | _ :: s', w :: ws' => w :: set_words s' ws'
  | _, _ => s
  end.

(** a little-endian decoding of whole 8-byte pieces: [chunks_exact(8)] + [u64::from_le_bytes]; sha3.rs:430-436 *)
Definition le_words (b : list Z) : list Z := map le_val (chunks_exact 8 b).

Section Keccak.
(** low: sha3_keccak_f1600(state, rc) *)
Variable kf : list Z -> list Z -> list Z.
(** low: sha3_keccak4_f1600(states, rc) and sha3_keccak2of4_f1600(states, rc) on four states *)
Variable kf4 kf2of4 : list (list Z) -> list Z -> list (list Z).

(** sha3.rs:430-435  absorb_block *)
Definition absorb_block (s block : list Z) : list Z := kf (xor_words s (le_words block)) RC.

(** sha3.rs:395-408  absorb *)
Definition absorb (R : Z) (sp : sponge) (bytes : list Z) : res sponge :=
  let '(bw, bytes) := bw_add_leading R (sp_buffer sp) bytes in
  let '(blk, bw) := bw_take R bw in
  let s := match blk with Some block => absorb_block (sp_s sp) block | None => sp_s sp end in
  let s := fold_left absorb_block (chunks_exact R bytes) s in
  let! bw := bw_add_trailing R bw (zdrop (zlen bytes / R * R) bytes) in
  Ok {| sp_s := s; sp_buffer := bw |}.

(** sha3.rs:411-428  absorb_final; [R - used] cannot underflow as used <= R *)
Definition absorb_final (R PAD : Z) (sp : sponge) : res (list Z) :=
  let n := R - bw_used (sp_buffer sp) in
  let! bw :=
    if n =? 1 then Ok (fst (bw_add_leading R (sp_buffer sp) [Z.lor PAD 0x80]))
    else if n =? 2 then Ok (fst (bw_add_leading R (sp_buffer sp) [PAD; 0x80]))
    else
      let! bw := bw_add R (sp_buffer sp) [PAD] in
      if (n - 2 <? 0) || (zlen R_ZEROES <? n - 2) then Panic
      else
        let bw := fst (bw_add_leading R bw (ztake (n - 2) R_ZEROES)) in
        Ok (fst (bw_add_leading R bw [0x80])) in
  match bw_take R bw with
  | (Some padded, _) => Ok (absorb_block (sp_s sp) padded)
  | (None, _) => Panic
  end.

(** absorbing a list of pieces: repeated [update] calls, or the loop at sha3.rs:389-391 *)
Fixpoint absorbs (R : Z) (sp : sponge) (message : list (list Z)) : res sponge :=
  match message with
  | [] => Ok sp
  | m :: ms => let! sp := absorb R sp m in absorbs R sp ms
  end.

(** sha3.rs:387-393  new_for_message *)
Definition new_for_message (R PAD : Z) (message : list (list Z)) : res (list Z) :=
  let! sp := absorbs R (sponge_new R) message in absorb_final R PAD sp.

(** sha3.rs:219-224  squeeze into a buffer of [n] bytes; one iteration per chunk of at most R bytes
    ([fuel] iterations at most; [n] suffice) *)
Fixpoint squeeze_loop (fuel : nat) (R : Z) (s : list Z) (n : Z) : res (list Z * list Z) :=
  if n <=? 0 then Ok ([], s)
  else match fuel with
       | O => Panic
       | S fuel =>
           let! out := squeeze_current s (Z.min R n) in
           let s := kf s RC in
           let! (rest, s) := squeeze_loop fuel R s (n - R) in
           Ok (out ++ rest, s)
       end.
(** sha3.rs:219-224 *)
Definition squeeze (R : Z) (s : list Z) (n : Z) : res (list Z * list Z) := squeeze_loop (Z.to_nat n) R s n.

(** sha3.rs:227-230  into_single_squeeze; the debug_assert is a panic in debug builds *)
Definition into_single_squeeze (R : Z) (s : list Z) (n : Z) : res (list Z) :=
  if n <? R then squeeze_current s n else Panic.

(** sha3.rs:13-40 and 43-70: SHA3 contexts: new, any number of updates, finish *)
Definition sha3_finish (R out : Z) (sp : sponge) : res (list Z) :=
  let! s := absorb_final R SHA_PAD_BYTE sp in into_single_squeeze R s out.
(** sha3.rs:19-39, 49-69 *)
Definition sha3_hash (R out : Z) (message : list (list Z)) : res (list Z) :=
  let! sp := absorbs R (sponge_new R) message in sha3_finish R out sp.
(** sha3.rs:13-40 *)
Definition sha3_256 : list (list Z) -> res (list Z) := sha3_hash SHA3_256_R_BYTES 32.
(** sha3.rs:43-70 *)
Definition sha3_512 : list (list Z) -> res (list Z) := sha3_hash SHA3_512_R_BYTES 64.

(** sha3.rs:76-80 and 110-114 *)
Record shake := { sk_s : list Z; sk_buffer : list Z; sk_offset : Z }.

(** sha3.rs:86-92 and 120-126 *)
Definition shake_new (R : Z) (message : list (list Z)) : res shake :=
  let! s := new_for_message R SHAKE_PAD_BYTE message in
  Ok {| sk_s := s; sk_buffer := repeat 0 (Z.to_nat R); sk_offset := R |}.

(** sha3.rs:238-264  shake_read into an output of [n] bytes: the bytes written, and the new state *)
Definition shake_read (R : Z) (k : shake) (n : Z) : res (list Z * shake) :=
  let '(served, k, n) :=
    if sk_offset k =? zlen (sk_buffer k) then ([], k, n)
    else
      let chunk := Z.min (R - sk_offset k) n in
      (ztake chunk (zdrop (sk_offset k) (sk_buffer k)),
       {| sk_s := sk_s k; sk_buffer := sk_buffer k; sk_offset := sk_offset k + chunk |}, n - chunk) in
  if n =? 0 then Ok (served, k)
  else
    let whole_chunks := n / R in
    let! (whole, s) := squeeze R (sk_s k) (whole_chunks * R) in
    let tail := n - whole_chunks * R in
    if tail =? 0 then Ok (served ++ whole, {| sk_s := s; sk_buffer := sk_buffer k; sk_offset := sk_offset k |})
    else
      let! (buffer, s) := squeeze R s R in
      let chunk := Z.min R tail in
      Ok (served ++ whole ++ ztake chunk buffer, {| sk_s := s; sk_buffer := buffer; sk_offset := chunk |}).

(** sha3.rs:97-100 and 131-134: a sequence of [read] calls, with the sizes of their outputs *)
Fixpoint shake_reads (R : Z) (k : shake) (ns : list Z) : res (list (list Z) * shake) :=
  match ns with
  | [] => Ok ([], k)
  | n :: ns =>
      let! (o, k) := shake_read R k n in
      let! (os, k) := shake_reads R k ns in
      Ok (o :: os, k)
  end.

(** sha3.rs:144-153: the first word set; [s] is threaded through the six inputs *)
Definition sextet_s0 : list Z := upd (repeat 0 25) (Z.to_nat (SHAKE_256_R_BYTES / 8 - 1)) 0x8000000000000000.

(** sha3.rs:141-210  Shake256::one_shot_sextet (the debug_assert on [inp[33]] is not modelled) *)
Definition one_shot_sextet (inputs : list (list Z)) : res (list (list Z)) :=
  match inputs with
  | [i0; i1; i2; i3; i4; i5] =>
      let s0 := set_words sextet_s0 (le_words i0) in
      let s1 := set_words s0 (le_words i1) in
      let s2 := set_words s1 (le_words i2) in
      let s3 := set_words s2 (le_words i3) in
      match kf4 [s0; s1; s2; s3] RC with
      | [t0; t1; t2; t3] =>
          let! o0 := squeeze_current t0 128 in
          let! o1 := squeeze_current t1 128 in
          let! o2 := squeeze_current t2 128 in
          let! o3 := squeeze_current t3 128 in
          let s4 := set_words s3 (le_words i4) in
          let s5 := set_words s4 (le_words i5) in
          match kf2of4 [s4; s5; t2; t3] RC with
          | t4 :: t5 :: _ =>
              let! o4 := squeeze_current t4 128 in
              let! o5 := squeeze_current t5 128 in
              Ok [o0; o1; o2; o3; o4; o5]
          | _ => Panic
          end
      | _ => Panic
      end
  | _ => Panic
  end.

(** sha3.rs:276-315  SqueezingSponge4xShake128::new *)
Definition four_s0 : list Z := upd (repeat 0 25) (Z.to_nat (SHAKE_128_R_BYTES / 8 - 1)) 0x8000000000000000.
(** sha3.rs:276-315 *)
Definition sponge4_new (inputs : list (list Z)) : res (list (list Z)) :=
  match inputs with
  | [i0; i1; i2; i3] =>
      let s0 := set_words four_s0 (le_words i0) in
      let s1 := set_words s0 (le_words i1) in
      let s2 := set_words s1 (le_words i2) in
      let s3 := set_words s2 (le_words i3) in
      Ok (kf4 [s0; s1; s2; s3] RC)
  | _ => Panic
  end.

(** sha3.rs:327-337  squeeze_rate: one block from every state *)
Fixpoint squeeze_rate (states : list (list Z)) : res (list (list Z)) :=
  match states with
  | [] => Ok []
  | s :: r => let! o := squeeze_current s SHAKE_128_R_BYTES in let! os := squeeze_rate r in Ok (o :: os)
  end.
(** joining the outputs written at consecutive spans of the four output buffers; sha3.rs:317-360 (squeeze) *)
Fixpoint zip_app (a b : list (list Z)) : list (list Z) :=
  match a, b with x :: a', y :: b' => (x ++ y) :: zip_app a' b' | _, _ => [] end.

(** sha3.rs:317-360 (squeeze)  SqueezingSponge4xShake128::squeeze: outputs, and the four states that still owe
    a permutation *)
Definition sponge4_squeeze (states : list (list Z)) : res (list (list Z) * list (list Z)) :=
  let! o1 := squeeze_rate states in
  let states := kf4 states RC in
  let! o2 := squeeze_rate states in
  let states := kf4 states RC in
  let! o3 := squeeze_rate states in
  Ok (zip_app o1 (zip_app o2 o3), states).

(** sha3.rs:368-371  SqueezingSpongeObligation::restitute *)
Definition restitute (s : list Z) : list Z := kf s RC.
End Keccak.
