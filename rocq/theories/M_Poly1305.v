(** Model of graviola/src/low/generic/poly1305.rs (used on every target). *)
Require Import Verif.Base Verif.M_Blockwise.

(** [u32; 5]; poly1305.rs:10, 13 *)
Definition f5 : Type := Z * Z * Z * Z * Z.
(** poly1305.rs:8-23  struct Poly1305 *)
Record poly1305 := {
  p_h : f5;
  p_r : f5;
  p_r5 : Z * Z * Z * Z;
  p_s : Z * Z * Z * Z;
  p_bw : blockwise
}.

(** Rust [+] and [*] on unsigned w-bit integers: overflow is a panic (debug/checked build); the
    release build wraps, so a proof that this never panics covers both. *)
Definition chk (w x : Z) : res Z := if (0 <=? x) && (x <? 2 ^ w) then Ok x else Panic.

(** poly1305.rs:133-135  read32 on bytes[i..i + 4] *)
Definition read32 (b : list Z) (i : Z) : Z := le_val (ztake 4 (zdrop i b)).

(** poly1305.rs:26-49  new *)
Definition poly_new (key : list Z) : res poly1305 :=
  let r0 := Z.land (read32 key 0) 0x3ffffff in
  let r1 := Z.land (Z.shiftr (read32 key 3) 2) 0x3ffff03 in
  let r2 := Z.land (Z.shiftr (read32 key 6) 4) 0x3ffc0ff in
  let r3 := Z.land (Z.shiftr (read32 key 9) 6) 0x3f03fff in
  let r4 := Z.land (Z.shiftr (read32 key 12) 8) 0x00fffff in
  let! s1 := chk 32 (r1 * 5) in
  let! s2 := chk 32 (r2 * 5) in
  let! s3 := chk 32 (r3 * 5) in
  let! s4 := chk 32 (r4 * 5) in
  Ok {| p_h := (0, 0, 0, 0, 0); p_r := (r0, r1, r2, r3, r4); p_r5 := (s1, s2, s3, s4);
        p_s := (read32 key 16, read32 key 20, read32 key 24, read32 key 28);
        p_bw := bw_new 16 |}.

(** poly1305.rs:137-143  add *)
Definition poly_add (h x : f5) : f5 :=
  let '(h0, h1, h2, h3, h4) := h in let '(x0, x1, x2, x3, x4) := x in
  (wadd 32 h0 x0, wadd 32 h1 x1, wadd 32 h2 x2, wadd 32 h3 x3, wadd 32 h4 x4).

(** a sum of u64 products evaluated left to right with checked additions; mul32 (poly1305.rs:146-148)
    itself cannot overflow *)
Fixpoint sum64 (acc : Z) (l : list Z) : res Z :=
  match l with [] => Ok acc | x :: r => let! acc := chk 64 (acc + x) in sum64 acc r end.

(** poly1305.rs:145-195  mul *)
Definition poly_mul (h r : f5) (s : Z * Z * Z * Z) : res f5 :=
  let '(h0, h1, h2, h3, h4) := h in let '(r0, r1, r2, r3, r4) := r in let '(s0, s1, s2, s3) := s in
  let! d0 := sum64 (h0 * r0) [h1 * s3; h2 * s2; h3 * s1; h4 * s0] in
  let! d1 := sum64 (h0 * r1) [h1 * r0; h2 * s3; h3 * s2; h4 * s1] in
  let! d2 := sum64 (h0 * r2) [h1 * r1; h2 * r0; h3 * s3; h4 * s2] in
  let! d3 := sum64 (h0 * r3) [h1 * r2; h2 * r1; h3 * r0; h4 * s3] in
  let! d4 := sum64 (h0 * r4) [h1 * r3; h2 * r2; h3 * r1; h4 * r0] in
  let carry := Z.shiftr d0 26 in
  let h0 := Z.land d0 0x3ffffff in
  let! d1 := chk 64 (d1 + carry) in
  let carry := Z.shiftr d1 26 in
  let h1 := Z.land d1 0x3ffffff in
  let! d2 := chk 64 (d2 + carry) in
  let carry := Z.shiftr d2 26 in
  let h2 := Z.land d2 0x3ffffff in
  let! d3 := chk 64 (d3 + carry) in
  let carry := Z.shiftr d3 26 in
  let h3 := Z.land d3 0x3ffffff in
  let! d4 := chk 64 (d4 + carry) in
  let carry := Z.shiftr d4 26 mod 2 ^ 32 in
  let h4 := Z.land d4 0x3ffffff in
  let! c5 := chk 32 (carry * 5) in
  let! h0 := chk 32 (h0 + c5) in
  let carry := Z.shiftr h0 26 in
  let h0 := Z.land h0 0x3ffffff in
  let! h1 := chk 32 (h1 + carry) in
  Ok (h0, h1, h2, h3, h4).

(** poly1305.rs:127-130  process_block *)
Definition process_block (p : poly1305) (block : f5) : res poly1305 :=
  let! h := poly_mul (poly_add (p_h p) block) (p_r p) (p_r5 p) in
  Ok {| p_h := h; p_r := p_r p; p_r5 := p_r5 p; p_s := p_s p; p_bw := p_bw p |}.

(** poly1305.rs:101-110  process_whole_block *)
Definition process_whole_block (p : poly1305) (inp : list Z) : res poly1305 :=
  process_block p
    (Z.land (read32 inp 0) 0x3ffffff,
     Z.land (Z.shiftr (read32 inp 3) 2) 0x3ffffff,
     Z.land (Z.shiftr (read32 inp 6) 4) 0x3ffffff,
     Z.land (Z.shiftr (read32 inp 9) 6) 0x3ffffff,
     Z.lor (Z.shiftr (read32 inp 12) 8) (2 ^ 24)).

(** poly1305.rs:112-125  process_last_block; [bytes[inp.len()]] panics for a 16-byte input *)
Definition process_last_block (p : poly1305) (inp : list Z) : res poly1305 :=
  if 16 <=? zlen inp then Panic
  else
    let b := splice (splice (repeat 0 16) 0 inp) (zlen inp) [1] in
    process_block p
      (Z.land (read32 b 0) 0x3ffffff,
       Z.land (Z.shiftr (read32 b 3) 2) 0x3ffffff,
       Z.land (Z.shiftr (read32 b 6) 4) 0x3ffffff,
       Z.land (Z.shiftr (read32 b 9) 6) 0x3ffffff,
       Z.shiftr (read32 b 12) 8).

(** assignment to the blockwise field, poly1305.rs:51-64 *)
Definition p_with_bw (p : poly1305) (bw : blockwise) : poly1305 :=
  {| p_h := p_h p; p_r := p_r p; p_r5 := p_r5 p; p_s := p_s p; p_bw := bw |}.
(** the loop over full_blocks, poly1305.rs:59-61 *)
Fixpoint process_blocks (p : poly1305) (bs : list (list Z)) : res poly1305 :=
  match bs with [] => Ok p | b :: r => let! p := process_whole_block p b in process_blocks p r end.

(** poly1305.rs:51-64  add_bytes *)
Definition poly_add_bytes (p : poly1305) (bytes : list Z) : res poly1305 :=
  let '(bw, rest) := bw_add_leading 16 (p_bw p) bytes in
  let '(blk, bw) := bw_take 16 bw in
  let! p := match blk with
            | Some block => process_whole_block (p_with_bw p bw) block
            | None => Ok (p_with_bw p bw)
            end in
  let! p := process_blocks p (chunks_exact 16 rest) in
  let! bw := bw_add_trailing 16 (p_bw p) (zdrop (zlen rest / 16 * 16) rest) in
  Ok (p_with_bw p bw).

(** poly1305.rs:202-222  min_reduce *)
Definition min_reduce (h : f5) : f5 :=
  let '(h0, h1, h2, h3, h4) := h in
  let carry := Z.shiftr h1 26 in let h1 := Z.land h1 0x3ffffff in let h2 := wadd 32 h2 carry in
  let carry := Z.shiftr h2 26 in let h2 := Z.land h2 0x3ffffff in let h3 := wadd 32 h3 carry in
  let carry := Z.shiftr h3 26 in let h3 := Z.land h3 0x3ffffff in let h4 := wadd 32 h4 carry in
  let carry := Z.shiftr h4 26 in let h4 := Z.land h4 0x3ffffff in
  let h0 := wadd 32 h0 ((carry * 5) mod 2 ^ 32) in
  let carry := Z.shiftr h0 26 in let h0 := Z.land h0 0x3ffffff in let h1 := wadd 32 h1 carry in
  (h0, h1, h2, h3, h4).

(** u32::wrapping_sub, poly1305.rs:241, 256-257 *)
Definition wsub (w x y : Z) : Z := (x - y) mod 2 ^ w.
(** poly1305.rs:254-258  equal_mask *)
Definition equal_mask (x y : Z) : Z :=
  let diff := Z.lxor x y in
  let diff_is_zero := Z.land (wnot 32 diff) (wsub 32 diff 1) in
  wsub 32 0 (Z.shiftr diff_is_zero 31).

(** poly1305.rs:224-251  maybe_sub_130_5 *)
Definition maybe_sub_130_5 (h : f5) : f5 :=
  let '(h0, h1, h2, h3, h4) := h in
  let g0 := wadd 32 h0 5 in let carry := Z.shiftr g0 26 in let g0 := Z.land g0 0x3ffffff in
  let g1 := wadd 32 h1 carry in let carry := Z.shiftr g1 26 in let g1 := Z.land g1 0x3ffffff in
  let g2 := wadd 32 h2 carry in let carry := Z.shiftr g2 26 in let g2 := Z.land g2 0x3ffffff in
  let g3 := wadd 32 h3 carry in let carry := Z.shiftr g3 26 in let g3 := Z.land g3 0x3ffffff in
  let g4 := wsub 32 (wadd 32 h4 carry) (2 ^ 26) in
  let negative_mask := equal_mask (Z.land g4 0x80000000) 0x80000000 in
  let positive_mask := wnot 32 negative_mask in
  let pick h g := Z.lor (Z.land h negative_mask) (Z.land g positive_mask) in
  (pick h0 g0, pick h1 g1, pick h2 g2, pick h3 g3, pick h4 g4).

(** poly1305.rs:197-200  full_reduce *)
Definition full_reduce (h : f5) : f5 := maybe_sub_130_5 (min_reduce h).

(** poly1305.rs:66-99  finish.  [<<] on u32 drops high bits. *)
Definition poly_finish (p : poly1305) : res (list Z) :=
  let! p := match bw_peek_remaining (p_bw p) with
            | Some block => process_last_block p block
            | None => Ok p
            end in
  let '(h0, h1, h2, h3, h4) := full_reduce (p_h p) in
  let '(s0, s1, s2, s3) := p_s p in
  let shl x n := Z.shiftl x n mod 2 ^ 32 in
  let h0 := Z.lor h0 (shl h1 26) in
  let h1 := Z.lor (Z.shiftr h1 6) (shl h2 20) in
  let h2 := Z.lor (Z.shiftr h2 12) (shl h3 14) in
  let h3 := Z.lor (Z.shiftr h3 18) (shl h4 8) in
  let! f := chk 64 (h0 + s0) in
  let h0 := f mod 2 ^ 32 in
  let! f := chk 64 (h1 + s1 + Z.shiftr f 32) in
  let h1 := f mod 2 ^ 32 in
  let! f := chk 64 (h2 + s2 + Z.shiftr f 32) in
  let h2 := f mod 2 ^ 32 in
  let! f := chk 64 (h3 + s3 + Z.shiftr f 32) in
  let h3 := f mod 2 ^ 32 in
  Ok (le_bytes 4 h0 ++ le_bytes 4 h1 ++ le_bytes 4 h2 ++ le_bytes 4 h3).

(** a sequence of add_bytes calls; poly1305.rs:51 *)
Fixpoint poly_adds (p : poly1305) (ms : list (list Z)) : res poly1305 :=
  match ms with [] => Ok p | m :: r => let! p := poly_add_bytes p m in poly_adds p r end.
