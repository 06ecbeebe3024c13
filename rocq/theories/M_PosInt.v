(** Model of graviola/src/low/posint.rs: natural numbers in a fixed-size array of N words of which the
    first [used] are significant.  The assembly routines called are in two groups.  The plain ones
    (comparison, addition, shifts, ...) have exactly one meaning for all inputs and are defined here.  The
    Montgomery and inversion routines only have a documented meaning under preconditions: they are fields
    of the record [bignum], and S_Bignum.v states their contract.  debug_assert!s are left out (they
    are absent from release builds).  The secret-value annotations low::ct::* and zeroisation have no effect
    on values and are left out. *)
Require Import Verif.Base Verif.M_Util.

(** A value reduced to exactly [k] little-endian 64-bit words; the meaning of "z[k] := v" in the
    documentation of every low/x86_64/bignum_*.rs routine *)
Fixpoint to_words (k : nat) (v : Z) : list Z :=
  match k with O => [] | S j => v mod 2 ^ 64 :: to_words j (v / 2 ^ 64) end.

(** low/x86_64/bignum_bitsize.rs:54-62 *)
Definition bn_bitsize (x : list Z) : Z := let v := limbs_val x in if v =? 0 then 0 else Z.log2 v + 1.
(** low/x86_64/bignum_digitsize.rs:46-51: number of words up to the highest non-zero one *)
Definition bn_digitsize (x : list Z) : Z := (bn_bitsize x + 63) / 64.
(** low/x86_64/bignum_ctz.rs:56-65: count trailing zero bits; 64*k for zero *)
Fixpoint pos_ctz (p : positive) : Z := match p with xO q => 1 + pos_ctz q | _ => 0 end.
(** low/x86_64/bignum_ctz.rs:56-65 *)
Definition bn_ctz (x : list Z) : Z := match limbs_val x with Zpos p => pos_ctz p | _ => 64 * zlen x end.
(** low/x86_64/bignum_cmp_lt.rs:56-59 *)
Definition bn_cmp_lt (x y : list Z) : Z := if limbs_val x <? limbs_val y then 1 else 0.
(** low/x86_64/bignum_eq.rs:51-54 *)
Definition bn_eq (x y : list Z) : bool := limbs_val x =? limbs_val y.
(** low/x86_64/bignum_add.rs:70-77 (inputs no longer than the output): result words and carry *)
Definition bn_add (p : Z) (x y : list Z) : list Z * Z :=
  let s := limbs_val x + limbs_val y in (to_words (Z.to_nat p) s, s / 2 ^ (64 * p)).
(** low/x86_64/bignum_optsub.rs:69-124: subtract if p is non-zero, modulo 2^(64 k) *)
Definition bn_optsub (k : Z) (x y : list Z) (p : Z) : list Z :=
  to_words (Z.to_nat k) (limbs_val x - (if p =? 0 then 0 else limbs_val y)).
(** low/x86_64/bignum_mul.rs:96-102, bignum_kmul_16_32.rs:24-30, bignum_kmul_32_64.rs,
    bignum_ksqr_16_32.rs:23-29, bignum_ksqr_32_64.rs: product in k words *)
Definition bn_mul (k : Z) (x y : list Z) : list Z := to_words (Z.to_nat k) (limbs_val x * limbs_val y).
(** low/x86_64/bignum_shr_small.rs:76-83 *)
Definition bn_shr_small (k : Z) (x : list Z) (c : Z) : list Z :=
  to_words (Z.to_nat k) (limbs_val x / 2 ^ (c mod 64)).
(** low/x86_64/bignum_copy_row_from_table.rs:59-69: row [idx] of width [w] of a table *)
Definition bn_copy_row (table : list Z) (w idx : Z) : list Z := ztake w (zdrop (idx * w) table).
(** low/x86_64/bignum_coprime.rs:255-266 *)
Definition bn_coprime (x y : list Z) : bool := Z.gcd (limbs_val x) (limbs_val y) =? 1.
(** low/x86_64/bignum_modsub.rs:82-108 read as code: z := x - y with borrow, then z := z + [borrow] * m,
    modulo 2^(64 k).  The documented meaning (x - y) mod m follows for x and y below m. *)
Definition bn_modsub (k : Z) (x y m : list Z) : list Z :=
  let x := limbs_val x in let y := limbs_val y in
  to_words (Z.to_nat k) (x - y + (if x <? y then limbs_val m else 0)).

(** The routines with preconditions (all in low/x86_64/): montmul x y m, montsqr x m, demont x m, montredc x m p,
    emontredc_8n z m w (returns the new buffer and the carry), montifier m, negmodinv x, modinv a b, modadd x y m; bignum_montmul.rs:146, bignum_montsqr.rs:131, bignum_demont.rs:122, bignum_montredc.rs:150, bignum_emontredc_8n.rs:28, bignum_montifier.rs:147, bignum_negmodinv.rs:102, bignum_modinv.rs:267, bignum_modadd.rs:68 *)
Record bignum := mkBignum {
  bn_montmul : list Z -> list Z -> list Z -> list Z;
  bn_montsqr : list Z -> list Z -> list Z;
  bn_demont : list Z -> list Z -> list Z;
  bn_montredc : list Z -> list Z -> Z -> list Z;
  bn_emontredc_8n : list Z -> list Z -> Z -> list Z * Z;
  bn_montifier : list Z -> list Z;
  bn_negmodinv : list Z -> list Z;
  bn_modinv : list Z -> list Z -> list Z;
  bn_modadd : list Z -> list Z -> list Z -> list Z
}.

(** posint.rs:10-13  struct PosInt<N>: [p_words] has N elements *)
Record posint := mkPI { p_words : list Z; p_used : Z }.

(** the type parameter N of a value; posint.rs:10-13 *)
Definition pcap (x : posint) : Z := zlen (p_words x).

(** posint.rs:17-22  zero *)
Definition pzero (N : Z) : posint := mkPI (repeat 0 (Z.to_nat N)) 0.
(** the pattern [let mut r = Self::zero(); r.used = k; op(r.as_mut_words(), ..)] where op stores the k words [w]
    (posint.rs:257-260, 265-268, 325-334, 340-348, 370-377, 409-417, 484-488, 504-512, 534-537, 544-547, ...) *)
Definition pfill (N k : Z) (w : list Z) : posint := mkPI (w ++ repeat 0 (Z.to_nat (N - k))) k.
(** posint.rs:271-273 as_words, 283-285 as_words_with_len_of *)
Definition as_words (x : posint) : list Z := ztake (p_used x) (p_words x).
(** posint.rs:283-285 *)
Definition as_words_len_of (x len : posint) : list Z := ztake (p_used len) (p_words x).
(** posint.rs:47-53 expand *)
Definition pexpand (x other : posint) : posint := mkPI (p_words x) (p_used other).
(** posint.rs:59-67 push_word *)
Definition push_word (x : posint) (w : Z) : res posint :=
  if p_used x =? pcap x then Err OutOfRange
  else Ok (mkPI (upd (p_words x) (Z.to_nat (p_used x)) w) (p_used x + 1)).
(** posint.rs:25-29 word *)
Definition pword (N w : Z) : res posint := match push_word (pzero N) w with Ok r => Ok r | _ => Panic end.
(** posint.rs:32-37 one *)
Definition pone (N : Z) : posint := mkPI (upd (repeat 0 (Z.to_nat N)) 0 1) 1.
(** posint.rs:40-44 fixed_one *)
Definition fixed_one (x : posint) : posint := pexpand (pone (pcap x)) x.

(** posint.rs:900-910 trim_leading_zeroes *)
Fixpoint trim_leading_zeroes (b : list Z) : list Z :=
  match b with x :: r => if x =? 0 then trim_leading_zeroes r else b | [] => [] end.
(** posint.rs:80-82: push the big-endian words of the 8-byte chunks in order *)
Fixpoint push_words (x : posint) (cs : list (list Z)) : res posint :=
  match cs with [] => Ok x | c :: r => let! y := push_word x (be_val c) in push_words y r end.
(** posint.rs:69-95 from_bytes.  [rchunks_exact(8)] takes 8-byte chunks from the end of the slice; its remainder
    is the front part. *)
Definition pfrom_bytes (N : Z) (b : list Z) : res posint :=
  let b := trim_leading_zeroes b in
  if N * 8 <? zlen b then Err OutOfRange
  else
    let r := zlen b mod 8 in
    let! x := push_words (pzero N) (rev (chunks_exact 8 (zdrop r b))) in
    let final := be_val (ztake r b) in
    if final =? 0 then Ok x else push_word x final.

(** posint.rs:97-106 to_bytes: the part of [out] written (all of the returned slice), given the length of [out] *)
Definition pto_bytes (x : posint) (out_len : Z) : res (list Z) :=
  if out_len <? p_used x * 8 then Err OutOfRange else Ok (u64s_to_be (as_words x)).
(** posint.rs:112-126 to_bytes_asn1 *)
Definition pto_bytes_asn1 (x : posint) (out_len : Z) : res (list Z) :=
  if out_len <? p_used x * 8 + 1 then Err OutOfRange else Ok (0 :: u64s_to_be (as_words x)).

(** posint.rs:139-161 len_bytes, len_bits, count_trailing_zeroes, is_even, is_odd, is_zero *)
Definition len_bits (x : posint) : Z := bn_bitsize (as_words x).
(** posint.rs:139-141 *)
Definition len_bytes (x : posint) : Z := (len_bits x + 7) / 8.
(** posint.rs:147-149 *)
Definition pctz (x : posint) : Z := bn_ctz (as_words x).
(** posint.rs:151-153 *)
Definition is_even (x : posint) : bool := Z.even (znth (p_words x) 0).
(** posint.rs:155-157 *)
Definition is_odd (x : posint) : bool := negb (is_even x).
(** posint.rs:159-161 *)
Definition is_zero (x : posint) : bool := len_bits x =? 0.
(** posint.rs:164-167 is_coprime *)
Definition is_coprime (x y : posint) : bool := bn_coprime (as_words x) (as_words y).

(** posint.rs:251-261 shift_right_vartime *)
Definition shift_right_vartime (x : posint) (shift : Z) : posint :=
  let bits := Z.land shift 63 in let words := (shift - bits) / 64 in
  let k := p_used x - words in
  pfill (pcap x) k (bn_shr_small k (zdrop words (as_words x)) bits).
(** posint.rs:264-269 shift_right_1 *)
Definition shift_right_1 (x : posint) : posint :=
  pfill (pcap x) (p_used x) (bn_shr_small (p_used x) (as_words x) 1).
(** posint.rs:288-290 equals, 318-320 less_than *)
Definition pequals (x y : posint) : bool := bn_eq (as_words x) (as_words y).
(** posint.rs:318-320 *)
Definition less_than (x y : posint) : bool := 0 <? bn_cmp_lt (as_words x) (as_words y).

(** posint.rs:754-759 add *)
Definition padd (x y : posint) : posint :=
  let w := fst (bn_add (pcap x) (as_words x) (as_words y)) in mkPI w (bn_digitsize w).
(** posint.rs:763-776 add_shift_right_1: the carry is or-ed into word r.used - 1 *)
Definition add_shift_right_1 (x y : posint) : res posint :=
  let (w, carry) := bn_add (pcap x) (as_words x) (as_words y) in
  let used := bn_digitsize w in
  let r := bn_shr_small (pcap x) (ztake used w) 1 in
  if used =? 0 then Panic
  else
    let i := Z.to_nat (used - 1) in
    Ok (mkPI (upd r i (Z.lor (znth r i) (Z.shiftl carry 63 mod 2 ^ 64))) used).
(** posint.rs:795-801 sub.  bignum_optsub reads [self.used] words of both operands; those of [b] above
    b.used are the zero words of its array. *)
Definition psub (x y : posint) : posint :=
  pfill (pcap x) (p_used x) (bn_optsub (p_used x) (as_words x) (as_words_len_of y x) 1).
(** posint.rs:805-815 sub_mod; as in [psub], p.used words of each array are read *)
Definition sub_mod (x y p : posint) : posint :=
  pfill (pcap x) (p_used p) (bn_modsub (p_used p) (as_words_len_of x p) (as_words_len_of y p) (as_words p)).
(** posint.rs:542-548 mul (M = N2 >= 2 N is asserted, a constant condition) *)
Definition pmul (N2 : Z) (a b : posint) : posint :=
  pfill N2 (p_used a + p_used b) (bn_mul (p_used a + p_used b) (as_words a) (as_words b)).
(** posint.rs:819-825 widen (M = N2 >= N is asserted, a constant condition) *)
Definition pwiden (N2 : Z) (x : posint) : posint := pfill N2 (p_used x) (as_words x).

(** posint.rs:870-898 BitsMsbFirstIter: the bits of each word from the top, words from the last to the first.
    (The case of an empty slice, a panic in [new] or at the first index, is in [mont_exp].) *)
Definition word_bits (w : Z) : list Z := map (fun i => Z.land (Z.shiftr w (Z.of_nat i)) 1) (rev (seq 0 64)).
(** posint.rs:870-898: all words *)
Definition bits_msb_first (words : list Z) : list Z := flat_map word_bits (rev words).

Section PosInt.
Variable bn : bignum.

(** posint.rs:324-335 montifier *)
Definition montifier (n : posint) : posint := pfill (pcap n) (p_used n) (bn_montifier bn (as_words n)).
(** posint.rs:339-349 to_montgomery *)
Definition to_montgomery (x mf n : posint) : posint :=
  pfill (pcap x) (p_used n) (bn_montmul bn (as_words_len_of x n) (as_words_len_of mf n) (as_words n)).
(** posint.rs:352-357 mont_neg_inverse *)
Definition mont_neg_inverse (n : posint) : Z :=
  znth (p_words (pfill (pcap n) (p_used n) (bn_negmodinv bn (as_words n)))) 0.

(** posint.rs:479-489 mont_reduce8 *)
Definition mont_reduce8 (product : list Z) (n : posint) (n0 : Z) : posint :=
  let (z, carry) := bn_emontredc_8n bn product (as_words n) n0 in
  let reduced := zdrop (zlen z / 2) z in
  let carry := Z.lor carry (bn_cmp_lt (as_words n) reduced) in
  pfill (pcap n) (p_used n) (bn_optsub (p_used n) reduced (as_words n) carry).
(** posint.rs:493-500 mont_reduce8_in_place *)
Definition mont_reduce8_in_place (x : posint) (product : list Z) (n : posint) (n0 : Z) : posint :=
  let (z, carry) := bn_emontredc_8n bn product (as_words n) n0 in
  let reduced := zdrop (zlen z / 2) z in
  let carry := Z.lor carry (bn_cmp_lt (as_words n) reduced) in
  mkPI (splice (p_words x) 0 (bn_optsub (p_used n) reduced (as_words n) carry)) (p_used n).

(** posint.rs:363-378 mont_sqr, with mont_sqr_1024 439-445 and mont_sqr_2048 458-464 *)
Definition mont_sqr (x n : posint) (n0 : Z) : posint :=
  if (p_used x =? 16) && (p_used n =? 16) then mont_reduce8 (bn_mul 32 (as_words x) (as_words x)) n n0
  else if (p_used x =? 32) && (p_used n =? 32) then mont_reduce8 (bn_mul 64 (as_words x) (as_words x)) n n0
  else pfill (pcap x) (p_used n) (bn_montsqr bn (as_words_len_of x n) (as_words n)).
(** posint.rs:382-397 mont_sqr_in_place, with 449-455 and 468-474 *)
Definition mont_sqr_in_place (x n : posint) (n0 : Z) : posint :=
  if (p_used x =? 16) && (p_used n =? 16) then mont_reduce8_in_place x (bn_mul 32 (as_words x) (as_words x)) n n0
  else if (p_used x =? 32) && (p_used n =? 32) then
    mont_reduce8_in_place x (bn_mul 64 (as_words x) (as_words x)) n n0
  else pfill (pcap x) (p_used n) (bn_montsqr bn (as_words_len_of x n) (as_words n)).
(** posint.rs:403-418 mont_mul, with mont_mul_1024 421-427 and mont_mul_2048 430-436 *)
Definition mont_mul (x v n : posint) (n0 : Z) : posint :=
  if (p_used x =? 16) && (p_used v =? 16) && (p_used n =? 16) then
    mont_reduce8 (bn_mul 32 (as_words x) (as_words v)) n n0
  else if (p_used x =? 32) && (p_used v =? 32) && (p_used n =? 32) then
    mont_reduce8 (bn_mul 64 (as_words x) (as_words v)) n n0
  else pfill (pcap x) (p_used n) (bn_montmul bn (as_words_len_of x n) (as_words_len_of v n) (as_words n)).

(** posint.rs:503-513 mont_redc *)
Definition mont_redc (x n : posint) : posint :=
  pfill (pcap n) (p_used n) (bn_montredc bn (as_words x) (as_words n) (p_used n)).
(** posint.rs:520-528 reduce (M < N is asserted) *)
Definition preduce (x n mf : posint) : res posint :=
  if pcap n <? pcap x then Ok (to_montgomery (mont_redc x n) mf n) else Panic.
(** posint.rs:533-538 from_montgomery.  bignum_demont reads n.used words of [self]'s array. *)
Definition from_montgomery (x n : posint) : posint :=
  pfill (pcap x) (p_used n) (bn_demont bn (as_words_len_of x n) (as_words n)).

(** posint.rs:586-639: the table of powers 0..15 of [x], as consecutive rows *)
Definition exp_table (x one_mont n : posint) (n0 : Z) : list Z :=
  let t1 := x in
  let t2 := mont_sqr t1 n n0 in let t3 := mont_mul t2 t1 n n0 in
  let t4 := mont_sqr t2 n n0 in let t5 := mont_mul t4 t1 n n0 in
  let t6 := mont_sqr t3 n n0 in let t7 := mont_mul t6 t1 n n0 in
  let t8 := mont_sqr t4 n n0 in let t9 := mont_mul t8 t1 n n0 in
  let t10 := mont_sqr t5 n n0 in let t11 := mont_mul t10 t1 n n0 in
  let t12 := mont_sqr t6 n n0 in let t13 := mont_mul t12 t1 n n0 in
  let t14 := mont_sqr t7 n n0 in let t15 := mont_mul t14 t1 n n0 in
  flat_map as_words [one_mont; t1; t2; t3; t4; t5; t6; t7; t8; t9; t10; t11; t12; t13; t14; t15].

(** posint.rs:641-646: the loop variables *)
Record exp_st := mkExp { ex_accum : posint; ex_first : bool; ex_wcount : Z; ex_window : Z }.
(** posint.rs:648-679: one iteration for one exponent bit *)
Definition exp_step (table : list Z) (n : posint) (n0 : Z) (s : exp_st) (bit : Z) : exp_st :=
  let accum := if ex_first s then ex_accum s else mont_sqr_in_place (ex_accum s) n n0 in
  let window := Z.lor (Z.shiftl (ex_window s) 1) bit in
  let wcount := ex_wcount s + 1 in
  if wcount =? 4 then
    let term := pfill (pcap n) (p_used n) (bn_copy_row table (p_used n) window) in
    mkExp (mont_mul accum term n n0) false 0 0
  else mkExp accum false wcount window.
(** posint.rs:575-683 mont_exp *)
Definition mont_exp (x one_mont e n : posint) (n0 : Z) : res posint :=
  let table := exp_table x one_mont n n0 in
  if p_used e =? 0 then Panic
  else Ok (ex_accum (fold_left (exp_step table n n0) (bits_msb_first (as_words e)) (mkExp one_mont true 0 0))).
(** posint.rs:559-564 mod_exp *)
Definition mod_exp (x e n mf : posint) (n0 : Z) : res posint :=
  let one_mont := mont_mul (fixed_one n) mf n n0 in
  let x_mont := to_montgomery x mf n in
  let! r := mont_exp x_mont one_mont e n n0 in Ok (from_montgomery r n).

(** posint.rs:690-701 mod_inverse *)
Definition mod_inverse (x n : posint) : posint :=
  pfill (pcap x) (p_used n) (bn_modinv bn (as_words_len_of x n) (as_words n)).
(** posint.rs:780-791 add_mod *)
Definition add_mod (x b m : posint) : posint :=
  let r := pfill (pcap x) (p_used m) (bn_modadd bn (as_words_len_of x m) (as_words_len_of b m) (as_words m)) in
  mkPI (p_words r) (bn_digitsize (p_words r)).

(** posint.rs:725-746: doubling-and-adding the 64 bits of one word *)
Definition reduce_even_bit (m addend : posint) (r : posint) (bit : Z) : posint :=
  let next := mkPI (splice (p_words r) 0 (bn_modadd bn (as_words r) (as_words r) (as_words m))) (p_used r) in
  let addend := mkPI (upd (p_words addend) 0 bit) (p_used addend) in
  mkPI (splice (p_words r) 0 (bn_modadd bn (as_words next) (as_words addend) (as_words m))) (p_used r).
(** posint.rs:707-750 reduce_even (M < N is asserted; copy_from_slice panics if the lengths differ) *)
Definition reduce_even (x m : posint) : res posint :=
  if negb (pcap m <? pcap x) then Panic
  else
    let r0 := mkPI (repeat 0 (Z.to_nat (pcap m))) (p_used m) in
    let limit := Z.max 0 (p_used r0 - 1) in
    let i := Z.max 0 (p_used x - limit) in
    let src := zdrop i (as_words x) in
    if negb (zlen src =? limit) then Panic
    else
      let r := mkPI (splice (p_words r0) 0 src) (p_used r0) in
      Ok (fold_left (reduce_even_bit m r0) (bits_msb_first (ztake i (p_words x))) r).

(** posint.rs:188-199: the variables of the loop of invert_vartime *)
Record inv_st := mkInv { iu : posint; iv : posint; ia : posint; ib : posint; ic : posint; id : posint }.
(** posint.rs:202-212: both odd: subtract *)
Definition inv_sub (x y : posint) (s : inv_st) : inv_st :=
  if is_odd (iu s) && is_odd (iv s) then
    if less_than (iv s) (iu s)
    then mkInv (psub (iu s) (iv s)) (iv s) (add_mod (ia s) (ic s) y) (add_mod (ib s) (id s) x) (ic s) (id s)
    else mkInv (iu s) (psub (iv s) (iu s)) (ia s) (ib s) (add_mod (ic s) (ia s) y) (add_mod (id s) (ib s) x)
  else s.
(** posint.rs:219-225 and 229-235: halve a coefficient pair *)
Definition inv_halve_pair (x y a b : posint) : res (posint * posint) :=
  if is_odd a || is_odd b then
    let! a := add_shift_right_1 a y in let! b := add_shift_right_1 b x in Ok (a, b)
  else Ok (shift_right_1 a, shift_right_1 b).
(** posint.rs:214-236: the assertion and the halving step *)
Definition inv_halve (x y : posint) (s : inv_st) : res inv_st :=
  if is_even (iu s) then
    let! (a, b) := inv_halve_pair x y (ia s) (ib s) in
    Ok (mkInv (shift_right_1 (iu s)) (iv s) a b (ic s) (id s))
  else if is_even (iv s) then
    let! (c, d) := inv_halve_pair x y (ic s) (id s) in
    Ok (mkInv (iu s) (shift_right_1 (iv s)) (ia s) (ib s) c d)
  else Panic.
(** posint.rs:201-244: the loop.  Rust's [loop] has no bound; the model stops with [Panic] when [fuel] runs out,
    and L_Invert.v proves that the fuel given by [invert_vartime] never does. *)
Fixpoint inv_loop (fuel : nat) (x y : posint) (s : inv_st) : res (option posint) :=
  match fuel with
  | O => Panic
  | S f =>
      let! s := inv_halve x y (inv_sub x y s) in
      if is_zero (iv s) then Ok (if len_bits (iu s) =? 1 then Some (ia s) else None)
      else inv_loop f x y s
  end.
(** posint.rs:174-245 invert_vartime *)
Definition invert_vartime (x m : posint) : res (option posint) :=
  let y := m in
  if is_zero x || is_zero y || (is_even x && is_even y) then Ok None
  else
    let N := pcap x in
    inv_loop (Z.to_nat (len_bits x + len_bits y + 1)) x y
      (mkInv x y (pexpand (pone N) y) (pexpand (pzero N) x) (pexpand (pzero N) y) (pexpand (pone N) x)).
End PosInt.
