(** Model of graviola/src/mid/util.rs: conversions between byte arrays and little-endian arrays of
    u64 words.  [N] is the macro parameter $N (4, 6 or 8). *)
Require Import Verif.Base.

(** value of a little-endian array of 64-bit words (the reading of [u64; N] used throughout low/); read in mid/util.rs:8-40 *)
Fixpoint limbs_val (l : list Z) : Z :=
  match l with [] => 0 | x :: r => x + 2 ^ 64 * limbs_val r end.

(** util.rs:9-15 little_endian_to_u64xN; the argument is an array of exactly 8*N bytes *)
Definition le_to_u64s (b : list Z) : list Z := map le_val (chunks_exact 8 b).
(** util.rs:18-21 little_endian_slice_to_u64xN *)
Definition le_slice_to_u64s (N : Z) (b : list Z) : option (list Z) :=
  if zlen b =? N * 8 then Some (le_to_u64s b) else None.
(** util.rs:24-30 u64xN_to_little_endian *)
Definition u64s_to_le (v : list Z) : list Z := flat_map (le_bytes 8) v.

(** util.rs:49-55 big_endian_to_u64xN *)
Definition be_to_u64s (b : list Z) : list Z := map be_val (rev (chunks_exact 8 b)).
(** util.rs:57-60 big_endian_slice_to_u64xN *)
Definition be_slice_to_u64s (N : Z) (b : list Z) : option (list Z) :=
  if zlen b =? N * 8 then Some (be_to_u64s b) else None.
(** util.rs:74-87 remove_leading_zeroes *)
Fixpoint remove_leading_zeroes (N : Z) (b : list Z) : option (list Z) :=
  match b with
  | first :: remain =>
      if first =? 0 then
        if zlen remain =? N * 8 then Some (be_to_u64s remain) else remove_leading_zeroes N remain
      else None
  | [] => None
  end.
(** util.rs:62-94 big_endian_slice_any_size_to_u64xN (add_leading_zeroes 68-72 inlined) *)
Definition be_slice_any_size_to_u64s (N : Z) (b : list Z) : option (list Z) :=
  if zlen b =? N * 8 then Some (be_to_u64s b)
  else if zlen b <? N * 8 then Some (be_to_u64s (repeat 0 (Z.to_nat (N * 8 - zlen b)) ++ b))
  else remove_leading_zeroes N b.
(** util.rs:96-102 u64xN_to_big_endian *)
Definition u64s_to_be (v : list Z) : list Z := concat (rev (map (be_bytes 8) v)).
