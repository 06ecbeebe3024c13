(** Model of low/generic/{ct_equal,ct_copy,zeroise}.rs, low/x86_64/cpu.rs:93-115 and high/hash.rs:22-52. *)
Require Import Verif.Base.

(** x86_64/cpu.rs:93-115 (aarch64/cpu.rs:131-156): the assembly loop, one iteration per byte:
    acc |= a[i] ^ b[i].  Registers are bytes; modelled on Z, the pointer walk is list traversal. *)
Fixpoint ct_compare_loop (acc : Z) (a b : list Z) : Z :=
  match a, b with
  | x :: a', y :: b' => ct_compare_loop (Z.lor acc (Z.lxor x y) mod 256) a' b'
  | _, _ => acc
  end.
(** x86_64/cpu.rs:93-115 (aarch64/cpu.rs:131-156) *)
Definition ct_compare_bytes (a b : list Z) : Z := ct_compare_loop 0 a b.

(** ct_equal.rs:6-14 *)
Definition ct_equal (a b : list Z) : bool :=
  if negb (zlen a =? zlen b) then false else ct_compare_bytes a b =? 0.

(** two's complement reinterpretation (core [as] casts); ct_copy.rs:7-12 *)
Definition to_signed (w x : Z) : Z := let y := x mod 2 ^ w in if y <? 2 ^ (w - 1) then y else y - 2 ^ w.

(** ct_copy.rs:7-12; the i16 arithmetic shift is [Z.shiftr] on a signed value, [as u8] is mod 256. *)
Definition ct_copy (cond : bool) (output if_false : list Z) : list Z :=
  let mask := Z.shiftr (- (if cond then 1 else 0)) 8 mod 256 in
  map (fun '(out, ff) => Z.lxor ff (Z.land mask (Z.lxor out ff))) (combine output if_false).

(** ct_copy.rs:15-20 *)
Definition ct_select_i16 (bit if_set if_unset : Z) : Z :=
  let mask := Z.shiftr (- bit) 16 mod 2 ^ 16 in
  let if_set := if_set mod 2 ^ 16 in
  let if_unset := if_unset mod 2 ^ 16 in
  to_signed 16 (Z.lxor if_unset (Z.land mask (Z.lxor if_set if_unset))).

(** x86_64/cpu.rs:50-90 / zeroise.rs:9-16: every byte of the range is overwritten with zero. *)
Definition zeroise (v : list Z) : list Z := map (fun _ => 0) v.

(** high/hash.rs:13-20 HashOutput; the byte arrays have the length of their variant. *)
Inductive hash_output := HO256 (b : list Z) | HO384 (b : list Z) | HO512 (b : list Z).
(** high/hash.rs:54-62 as_ref *)
Definition ho_bytes (h : hash_output) : list Z := match h with HO256 b | HO384 b | HO512 b => b end.
(** high/hash.rs:24-26 *)
Definition ho_ct_equal (h : hash_output) (other : list Z) : bool := ct_equal (ho_bytes h) other.
(** high/hash.rs:36-40 *)
Definition ho_truncated_ct_equal (L : Z) (h : hash_output) (other : list Z) : res bool :=
  if L =? 0 then Panic
  else if negb (L <=? zlen (ho_bytes h)) then Panic
  else Ok (ct_equal (ztake L (ho_bytes h)) other).
(** high/hash.rs:43-52 PartialEq *)
Definition ho_eq (a b : hash_output) : bool :=
  match a, b with
  | HO256 s, HO256 o => ct_equal s o
  | HO384 s, HO384 o => ct_equal s o
  | HO512 s, HO512 o => ct_equal s o
  | _, _ => false
  end.
