(** Model of the two hand-written assembly loops of low/x86_64/cpu.rs and
    low/aarch64/cpu.rs, zero_bytes and ct_compare_bytes, instruction by
    instruction. *)
Require Import Verif.Base Verif.M_Entry.

(** The operands of the asm! blocks (x86_64/cpu.rs:76-80, 108-112,
    aarch64/cpu.rs:114-118, 147-152); "ptr" of zero_bytes is [RA]. *)
Inductive reg := RA | RB | LEN | ACC | TMPA | TMPB.
(** equality of operands (x86_64/cpu.rs:108-112: they are distinct registers) *)
Definition reg_eqb (r s : reg) : bool :=
  match r, s with
  | RA, RA | RB, RB | LEN, LEN | ACC, ACC | TMPA, TMPA | TMPB, TMPB => true
  | _, _ => false
  end.

(** Machine state: registers, the vector register "zero" as bytes, the two
    conditions used ("less, signed" and "equal"; [None] when an instruction has
    set the flags to something not modelled), memory by address, and the next
    instruction. *)
Record st := { rg : reg -> Z; zreg : list Z; lt : option bool; zf : option bool; mem : Z -> Z; pc : nat }.

(** The instructions used.  A boolean argument says whether the flags are
    written: x86_64 add, sub, xor, or do, aarch64 add, sub, eor, orr do not and
    subs does (x86_64/cpu.rs:60-74, 98-107, aarch64/cpu.rs:99-112, 136-146). *)
Inductive instr :=
  | VZero (w : nat)                  (* vpxor z,z,z / eor z.16b,z.16b,z.16b *)
  | Cmp (r : reg) (n : Z)
  | SubI (r : reg) (n : Z) (flags : bool)
  | AddI (r : reg) (n : Z) (flags : bool)
  | StoreV (r : reg)                 (* vmovdqu [r], z / st1 {z.16b}, [r] *)
  | StoreZero (r : reg)              (* mov byte ptr [r], 0 *)
  | StoreZeroPost (r : reg)          (* strb wzr, [r], #1 *)
  | Load (d r : reg)                 (* mov d, [r] / ldrb d, [r] *)
  | XorMem (d r : reg)               (* xor d, [r] *)
  | Xor (d s : reg)                  (* eor d, d, s *)
  | Or (d s : reg) (flags : bool)
  | Jl (t : nat) | Je (t : nat) | Jmp (t : nat).

(** two's complement reading of a 64-bit register (for jl/blt, x86_64/cpu.rs:63, 70) *)
Definition signed (x : Z) : Z := if x <? 2 ^ 63 then x else x - 2 ^ 64.
(** writing a register (x86_64/cpu.rs:60-112) *)
Definition set_rg (f : reg -> Z) (r : reg) (v : Z) : reg -> Z := fun s => if reg_eqb r s then v else f s.
(** writing bytes from an address on (x86_64/cpu.rs:64, 71) *)
Fixpoint store (m : Z -> Z) (a : Z) (l : list Z) : Z -> Z :=
  match l with [] => m | b :: l => store (fun x => if x =? a then b else m x) (a + 1) l end.

(** One instruction (x86_64/cpu.rs:60-74, 98-107, aarch64/cpu.rs:99-112, 136-146): the new state and the addresses accessed, or [None] if a
    condition is used that was not set. *)
Definition step (i : instr) (s : st) : option (st * list Z) :=
  let next rg' z l e m := Some ({| rg := rg'; zreg := z; lt := l; zf := e; mem := m; pc := S (pc s) |}, []) in
  let mem_next rg' l e m a := Some ({| rg := rg'; zreg := zreg s; lt := l; zf := e; mem := m; pc := S (pc s) |}, a) in
  let goto t := Some ({| rg := rg s; zreg := zreg s; lt := lt s; zf := zf s; mem := mem s; pc := t |}, []) in
  let keep (b : bool) (o : option bool) := if b then None else o in
  match i with
  | VZero w => next (rg s) (repeat 0 w) (lt s) (zf s) (mem s)
  | Cmp r n => next (rg s) (zreg s) (Some (signed (rg s r) <? n)) (Some (rg s r =? n)) (mem s)
  | SubI r n fl => next (set_rg (rg s) r ((rg s r - n) mod 2 ^ 64)) (zreg s)
      (if fl then Some (signed (rg s r) <? n) else lt s) (if fl then Some (rg s r =? n) else zf s) (mem s)
  | AddI r n fl => next (set_rg (rg s) r ((rg s r + n) mod 2 ^ 64)) (zreg s) (keep fl (lt s)) (keep fl (zf s)) (mem s)
  | StoreV r => mem_next (rg s) (lt s) (zf s) (store (mem s) (rg s r) (zreg s)) (map (fun i => rg s r + Z.of_nat i) (seq 0 (length (zreg s))))
  | StoreZero r => mem_next (rg s) (lt s) (zf s) (store (mem s) (rg s r) [0]) [rg s r]
  | StoreZeroPost r => mem_next (set_rg (rg s) r ((rg s r + 1) mod 2 ^ 64)) (lt s) (zf s) (store (mem s) (rg s r) [0]) [rg s r]
  | Load d r => mem_next (set_rg (rg s) d (mem s (rg s r))) (lt s) (zf s) (mem s) [rg s r]
  | XorMem d r => mem_next (set_rg (rg s) d (Z.lxor (rg s d) (mem s (rg s r)))) None None (mem s) [rg s r]
  | Xor d x => next (set_rg (rg s) d (Z.lxor (rg s d) (rg s x))) (zreg s) (lt s) (zf s) (mem s)
  | Or d x fl => next (set_rg (rg s) d (Z.lor (rg s d) (rg s x))) (zreg s) (keep fl (lt s)) (keep fl (zf s)) (mem s)
  | Jl t => match lt s with Some true => goto t | Some false => goto (S (pc s)) | None => None end
  | Je t => match zf s with Some true => goto t | Some false => goto (S (pc s)) | None => None end
  | Jmp t => goto t
  end.

(** Running an asm! block (x86_64/cpu.rs:59-81) until it falls off its end: the state there and what an
    observer of timing sees, the instructions executed with the addresses they
    access, in order.  [None]: not finished within [fuel], or stuck. *)
Fixpoint exec (p : list instr) (fuel : nat) (s : st) : option (st * list (nat * list Z)) :=
  match nth_error p (pc s) with
  | None => Some (s, [])
  | Some i =>
      match fuel with
      | O => None
      | S f => match step i s with
               | None => None
               | Some (s', a) => match exec p f s' with None => None | Some (r, tr) => Some (r, (pc s, a) :: tr) end
               end
      end
  end.

(** x86_64/cpu.rs:60-74, aarch64/cpu.rs:99-112 zero_bytes *)
Definition zero_code (a : arch) : list instr :=
  match a with
  | X86_64 =>
      [ VZero 32;
        (* 1 = label 2 *) Cmp LEN 32; Jl 7; StoreV RA; AddI RA 32 true; SubI LEN 32 true; Jmp 1;
        (* 7 = label 3 *) SubI LEN 1 true; Jl 12; StoreZero RA; AddI RA 1 true; Jmp 7
        (* 12 = label 4 *) ]
  | Aarch64 =>
      [ VZero 16;
        (* 1 = label 2 *) Cmp LEN 16; Jl 7; StoreV RA; AddI RA 16 false; SubI LEN 16 false; Jmp 1;
        (* 7 = label 3 *) SubI LEN 1 true; Jl 11; StoreZeroPost RA; Jmp 7
        (* 11 = label 4 *) ]
  end.

(** x86_64/cpu.rs:98-107, aarch64/cpu.rs:136-146 ct_compare_bytes *)
Definition compare_code (a : arch) : list instr :=
  match a with
  | X86_64 =>
      [ (* 0 = label 2 *) Cmp LEN 0; Je 9; Load TMPA RA; XorMem TMPA RB; Or ACC TMPA true;
        AddI RA 1 true; AddI RB 1 true; SubI LEN 1 true; Jmp 0
        (* 9 = label 3 *) ]
  | Aarch64 =>
      [ (* 0 = label 2 *) Cmp LEN 0; Je 10; Load TMPA RA; Load TMPB RB; Xor TMPA TMPB; Or ACC TMPA false;
        AddI RA 1 false; AddI RB 1 false; SubI LEN 1 false; Jmp 0
        (* 10 = label 3 *) ]
  end.

(** The state at the start of the asm! blocks: operands given, everything else
    whatever it was.  ACC is a u8 in a register whose other bits are not
    specified (x86_64/cpu.rs:94, 112; aarch64/cpu.rs:134, 152). *)
Definition start (s : st) (ops : list (reg * Z)) : st :=
  {| rg := fold_left (fun f '(r, v) => set_rg f r v) ops (rg s); zreg := zreg s; lt := lt s; zf := zf s; mem := mem s; pc := 0 |}.

(** x86_64/cpu.rs:50-83, aarch64/cpu.rs:95-121 zero_bytes, in a state *)
Definition zero_bytes (a : arch) (fuel : nat) (ptr len : Z) (s : st) := exec (zero_code a) fuel (start s [(RA, ptr); (LEN, len)]).
(** x86_64/cpu.rs:93-117, aarch64/cpu.rs:131-157 ct_compare_bytes; [junk] are
    the unspecified bits; the result is the low byte *)
Definition compare_bytes (ar : arch) (fuel : nat) (a b len junk : Z) (s : st) :=
  match exec (compare_code ar) fuel (start s [(RA, a); (RB, b); (LEN, len); (TMPA, 0); (TMPB, 0); (ACC, 256 * junk)]) with
  | None => None
  | Some (s', tr) => Some (rg s' ACC mod 256, s', tr)
  end.
