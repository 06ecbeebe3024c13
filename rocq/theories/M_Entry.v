(** Model of low/entry.rs and of the processor-state part of
    low/x86_64/cpu.rs and low/aarch64/cpu.rs: what happens around the body of
    every public function.

    The processor state kept is the aarch64 DIT flag (data-independent timing)
    and the contents of the vector registers.  What a body computes is any
    function on the registers; nothing else in /repo writes DIT. *)
Require Import Verif.Base.

(** The two architectures (low/mod.rs:44-49). *)
Inductive arch := X86_64 | Aarch64.

(** A machine: its architecture, whether every feature that
    [verify_cpu_features] asserts is there (x86_64/cpu.rs:226-266,
    aarch64/cpu.rs:207-224), and whether the DIT feature is there. *)
Record machine := { mc_arch : arch; mc_required : bool; mc_dit : bool }.

(** The state: the DIT flag, and vector registers by number.  On x86_64 register
    numbers 0 to 15 are z/y/xmm0-15, 16 to 31 the further registers of
    AVX-512; on aarch64 0 to 31 are v0-31.  What low/entry.rs and {x86_64,aarch64}/cpu.rs change *)
Record cpu := { dit : bool; vec : Z -> Z }.

(** aarch64/cpu.rs:253-265 dit::read *)
Definition dit_read (s : cpu) : Z := if dit s then 1 else 0.
(** aarch64/cpu.rs:268-276 dit::write *)
Definition dit_write (on : Z) (s : cpu) : cpu := {| dit := 0 <? on; vec := vec s |}.

(** aarch64/cpu.rs:227-243 dit::maybe_enable *)
Definition maybe_enable (m : machine) (s : cpu) : Z * cpu :=
  if mc_dit m then (if dit_read s =? 0 then (1, dit_write 1 s) else (0, s)) else (0, s).
(** aarch64/cpu.rs:245-250 dit::maybe_disable *)
Definition maybe_disable (we_enabled : Z) (s : cpu) : cpu := if 0 <? we_enabled then dit_write 0 s else s.

(** x86_64/cpu.rs:21-22 vzeroall, "clear z/y/xmm0-15" *)
Definition vzeroall (s : cpu) : cpu := {| dit := dit s; vec := fun i => if (0 <=? i) && (i <? 16) then 0 else vec s i |}.
(** aarch64/cpu.rs:15-87 zero_neon_registers *)
Definition zero_neon_registers (s : cpu) : cpu := {| dit := dit s; vec := fun i => if (0 <=? i) && (i <? 32) then 0 else vec s i |}.

(** x86_64/cpu.rs:6-11, aarch64/cpu.rs:4-6 enter_cpu_state *)
Definition enter_cpu_state (m : machine) (s : cpu) : Z * cpu :=
  match mc_arch m with X86_64 => (0, s) | Aarch64 => maybe_enable m s end.
(** x86_64/cpu.rs:13-43, aarch64/cpu.rs:8-13 leave_cpu_state *)
Definition leave_cpu_state (m : machine) (old : Z) (s : cpu) : cpu :=
  match mc_arch m with X86_64 => vzeroall s | Aarch64 => zero_neon_registers (maybe_disable old s) end.

(** entry.rs:10-13 Entry *)
Record entry := { en_secret : bool; en_cpu_state : Z }.

(** entry.rs:19-27 new_public; [None] is the panic of [verify_cpu_features] *)
Definition new_public (m : machine) (s : cpu) : option (entry * cpu) :=
  if mc_required m then Some ({| en_secret := false; en_cpu_state := 0 |}, s) else None.
(** entry.rs:33-42 new_secret *)
Definition new_secret (m : machine) (s : cpu) : option (entry * cpu) :=
  if mc_required m then
    let (st, s) := enter_cpu_state m s in
    Some ({| en_secret := true; en_cpu_state := st |}, s)
  else None.
(** entry.rs:45-51 drop *)
Definition entry_drop (m : machine) (e : entry) (s : cpu) : cpu :=
  if en_secret e then leave_cpu_state m (en_cpu_state e) s else s.

(** A call of a function that starts with [let _entry = Entry::new_public()] or
    [new_secret()] (90 places, such as high/ed25519.rs:93).  Its body is a
    sequence of computations and of calls of further such functions.  [Stop] is
    a body that ends early, by [return], by [?] or by a panic: in each case Rust
    drops [_entry] on the way out, after everything declared later.  [Stop true]
    is a panic, which ends the calling bodies too. *)
Inductive call := Call (secret : bool) (body : steps)
with steps :=
  | Done
  | Compute (f : (Z -> Z) -> Z -> Z) (rest : steps)
  | Sub (c : call) (rest : steps)
  | Stop (panicking : bool).

(** Running a call (entry.rs:19-51 around a body): the state at the end, whether
    it is unwinding, and, in order, the state at each computation with whether
    the innermost call or any around it is secret (kept for the theorems only). *)
Fixpoint run (m : machine) (inside : bool) (c : call) (s : cpu) : cpu * bool * list (bool * cpu) :=
  match c with
  | Call secret body =>
      match (if secret then new_secret m s else new_public m s) with
      | None => (s, true, [])
      | Some (e, s) =>
          let '(s, unwinding, tr) := run_steps m (inside || secret) body s in
          (entry_drop m e s, unwinding, tr)
      end
  end
with run_steps (m : machine) (inside : bool) (b : steps) (s : cpu) : cpu * bool * list (bool * cpu) :=
  match b with
  | Done => (s, false, [])
  | Stop p => (s, p, [])
  | Compute f rest =>
      let s' := {| dit := dit s; vec := f (vec s) |} in
      let '(s'', u, tr) := run_steps m inside rest s' in
      (s'', u, (inside, s') :: tr)
  | Sub c rest =>
      let '(s', u, tr) := run m inside c s in
      if u then (s', true, tr)
      else let '(s'', u, tr') := run_steps m inside rest s' in (s'', u, tr ++ tr')
  end.
