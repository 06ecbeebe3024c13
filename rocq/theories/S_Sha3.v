(** FIPS 202, written from the standard: bit strings, Keccak-p, the sponge, pad10*1, SHA-3, SHAKE. *)
Require Import Verif.Base.

(** ** 3.2, 3.3: Keccak-f[1600] on 25 lanes of 64 bits, lane (x, y) at index x + 5 y *)
Definition lane (A : list Z) (x y : Z) : Z := nth (Z.to_nat (x mod 5 + 5 * (y mod 5))) A 0.
Definition by_lanes (f : Z -> Z -> Z) : list Z :=
  map (fun i => f (i mod 5) (i / 5)) (map Z.of_nat (seq 0 25)).
(** rotation of a 64-bit lane towards higher z *)
Definition rot64 (x n : Z) : Z := Z.lor (Z.shiftl x n mod 2 ^ 64) (Z.shiftr x (64 - n)).

(** Algorithm 1 *)
Definition theta (A : list Z) : list Z :=
  let C x := Z.lxor (lane A x 0) (Z.lxor (lane A x 1) (Z.lxor (lane A x 2) (Z.lxor (lane A x 3) (lane A x 4)))) in
  let Dx := map (fun x => Z.lxor (C (x - 1)) (rot64 (C (x + 1)) 1)) [0; 1; 2; 3; 4] in
  by_lanes (fun x y => Z.lxor (lane A x y) (nth (Z.to_nat x) Dx 0)).
(** Algorithm 2: starting at (1, 0), the t-th lane visited is rotated by (t+1)(t+2)/2 *)
Fixpoint rho_offsets (steps : nat) (t x y : Z) : list (Z * Z * Z) :=
  match steps with
  | O => []
  | S k => (x, y, ((t + 1) * (t + 2) / 2) mod 64) :: rho_offsets k (t + 1) y ((2 * x + 3 * y) mod 5)
  end.
Definition rho_offset (x y : Z) : Z :=
  match find (fun '(x', y', _) => (x' =? x) && (y' =? y)) (rho_offsets 24 0 1 0) with
  | Some (_, _, o) => o
  | None => 0
  end.
Definition rho (A : list Z) : list Z := by_lanes (fun x y => rot64 (lane A x y) (rho_offset x y)).
(** Algorithm 3 *)
Definition pi (A : list Z) : list Z := by_lanes (fun x y => lane A (x + 3 * y) x).
(** Algorithm 4 *)
Definition chi (A : list Z) : list Z :=
  by_lanes (fun x y =>
    Z.lxor (lane A x y) (Z.land (Z.lxor (lane A (x + 1) y) (2 ^ 64 - 1)) (lane A (x + 2) y))).
(** Algorithm 6, with the round constant given *)
Definition iota (rc : Z) (A : list Z) : list Z :=
  match A with a :: r => Z.lxor a rc :: r | [] => [] end.
Definition Rnd (rc : Z) (A : list Z) : list Z := iota rc (chi (pi (rho (theta A)))).
Definition keccak_p (rcs : list Z) (A : list Z) : list Z := fold_left (fun A rc => Rnd rc A) rcs A.

(** Algorithm 5: rc(t), from the LFSR x^8 + x^6 + x^5 + x^4 + 1; R is kept as R[0] .. R[7] *)
Definition lfsr_step (R : list bool) : list bool :=
  match R with
  | [r0; r1; r2; r3; r4; r5; r6; r7] =>
      (* R = 0 || R; then R[0], R[4], R[5], R[6] are xored with R[8]; truncate to 8 *)
      [r7; r0; r1; r2; xorb r3 r7; xorb r4 r7; xorb r5 r7; r6]
  | _ => R
  end.
Definition rc (t : Z) : bool :=
  nth 0 (Nat.iter (Z.to_nat (t mod 255)) lfsr_step [true; false; false; false; false; false; false; false]) false.
(** Algorithm 6, steps 2-3: bit 2^j - 1 of the constant of round [ir] is rc(j + 7 ir) *)
Definition round_constant (ir : Z) : Z :=
  fold_left (fun acc j => acc + (if rc (j + 7 * ir) then 2 ^ (2 ^ j - 1) else 0)) [0; 1; 2; 3; 4; 5; 6] 0.
Definition round_constants : list Z := map (fun i => round_constant (Z.of_nat i)) (seq 0 24).

(** Section 3.4: Keccak-f[1600] *)
Definition keccak_f (A : list Z) : list Z := keccak_p round_constants A.

(** 3.1.2: the 1600-bit state as 200 bytes, lanes little-endian *)
Definition lanes_of_bytes (S : list Z) : list Z := map le_val (chunks_exact 8 S).
Definition bytes_of_lanes (A : list Z) : list Z := concat (map (le_bytes 8) A).
Definition keccak_bytes (S : list Z) : list Z := bytes_of_lanes (keccak_f (lanes_of_bytes S)).

(** ** B.1: bytes and bits, least significant bit first *)
Definition bits_of_byte (b : Z) : list bool := map (fun i => Z.testbit b (Z.of_nat i)) (seq 0 8).
Definition bits_of_bytes (m : list Z) : list bool := concat (map bits_of_byte m).
Definition byte_of_bits (l : list bool) : Z := fold_right (fun (b : bool) acc => (if b then 1 else 0) + 2 * acc) 0 l.
Fixpoint bytes_of_bits_n (n : nat) (l : list bool) : list Z :=
  match n with O => [] | S k => byte_of_bits (firstn 8 l) :: bytes_of_bits_n k (skipn 8 l) end.
Definition bytes_of_bits (l : list bool) : list Z := bytes_of_bits_n (length l / 8) l.

(** 5.1: pad10*1(x, m) *)
Definition pad10star1 (x m : Z) : list bool :=
  [true] ++ repeat false (Z.to_nat ((- m - 2) mod x)) ++ [true].

(** ** 4: the sponge at byte level, rate [R] bytes; [m] is the bit string to absorb *)
Definition xor_into (S block : list Z) : list Z :=
  map (fun '(x, y) => Z.lxor x y) (combine S (block ++ repeat 0 (200 - length block))).
Definition sponge_absorb (R : Z) (m : list bool) : list Z :=
  let P := bytes_of_bits (m ++ pad10star1 (8 * R) (Z.of_nat (length m))) in
  fold_left (fun S block => keccak_bytes (xor_into S block)) (chunks_exact R P) (repeat 0 200).
(** the first [k] blocks of output *)
Fixpoint squeeze_blocks (R : Z) (k : nat) (S : list Z) : list Z :=
  match k with O => [] | S k' => ztake R S ++ squeeze_blocks R k' (keccak_bytes S) end.
Definition SPONGE (R : Z) (m : list bool) (d : Z) : list Z :=
  ztake d (squeeze_blocks R (Z.to_nat (d / R + 1)) (sponge_absorb R m)).

(** 6.1, 6.2: SHA3-n(M) = KECCAK[2n](M || 01, n); SHAKEn(M, d) = KECCAK[2n](M || 1111, d) *)
Definition SHA3_256 (M : list Z) : list Z := SPONGE (200 - 64) (bits_of_bytes M ++ [false; true]) 32.
Definition SHA3_512 (M : list Z) : list Z := SPONGE (200 - 128) (bits_of_bytes M ++ [false; true]) 64.
Definition SHAKE128 (M : list Z) (d : Z) : list Z := SPONGE (200 - 32) (bits_of_bytes M ++ [true; true; true; true]) d.
Definition SHAKE256 (M : list Z) (d : Z) : list Z := SPONGE (200 - 64) (bits_of_bytes M ++ [true; true; true; true]) d.

(** What is assumed of the assembly entry points: they compute Keccak-p with the given constants on
    every well-formed state. *)
Definition state_ok (A : list Z) : Prop := length A = 25%nat /\ Forall (fun w => 0 <= w < 2 ^ 64) A.
Definition keccak_asm_ok (kf : list Z -> list Z -> list Z) : Prop :=
  forall A rcs, state_ok A -> length rcs = 24%nat -> kf A rcs = keccak_p rcs A.
Definition keccak4_asm_ok (kf4 : list (list Z) -> list Z -> list (list Z)) : Prop :=
  forall a b c d rcs, state_ok a -> state_ok b -> state_ok c -> state_ok d -> length rcs = 24%nat ->
    kf4 [a; b; c; d] rcs = [keccak_p rcs a; keccak_p rcs b; keccak_p rcs c; keccak_p rcs d].
(** only the first two results of the two-of-four variant are specified *)
Definition keccak2of4_asm_ok (kf2 : list (list Z) -> list Z -> list (list Z)) : Prop :=
  forall a b c d rcs, state_ok a -> state_ok b -> state_ok c -> state_ok d -> length rcs = 24%nat ->
    exists c' d', kf2 [a; b; c; d] rcs = [keccak_p rcs a; keccak_p rcs b; c'; d'].
