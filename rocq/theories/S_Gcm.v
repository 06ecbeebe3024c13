(** NIST SP 800-38D, written from the standard.  A 128-bit block is its big-endian value, so bit i of
    the standard (leftmost first) is bit 127 - i of the integer. *)
Require Import Verif.Base.

(** 6.3, Algorithm 1: X . Y *)
Definition gcm_R : Z := Z.shiftl 0xe1 120.
Definition gcm_V (V : Z) : Z := if Z.odd V then Z.lxor (Z.shiftr V 1) gcm_R else Z.shiftr V 1.
Fixpoint gcm_loop (n : nat) (i : Z) (X Zi Vi : Z) : Z :=
  match n with
  | O => Zi
  | S n => gcm_loop n (i + 1) X (if Z.testbit X (127 - i) then Z.lxor Zi Vi else Zi) (gcm_V Vi)
  end.
Definition gcm_mul (X Y : Z) : Z := gcm_loop 128 0 X 0 Y.

(** 6.4, Algorithm 2: GHASH_H of a whole number of blocks *)
Definition GHASH (H : Z) (X : list Z) : Z :=
  fold_left (fun Y B => gcm_mul (Z.lxor Y (be_val B)) H) (chunks_exact 16 X) 0.

(** 6.2: inc_32 on a 16-byte block *)
Definition inc32 (b : list Z) : list Z :=
  ztake 12 b ++ be_bytes 4 ((be_val (zdrop 12 b) + 1) mod 2 ^ 32).

(** 6.5, Algorithm 3: GCTR *)
Definition xor_min (a b : list Z) : list Z := map (fun '(x, y) => Z.lxor x y) (combine a b).
Fixpoint gctr_blocks (CIPH : list Z -> list Z) (CB : list Z) (X : list (list Z)) : list Z :=
  match X with
  | [] => []
  | B :: r => xor_min B (CIPH CB) ++ gctr_blocks CIPH (inc32 CB) r
  end.
Definition GCTR (CIPH : list Z -> list Z) (ICB X : list Z) : list Z := gctr_blocks CIPH ICB (chunks 16 X).

(** 7.1, Algorithm 4, for 96-bit IVs and 128-bit tags: GCM-AE_K(IV, P, A) *)
Definition pad16 (x : list Z) : list Z := x ++ repeat 0 (Z.to_nat ((- zlen x) mod 16)).
Definition gcm_tag (CIPH : list Z -> list Z) (IV C A : list Z) : list Z :=
  let H := be_val (CIPH (repeat 0 16)) in
  let J0 := IV ++ [0; 0; 0; 1] in
  let S := GHASH H (pad16 A ++ pad16 C ++ be_bytes 8 (8 * zlen A) ++ be_bytes 8 (8 * zlen C)) in
  GCTR CIPH J0 (be_bytes 16 S).
Definition GCM_AE (CIPH : list Z -> list Z) (IV P A : list Z) : list Z * list Z :=
  let J0 := IV ++ [0; 0; 0; 1] in
  let C := GCTR CIPH (inc32 J0) P in
  (C, gcm_tag CIPH IV C A).
(** 7.2, Algorithm 5: GCM-AD_K: the plaintext, or None for FAIL *)
Definition GCM_AD (CIPH : list Z -> list Z) (IV C A T : list Z) : option (list Z) :=
  let J0 := IV ++ [0; 0; 0; 1] in
  if list_eqb (gcm_tag CIPH IV C A) T then Some (GCTR CIPH (inc32 J0) C) else None.
(** 5.2.1.1: len(P) <= 2^39 - 256 bits *)
Definition gcm_max_bytes : Z := 2 ^ 36 - 32.
