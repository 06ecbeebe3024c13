(** Independent specification: FIPS 180-4, sections 2-6. Written from the standard, not from the code. *)
Require Import Verif.Base.

(** 3.2: operations on w-bit words, arithmetically. *)
Definition ROTR (w n x : Z) : Z := x / 2 ^ n + (x mod 2 ^ n) * 2 ^ (w - n).
Definition SHR (n x : Z) : Z := x / 2 ^ n.
Definition xor3 (x y z : Z) : Z := Z.lxor (Z.lxor x y) z.

(** 4.1.2, 4.1.3 *)
Definition Ch (w x y z : Z) : Z := Z.lxor (Z.land x y) (Z.land (2 ^ w - 1 - x) z).
Definition Maj (x y z : Z) : Z := xor3 (Z.land x y) (Z.land x z) (Z.land y z).

Record fips := {
  f_w : Z;
  f_S0 : Z -> Z; f_S1 : Z -> Z; f_s0 : Z -> Z; f_s1 : Z -> Z;
  f_rounds : nat;
  f_K : list Z }.

Definition fips256 : fips := {|
  f_w := 32; f_rounds := 64;
  f_S0 := fun x => xor3 (ROTR 32 2 x) (ROTR 32 13 x) (ROTR 32 22 x);
  f_S1 := fun x => xor3 (ROTR 32 6 x) (ROTR 32 11 x) (ROTR 32 25 x);
  f_s0 := fun x => xor3 (ROTR 32 7 x) (ROTR 32 18 x) (SHR 3 x);
  f_s1 := fun x => xor3 (ROTR 32 17 x) (ROTR 32 19 x) (SHR 10 x);
  f_K := [0x428a2f98; 0x71374491; 0xb5c0fbcf; 0xe9b5dba5; 0x3956c25b; 0x59f111f1; 0x923f82a4; 0xab1c5ed5;
    0xd807aa98; 0x12835b01; 0x243185be; 0x550c7dc3; 0x72be5d74; 0x80deb1fe; 0x9bdc06a7; 0xc19bf174;
    0xe49b69c1; 0xefbe4786; 0x0fc19dc6; 0x240ca1cc; 0x2de92c6f; 0x4a7484aa; 0x5cb0a9dc; 0x76f988da;
    0x983e5152; 0xa831c66d; 0xb00327c8; 0xbf597fc7; 0xc6e00bf3; 0xd5a79147; 0x06ca6351; 0x14292967;
    0x27b70a85; 0x2e1b2138; 0x4d2c6dfc; 0x53380d13; 0x650a7354; 0x766a0abb; 0x81c2c92e; 0x92722c85;
    0xa2bfe8a1; 0xa81a664b; 0xc24b8b70; 0xc76c51a3; 0xd192e819; 0xd6990624; 0xf40e3585; 0x106aa070;
    0x19a4c116; 0x1e376c08; 0x2748774c; 0x34b0bcb5; 0x391c0cb3; 0x4ed8aa4a; 0x5b9cca4f; 0x682e6ff3;
    0x748f82ee; 0x78a5636f; 0x84c87814; 0x8cc70208; 0x90befffa; 0xa4506ceb; 0xbef9a3f7; 0xc67178f2] |}.

Definition fips512 : fips := {|
  f_w := 64; f_rounds := 80;
  f_S0 := fun x => xor3 (ROTR 64 28 x) (ROTR 64 34 x) (ROTR 64 39 x);
  f_S1 := fun x => xor3 (ROTR 64 14 x) (ROTR 64 18 x) (ROTR 64 41 x);
  f_s0 := fun x => xor3 (ROTR 64 1 x) (ROTR 64 8 x) (SHR 7 x);
  f_s1 := fun x => xor3 (ROTR 64 19 x) (ROTR 64 61 x) (SHR 6 x);
  f_K := [0x428a2f98d728ae22; 0x7137449123ef65cd; 0xb5c0fbcfec4d3b2f; 0xe9b5dba58189dbbc;
    0x3956c25bf348b538; 0x59f111f1b605d019; 0x923f82a4af194f9b; 0xab1c5ed5da6d8118;
    0xd807aa98a3030242; 0x12835b0145706fbe; 0x243185be4ee4b28c; 0x550c7dc3d5ffb4e2;
    0x72be5d74f27b896f; 0x80deb1fe3b1696b1; 0x9bdc06a725c71235; 0xc19bf174cf692694;
    0xe49b69c19ef14ad2; 0xefbe4786384f25e3; 0x0fc19dc68b8cd5b5; 0x240ca1cc77ac9c65;
    0x2de92c6f592b0275; 0x4a7484aa6ea6e483; 0x5cb0a9dcbd41fbd4; 0x76f988da831153b5;
    0x983e5152ee66dfab; 0xa831c66d2db43210; 0xb00327c898fb213f; 0xbf597fc7beef0ee4;
    0xc6e00bf33da88fc2; 0xd5a79147930aa725; 0x06ca6351e003826f; 0x142929670a0e6e70;
    0x27b70a8546d22ffc; 0x2e1b21385c26c926; 0x4d2c6dfc5ac42aed; 0x53380d139d95b3df;
    0x650a73548baf63de; 0x766a0abb3c77b2a8; 0x81c2c92e47edaee6; 0x92722c851482353b;
    0xa2bfe8a14cf10364; 0xa81a664bbc423001; 0xc24b8b70d0f89791; 0xc76c51a30654be30;
    0xd192e819d6ef5218; 0xd69906245565a910; 0xf40e35855771202a; 0x106aa07032bbd1b8;
    0x19a4c116b8d2d0c8; 0x1e376c085141ab53; 0x2748774cdf8eeb99; 0x34b0bcb5e19b48a8;
    0x391c0cb3c5c95a63; 0x4ed8aa4ae3418acb; 0x5b9cca4f7763e373; 0x682e6ff3d6b2b8a3;
    0x748f82ee5defb2fc; 0x78a5636f43172f60; 0x84c87814a1f0ab72; 0x8cc702081a6439ec;
    0x90befffa23631e28; 0xa4506cebde82bde9; 0xbef9a3f7b2c67915; 0xc67178f2e372532b;
    0xca273eceea26619c; 0xd186b8c721c0c207; 0xeada7dd6cde0eb1e; 0xf57d4f7fee6ed178;
    0x06f067aa72176fba; 0x0a637dc5a2c898a6; 0x113f9804bef90dae; 0x1b710b35131c471b;
    0x28db77f523047d84; 0x32caab7b40c72493; 0x3c9ebe0a15c9bebc; 0x431d67c49c100d4c;
    0x4cc5d4becb3e42b6; 0x597f299cfc657e2a; 0x5fcb6fab3ad6faec; 0x6c44198c4a475817] |}.

(** 5.3: initial hash values *)
Definition H0_256 : list Z :=
  [0x6a09e667; 0xbb67ae85; 0x3c6ef372; 0xa54ff53a; 0x510e527f; 0x9b05688c; 0x1f83d9ab; 0x5be0cd19].
Definition H0_512 : list Z :=
  [0x6a09e667f3bcc908; 0xbb67ae8584caa73b; 0x3c6ef372fe94f82b; 0xa54ff53a5f1d36f1;
   0x510e527fade682d1; 0x9b05688c2b3e6c1f; 0x1f83d9abfb41bd6b; 0x5be0cd19137e2179].
Definition H0_384 : list Z :=
  [0xcbbb9d5dc1059ed8; 0x629a292a367cd507; 0x9159015a3070dd17; 0x152fecd8f70e5939;
   0x67332667ffc00b31; 0x8eb44a8768581511; 0xdb0c2e0d64f98fa7; 0x47b5481dbefa4fa4].

(** The constants are what 4.2.2, 4.2.3 and 5.3 say: the first w bits of the fractional parts of the cube
    (square) roots of the first primes, i.e. with r = i * 2^w + k for some small integer part i,
    r is the integer root of p * 2^(3w) (of p * 2^(2w)). *)
Definition is_primeb (n : nat) : bool :=
  (2 <=? n)%nat && forallb (fun d => negb (n mod d =? 0)%nat) (seq 2 (n - 2)).
Definition first_primes (k : nat) : list Z :=
  map Z.of_nat (firstn k (filter is_primeb (seq 2 408))).
Definition cbrt_frac (w p k : Z) : bool :=
  (0 <=? k) && (k <? 2 ^ w) &&
  existsb (fun i => let r := i * 2 ^ w + k in
    (r * r * r <=? p * 2 ^ (3 * w)) && (p * 2 ^ (3 * w) <? (r + 1) * (r + 1) * (r + 1))) [1; 2; 3; 4; 5; 6; 7].
Definition sqrt_frac (w p k : Z) : bool :=
  (0 <=? k) && (k <? 2 ^ w) &&
  existsb (fun i => let r := i * 2 ^ w + k in
    (r * r <=? p * 2 ^ (2 * w)) && (p * 2 ^ (2 * w) <? (r + 1) * (r + 1))) [1; 2; 3; 4; 5; 6; 7].
Lemma constants_ok :
  let P := first_primes 80 in
  length P = 80%nat /\ length (f_K fips256) = 64%nat /\ length (f_K fips512) = 80%nat /\
  forallb (fun '(p, k) => cbrt_frac 32 p k) (combine P (f_K fips256)) = true /\
  forallb (fun '(p, k) => cbrt_frac 64 p k) (combine P (f_K fips512)) = true /\
  forallb (fun '(p, k) => sqrt_frac 32 p k) (combine P H0_256) = true /\
  forallb (fun '(p, k) => sqrt_frac 64 p k) (combine P H0_512) = true /\
  forallb (fun '(p, k) => sqrt_frac 64 p k) (combine (skipn 8 P) H0_384) = true.
Proof. vm_compute. repeat split. Qed.

(** 5.1: append 0x80, the least number of zero bytes, and the bit length, so that the total is a
    multiple of the block size [n]; [lenb] is the size of the length field. *)
Definition pad (n lenb : Z) (m : list Z) : list Z :=
  m ++ [0x80] ++ repeat 0 (Z.to_nat ((- (zlen m + 1 + lenb)) mod n)) ++ be_bytes (Z.to_nat lenb) (8 * zlen m).

(** 5.2: parsing into words *)
Fixpoint words (wb : nat) (n : nat) (l : list Z) : list Z :=
  match n with O => [] | S k => be_val (firstn wb l) :: words wb k (skipn wb l) end.

Section Fips.
  Context (F : fips).
  Let w := f_w F.
  Definition add (x y : Z) : Z := (x + y) mod 2 ^ w.

  (** 6.2.2 step 1: extend the schedule to [n] more words *)
  Fixpoint extend (W : list Z) (n : nat) : list Z :=
    match n with
    | O => W
    | S k =>
        let t := length W in
        extend (W ++ [add (add (f_s1 F (nth (t - 2) W 0)) (nth (t - 7) W 0))
                          (add (f_s0 F (nth (t - 15) W 0)) (nth (t - 16) W 0))]) k
    end.
  Definition schedule (block : list Z) : list Z :=
    extend (words (Z.to_nat (w / 8)) 16 block) (f_rounds F - 16).

  (** 6.2.2 step 3 *)
  Definition fips_round (s : list Z) (kw : Z * Z) : list Z :=
    match s with
    | [a; b; c; d; e; f; g; h] =>
        let T1 := add (add (add (add h (f_S1 F e)) (Ch w e f g)) (fst kw)) (snd kw) in
        let T2 := add (f_S0 F a) (Maj a b c) in
        [add T1 T2; a; b; c; add d T1; e; f; g]
    | _ => s
    end.

  (** 6.2.2 steps 2-4 *)
  Definition fips_block (H : list Z) (block : list Z) : list Z :=
    map (fun '(x, y) => add x y)
        (combine H (fold_left fips_round (combine (f_K F) (schedule block)) H)).

  (** 6.2: all blocks, [n] blocks of [bs] bytes *)
  Fixpoint fips_blocks (bs : nat) (n : nat) (H : list Z) (m : list Z) : list Z :=
    match n with
    | O => H
    | S k => fips_blocks bs k (fips_block H (firstn bs m)) (skipn bs m)
    end.

  Definition fips_hash (H0 : list Z) (m : list Z) : list Z :=
    let bs := 16 * (w / 8) in
    let padded := pad bs (2 * (w / 8)) m in
    flat_map (be_bytes (Z.to_nat (w / 8)))
             (fips_blocks (Z.to_nat bs) (Z.to_nat (zlen padded / bs)) H0 padded).
End Fips.

Definition SHA256 (m : list Z) : list Z := fips_hash fips256 H0_256 m.
Definition SHA512 (m : list Z) : list Z := fips_hash fips512 H0_512 m.
(** 6.5: truncated to the leftmost 384 bits *)
Definition SHA384 (m : list Z) : list Z := firstn 48 (fips_hash fips512 H0_384 m).

(** "abc", FIPS 180-4 example *)
Example SHA256_abc : SHA256 [97; 98; 99] =
  [0xba;0x78;0x16;0xbf;0x8f;0x01;0xcf;0xea;0x41;0x41;0x40;0xde;0x5d;0xae;0x22;0x23;
   0xb0;0x03;0x61;0xa3;0x96;0x17;0x7a;0x9c;0xb4;0x10;0xff;0x61;0xf2;0x00;0x15;0xad].
Proof. vm_compute. reflexivity. Qed.
