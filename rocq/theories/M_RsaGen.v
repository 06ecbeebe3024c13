(** Model of graviola/src/mid/rsa_priv/generate.rs: RSA key generation.
    The two [RandomSource] arguments are functions from a source state and a length to a filled buffer (or an error)
    and a new state.  Both draw from one state [S], so they may be independent or, as in the public API
    (high/rsa.rs:263-267), the same source.  The three [loop]s have no bound in the code; here each takes [fuel], and
    [None] means that it has not finished yet.  The zeroisation of the buffer (generate.rs:155) is left out. *)
Require Import Verif.Base Verif.M_PosInt Verif.M_Rsa.

(** generate.rs:18-29 KeySize *)
Inductive key_size := Rsa2048 | Rsa3072 | Rsa4096 | Rsa6144 | Rsa8192.
(** generate.rs:32-40 *)
Definition public_modulus_size_bits (k : key_size) : Z :=
  match k with Rsa2048 => 2048 | Rsa3072 => 3072 | Rsa4096 => 4096 | Rsa6144 => 6144 | Rsa8192 => 8192 end.
(** generate.rs:42-44 *)
Definition private_prime_size_bits (k : key_size) : Z := public_modulus_size_bits k / 2.
(** generate.rs:46-55 *)
Definition miller_rabin_rounds (k : key_size) : Z :=
  match k with Rsa2048 => 5 | Rsa3072 => 4 | Rsa4096 => 4 | Rsa6144 | Rsa8192 => 4 end.
(** generate.rs:58-72 try_from *)
Definition key_size_try_from (v : Z) : res key_size :=
  if v =? 2048 then Ok Rsa2048 else if v =? 3072 then Ok Rsa3072 else if v =? 4096 then Ok Rsa4096
  else if v =? 6144 then Ok Rsa6144 else if v =? 8192 then Ok Rsa8192 else Err OutOfRange.

(** generate.rs:120 *)
Definition PUBLIC_EXPONENT : Z := 0x10001.
(** generate.rs:302-320 *)
Definition PRODUCT_OF_SMALL_PRIMES : list Z :=
  [0x02; 0xc8; 0x5f; 0xf8; 0x70; 0xf2; 0x4b; 0xe8; 0x0f; 0x62; 0xb1; 0xba; 0x6c; 0x20; 0xbd; 0x72;
   0xb8; 0x37; 0xef; 0xdf; 0x12; 0x12; 0x06; 0xd8; 0x7d; 0xb5; 0x6b; 0x7d; 0x69; 0xfa; 0x4c; 0x02;
   0x1c; 0x10; 0x7c; 0x3c; 0xa2; 0x06; 0xfe; 0x8f; 0xa7; 0x08; 0x0e; 0xf5; 0x76; 0xef; 0xfc; 0x82;
   0xf9; 0xb1; 0x0f; 0x57; 0x50; 0x65; 0x6b; 0x77; 0x94; 0xb1; 0x6a; 0xfd; 0x70; 0x99; 0x6e; 0x91;
   0xae; 0xf6; 0xe0; 0xad; 0x15; 0xe9; 0x1b; 0x07; 0x1a; 0xc9; 0xb2; 0x4d; 0x98; 0xb2; 0x33; 0xad;
   0x86; 0xee; 0x05; 0x55; 0x18; 0xe5; 0x8e; 0x56; 0x63; 0x8e; 0xf1; 0x8b; 0xac; 0x5c; 0x74; 0xcb;
   0x35; 0xbb; 0xb6; 0xe5; 0xda; 0xe2; 0x78; 0x3d; 0xd1; 0xc0; 0xce; 0x7d; 0xec; 0x4f; 0xc7; 0x0e;
   0x51; 0x86; 0xd4; 0x11; 0xdf; 0x36; 0x36; 0x8f; 0x06; 0x1a; 0xa3; 0x60; 0x11; 0xf3; 0x01; 0x79].

(** generate.rs:295-300 MillerRabinResult *)
Inductive mr_result := UnsuitableBase | PossiblyPrime | Composite.
(** generate.rs:217-226 MillerRabinParams *)
Record mr_params := mkMR { mr_w : posint; mr_w1 : posint; mr_a : Z; mr_m : posint; mr_w0 : Z; mr_mf : posint;
  mr_mont_w1 : posint; mr_mont_one : posint }.

Section Gen.
Variable bn : bignum.

(** generate.rs:229-253 MillerRabinParams::new *)
Definition mr_new (w : posint) : res mr_params :=
  let! one := pword MAX_PRIVATE_MODULUS_WORDS 1 in
  let w1 := psub w one in
  let a := pctz w1 in
  let m := shift_right_vartime w1 a in
  let mf := montifier bn w in
  let w0 := mont_neg_inverse bn w in
  Ok (mkMR w w1 a m w0 mf (to_montgomery bn w1 mf w) (mont_mul bn (fixed_one w) mf w w0)).
(** generate.rs:274-291: the loop over j of steps 4.5 and 4.6, [n] iterations left *)
Fixpoint mr_squares (mr : mr_params) (n : nat) (z : posint) : mr_result :=
  match n with
  | O => Composite
  | S n =>
      let z := mont_sqr bn z (mr_w mr) (mr_w0 mr) in
      if pequals z (mr_mont_w1 mr) then PossiblyPrime
      else if pequals z (mr_mont_one mr) then Composite
      else mr_squares mr n z
  end.
(** generate.rs:255-292 check_base *)
Definition check_base (mr : mr_params) (b : posint) : res mr_result :=
  if (len_bits b <=? 1) || negb (less_than b (mr_w1 mr)) then Ok UnsuitableBase
  else
    let! z := mont_exp bn (to_montgomery bn b (mr_mf mr) (mr_w mr)) (mr_mont_one mr) (mr_m mr) (mr_w mr) (mr_w0 mr) in
    if pequals z (mr_mont_one mr) || pequals z (mr_mont_w1 mr) then Ok PossiblyPrime
    else Ok (mr_squares mr (Z.to_nat (mr_a mr - 1)) z).

Section Sources.
Variable S : Type.
Variables candidate_fill checks_fill : S -> Z -> res (list Z) * S.

(** generate.rs:195-197: discard the excess high bits *)
Definition mask_base (w_len : Z) (buffer : list Z) : list Z :=
  if Z.land w_len 7 =? 0 then buffer
  else upd buffer 0 (Z.land (znth buffer 0) (Z.max 0 (Z.shiftl 1 (Z.land w_len 7) - 1))).
(** generate.rs:186-214: the loop of miller_rabin; [left] is what remains of the range 1..=rounds, whose [next] is only
    called after a base has passed *)
Fixpoint mr_loop (fuel : nat) (mr : mr_params) (w_len left : Z) (s : S) : option (res bool * S) :=
  match fuel with
  | O => None
  | Datatypes.S f =>
      let w_bytes := (w_len + 7) / 8 in
      match checks_fill s w_bytes with
      | (Ok buffer, s) =>
          match (let! b := pfrom_bytes MAX_PRIVATE_MODULUS_WORDS (mask_base w_len buffer) in check_base mr b) with
          | Ok UnsuitableBase => mr_loop f mr w_len left s
          | Ok Composite => Some (Ok false, s)
          | Ok PossiblyPrime => if left =? 0 then Some (Ok true, s) else mr_loop f mr w_len (left - 1) s
          | Err e => Some (Err e, s)
          | Panic => Some (Panic, s)
          end
      | (Err e, s) => Some (Err e, s)
      | (Panic, s) => Some (Panic, s)
      end
  end.
(** generate.rs:177-215 miller_rabin *)
Definition miller_rabin (fuel : nat) (w : posint) (size : key_size) (s : S) : option (res bool * S) :=
  match mr_new w with
  | Ok mr => mr_loop fuel mr (len_bits w) (miller_rabin_rounds size) s
  | Err e => Some (Err e, s)
  | Panic => Some (Panic, s)
  end.
(** generate.rs:163-175 is_prime and its [unwrap] *)
Definition is_prime (fuel : nat) (candidate : posint) (size : key_size) (s : S) : option (res bool * S) :=
  match pfrom_bytes MAX_PRIVATE_MODULUS_WORDS PRODUCT_OF_SMALL_PRIMES with
  | Ok small_primes =>
      if negb (is_coprime candidate small_primes) then Some (Ok false, s)
      else miller_rabin fuel candidate size s
  | _ => Some (Panic, s)
  end.
(** generate.rs:145-149: set the top two bits and the bottom bit *)
Definition shape_candidate (buffer : list Z) : list Z :=
  let buffer := upd buffer 0 (Z.lor (znth buffer 0) 0xC0) in
  let last := Z.to_nat (zlen buffer - 1) in
  upd buffer last (Z.lor (znth buffer last) 1).
(** generate.rs:136-161 random_prime_one *)
Definition random_prime_one (fuel : nat) (size : key_size) (s : S) : option (res (option posint) * S) :=
  match candidate_fill s (private_prime_size_bits size / 8) with
  | (Ok buffer, s) =>
      match pfrom_bytes MAX_PRIVATE_MODULUS_WORDS (shape_candidate buffer) with
      | Ok candidate =>
          match is_prime fuel candidate size s with
          | Some (Ok true, s) => Some (Ok (Some candidate), s)
          | Some (Ok false, s) => Some (Ok None, s)
          | Some (Err e, s) => Some (Err e, s)
          | Some (Panic, s) => Some (Panic, s)
          | None => None
          end
      | Err e => Some (Err e, s)
      | Panic => Some (Panic, s)
      end
  | (Err e, s) => Some (Err e, s)
  | (Panic, s) => Some (Panic, s)
  end.
(** generate.rs:122-134 random_prime *)
Fixpoint random_prime_loop (n fuel : nat) (size : key_size) (s : S) : option (res posint * S) :=
  match n with
  | O => None
  | Datatypes.S n =>
      match random_prime_one fuel size s with
      | Some (Ok (Some candidate), s) => Some (Ok candidate, s)
      | Some (Ok None, s) => random_prime_loop n fuel size s
      | Some (Err e, s) => Some (Err e, s)
      | Some (Panic, s) => Some (Panic, s)
      | None => None
      end
  end.
(** generate.rs:122-134  random_prime *)
Definition random_prime (fuel : nat) := random_prime_loop fuel fuel.

(** generate.rs:89-115: the key made from two distinct probable primes; [Ok None] is the [continue] *)
Definition make_key (p q : posint) : res (option rsa_priv) :=
  let (p, q) := if less_than q p then (p, q) else (q, p) in
  let n := pmul MAX_PUBLIC_MODULUS_WORDS p q in
  let! e := pword MAX_PUBLIC_MODULUS_WORDS PUBLIC_EXPONENT in
  let one := pone MAX_PRIVATE_MODULUS_WORDS in
  let p_1 := psub p one in
  let q_1 := psub q one in
  let phi := pmul MAX_PUBLIC_MODULUS_WORDS p_1 q_1 in
  let! inverse := invert_vartime bn e phi in
  match inverse with
  | None => Ok None
  | Some d =>
      let iqmp := mod_inverse bn q p in
      let! dp := reduce_even bn d p_1 in
      let! dq := reduce_even bn d q_1 in
      let! key := priv_new bn p q d dp dq iqmp n PUBLIC_EXPONENT in
      Ok (Some key)
  end.
(** generate.rs:74-117 generate_key *)
Fixpoint generate_loop (n fuel : nat) (size : key_size) (s : S) : option (res rsa_priv * S) :=
  match n with
  | O => None
  | Datatypes.S n =>
      match random_prime fuel size s with
      | Some (Ok p, s) =>
          match random_prime fuel size s with
          | Some (Ok q, s) =>
              if pequals p q then Some (Err RngFailed, s)
              else
                match make_key p q with
                | Ok (Some key) => Some (Ok key, s)
                | Ok None => generate_loop n fuel size s
                | Err e => Some (Err e, s)
                | Panic => Some (Panic, s)
                end
          | Some (Err e, s) => Some (Err e, s)
          | Some (Panic, s) => Some (Panic, s)
          | None => None
          end
      | Some (Err e, s) => Some (Err e, s)
      | Some (Panic, s) => Some (Panic, s)
      | None => None
      end
  end.
(** generate.rs:74-117  generate_key *)
Definition generate_key (fuel : nat) := generate_loop fuel fuel.
End Sources.
End Gen.
