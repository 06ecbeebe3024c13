(** Model of mid/p256.rs and mid/p384.rs.  The two files are the same text
    except for sizes, constants and the base-point multiplication, so one
    model covers both: everything that differs is in [params] and [base].

    Simplifications, here and below: an array of words is represented by the
    number it holds (the conversions from and to bytes go through M_Util);
    secret/public annotations, zeroising and the [Entry] guards are left out.

    Lines are cited as p256.rs:a-b / p384.rs:c-d. *)
Require Import Verif.Base Verif.M_Util.

(** *** the assembly *)

(** The field routines, by what they compute modulo p: the files
    low/x86_64/bignum_{montmul,montsqr,add,neg,demont,tomont,inv}_p256.rs and
    _p384.rs, and the macros [amontsqr], [sub], [weakadd], [cmsub], [cmsub41],
    [cmsub38] inside low/x86_64/p256_montjadd.rs:318-450,
    p256_montjdouble.rs:1-570 and the p384 files.  They are parameters; their
    contract is S_Ec.field_ok.  The three [cmsub] macros are one parameter,
    with the two constant factors as arguments. *)
Record field_asm := {
  f_montmul : Z -> Z -> Z;
  f_montsqr : Z -> Z;
  f_amontsqr : Z -> Z;
  f_add : Z -> Z -> Z;
  f_weakadd : Z -> Z -> Z;
  f_sub : Z -> Z -> Z;
  f_neg : Z -> Z;
  f_cmsub : Z -> Z -> Z -> Z -> Z;
  f_demont : Z -> Z;
  f_tomont : Z -> Z;
  f_inv : Z -> Z }.

(** The routines modulo the group order: low/x86_64/bignum_mod_n256.rs,
    bignum_mod_n384.rs, bignum_montmul.rs, bignum_demont.rs, bignum_modinv.rs,
    bignum_modadd.rs (the last argument of these is the modulus).  Parameters;
    contract S_Ec.scalar_ok. *)
Record scalar_asm := {
  s_mod_n : Z -> Z;
  s_montmul : Z -> Z -> Z -> Z;
  s_demont : Z -> Z -> Z;
  s_modinv : Z -> Z -> Z;
  s_modadd : Z -> Z -> Z -> Z }.

(** AffineMontPoint, p256.rs:242-244 / p384.rs:242-244: (x, y). *)
Definition aff := (Z * Z)%type.
(** JacobianMontPoint, p256.rs:453-455 / p384.rs:372-374: (x, y, z). *)
Definition jac := (Z * Z * Z)%type.

(** The precomputed tables for the base point: p256/precomp.rs
    CURVE_GENERATOR_PRECOMP_W7 (37 rows of 64 affine points) or
    p384/precomp.rs CURVE_GENERATOR_PRECOMP_W5 (16 Jacobian points).  Their
    contents are parameters. *)
Inductive base := BaseW7 (t : list (list aff)) | BaseW5 (t : list jac).

(** What differs between the files: number of words, the constants
    p256.rs:1069-1102 / p384.rs:899-942, and the first index of the Booth
    recoding of width 5, p256.rs:1016 / p384.rs:850. *)
Record params := {
  ec_limbs : Z;
  ec_a_mont : Z;
  ec_b_mont : Z;
  ec_one_mont : Z;
  ec_order : Z;
  ec_order_mm : Z;
  ec_w5_start : Z }.

(** p256.rs:1069-1102, :1016 *)
Definition par256 : params := {|
  ec_limbs := 4;
  ec_a_mont := limbs_val [0xfffffffffffffffc; 0x00000003ffffffff; 0; 0xfffffffc00000004];
  ec_b_mont := limbs_val [0xd89cdf6229c4bddf; 0xacf005cd78843090; 0xe5a220abf7212ed6; 0xdc30061d04874834];
  ec_one_mont := limbs_val [1; 0xffffffff00000000; 0xffffffffffffffff; 0x00000000fffffffe];
  ec_order := limbs_val [0xf3b9cac2fc632551; 0xbce6faada7179e84; 0xffffffffffffffff; 0xffffffff00000000];
  ec_order_mm := limbs_val [0x83244c95be79eea2; 0x4699799c49bd6fa6; 0x2845b2392b6bec59; 0x66e12d94f3d95620];
  ec_w5_start := 255 |}.

(** p384.rs:899-942, :850 *)
Definition par384 : params := {|
  ec_limbs := 6;
  ec_a_mont := limbs_val [0x00000003fffffffc; 0xfffffffc00000000; 0xfffffffffffffffb;
                          0xffffffffffffffff; 0xffffffffffffffff; 0xffffffffffffffff];
  ec_b_mont := limbs_val [0x081188719d412dcc; 0xf729add87a4c32ec; 0x77f2209b1920022e;
                          0xe3374bee94938ae2; 0xb62b21f41f022094; 0xcd08114b604fbff9];
  ec_one_mont := limbs_val [0xffffffff00000001; 0x00000000ffffffff; 0x0000000000000001; 0; 0; 0];
  ec_order := limbs_val [0xecec196accc52973; 0x581a0db248b0a77a; 0xc7634d81f4372ddf;
                         0xffffffffffffffff; 0xffffffffffffffff; 0xffffffffffffffff];
  ec_order_mm := limbs_val [0x2d319b2419b409a9; 0xff3d81e5df1aa419; 0xbc3e483afcb82947;
                            0xd40d49174aab1cc5; 0x3fb05b7a28266895; 0x0c84ee012b39bf21];
  ec_w5_start := 380 |}.

(** Everything a curve module refers to: one value of this type stands for
    mid/p256.rs and one for mid/p384.rs (constants :1069-1102 / :899-942). *)
Record ec := { e_par : params; e_f : field_asm; e_s : scalar_asm; e_base : base }.

Section Ec.
Variable E : ec.
(** the constants of the module, p256.rs / p384.rs *)
Let P := e_par E.
(** its field, p256.rs:709-773 / p384.rs:590-654 *)
Let F := e_f E.
(** its scalars, p256.rs:776-778 ff. / p384.rs:657-659 ff. *)
Let S := e_s E.

(** FieldElement::BYTES and Scalar::BYTES: p256.rs:712, :779 / p384.rs:593, :660 *)
Definition ec_bytes : Z := 8 * ec_limbs P.
(** PublicKey::BYTES: p256.rs:22 / p384.rs:22 *)
Definition ec_point_bytes : Z := 1 + ec_bytes + ec_bytes.

(** *** point operations in assembly, by their sequence of field operations *)

(** low/x86_64/p256_montjadd.rs:505-637 / p384_montjadd.rs:941-1091: the
    macro calls in order, then the selection on z1 = 0 and z2 = 0. *)
Definition montjadd (p1 p2 : jac) : jac :=
  let '(x1, y1, z1) := p1 in
  let '(x2, y2, z2) := p2 in
  let z1sq := f_amontsqr F z1 in
  let z2sq := f_amontsqr F z2 in
  let y1a := f_montmul F z2 y1 in
  let y2a := f_montmul F z1 y2 in
  let x2a := f_montmul F z1sq x2 in
  let x1a := f_montmul F z2sq x1 in
  let y2a := f_montmul F z1sq y2a in
  let y1a := f_montmul F z2sq y1a in
  let xd := f_sub F x2a x1a in
  let yd := f_sub F y2a y1a in
  let zz := f_amontsqr F xd in
  let ww := f_montsqr F yd in
  let zzx1 := f_montmul F zz x1a in
  let zzx2 := f_montmul F zz x2a in
  let resx := f_sub F ww zzx1 in
  let t1 := f_sub F zzx2 zzx1 in
  let xd := f_montmul F xd z1 in
  let resx := f_sub F resx zzx2 in
  let t2 := f_sub F zzx1 resx in
  let t1 := f_montmul F t1 y1a in
  let resz := f_montmul F xd z2 in
  let t2 := f_montmul F yd t2 in
  let resy := f_sub F t2 t1 in
  if (z1 =? 0) && negb (z2 =? 0) then (x2, y2, z2)
  else if (z2 =? 0) && negb (z1 =? 0) then (x1, y1, z1)
  else (resx, resy, resz).

(** low/x86_64/p256_montjmixadd.rs:506-613 (P-256 only); the constant loaded
    for z when z1 = 0, lines :576-583, is the number in CURVE_ONE_MONT. *)
Definition montjmixadd (p1 : jac) (p2 : aff) : jac :=
  let '(x1, y1, z1) := p1 in
  let '(x2, y2) := p2 in
  let zp2 := f_amontsqr F z1 in
  let y2a := f_montmul F z1 y2 in
  let x2a := f_montmul F zp2 x2 in
  let y2a := f_montmul F zp2 y2a in
  let xd := f_sub F x2a x1 in
  let yd := f_sub F y2a y1 in
  let zz := f_amontsqr F xd in
  let ww := f_montsqr F yd in
  let zzx1 := f_montmul F zz x1 in
  let zzx2 := f_montmul F zz x2a in
  let resx := f_sub F ww zzx1 in
  let t1 := f_sub F zzx2 zzx1 in
  let resz := f_montmul F xd z1 in
  let resx := f_sub F resx zzx2 in
  let t2 := f_sub F zzx1 resx in
  let t1 := f_montmul F t1 y1 in
  let t2 := f_montmul F yd t2 in
  let resy := f_sub F t2 t1 in
  if z1 =? 0 then (x2, y2, ec_one_mont P) else (resx, resy, resz).

(** low/x86_64/p256_montjdouble.rs:578-674 / p384_montjdouble.rs:949-1051 *)
Definition montjdouble (p1 : jac) : jac :=
  let '(x1, y1, z1) := p1 in
  let z2 := f_montsqr F z1 in
  let y2 := f_montsqr F y1 in
  let t2 := f_sub F x1 z2 in
  let t1 := f_weakadd F x1 z2 in
  let x2p := f_montmul F t1 t2 in
  let t1 := f_add F y1 z1 in
  let xy2 := f_montmul F x1 y2 in
  let x4p := f_montsqr F x2p in
  let t1 := f_montsqr F t1 in
  let d := f_cmsub F 12 xy2 9 x4p in
  let t1 := f_sub F t1 z2 in
  let y4 := f_montsqr F y2 in
  let dx2 := f_montmul F d x2p in
  let z3 := f_sub F t1 y2 in
  let x3 := f_cmsub F 4 xy2 1 d in
  let y3 := f_cmsub F 3 dx2 8 y4 in
  (x3, y3, z3).

(** *** field elements and affine points *)

(** u64x4_to_big_endian / u64x6_to_big_endian of a field element or scalar:
    p256.rs:811-813, :115, :321 / p384.rs:704-706 *)
Definition to_be (v : Z) : list Z := be_bytes (Z.to_nat ec_bytes) v.

(** p256.rs:296-313 / p384.rs:296-313 *)
Definition aff_on_curve (a : aff) : bool :=
  let '(x, y) := a in
  let rhs := f_montsqr F x in
  let rhs := f_add F rhs (ec_a_mont P) in
  let rhs := f_montmul F rhs x in
  let rhs := f_add F rhs (ec_b_mont P) in
  let lhs := f_montsqr F y in
  lhs =? rhs.

(** FieldElement(util::big_endian_slice_to_u64x4(b).unwrap()):
    p256.rs:265-266 / p384.rs:265-266 *)
Definition field_from_be (b : list Z) : res Z :=
  match be_slice_to_u64s (ec_limbs P) b with Some w => Ok (limbs_val w) | None => Panic end.

(** p256.rs:250-274 / p384.rs:250-274 *)
Definition aff_from_x962 (bytes : list Z) : res aff :=
  match bytes with
  | [] => Err WrongLength
  | b :: xy =>
      if negb (b =? 4) then Err NotUncompressed
      else if negb (zlen bytes =? ec_point_bytes) then Err WrongLength
      else
        let! x := field_from_be (ztake ec_bytes xy) in
        let! y := field_from_be (zdrop ec_bytes xy) in
        let point := (f_tomont F x, f_tomont F y) in
        if aff_on_curve point then Ok point else Err NotOnCurve
  end.

(** p256.rs:315-324 / p384.rs:315-324 *)
Definition aff_to_x962 (a : aff) : list Z :=
  4 :: to_be (f_demont F (fst a)) ++ to_be (f_demont F (snd a)).

(** *** scalars *)

(** big_endian_slice_any_size_to_u64x4(bytes).ok_or(WrongLength):
    p256.rs:789, :796 / p384.rs:672, :689 *)
Definition scalar_from_be (bytes : list Z) : res Z :=
  match be_slice_any_size_to_u64s (ec_limbs P) bytes with
  | Some w => Ok (limbs_val w)
  | None => Err WrongLength
  end.

(** p256.rs:801-809 / p384.rs:694-702 *)
Definition scalar_range_check (v : Z) : res Z :=
  let reduced := s_mod_n S v in
  if negb (reduced =? v) || (v =? 0) then Err OutOfRange else Ok v.

(** p256.rs:788-792 / p384.rs:671-675 *)
Definition scalar_from_bytes_checked (bytes : list Z) : res Z :=
  let! full := scalar_from_be bytes in scalar_range_check full.

(** p384.rs:681-685 *)
Definition scalar_from_array_checked (bytes : list Z) : res Z :=
  scalar_range_check (limbs_val (be_to_u64s bytes)).

(** p256.rs:794-799 / p384.rs:687-692 *)
Definition scalar_from_bytes_reduced (bytes : list Z) : res Z :=
  let! full := scalar_from_be bytes in Ok (s_mod_n S full).

(** the same with [unwrap]: p256.rs:278, :631 / p384.rs:278, :519 and
    high/curve.rs:204-206, :311-313 *)
Definition unwrap {A} (x : res A) : res A := match x with Ok a => Ok a | _ => Panic end.

(** p256.rs:843-847 / p384.rs:736-740 *)
Definition scalar_demont (v : Z) : Z := s_demont S v (ec_order P).
(** p256.rs:850-854 / p384.rs:743-747 *)
Definition scalar_as_mont (v : Z) : Z := s_montmul S v (ec_order_mm P) (ec_order P).
(** p256.rs:869-873 / p384.rs:762-766 *)
Definition scalar_mont_mul (a b : Z) : Z := s_montmul S a b (ec_order P).
(** p256.rs:876-881 / p384.rs:769-774 *)
Definition scalar_inv (v : Z) : Z := s_modinv S v (ec_order P).
(** p256.rs:884-888 / p384.rs:777-781 *)
Definition scalar_add (a b : Z) : Z := s_modadd S a b (ec_order P).

(** *** Booth recoding *)

(** BoothRecodeW7::recode (w = 7) and BoothRecodeW5::recode (w = 5):
    p256.rs:965-976, :1019-1030 / p384.rs:853-864.  (digit, sign) *)
Definition recode (w v : Z) : Z * Z :=
  let sign := Z.lxor 255 ((Z.shiftr v w - 1) mod 256) in
  let d := ((2 ^ (w + 1) - v - 1) mod 65536) mod 256 in
  let d := Z.lor (Z.land d sign) (Z.land v (Z.lxor 255 sign)) in
  let d := (Z.shiftr d 1 + Z.land d 1) mod 256 in
  (d, Z.land sign 1).

(** BoothRecodeW7::new / BoothRecodeW5::new: p256.rs:954-963, :1008-1017 /
    p384.rs:840-851: the little-endian bytes and one zero byte *)
Definition booth_bytes (scalar : Z) : list Z := le_bytes (Z.to_nat ec_bytes) scalar ++ [0].

(** the u16 window: p256.rs:989-992, :1040-1043 / p384.rs:874-877.  The byte
    indexing is in range for every index reached, so reads outside are not
    modelled as a panic but as zero. *)
Definition booth_window (bytes : list Z) (index : Z) : Z :=
  let offset := (index - 1) / 8 in
  let shift := (index - 1) mod 8 in
  (Z.shiftr (Z.lor (znth bytes (Z.to_nat offset))
                   (Z.shiftl (znth bytes (Z.to_nat (offset + 1))) 8)) shift) mod 256.

(** BoothRecodeW7::next, p256.rs:982-999: the item and the next index *)
Definition w7_next (bytes : list Z) (index : Z) : option ((Z * Z) * Z) :=
  if index =? 0 then Some (recode 7 ((Z.shiftl (znth bytes 0) 1) mod 256), index + 7)
  else if (7 <=? index) && (index <=? 252) then
    Some (recode 7 (booth_window bytes index), index + 7)
  else None.

(** the items in order: [for] over the iterator, p256.rs:502-504, :522 *)
Fixpoint w7_terms (fuel : nat) (bytes : list Z) (index : Z) : list (Z * Z) :=
  match fuel with
  | O => []
  | Datatypes.S k =>
      match w7_next bytes index with
      | Some (t, i) => t :: w7_terms k bytes i
      | None => []
      end
  end.

(** BoothRecodeW5::next, p256.rs:1036-1058 / p384.rs:869-891; usize::MAX is
    represented by -1 *)
Definition w5_next (bytes : list Z) (index : Z) : option ((Z * Z * bool) * Z) :=
  if (5 <=? index) && (index <=? ec_w5_start P) then
    let '(digit, sign) := recode 5 (Z.land (booth_window bytes index) 0x3f) in
    Some ((digit, sign, false), index - 5)
  else if index =? 0 then
    let '(digit, sign) := recode 5 (Z.land ((Z.shiftl (znth bytes 0) 1) mod 256) 0x3f) in
    Some ((digit, sign, true), -1)
  else None.

(** the items in order: p256.rs:555-557, :565 / p384.rs:443-445, :453 *)
Fixpoint w5_terms (fuel : nat) (bytes : list Z) (index : Z) : list (Z * Z * bool) :=
  match fuel with
  | O => []
  | Datatypes.S k =>
      match w5_next bytes index with
      | Some (t, i) => t :: w5_terms k bytes i
      | None => []
      end
  end.

(** more than the number of terms of either recoding (37, 52 or 77):
    p256.rs:901-908 / p384.rs:794-796 *)
Definition booth_fuel : nat := 100.

(** *** points *)

(** p256.rs:463-467 / p384.rs:397-401 *)
Definition jac_infinity : jac := (1, 1, 0).
(** p256.rs:473-475 / p384.rs:407-409 *)
Definition jac_zero : jac := (0, 0, 0).

(** FieldElement::select, p256.rs:767-772 / p384.rs:648-653 *)
Definition field_select (p0 p1 select : Z) : Z := if select =? 0 then p0 else p1.

(** negate_y and maybe_negate_y of both point types:
    p256.rs:341-351, :695-705 / p384.rs:576-586; [secret] chooses between the
    constant-time selection and the conditional *)
Definition negated (secret : bool) (y sign : Z) : Z :=
  if secret then field_select y (f_neg F y) sign
  else if 0 <? sign then f_neg F y else y.

(** lookup_w7 / public_lookup_w7, p256.rs:424-440, with
    bignum_aff_point_select_p256 (low/x86_64/bignum_point_select_p256.rs:5-20) *)
Definition lookup_w7 (secret : bool) (table : list aff) (index : Z) : res aff :=
  if index =? 0 then Ok (0, 0)
  else match nth_error table (Z.to_nat (index - 1)) with
       | Some r => Ok r
       | None => if secret then Ok (0, 0) else Panic
       end.

(** lookup_w5 / public_lookup_w5, p256.rs:679-693 / p384.rs:560-574, with
    bignum_jac_point_select_p256 / _p384
    (low/x86_64/bignum_point_select_p256.rs, bignum_point_select_p384.rs) *)
Definition lookup_w5 (secret : bool) (table : list jac) (index : Z) : res jac :=
  if index =? 0 then Ok (if secret then jac_zero else jac_infinity)
  else match nth_error table (Z.to_nat (index - 1)) with
       | Some r => Ok r
       | None => if secret then Ok jac_zero else Panic
       end.

(** p256.rs:587-592 / p384.rs:475-480 *)
Definition jac_from_affine (a : aff) : jac := (fst a, snd a, ec_one_mont P).

(** is_infinity, p256.rs:446-449 *)
Definition aff_is_infinity (a : aff) : bool := (fst a =? 0) && (snd a =? 0).

(** add_inplace_affine with select, p256.rs:654-660, :671-676 *)
Definition add_affine (p : jac) (a : aff) : jac :=
  let r := montjmixadd p a in
  if aff_is_infinity a then p else r.

(** double_inplace_n, p256.rs:641-646 / p384.rs:529-534 *)
Fixpoint double_n (n : nat) (p : jac) : jac :=
  match n with O => p | Datatypes.S k => double_n k (montjdouble p) end.

(** the loop of multiply_w7, p256.rs:522-540; the row number is [index] *)
Fixpoint w7_loop (secret : bool) (pre : list (list aff)) (result : jac) (terms : list (Z * Z)) (index : nat) : res jac :=
  match terms with
  | [] => Ok result
  | (digit, sign) :: rest =>
      match nth_error pre index with
      | None => Panic
      | Some row =>
          let! tmp := lookup_w7 secret row digit in
          let tmp := (fst tmp, negated secret (snd tmp) sign) in
          w7_loop secret pre (add_affine result tmp) rest (Datatypes.S index)
      end
  end.

(** multiply_w7, p256.rs:501-541 *)
Definition multiply_w7 (secret : bool) (scalar : Z) (pre : list (list aff)) : res jac :=
  match w7_terms booth_fuel (booth_bytes scalar) 0, nth_error pre 0 with
  | (digit, sign) :: rest, Some row =>
      let! tmp := lookup_w7 secret row digit in
      let tmp := (fst tmp, negated secret (snd tmp) sign) in
      let '(x, y, _) := jac_from_affine tmp in
      w7_loop secret pre (x, y, field_select 0 (ec_one_mont P) digit) rest 1
  | _, _ => Panic
  end.

(** the loop of _multiply_w5, p256.rs:565-582 / p384.rs:453-470 *)
Fixpoint w5_loop (secret : bool) (pre : list jac) (result : jac) (terms : list (Z * Z * bool)) : res jac :=
  match terms with
  | [] => Ok result
  | (digit, sign, last) :: rest =>
      let! tmp := lookup_w5 secret pre digit in
      let '(x, y, z) := tmp in
      let result := montjadd result (x, negated secret y sign, z) in
      w5_loop secret pre (if last then result else double_n 5 result) rest
  end.

(** _multiply_w5, p256.rs:551-585 / p384.rs:439-473 *)
Definition multiply_w5 (secret : bool) (scalar : Z) (pre : list jac) : res jac :=
  match w5_terms booth_fuel (booth_bytes scalar) (ec_w5_start P) with
  | (digit, _, _) :: rest =>
      let! r := lookup_w5 secret pre digit in
      w5_loop secret pre (double_n 5 r) rest
  | [] => Panic
  end.

(** base_multiply / public_base_multiply, p256.rs:493-499 / p384.rs:423-429 *)
Definition base_multiply (secret : bool) (scalar : Z) : res jac :=
  match e_base E with
  | BaseW7 t => multiply_w7 secret scalar t
  | BaseW5 t => multiply_w5 secret scalar t
  end.

(** public_precomp_w5, p256.rs:385-421 / p384.rs:333-369 *)
Definition precomp_w5 (a : aff) : list jac :=
  let r1 := jac_from_affine a in
  let r2 := montjdouble r1 in
  let r3 := montjadd r1 r2 in
  let r4 := montjdouble r2 in
  let r5 := montjadd r1 r4 in
  let r6 := montjdouble r3 in
  let r7 := montjadd r1 r6 in
  let r8 := montjdouble r4 in
  let r9 := montjadd r1 r8 in
  let r10 := montjdouble r5 in
  let r11 := montjadd r1 r10 in
  let r12 := montjdouble r6 in
  let r13 := montjadd r1 r12 in
  let r14 := montjdouble r7 in
  let r15 := montjadd r1 r14 in
  let r16 := montjdouble r8 in
  [r1; r2; r3; r4; r5; r6; r7; r8; r9; r10; r11; r12; r13; r14; r15; r16].

(** as_affine, p256.rs:594-608 / p384.rs:482-496 *)
Definition jac_as_affine (p : jac) : aff :=
  let '(x, y, z) := p in
  let z2 := f_montsqr F z in
  let z3 := f_montmul F z z2 in
  let z2_inv := f_tomont F (f_inv F (f_demont F z2)) in
  let z3_inv := f_tomont F (f_inv F (f_demont F z3)) in
  (f_montmul F x z2_inv, f_montmul F y z3_inv).

(** public_eq, p256.rs:610-624 / p384.rs:498-512 *)
Definition jac_eq (p q : jac) : bool :=
  let a := jac_as_affine p in
  let '(x, y, z) := q in
  let b_z2 := f_montsqr F z in
  let b_z3 := f_montmul F z b_z2 in
  let a_x_b_z2 := f_montmul F (fst a) b_z2 in
  let a_y_b_z3 := f_montmul F (snd a) b_z3 in
  (a_x_b_z2 =? x) && (a_y_b_z3 =? y).

(** JacobianMontPoint::x_scalar, p256.rs:626-632 / p384.rs:514-520 *)
Definition jac_x_scalar (p : jac) : res Z :=
  let '(x, _, z) := p in
  let z2 := f_montsqr F z in
  let z2_inv := f_tomont F (f_inv F (f_demont F z2)) in
  let x := f_demont F (f_montmul F x z2_inv) in
  unwrap (scalar_from_bytes_reduced (to_be x)).

(** AffineMontPoint::x_scalar, p256.rs:276-279 / p384.rs:276-279 *)
Definition aff_x_scalar (a : aff) : res Z :=
  let bytes := aff_to_x962 a in
  unwrap (scalar_from_bytes_reduced (ztake ec_bytes (zdrop 1 bytes))).

(** *** keys *)

(** PublicKey, p256.rs:16-19 / p384.rs:16-19 *)
Record public_key := { pk_point : aff; pk_pre : list jac }.

(** from_affine, p256.rs:41-46 / p384.rs:41-46 *)
Definition pk_from_affine (a : aff) : public_key := {| pk_point := a; pk_pre := precomp_w5 a |}.

(** from_x962_uncompressed, p256.rs:29-33 / p384.rs:29-33 *)
Definition pk_from_x962 (bytes : list Z) : res public_key :=
  let! a := aff_from_x962 bytes in Ok (pk_from_affine a).

(** as_bytes_uncompressed, p256.rs:36-39 / p384.rs:36-39 *)
Definition pk_to_x962 (k : public_key) : list Z := aff_to_x962 (pk_point k).

(** PrivateKey::from_bytes and StaticPrivateKey::from_bytes, p256.rs:143-147,
    :176-179 / p384.rs:143-147, :177-180.  A private key is its scalar. *)
Definition sk_from_bytes (bytes : list Z) : res Z := scalar_from_bytes_checked bytes.

(** as_bytes, p256.rs:182-185 / p384.rs:183-186 *)
Definition sk_to_bytes (k : Z) : list Z := to_be k.

(** public_point, p256.rs:121-128 / p384.rs:122-129 *)
Definition sk_public_point (k : Z) : res aff :=
  let! p := base_multiply true k in
  let point := jac_as_affine p in
  if aff_on_curve point then Ok point else Panic.

(** public_key_uncompressed, p256.rs:99-102, :189-192 / p384.rs:100-103, :190-193 *)
Definition sk_public_key (k : Z) : res (list Z) :=
  let! a := sk_public_point k in Ok (aff_to_x962 a).

(** diffie_hellman, p256.rs:110-119, :200-206 / p384.rs:111-120, :201-207 *)
Definition sk_diffie_hellman (k : Z) (peer : public_key) : res (list Z) :=
  let! p := multiply_w5 true k (pk_pre peer) in
  let result := jac_as_affine p in
  if aff_on_curve result then Ok (to_be (f_demont F (fst result))) else Err NotOnCurve.

(** generate, p256.rs:130-141, :208-211 / p384.rs:131-141, :214-216; the
    randomness source is a function from its state *)
Fixpoint sk_generate_loop {St} (fill : St -> Z -> res (list Z) * St) (attempts : nat) (s : St) : res Z * St :=
  match attempts with
  | O => (Err RngFailed, s)
  | Datatypes.S k =>
      let (r, s) := fill s ec_bytes in
      match r with
      | Ok b => match sk_from_bytes b with
                | Ok p => (Ok p, s)
                | Err _ => sk_generate_loop fill k s
                | Panic => (Panic, s)
                end
      | Err e => (Err e, s)
      | Panic => (Panic, s)
      end
  end.

(** p256.rs:130-141 / p384.rs:131-141: 64 attempts *)
Definition sk_generate {St} (fill : St -> Z -> res (list Z) * St) (s : St) : res Z * St :=
  sk_generate_loop fill 64 s.

(** public_key_x_scalar, p256.rs:213-216 / p384.rs:209-212 *)
Definition sk_public_x_scalar (k : Z) : res Z :=
  let! a := sk_public_point k in aff_x_scalar a.

(** raw_ecdsa_sign, p256.rs:218-229 / p384.rs:218-229 *)
Definition raw_ecdsa_sign (d k e r : Z) : Z :=
  let lhs_mont :=
    scalar_as_mont (scalar_add (scalar_demont (scalar_mont_mul (scalar_as_mont d) (scalar_as_mont r))) e) in
  scalar_mont_mul (scalar_inv k) lhs_mont.

(** raw_ecdsa_verify, p256.rs:48-80 / p384.rs:48-80 *)
Definition raw_ecdsa_verify (pk : public_key) (r s e : Z) : res unit :=
  let s_inv := scalar_as_mont (scalar_inv s) in
  let u1 := scalar_demont (scalar_mont_mul s_inv (scalar_as_mont e)) in
  let u2 := scalar_demont (scalar_mont_mul s_inv (scalar_as_mont r)) in
  let! lhs := base_multiply false u1 in
  let! rhs := multiply_w5 false u2 (pk_pre pk) in
  let point := if jac_eq lhs rhs then montjdouble lhs else montjadd lhs rhs in
  if snd point =? 0 then Err BadSignature
  else
    let! v := jac_x_scalar point in
    if v =? r then Ok tt else Err BadSignature.
End Ec.
