(** Model of graviola/src/high/asn1.rs (DER encoder and decoder). *)
Require Import Verif.Base.

(** ** Tags *)

(** asn1.rs:853-862  tag constants *)
Definition T_INTEGER := 0x02.
(** asn1.rs:854 *)
Definition T_BIT_STRING := 0x03.
(** asn1.rs:855 *)
Definition T_OCTET_STRING := 0x04.
(** asn1.rs:856 *)
Definition T_NULL := 0x05.
(** asn1.rs:857 *)
Definition T_OBJECT_ID := 0x06.
(** asn1.rs:859 *)
Definition T_SEQUENCE := 0x30.
(** asn1.rs:861 *)
Definition T_CONSTRUCTED := 0x20.
(** asn1.rs:862 *)
Definition T_CONTEXT_SPECIFIC := 0x80.

(** asn1.rs:837-839  Tag::acceptable *)
Definition tag_acceptable (t offered : Z) : bool := t =? offered.
(** asn1.rs:841-843  Tag::constructed *)
Definition tag_constructed (t : Z) : bool :=
  (t =? T_SEQUENCE) || (Z.land t T_CONSTRUCTED =? T_CONSTRUCTED).
(** asn1.rs:845-851  Tag::context *)
Definition tag_context (id : Z) (constructed : bool) : Z :=
  Z.lor (Z.lor T_CONTEXT_SPECIFIC (if constructed then T_CONSTRUCTED else 0)) id.

(** ** Parser: the state is the remaining input (asn1.rs:638-640) *)
Definition parser := list Z.

(** asn1.rs:685-690  Parser::one_byte *)
Definition one_byte (p : parser) : res (Z * parser) :=
  match p with [] => Err UnexpectedEof | b :: r => Ok (b, r) end.

(** asn1.rs:692-713  Parser::take_len *)
Definition take_len (p : parser) : res (Z * parser) :=
  let! (len_byte, p) := one_byte p in
  if len_byte <=? 0x7f then Ok (len_byte, p)
  else if len_byte =? 0x81 then
    let! (len, p) := one_byte p in
    if len <? 0x80 then Err NonCanonicalEncoding else Ok (len, p)
  else if len_byte =? 0x82 then
    let! (hi, p) := one_byte p in
    let! (lo, p) := one_byte p in
    let len := Z.lor (Z.shiftl hi 8) lo in
    if len <? 0x100 then Err NonCanonicalEncoding else Ok (len, p)
  else Err UnsupportedLargeObjectLength.

(** asn1.rs:647-658  Parser::take.  Simplified: the tag part of the returned pair is
    dropped (every caller ignores it).  [split_at(len)] panics if out of range. *)
Definition take (want_tag : Z) (p : parser) : res (list Z * parser) :=
  let! (tag, p) := one_byte p in
  if negb (tag_acceptable want_tag tag) then Err UnexpectedTag
  else
    let! (len, p) := take_len p in
    if zlen p <? len then Err UnexpectedEof
    else if len <? 0 then Panic
    else Ok (ztake len p, zdrop len p).

(** asn1.rs:660-663  Parser::descend *)
Definition descend (want_tag : Z) (p : parser) : res (parser * parser) := take want_tag p.

(** asn1.rs:665-671  Parser::peek_tag *)
Definition peek_tag (p : parser) : res Z :=
  match p with [] => Err UnexpectedEof | b :: _ => Ok b end.

(** asn1.rs:677-683  Parser::check_end *)
Definition check_end (p : parser) : res unit :=
  if negb (zlen p =? 0) then Err UnexpectedTrailingData else Ok tt.

(** ** Encoder (asn1.rs:716-719): [e_out] is the not-yet-written tail [out] of the buffer,
    [e_done] the bytes of the same buffer already passed over, [e_written] the counter. *)
Record encoder := { e_done : list Z; e_out : list Z; e_written : Z }.

(** asn1.rs:722-724  Encoder::new *)
Definition enc_new (out : list Z) : encoder := {| e_done := []; e_out := out; e_written := 0 |}.

(** asn1.rs:726-735  Encoder::push *)
Definition enc_push (e : encoder) (b : Z) : res encoder :=
  match e_out e with
  | [] => Err UnexpectedEof
  | _ :: r => Ok {| e_done := e_done e ++ [b]; e_out := r; e_written := e_written e + 1 |}
  end.

(** asn1.rs:737-747  Encoder::append_slice *)
Definition enc_append (e : encoder) (b : list Z) : res encoder :=
  if zlen (e_out e) <? zlen b then Err UnexpectedEof
  else Ok {| e_done := e_done e ++ b; e_out := zdrop (zlen b) (e_out e);
             e_written := e_written e + zlen b |}.

(** asn1.rs:749-763  Encoder::split: returns the parent (positioned after the split part) and
    the sub-encoder over the split part. *)
Definition enc_split (e : encoder) (len : Z) : res (encoder * encoder) :=
  if zlen (e_out e) <? len then Err UnexpectedEof
  else Ok ({| e_done := e_done e; e_out := zdrop len (e_out e); e_written := e_written e + len |},
           {| e_done := []; e_out := ztake len (e_out e); e_written := e_written e |}).

(** The borrow of the split part ends: the parent's buffer contains whatever the sub-encoder left
    in it (asn1.rs:749-763, aliasing of the two [&mut] halves made explicit). *)
Definition enc_join (parent sub : encoder) : encoder :=
  {| e_done := e_done parent ++ (e_done sub ++ e_out sub);
     e_out := e_out parent; e_written := e_written parent |}.

(** asn1.rs:774-776  the loop pushing the length bytes *)
Fixpoint enc_push_all (e : encoder) (l : list Z) : res encoder :=
  match l with [] => Ok e | b :: r => let! e := enc_push e b in enc_push_all e r end.

(** asn1.rs:771  [(body_len.ilog2() + 1).div_ceil(8)] *)
Definition len_bytes (body_len : Z) : Z := (Z.log2 body_len + 1 + 7) / 8.

(** asn1.rs:765-781  Encoder::begin.  [0x80 + bytes as u8] wraps at 256 (never here).
    [to_be_bytes] of a 64-bit usize has 8 bytes. *)
Definition enc_begin (e : encoder) (tag body_len : Z) : res (encoder * encoder) :=
  let! e := enc_push e tag in
  let! e :=
    if body_len <=? 0x7f then enc_push e body_len
    else
      let n := len_bytes body_len in
      let! e := enc_push e ((0x80 + n) mod 256) in
      enc_push_all e (zdrop (8 - n) (be_bytes 8 body_len)) in
  enc_split e body_len.

(** asn1.rs:788-798  encoded_length_for ([unimplemented!] is a panic) *)
Definition encoded_length_for (len : Z) : res Z :=
  if len <=? 0x7f then Ok (2 + len)
  else if len <=? 0xff then Ok (3 + len)
  else if len <=? 0xffff then Ok (4 + len)
  else if len <=? 0xffffff then Ok (5 + len)
  else if len <=? 0xffffffff then Ok (6 + len)
  else Panic.

(** ** trait Type (asn1.rs:132-152): parse_with_tag, encode_with_tag, encoded_len, TAG *)
Record codec (A : Type) := {
  c_tag : Z;
  c_parse : Z -> parser -> res (A * parser);
  c_encode : A -> Z -> encoder -> res (encoder * Z);
  c_len : A -> res Z }.
Arguments c_tag {A} _.
Arguments c_parse {A} _ _ _.
Arguments c_encode {A} _ _ _ _.
Arguments c_len {A} _ _.

(** asn1.rs:133-135  Type::parse *)
Definition parse {A} (c : codec A) (p : parser) := c_parse c (c_tag c) p.
(** asn1.rs:138-140  Type::encode *)
Definition encode {A} (c : codec A) (a : A) (e : encoder) := c_encode c a (c_tag c) e.
(** asn1.rs:144-149  Type::from_bytes *)
Definition from_bytes {A} (c : codec A) (b : list Z) : res A :=
  let! (t, p) := parse c b in
  let! _ := check_end p in
  Ok t.

(** ** Null (asn1.rs:303-324) *)
Definition Null : codec unit := {|
  c_tag := T_NULL;
  c_parse := fun tag p =>
    let! (body, p) := take tag p in
    if negb (zlen body =? 0) then Err IllegalNull else Ok (tt, p);
  c_encode := fun _ tag e =>
    let! (parent, sub) := enc_begin e tag 0 in
    Ok (enc_join parent sub, e_written sub);
  c_len := fun _ => encoded_length_for 0 |}.

(** Body shared by ObjectId (asn1.rs:397-401), Integer (549-553), OctetString (583-587):
    begin, append_slice, finish. *)
Definition encode_prim (body : list Z) (tag : Z) (e : encoder) : res (encoder * Z) :=
  let! (parent, sub) := enc_begin e tag (zlen body) in
  let! sub := enc_append sub body in
  Ok (enc_join parent sub, e_written sub).

(** ** ObjectId (asn1.rs:326-414); the value is [buf[..used]] (as_ref, 410-414).
    Simplified: the 16-byte array and [used] are represented by the used prefix; since [buf] is
    zero-filled beyond [used], derived equality agrees. *)
Definition OID_MAX_LEN := 16.
(** asn1.rs:326-414  ObjectId as a codec *)
Definition ObjectId : codec (list Z) := {|
  c_tag := T_OBJECT_ID;
  c_parse := fun tag p =>
    let! (body, p) := take tag p in
    if OID_MAX_LEN <? zlen body then Err UnsupportedLargeObjectId else Ok (body, p);
  c_encode := encode_prim;
  c_len := fun o => encoded_length_for (zlen o) |}.

(** asn1.rs:361-370  the multi-byte branch of from_path: [chunks] most-significant 7-bit groups.
    [k] counts down from chunks-1. *)
Fixpoint oid_groups (item : Z) (k : nat) : list Z :=
  match k with
  | O => [Z.land item 0x7f]
  | S j => Z.lor (Z.shiftr item (7 * Z.of_nat k) mod 256) 0x80 :: oid_groups item j
  end.
(** asn1.rs:357-371  one path item *)
Definition oid_item (item : Z) : list Z :=
  if item <? 0x7f then [item]
  else oid_groups item (Z.to_nat ((Z.log2 item + 1 + 6) / 7 - 1)).
(** asn1.rs:333-377  ObjectId::from_path.  Writing past the 16-byte buffer would be a compile-time
    panic ([Panic]); u8 arithmetic of the first byte is checked at compile time as well. *)
Definition oid_from_path (path : list Z) : res (list Z) :=
  let r := match path with
           | [] => []
           | [a] => [a mod 256]
           | a :: b :: rest => (a mod 256) * 40 + (b mod 256) :: flat_map oid_item rest
           end in
  if (zlen r <=? OID_MAX_LEN) && forallb (fun x => x <? 256) r then Ok r else Panic.

(** ** Integer (asn1.rs:416-560): the value is its [twos_complement] slice *)

(** asn1.rs:445-447 / 449-451: the two stripping loops *)
Fixpoint strip_ff (b : list Z) : list Z :=
  match b with
  | x :: ((y :: _) as r) => if (x =? 0xff) && (Z.land y 0x80 =? 0x80) then strip_ff r else b
  | _ => b
  end.
(** asn1.rs:449-451 *)
Fixpoint strip_00 (b : list Z) : list Z :=
  match b with
  | x :: ((y :: _) as r) => if (x =? 0x00) && (Z.land y 0x80 =? 0x00) then strip_00 r else b
  | _ => b
  end.
(** asn1.rs:433-457  Integer::new *)
Definition integer_new (b : list Z) : list Z :=
  match b with
  | [] => [0]
  | x :: _ =>
      if forallb (fun y => y =? 0) b then [0]
      else if Z.land x 0x80 =? 0x80 then strip_ff b else strip_00 b
  end.

(** asn1.rs:473-475: strip all leading zeros *)
Fixpoint strip_zeros (b : list Z) : list Z :=
  match b with x :: r => if x =? 0 then strip_zeros r else b | [] => [] end.
(** asn1.rs:471-492  Integer::new_positive; [buffer_len] is the length of the scratch buffer
    (indexing/copy past it panics). *)
Definition integer_new_positive (buffer_len : Z) (value : list Z) : res (list Z) :=
  let value := strip_zeros value in
  match value with
  | [] => if buffer_len <? 1 then Panic else Ok [0]
  | x :: _ =>
      if Z.land x 0x80 =? 0x80
      then (if buffer_len <? zlen value + 1 then Panic else Ok (0 :: value))
      else (if buffer_len <? zlen value then Panic else Ok value)
  end.

(** asn1.rs:494-499  Integer::is_negative *)
Definition integer_is_negative (i : list Z) : bool :=
  match i with x :: _ => Z.land x 0x80 =? 0x80 | [] => false end.

(** asn1.rs:501-509  Integer::as_usize (64-bit usize) *)
Definition integer_as_usize (i : list Z) : res Z :=
  if integer_is_negative i || (8 <? zlen i) then Err IntegerOutOfRange
  else Ok (be_val (repeat 0 (Z.to_nat (8 - zlen i)) ++ i)).

(** asn1.rs:511-534  Integer::minimum_magnitude_check *)
Definition minimum_magnitude_check (i : list Z) : res (list Z) :=
  match i with
  | [] => Err IntegerOutOfRange
  | a :: b :: _ =>
      if (a =? 0xff) && (Z.land b 0x80 =? 0x80) then Err IntegerOutOfRange
      else if (a =? 0x00) && (Z.land b 0x80 =? 0x00) then Err IntegerOutOfRange
      else Ok i
  | _ => Ok i
  end.

(** asn1.rs:543-560  impl Type for Integer *)
Definition Integer : codec (list Z) := {|
  c_tag := T_INTEGER;
  c_parse := fun tag p =>
    let! (tc, p) := take tag p in
    let! i := minimum_magnitude_check tc in
    Ok (i, p);
  c_encode := encode_prim;
  c_len := fun i => encoded_length_for (zlen i) |}.

(** ** OctetString (asn1.rs:562-594) *)
Definition OctetString : codec (list Z) := {|
  c_tag := T_OCTET_STRING;
  c_parse := fun tag p => take tag p;
  c_encode := encode_prim;
  c_len := fun o => encoded_length_for (zlen o) |}.

(** ** BitString (asn1.rs:596-636) *)
Definition BitString : codec (list Z) := {|
  c_tag := T_BIT_STRING;
  c_parse := fun tag p =>
    let! (octets, p) := take tag p in
    match octets with
    | [] => Err UnexpectedEof
    | x :: rest => if x =? 0 then Ok (rest, p) else Err UnhandledBitString
    end;
  c_encode := fun o tag e =>
    let! (parent, sub) := enc_begin e tag (zlen o + 1) in
    let! sub := enc_push sub 0 in
    let! sub := enc_append sub o in
    Ok (enc_join parent sub, e_written sub);
  c_len := fun o => encoded_length_for (zlen o + 1) |}.

(** ** Any (asn1.rs:154-196) *)
Inductive any :=
| AnyNull | AnyInteger (i : list Z) | AnyOctetString (o : list Z) | AnyBitString (o : list Z)
| AnyObjectId (o : list Z).

(** asn1.rs:154-196  Any as a codec *)
Definition Any : codec any := {|
  c_tag := 0;
  c_parse := fun _ p =>
    let! t := peek_tag p in
    if t =? T_NULL then let! (_, p) := parse Null p in Ok (AnyNull, p)
    else if t =? T_INTEGER then let! (i, p) := parse Integer p in Ok (AnyInteger i, p)
    else if t =? T_OCTET_STRING then let! (o, p) := parse OctetString p in Ok (AnyOctetString o, p)
    else if t =? T_BIT_STRING then let! (o, p) := parse BitString p in Ok (AnyBitString o, p)
    else if t =? T_OBJECT_ID then let! (o, p) := parse ObjectId p in Ok (AnyObjectId o, p)
    else Err UnexpectedTag;
  c_encode := fun a _ e =>
    match a with
    | AnyNull => encode Null tt e
    | AnyInteger i => encode Integer i e
    | AnyBitString b => encode BitString b e
    | AnyOctetString o => encode OctetString o e
    | AnyObjectId o => encode ObjectId o e
    end;
  c_len := fun a =>
    match a with
    | AnyNull => c_len Null tt
    | AnyInteger i => c_len Integer i
    | AnyBitString b => c_len BitString b
    | AnyOctetString o => c_len OctetString o
    | AnyObjectId o => c_len ObjectId o
    end |}.

(** ** Option<T> (asn1.rs:198-222) *)
Definition Optional {A} (c : codec A) : codec (option A) := {|
  c_tag := c_tag c;
  c_parse := fun tag p =>
    if 0 <? zlen p then let! (a, p) := c_parse c tag p in Ok (Some a, p) else Ok (None, p);
  c_encode := fun o tag e =>
    match o with None => Ok (e, 0) | Some a => c_encode c a tag e end;
  c_len := fun o => match o with None => Ok 0 | Some a => c_len c a end |}.

(** ** Context<ID, EXPLICIT, T> (asn1.rs:224-293) *)
Definition context_tag {A} (id : Z) (explicit : bool) (c : codec A) : Z :=
  if explicit then tag_context id true else tag_context id (tag_constructed (c_tag c)).
(** asn1.rs:224-293  Context as a codec *)
Definition Context {A} (id : Z) (explicit : bool) (c : codec A) : codec (option A) := {|
  c_tag := context_tag id explicit c;
  c_parse := fun tag p =>
    match peek_tag p with
    | Ok t0 => if tag_acceptable tag t0
               then if explicit || tag_constructed tag
                    then let! (sub, p) := descend tag p in
                         let! (t, sub) := parse c sub in
                         let! _ := check_end sub in
                         Ok (Some t, p)
                    else let! (t, p) := c_parse c tag p in Ok (Some t, p)
               else Ok (None, p)
    | _ => Ok (None, p)
    end;
  c_encode := fun o tag e =>
    match o with
    | None => Ok (e, 0)
    | Some item =>
        if explicit || tag_constructed tag
        then let! body_len := c_len c item in
             let! (parent, sub) := enc_begin e tag body_len in
             let! (sub, _) := encode c item sub in
             Ok (enc_join parent sub, e_written sub)
        else c_encode c item tag e
    end;
  c_len := fun o =>
    match o with
    | None => Ok 0
    | Some item =>
        if tag_constructed (context_tag id explicit c)
        then let! l := c_len c item in encoded_length_for l
        else c_len c item
    end |}.

(** ** asn1_struct! (asn1.rs:35-82): an ordered field list; a struct value is the tuple of its
    fields. *)
Record fields (A : Type) := {
  f_parse : parser -> res (A * parser);      (* asn1.rs:60 *)
  f_encode : A -> encoder -> res encoder;    (* asn1.rs:75 *)
  f_len : A -> res Z }.                      (* asn1.rs:45-50 body_len *)
Arguments f_parse {A} _ _.
Arguments f_encode {A} _ _ _.
Arguments f_len {A} _ _.

(** last field; asn1.rs:35-82 asn1_struct! *)
Definition f_last {A} (c : codec A) : fields A := {|
  f_parse := parse c;
  f_encode := fun a e => let! (e, _) := encode c a e in Ok e;
  f_len := c_len c |}.
(** a field followed by more fields (asn1.rs:48,60,75: the macro repetition) *)
Definition f_cons {A B} (c : codec A) (fs : fields B) : fields (A * B) := {|
  f_parse := fun p =>
    let! (a, p) := parse c p in
    let! (b, p) := f_parse fs p in
    Ok ((a, b), p);
  f_encode := fun ab e =>
    let! (e, _) := encode c (fst ab) e in
    f_encode fs (snd ab) e;
  f_len := fun ab =>
    let! l1 := c_len c (fst ab) in
    let! l2 := f_len fs (snd ab) in
    Ok (l1 + l2) |}.

(** asn1.rs:53-80 *)
Definition Struct {A} (fs : fields A) : codec A := {|
  c_tag := T_SEQUENCE;
  c_parse := fun tag p =>
    let! (sub, p) := descend tag p in
    let! (r, sub) := f_parse fs sub in
    let! _ := check_end sub in
    Ok (r, p);
  c_encode := fun a tag e =>
    let! body_len := f_len fs a in
    let! (parent, body) := enc_begin e tag body_len in
    let! body := f_encode fs a body in
    Ok (enc_join parent body, e_written body);
  c_len := fun a => let! l := f_len fs a in encoded_length_for l |}.

(** ** asn1_enum! (asn1.rs:84-118); the value is the discriminant, one of [vals] *)
Definition Enum (vals : list Z) : codec Z := {|
  c_tag := T_INTEGER;
  c_parse := fun tag p =>
    let! (i, p) := c_parse Integer tag p in
    let! v := integer_as_usize i in
    if existsb (Z.eqb v) vals then Ok (v, p) else Err UnhandledEnumValue;
  c_encode := fun v tag e => c_encode Integer (integer_new (be_bytes 8 v)) tag e;
  c_len := fun v => c_len Integer (integer_new (be_bytes 8 v)) |}.

(** The way every exporter uses the encoder: [x.encode(&mut Encoder::new(output))]
    (e.g. high/rsa.rs:46-49, high/ecdsa.rs:83-87).  Result: the whole output buffer afterwards and
    the returned length. *)
Definition encode_into {A} (c : codec A) (a : A) (output : list Z) : res (list Z * Z) :=
  let! (e, n) := encode c a (enc_new output) in
  Ok (e_done e ++ e_out e, n).
