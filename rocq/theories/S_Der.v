(** Independent specification of DER (X.690), not using the model. *)
Require Import Verif.Base.

(** X.690 10.1/8.1.3: definite length, minimum number of octets. *)
Fixpoint be_digits (fuel : nat) (n : Z) : list Z :=
  match fuel with
  | O => []
  | S f => if n <=? 0 then [] else be_digits f (n / 256) ++ [n mod 256]
  end.
Definition der_length (n : Z) : list Z :=
  if n <? 128 then [n]
  else let d := be_digits 16 n in (128 + zlen d) :: d.

(** one tag-length-value *)
Definition tlv (tag : Z) (body : list Z) : list Z := tag :: der_length (zlen body) ++ body.

(** DER trees: primitive values and constructed values. *)
Inductive der := Prim (tag : Z) (body : list Z) | Cons (tag : Z) (items : list der).
Fixpoint der_enc (d : der) : list Z :=
  match d with
  | Prim t b => tlv t b
  | Cons t l => tlv t (concat (map der_enc l))
  end.

(** X.690 8.3.2: contents octets of INTEGER are minimal two's complement. *)
Definition minimal_int (b : list Z) : Prop :=
  match b with
  | [] => False
  | [_] => True
  | x :: y :: _ => ~ (x = 255 /\ 128 <= y) /\ ~ (x = 0 /\ y < 128)
  end.
(** value of a two's complement octet string *)
Definition int_value (b : list Z) : Z :=
  match b with
  | [] => 0
  | x :: _ => if 128 <=? x then be_val b - 256 ^ zlen b else be_val b
  end.

(** X.690 8.19: object identifier subidentifiers, base 128, big endian, minimal,
    bit 8 set on all but the last. *)
Fixpoint base128 (fuel : nat) (n : Z) : list Z :=
  match fuel with
  | O => []
  | S f => if n <=? 0 then [] else base128 f (n / 128) ++ [n mod 128 + 128]
  end.
Definition oid_subid (n : Z) : list Z := base128 16 (n / 128) ++ [n mod 128].
Definition oid_spec (path : list Z) : list Z :=
  match path with
  | a :: b :: rest => oid_subid (40 * a + b) ++ flat_map oid_subid rest
  | _ => []
  end.
