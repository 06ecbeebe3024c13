(** Bytes, machine words, results: shared vocabulary of the model.
    Nothing here is specific to one Rust function; each definition names the
    Rust language/core facility it stands for. *)
Require Export ZArith List Lia Bool.
Require Export ZifyBool.
Export ListNotations.
Global Open Scope Z_scope.

(** A Rust [u8] is a [Z] in range; [bytes l] says that the slice [l] is a slice of u8
    (core type; used by every file in /repo). *)
Definition byte_ok (b : Z) : Prop := 0 <= b < 256.
Definition bytes (l : list Z) : Prop := Forall byte_ok l.

(** [slice.len()] as an unbounded integer (core; usize wrap-around of lengths is not
    modelled: a Rust slice is never longer than isize::MAX bytes). *)
Definition zlen {A} (l : list A) : Z := Z.of_nat (length l).

(** Errors: graviola/src/error.rs:7-46 and graviola/src/high/asn1.rs:800-812,
    flattened into one type ([Error::Asn1Error(e)] is [e] itself). *)
Inductive error :=
| WrongLength | NotUncompressed | NotOnCurve | OutOfRange | RngFailed | BadSignature
| DecryptFailed
| UnexpectedTag | UnexpectedEof | UnexpectedTrailingData | NonCanonicalEncoding
| UnhandledEnumValue | IntegerOutOfRange | IllegalNull | UnsupportedLargeObjectId
| UnsupportedLargeObjectLength | UnhandledBitString
| UnsupportedPkcs8Version | MismatchedPkcs8Algorithm | MismatchedPkcs8Parameters
| MismatchedPkcs8PublicKey | MismatchedSec1Curve | MismatchedSec1PublicKey
| MismatchedSpkiAlgorithm
(* errors returned by rustls-graviola: variants of rustls::Error (dependency), messages dropped *)
| DecryptError | PeerSentOversizedRecord | IllegalTlsInnerPlaintext | InvalidKeyShare
| FailedToGetRandomBytes | GetRandomFailed | GeneralError | InvalidSignature.

(** [Result<A, Error>] plus a separate value for a Rust panic (core). *)
Inductive res (A : Type) := Ok (a : A) | Err (e : error) | Panic.
Arguments Ok {A} a.
Arguments Err {A} e.
Arguments Panic {A}.

(** The [?] operator (core). *)
Definition bind {A B} (x : res A) (f : A -> res B) : res B :=
  match x with Ok a => f a | Err e => Err e | Panic => Panic end.
Notation "'let!' x ':=' e 'in' k" := (bind e (fun x => k))
  (at level 200, x pattern, e at level 100, k at level 200).

(** [Result::map_err(|_| e)] (core). *)
Definition map_err {A} (x : res A) (f : error -> error) : res A :=
  match x with Err e => Err (f e) | y => y end.

Definition is_ok {A} (x : res A) : bool := match x with Ok _ => true | _ => false end.

(** [uN::from_le_bytes] / [from_be_bytes] / [to_le_bytes] / [to_be_bytes] (core). *)
Fixpoint le_val (l : list Z) : Z :=
  match l with [] => 0 | b :: r => b + 256 * le_val r end.
Definition be_val (l : list Z) : Z := le_val (rev l).
Fixpoint le_bytes (n : nat) (v : Z) : list Z :=
  match n with O => [] | S k => v mod 256 :: le_bytes k (v / 256) end.
Definition be_bytes (n : nat) (v : Z) : list Z := rev (le_bytes n v).

(** slice ranges [&s[..n]], [&s[n..]] with an in-range Z index (core). *)
Definition ztake {A} (n : Z) (l : list A) : list A := firstn (Z.to_nat n) l.
Definition zdrop {A} (n : Z) (l : list A) : list A := skipn (Z.to_nat n) l.

(** [==] on byte slices (core). *)
Fixpoint list_eqb (a b : list Z) : bool :=
  match a, b with
  | [], [] => true
  | x :: a', y :: b' => (x =? y) && list_eqb a' b'
  | _, _ => false
  end.

(** [slice.chunks_exact(n)] (core): whole chunks only, the remainder is dropped. *)
Fixpoint chunks_fuel {A} (fuel : nat) (n : Z) (l : list A) : list (list A) :=
  match fuel with
  | O => []
  | S f => if zlen l <? n then [] else ztake n l :: chunks_fuel f n (zdrop n l)
  end.
Definition chunks_exact {A} (n : Z) (l : list A) : list (list A) := chunks_fuel (length l) n l.

(** [slice.chunks(n)] (core): like chunks_exact with a final shorter chunk if there is a remainder. *)
Definition chunks {A} (n : Z) (l : list A) : list (list A) :=
  let k := zlen l / n * n in
  chunks_exact n l ++ (if zlen l =? k then [] else [zdrop k l]).

(** [buf[off..off + src.len()].copy_from_slice(src)] (core), in-range case. *)
Definition splice (buf : list Z) (off : Z) (src : list Z) : list Z :=
  ztake off buf ++ src ++ zdrop (off + zlen src) buf.

(** Fixed-width unsigned words (core): wrapping_add, rotate_right, rotate_left, [!x], shifts. *)
Definition wadd (w x y : Z) : Z := (x + y) mod 2 ^ w.
Definition wnot (w x : Z) : Z := Z.lxor x (2 ^ w - 1).
Definition rotr (w x n : Z) : Z := Z.lor (Z.shiftr x n) (Z.shiftl x (w - n) mod 2 ^ w).
Definition rotl (w x n : Z) : Z := Z.lor (Z.shiftl x n mod 2 ^ w) (Z.shiftr x (w - n)).

(** array read / write with an in-range index (core) *)
Definition znth (l : list Z) (i : nat) : Z := nth i l 0.
Fixpoint upd {A} (l : list A) (i : nat) (v : A) : list A :=
  match l, i with
  | [], _ => []
  | _ :: r, O => v :: r
  | x :: r, S j => x :: upd r j v
  end.

(** usize / u64 limit *)
Definition USIZE_MAX : Z := 2 ^ 64 - 1.
