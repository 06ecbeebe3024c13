(** Model of rustls-graviola/src/ticketer.rs: the session ticket encrypter.
    Key rotation (rustls TicketRotator) is a dependency and not modelled.  The only state shared between
    concurrent calls is the atomic [maximum_ciphertext_len], which each call touches exactly once, so any
    concurrent execution is a sequence of [op]s ordered by that access. *)
Require Import Verif.Base Verif.M_Aead.

(** ticketer.rs:31-36; the lifetime constant is left out *)
Record ticketer := mkTicketer { tk_key : list Z; tk_key_name : list Z; tk_max : Z }.
(** ticketer.rs:39-55; [fill i n] is the answer to the i-th random::fill of n bytes *)
Definition ticketer_new (fill : nat -> Z -> res (list Z)) : res ticketer :=
  let! key := map_err (fill 0%nat 32) (fun _ => GetRandomFailed) in
  let! key_name := map_err (fill 1%nat 16) (fun _ => GetRandomFailed) in
  Ok (mkTicketer key key_name 0).
(** ticketer.rs:68-101; [nonce] is the answer of random::fill; the outer [res] only carries panics *)
Definition tk_encrypt (s : stream) (t : ticketer) (nonce : res (list Z)) (message : list Z) : res (option (list Z) * ticketer) :=
  match nonce with
  | Ok nonce =>
      let! e := aead_encrypt s (tk_key t) nonce (tk_key_name t) message in
      let out := tk_key_name t ++ nonce ++ fst e ++ snd e in
      Ok (Some out, mkTicketer (tk_key t) (tk_key_name t) (Z.max (tk_max t) (zlen out)))
  | _ => Ok (None, t)
  end.
(** ticketer.rs:103-132; [split_at] panics when the index is past the end *)
Definition tk_decrypt (s : stream) (t : ticketer) (ciphertext : list Z) : res (option (list Z)) :=
  if tk_max t <? zlen ciphertext then Ok None else
  let plain_len := Z.max 0 (zlen ciphertext - (zlen (tk_key_name t) + 24 + 16)) in
  if plain_len =? 0 then Ok None else
  if zlen ciphertext <? zlen (tk_key_name t) then Panic else
  let alleged_key_name := ztake (zlen (tk_key_name t)) ciphertext in
  let rest := zdrop (zlen (tk_key_name t)) ciphertext in
  if negb (list_eqb alleged_key_name (tk_key_name t)) then Ok None else
  if zlen rest <? 24 then Panic else
  let nonce := ztake 24 rest in
  let rest := zdrop 24 rest in
  if zlen rest <? plain_len then Panic else
  let plain := ztake plain_len rest in
  let alleged_tag := zdrop plain_len rest in
  let! d := aead_decrypt s (tk_key t) nonce alleged_key_name plain alleged_tag in
  match fst d with Ok _ => Ok (Some (snd d)) | Err _ => Ok None | Panic => Panic end.

(** One call on a shared ticketer (ticketer.rs:68-132): an encryption with the answer of the random source, or a decryption. *)
Inductive op := OpEncrypt (nonce : res (list Z)) (message : list Z) | OpDecrypt (ciphertext : list Z).
(** A sequence of calls on one ticketer (ticketer.rs:57-132), with their results *)
Fixpoint tk_run (s : stream) (t : ticketer) (ops : list op) : res (list (option (list Z)) * ticketer) :=
  match ops with
  | [] => Ok ([], t)
  | OpEncrypt nonce m :: ops =>
      let! r := tk_encrypt s t nonce m in
      let! q := tk_run s (snd r) ops in Ok (fst r :: fst q, snd q)
  | OpDecrypt c :: ops =>
      let! r := tk_decrypt s t c in
      let! q := tk_run s t ops in Ok (r :: fst q, snd q)
  end.
