(** Model of graviola/src/low/generic/blockwise.rs. *)
Require Import Verif.Base.

(** blockwise.rs:5-8 *)
Record blockwise := { bw_buffer : list Z; bw_used : Z }.

(** blockwise.rs:11-16  new *)
Definition bw_new (N : Z) : blockwise := {| bw_buffer := repeat 0 (Z.to_nat N); bw_used := 0 |}.

(** blockwise.rs:30-41  add_leading: new state and the bytes not consumed *)
Definition bw_add_leading (N : Z) (b : blockwise) (bytes : list Z) : blockwise * list Z :=
  if bw_used b =? 0 then (b, bytes)
  else
    let space := N - bw_used b in
    let take := Z.min (zlen bytes) space in
    ({| bw_buffer := splice (bw_buffer b) (bw_used b) (ztake take bytes);
        bw_used := bw_used b + take |}, zdrop take bytes).

(** blockwise.rs:43-50  take *)
Definition bw_take (N : Z) (b : blockwise) : option (list Z) * blockwise :=
  if bw_used b =? N
  then (Some (bw_buffer b), {| bw_buffer := bw_buffer b; bw_used := 0 |})
  else (None, b).

(** blockwise.rs:52-58  peek_remaining *)
Definition bw_peek_remaining (b : blockwise) : option (list Z) :=
  if 0 <? bw_used b then Some (ztake (bw_used b) (bw_buffer b)) else None.

(** blockwise.rs:60-63  add_trailing: the slice [buffer[..trailing.len()]] panics when too long.
    [used += len] is done with overflow panics in debug builds; not reachable. *)
Definition bw_add_trailing (N : Z) (b : blockwise) (trailing : list Z) : res blockwise :=
  if N <? zlen trailing then Panic
  else Ok {| bw_buffer := splice (bw_buffer b) 0 trailing; bw_used := bw_used b + zlen trailing |}.

(** blockwise.rs:22-28  add *)
Definition bw_add (N : Z) (b : blockwise) (bytes : list Z) : res blockwise :=
  if bw_used b =? 0 then bw_add_trailing N b bytes else Ok (fst (bw_add_leading N b bytes)).

(** blockwise.rs:65-90  md_pad_with_length; FinalBlocks::as_ref (98-104) flattens One/Two *)
Definition bw_md_pad_with_length (N : Z) (b : blockwise) (length_bits : list Z) : res (list Z * blockwise) :=
  let space := N - bw_used b in
  let required := 1 + zlen length_bits in
  if space <? required then
    let '(b, _) := bw_add_leading N b [0x80] in
    let '(b, _) := bw_add_leading N b (repeat 0 (Z.to_nat N)) in
    match bw_take N b with
    | (Some first, b) =>
        Ok (first ++ splice (repeat 0 (Z.to_nat N)) (N - zlen length_bits) length_bits, b)
    | (None, _) => Panic
    end
  else
    let used := ztake (bw_used b) (bw_buffer b) in
    let zeroes := space - zlen length_bits - 1 in
    let buffer := used ++ [0x80] ++ repeat 0 (Z.to_nat zeroes) ++ length_bits in
    Ok (buffer, {| bw_buffer := buffer; bw_used := 0 |}).
