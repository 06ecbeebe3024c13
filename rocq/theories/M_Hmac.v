(** Model of high/hmac.rs and high/hmac_drbg.rs, generic in the hash (trait Hash, high/hash.rs:107-137). *)
Require Import Verif.Base Verif.M_Blockwise Verif.M_Sha2 Verif.M_Ct.

(** hmac.rs:13-16 *)
Record hmac (H : hash_alg) := { hm_inner : ha_ctx H; hm_outer : ha_ctx H }.
Arguments hm_inner {H} _.
Arguments hm_outer {H} _.

(** hmac.rs:20-47 new *)
Definition hmac_new (H : hash_alg) (key : list Z) : res (hmac H) :=
  let key_block := repeat 0 (Z.to_nat (ha_block H)) in
  let! key_block :=
    (if zlen key_block <? zlen key
     then let! h_key := hash_oneshot H key in Ok (splice key_block 0 h_key)
     else Ok (splice key_block 0 key)) in
  let key_block := map (fun byte => Z.lxor byte 0x36) key_block in
  let! inner := ha_update H (ha_new H) key_block in
  let key_block := map (fun byte => Z.lxor byte (Z.lxor 0x5c 0x36)) key_block in
  let! outer := ha_update H (ha_new H) key_block in
  Ok {| hm_inner := inner; hm_outer := outer |}.

(** hmac.rs:50-52 update *)
Definition hmac_update {H} (m : hmac H) (bytes : list Z) : res (hmac H) :=
  let! inner := ha_update H (hm_inner m) bytes in
  Ok {| hm_inner := inner; hm_outer := hm_outer m |}.

(** hmac.rs:57-61 finish *)
Definition hmac_finish {H} (m : hmac H) : res (list Z) :=
  let! inner_output := ha_finish H (hm_inner m) in
  let! outer := ha_update H (hm_outer m) inner_output in
  ha_finish H outer.

(** hmac.rs:66-72 verify *)
Definition hmac_verify {H} (m : hmac H) (expected_tag : list Z) : res unit :=
  let! got := hmac_finish m in
  if ct_equal got expected_tag then Ok tt else Err BadSignature.

(** a sequence of update calls (hmac.rs:50 called repeatedly; also the for loops of hmac_drbg.rs:49-51, 72-74) *)
Fixpoint hmac_updates {H} (m : hmac H) (items : list (list Z)) : res (hmac H) :=
  match items with
  | [] => Ok m
  | i :: r => let! m := hmac_update m i in hmac_updates m r
  end.

(** hmac_drbg.rs:12-17 *)
Record drbg := { d_k : list Z; d_v : list Z; d_reseed_counter : Z }.

(** hmac_drbg.rs:43-82 update *)
Definition drbg_update (H : hash_alg) (d : drbg) (additional_input : list (list Z)) : res drbg :=
  let! ctx := hmac_new H (d_k d) in
  let! ctx := hmac_update ctx (d_v d) in
  let! ctx := hmac_update ctx [0] in
  let! ctx := hmac_updates ctx additional_input in
  let! k := hmac_finish ctx in
  let! ctx := hmac_new H k in
  let! ctx := hmac_update ctx (d_v d) in
  let! v := hmac_finish ctx in
  let reseed_counter := d_reseed_counter d + 1 in
  match additional_input with
  | [] => Ok {| d_k := k; d_v := v; d_reseed_counter := reseed_counter |}
  | _ =>
    let! ctx := hmac_new H k in
    let! ctx := hmac_update ctx v in
    let! ctx := hmac_update ctx [1] in
    let! ctx := hmac_updates ctx additional_input in
    let! k := hmac_finish ctx in
    let! ctx := hmac_new H k in
    let! ctx := hmac_update ctx v in
    let! v := hmac_finish ctx in
    Ok {| d_k := k; d_v := v; d_reseed_counter := reseed_counter |}
  end.

(** hmac_drbg.rs:20-41 new *)
Definition drbg_new (H : hash_alg) (entropy_input nonce personalization_string : list Z) : res drbg :=
  drbg_update H {| d_k := repeat 0 (Z.to_nat (ha_out H)); d_v := repeat 1 (Z.to_nat (ha_out H));
                   d_reseed_counter := 0 |} [entropy_input; nonce; personalization_string].

(** hmac_drbg.rs:84-89 generate_block *)
Definition drbg_generate_block (H : hash_alg) (d : drbg) : res drbg :=
  let! ctx := hmac_new H (d_k d) in
  let! ctx := hmac_update ctx (d_v d) in
  let! v := hmac_finish ctx in
  Ok {| d_k := d_k d; d_v := v; d_reseed_counter := d_reseed_counter d |}.

(** hmac_drbg.rs:107-110: the loop over [out.chunks_mut(hashlen)]; the chunks are those of a buffer
    of [n] bytes. *)
Fixpoint drbg_fill_chunks (H : hash_alg) (d : drbg) (cs : list (list Z)) : res (drbg * list Z) :=
  match cs with
  | [] => Ok (d, [])
  | chunk :: r =>
      let! d := drbg_generate_block H d in
      let! (d', rest) := drbg_fill_chunks H d r in
      Ok (d', ztake (zlen chunk) (d_v d) ++ rest)
  end.

(** hmac_drbg.rs:93-117 fill: new state and the bytes written to [out] *)
Definition drbg_fill (H : hash_alg) (d : drbg) (out : list Z) : res (drbg * list Z) :=
  let hashlen := zlen (d_v d) in
  if negb (d_reseed_counter d <? 0x1000000000000) then Panic
  else
    let! (d, written) := drbg_fill_chunks H d (chunks hashlen out) in
    let! d := drbg_update H d [] in
    Ok (d, written).

(** client side: a sequence of fill requests; calls of hmac_drbg.rs fill, cited above *)
Fixpoint drbg_fills (H : hash_alg) (d : drbg) (outs : list (list Z)) : res (list (list Z)) :=
  match outs with
  | [] => Ok []
  | o :: r => let! (d, w) := drbg_fill H d o in let! ws := drbg_fills H d r in Ok (w :: ws)
  end.
