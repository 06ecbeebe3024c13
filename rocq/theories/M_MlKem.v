(** Model of graviola/src/mid/mlkem768.rs (ML-KEM-768) and low/generic/mlkem.rs.  The polynomial
    arithmetic is assembly: record [asm] has one function per entry point.  A [Coeffs] value is the flat
    list of its i16 coefficients; the Normal/Ntt/MulCache type tags have no run-time content. *)
Require Import Verif.Base Verif.M_Sha3 Verif.M_Ct.

(** low/mod.rs:105-116 and 185-194, 208: the assembly entry points (in-place functions return the
    new contents) *)
Record asm := {
  a_ntt : list Z -> list Z;                             (* mlkem_ntt *)
  a_intt : list Z -> list Z;                            (* mlkem_intt *)
  a_mulcache : list Z -> list Z;                        (* mlkem_mulcache_compute *)
  a_basemul : list Z -> list Z -> list Z -> list Z;     (* mlkem_basemul_k3(out, a, b, bt) *)
  a_reduce : list Z -> list Z;                          (* mlkem_reduce *)
  a_tomont : list Z -> list Z;                          (* mlkem_tomont *)
  a_frombytes : list Z -> list Z;                       (* mlkem_frombytes *)
  a_tobytes : list Z -> list Z;                         (* mlkem_tobytes *)
  a_unpack : list Z -> list Z;                          (* mlkem_unpack *)
  a_rej : list Z -> list Z -> list Z * Z                (* mlkem_rej_uniform_vartime: new contents, count *)
}.

(** low/generic/mlkem.rs:10-15  mlkem_frombytes (used on aarch64); [a[2] as i16 << 4] is below 2^15 *)
Definition generic_frombytes (a : list Z) : list Z :=
  concat (map (fun c =>
    [Z.lor (znth c 0) (Z.shiftl (Z.land (znth c 1) 0x0f) 8);
     Z.lor (Z.shiftr (znth c 1) 4) (Z.shiftl (znth c 2) 4)]) (chunks_exact 3 a)).
(** low/generic/mlkem.rs:26  mlkem_unpack (used on aarch64): nothing to do *)
Definition generic_unpack (a : list Z) : list Z := a.

(** mlkem768.rs:1021-1028 *)
Definition K : Z := 3.
(** mlkem768.rs:1022 *)
Definition K_BYTE : Z := 3.
(** mlkem768.rs:1023 *)
Definition DU : Z := 10.
(** mlkem768.rs:1024 *)
Definition DV : Z := 4.
(** mlkem768.rs:1026 *)
Definition Q : Z := 3329.
(** mlkem768.rs:1027 *)
Definition Q_HALF : Z := (Q + 1) / 2.
(** mlkem768.rs:1028 *)
Definition N : Z := 256.

(** i16 [+=] and [-=]: overflow panics in builds with overflow checks; mlkem768.rs:896-911 *)
Definition i16_ck (x : Z) : res Z := if (- 2 ^ 15 <=? x) && (x <? 2 ^ 15) then Ok x else Panic.
(** a [for (a, b) in x.iter_mut().zip(y)] loop that updates [a] (core): elements of [x] past the end
    of [y] are unchanged; mlkem768.rs:896-911 *)
Fixpoint zip_update (f : Z -> Z -> res Z) (x y : list Z) : res (list Z) :=
  match x, y with
  | a :: x', b :: y' => let! c := f a b in let! r := zip_update f x' y' in Ok (c :: r)
  | _, _ => Ok x
  end.
(** a [for] loop collecting one result per item (core); as in mlkem768.rs:795-836 *)
Fixpoint map_res {A B} (f : A -> res B) (l : list A) : res (list B) :=
  match l with
  | [] => Ok []
  | x :: r => let! y := f x in let! ys := map_res f r in Ok (y :: ys)
  end.

(** mlkem768.rs:676-689  compress_4; the debug_assert panics in debug builds.  All intermediate
    values fit u64. *)
Definition compress_4 (x : Z) : res Z :=
  if (0 <=? x) && (x <? Q) then
    Ok (Z.land (Z.shiftr ((Z.shiftl x 4 + Q_HALF) * 80635) 28) 0xf)
  else Panic.
(** mlkem768.rs:691-699  decompress_4 *)
Definition decompress_4 (y : Z) : res Z :=
  if y <? 16 then Ok (Z.shiftr (y * Q + 8) 4) else Panic.
(** mlkem768.rs:701-711  compress_10 *)
Definition compress_10 (x : Z) : res Z :=
  if (0 <=? x) && (x <? Q) then
    Ok (Z.land (Z.shiftr ((Z.shiftl x 10 + Q_HALF) * 1290167) 32) 0x3ff)
  else Panic.
(** mlkem768.rs:713-721  decompress_10 *)
Definition decompress_10 (y : Z) : res Z :=
  if y <? 1024 then Ok (Z.shiftr (y * Q + 512) 10) else Panic.
(** mlkem768.rs:723-737  compress_1_x8; [i] counts the coefficients *)
Fixpoint compress_1_loop (i r : Z) (coeffs : list Z) : res Z :=
  match coeffs with
  | [] => Ok r
  | x :: rest =>
      if (0 <=? x) && (x <? Q) then
        let x := Z.shiftr ((Z.shiftl x 1 + Q_HALF) * 80635) 28 in
        compress_1_loop (i + 1) (Z.lor r (Z.shiftl (Z.land x 1) i mod 256)) rest
      else Panic
  end.
(** mlkem768.rs:723-737  compress_1_x8 *)
Definition compress_1_x8 (coeffs : list Z) : res Z := compress_1_loop 0 0 coeffs.

(** mlkem768.rs:795-811  compress_into_bytes_du_10, one group; u16 shifts drop high bits *)
Definition pack_10 (quad : list Z) : res (list Z) :=
  let! t0 := compress_10 (znth quad 0) in
  let! t1 := compress_10 (znth quad 1) in
  let! t2 := compress_10 (znth quad 2) in
  let! t3 := compress_10 (znth quad 3) in
  Ok [t0 mod 256;
      Z.lor (Z.shiftr t0 8) (Z.shiftl t1 2 mod 2 ^ 16) mod 256;
      Z.lor (Z.shiftr t1 6) (Z.shiftl t2 4 mod 2 ^ 16) mod 256;
      Z.lor (Z.shiftr t2 4) (Z.shiftl t3 6 mod 2 ^ 16) mod 256;
      Z.shiftr t3 2 mod 256].
(** mlkem768.rs:795-811  all groups *)
Definition compress_into_bytes_du_10 (c : list Z) : res (list Z) :=
  let! gs := map_res pack_10 (chunks_exact 4 c) in Ok (concat gs).
(** mlkem768.rs:817-836  decompress_from_bytes_du_10 *)
Definition unpack_10 (inp : list Z) : res (list Z) :=
  let t0 := Z.lor (znth inp 0) (Z.shiftl (Z.land (znth inp 1) 0x3) 8) in
  let t1 := Z.lor (Z.shiftr (znth inp 1) 2) (Z.shiftl (Z.land (znth inp 2) 0xf) 6) in
  let t2 := Z.lor (Z.shiftr (znth inp 2) 4) (Z.shiftl (Z.land (znth inp 3) 0x3f) 4) in
  let t3 := Z.lor (Z.shiftr (znth inp 3) 6) (Z.shiftl (znth inp 4) 2) in
  let! a := decompress_10 t0 in
  let! b := decompress_10 t1 in
  let! c := decompress_10 t2 in
  let! d := decompress_10 t3 in
  Ok [a; b; c; d].
(** mlkem768.rs:817-836  all groups *)
Definition decompress_from_bytes_du_10 (c_1 : list Z) : res (list Z) :=
  let! gs := map_res unpack_10 (chunks_exact 5 c_1) in Ok (concat gs).

(** mlkem768.rs:844-854  from_message_bits *)
Definition from_message_bits (m : list Z) : list Z :=
  concat (map (fun byte =>
    map (fun bit => ct_select_i16 (Z.land (Z.shiftr byte (Z.of_nat bit)) 1) Q_HALF 0) (seq 0 8)) m).
(** mlkem768.rs:857-865  to_message_bits: 32 bytes *)
Definition to_message_bits (c : list Z) : res (list Z) :=
  map_res (fun i => compress_1_x8 (ztake 8 (zdrop (Z.of_nat i * 8) c))) (seq 0 32).
(** mlkem768.rs:870-875  compress_into_bytes_dv_4; [<< 4] on u8 *)
Definition compress_into_bytes_dv_4 (c : list Z) : res (list Z) :=
  map_res (fun pair =>
    let! a := compress_4 (znth pair 0) in
    let! b := compress_4 (znth pair 1) in
    Ok (Z.lor a (Z.shiftl b 4 mod 256))) (chunks_exact 2 c).
(** mlkem768.rs:881-891  decompress_from_bytes_dv_4 *)
Definition decompress_from_bytes_dv_4 (c_2 : list Z) : res (list Z) :=
  let! gs := map_res (fun byte =>
    let! a := decompress_4 (Z.land byte 0xf) in
    let! b := decompress_4 (Z.shiftr byte 4) in
    Ok [a; b]) c_2 in
  Ok (concat gs).

(** mlkem768.rs:914-925  sample_cbd2, one group of four bytes; the u32 sum of two masked words does
    not overflow *)
Definition cbd2_word (in_bytes : list Z) : list Z :=
  let t := le_val in_bytes in
  let d := Z.land t 0x55555555 + Z.land (Z.shiftr t 1) 0x55555555 in
  map (fun j =>
    let a := Z.land (Z.shiftr d (4 * Z.of_nat j)) 0x3 in
    let b := Z.land (Z.shiftr d (4 * Z.of_nat j + 2)) 0x3 in
    a - b) (seq 0 8).
(** mlkem768.rs:914-925  all groups *)
Definition sample_cbd2 (buf : list Z) : list Z := concat (map cbd2_word (chunks_exact 4 buf)).

Section MlKem.
Variable kf : list Z -> list Z -> list Z.
Variable kf4 kf2of4 : list (list Z) -> list Z -> list (list Z).
Variable a : asm.

(** ** Rejection sampling *)
(** mlkem768.rs:980-997  Shake128TwelveBitIterator *)
Record it12 := { it_s : list Z; it_samples : list Z; it_used : Z }.
(** mlkem768.rs:996 *)
Definition SAMPLE_COUNT : Z := SHAKE_128_R_BYTES / 3 * 2.
(** mlkem768.rs:987-993  new *)
Definition it_new (s : list Z) : it12 :=
  {| it_s := s; it_samples := repeat 0 (Z.to_nat SAMPLE_COUNT); it_used := SAMPLE_COUNT |}.
(** mlkem768.rs:1008-1011  two samples from three bytes *)
Definition two_samples (buf : list Z) : list Z :=
  [Z.land (le_val [znth buf 0; znth buf 1]) 0xfff; Z.shiftr (le_val [znth buf 1; znth buf 2]) 4].
(** mlkem768.rs:1003-1019  next: never None *)
Definition it_next (i : it12) : res (Z * it12) :=
  let! i :=
    if it_used i =? zlen (it_samples i) then
      let! (b, s) := squeeze kf SHAKE_128_R_BYTES (it_s i) SHAKE_128_R_BYTES in
      Ok {| it_s := s; it_samples := concat (map two_samples (chunks_exact 3 b)); it_used := 0 |}
    else Ok i in
  if (it_used i <? 0) || (zlen (it_samples i) <=? it_used i) then Panic
  else Ok (znth (it_samples i) (Z.to_nat (it_used i)),
           {| it_s := it_s i; it_samples := it_samples i; it_used := it_used i + 1 |}).
(** mlkem768.rs:970-977  tail_case filling [m] items; at most [fuel] candidates are drawn, and
    [Panic] stands for a call that has not returned by then *)
Fixpoint tail_case (fuel : nat) (i : it12) (m : nat) : res (list Z) :=
  match m with
  | O => Ok []
  | S m' =>
      match fuel with
      | O => Panic
      | S fuel =>
          let! (x, i) := it_next i in
          if x <? Q then let! r := tail_case fuel i m' in Ok (x :: r) else tail_case fuel i (S m')
      end
  end.
(** mlkem768.rs:962-968 (sample) followed by the tail case if items are left (951-955 and 486-519);
    [sponge] is the state to continue from *)
Definition sample_rest (fuel : nat) (samples output : list Z) (sponge : list Z) : res (list Z) :=
  let '(output, used) := a_rej a output samples in
  if (used <? 0) || (zlen output <? used) then Panic
  else if used =? zlen output then Ok output
  else let! t := tail_case fuel (it_new sponge) (Z.to_nat (zlen output - used)) in Ok (ztake used output ++ t).
(** mlkem768.rs:933-956  Shake128ForMlKem::new and sample_into *)
Definition sample_into (fuel : nat) (message : list (list Z)) (output : list Z) : res (list Z) :=
  let! s := new_for_message kf SHAKE_128_R_BYTES SHAKE_PAD_BYTE message in
  let! (b, s) := squeeze kf SHAKE_128_R_BYTES s (SHAKE_128_R_BYTES * 3) in
  sample_rest fuel b output s.
(** mlkem768.rs:466-520  _sample_poly_ntt_quad: one 40-byte input per polynomial *)
Definition quad_buf (rho input : list Z) : list Z := rho ++ input ++ [SHAKE_PAD_BYTE] ++ repeat 0 5.
(** mlkem768.rs:466-520  the whole of _sample_poly_ntt_quad *)
Definition sample_poly_ntt_quad (fuel : nat) (rho : list Z) (inputs : list (list Z)) (outputs : list (list Z))
  : res (list (list Z)) :=
  let! states := sponge4_new kf4 (map (quad_buf rho) inputs) in
  let! (samples, owed) := sponge4_squeeze kf4 states in
  match samples, owed, outputs with
  | [b0; b1; b2; b3], [s0; s1; s2; s3], [o0; o1; o2; o3] =>
      let! r0 := sample_rest fuel b0 o0 (restitute kf s0) in
      let! r1 := sample_rest fuel b1 o1 (restitute kf s1) in
      let! r2 := sample_rest fuel b2 o2 (restitute kf s2) in
      let! r3 := sample_rest fuel b3 o3 (restitute kf s3) in
      Ok [r0; r1; r2; r3]
  | _, _, _ => Panic
  end.
(** mlkem768.rs:599-609  SAMPLE_POLY_WORK *)
Definition SAMPLE_POLY_WORK : list (Z * Z * Z) :=
  [(0, 0, 0); (0, 1, N); (0, 2, N * 2); (1, 0, K * N); (1, 1, N + K * N); (1, 2, N * 2 + K * N);
   (2, 0, K * N * 2); (2, 1, N + K * N * 2); (2, 2, N * 2 + K * N * 2)].
(** mlkem768.rs:420-464  _sample_poly_ntt; [transposed] selects the order of the two index bytes *)
Definition work_input (transposed : bool) (w : Z * Z * Z) : list Z :=
  let '(i, j, _) := w in if transposed then [i; j] else [j; i].
(** the third field of SAMPLE_POLY_WORK, mlkem768.rs:599-609 *)
Definition work_offs (w : Z * Z * Z) : Z := snd w.
(** mlkem768.rs:429-450  one group of four: the slice [offs(c4[0]) .. offs(c4[3]) + N] must be 4 N long
    ([try_into().unwrap()]), and is written back in place *)
Definition sample_group (fuel : nat) (transposed : bool) (rho : list Z) (c4 : list (Z * Z * Z)) (r : list Z)
  : res (list Z) :=
  let lo := work_offs (nth 0 c4 (0, 0, 0)) in
  let hi := work_offs (nth 3 c4 (0, 0, 0)) + N in
  if negb (hi - lo =? N * 4) || (zlen r <? hi) then Panic
  else
    let! os := sample_poly_ntt_quad fuel rho (map (work_input transposed) c4) (chunks_exact N (ztake (hi - lo) (zdrop lo r))) in
    Ok (splice r lo (concat os)).
(** mlkem768.rs:452-459  one straggler *)
Definition sample_one (fuel : nat) (transposed : bool) (rho : list Z) (w : Z * Z * Z) (r : list Z) : res (list Z) :=
  let offs := work_offs w in
  if zlen r <? offs + N then Panic
  else
    let! o := sample_into fuel [rho; work_input transposed w] (ztake N (zdrop offs r)) in
    Ok (splice r offs o).
(** a fold that can panic: the two loops over the work list; mlkem768.rs:420-464 *)
Fixpoint fold_res {A B} (f : B -> A -> res A) (l : list B) (x : A) : res A :=
  match l with [] => Ok x | y :: r => let! x := f y x in fold_res f r x end.
(** mlkem768.rs:553-557  reorder *)
Definition reorder (r : list Z) : list Z := concat (map (a_unpack a) (chunks_exact N r)).
(** mlkem768.rs:420-464  _sample_poly_ntt *)
Definition sample_poly_ntt (fuel : nat) (transposed : bool) (rho : list Z) : res (list Z) :=
  let r := repeat 0 (Z.to_nat (K * K * N)) in
  let! r := fold_res (sample_group fuel transposed rho) (chunks_exact 4 SAMPLE_POLY_WORK) r in
  let! r := fold_res (sample_one fuel transposed rho) (zdrop (zlen SAMPLE_POLY_WORK / 4 * 4) SAMPLE_POLY_WORK) r in
  Ok (reorder r).

(** ** Polynomial vectors *)
(** mlkem768.rs:404-408  reduce_in_place *)
Definition reduce_in_place (c : list Z) : list Z := concat (map (a_reduce a) (chunks_exact N c)).
(** mlkem768.rs:896-911  add and sub *)
Definition coeffs_add (x y : list Z) : res (list Z) :=
  let! r := zip_update (fun s t => i16_ck (s + t)) x y in Ok (reduce_in_place r).
(** mlkem768.rs:896-911  sub *)
Definition coeffs_sub (x y : list Z) : res (list Z) :=
  let! r := zip_update (fun s t => i16_ck (s - t)) x y in Ok (reduce_in_place r).
(** mlkem768.rs:784-789  ntt *)
Definition coeffs_ntt (c : list Z) : list Z := concat (map (a_ntt a) (chunks_exact N c)).
(** mlkem768.rs:668-673  inverse_ntt *)
Definition coeffs_intt (c : list Z) : list Z := concat (map (a_intt a) (chunks_exact N c)).
(** mlkem768.rs:653-664  mul_cache *)
Definition mul_cache (c : list Z) : list Z := concat (map (a_mulcache a) (chunks_exact N c)).
(** mlkem768.rs:613-625  from_bytes (ByteDecode_12) *)
Definition coeffs_from_bytes (b : list Z) : list Z := concat (map (fun bb => a_reduce a (a_frombytes a bb)) (chunks_exact 384 b)).
(** mlkem768.rs:628-639  to_bytes (ByteEncode_12) *)
Definition coeffs_to_bytes (c : list Z) : list Z := concat (map (a_tobytes a) (chunks_exact N c)).
(** mlkem768.rs:523-551  mul_add: a * s + e *)
Definition mul_add (A s e : list Z) : res (list Z) :=
  let s_precomp := mul_cache s in
  let! rows := map_res (fun '(aa, rr) =>
      let term := a_tomont a (a_basemul a aa s s_precomp) in
      zip_update (fun r t => i16_ck (r + t)) rr term)
    (combine (chunks_exact (K * N) A) (chunks_exact N e)) in
  Ok (reduce_in_place (concat rows)).
(** mlkem768.rs:571-595  mul_and_inverse_ntt, matrix version: products added to zero *)
Definition mat_mul_and_inverse_ntt (A y : list Z) : res (list Z) :=
  let y_precomp := mul_cache y in
  let! rows := map_res (fun '(aa, rr) =>
      zip_update (fun r t => i16_ck (r + t)) rr (a_basemul a aa y y_precomp))
    (combine (chunks_exact (K * N) A) (chunks_exact N (repeat 0 (Z.to_nat (K * N))))) in
  Ok (coeffs_intt (reduce_in_place (concat rows))).
(** mlkem768.rs:642-651  vector version *)
Definition vec_mul_and_inverse_ntt (t y : list Z) : list Z := a_intt a (a_basemul a t y (mul_cache y)).
(** mlkem768.rs:559-569  transpose: swap the chunks [i*K+j] and [j*K+i] for i < j < K *)
Definition swap_chunks (cs : list (list Z)) (x y : nat) : list (list Z) := upd (upd cs x (nth y cs [])) y (nth x cs []).
(** mlkem768.rs:559-569  transpose *)
Definition coeffs_transpose (c : list Z) : list Z :=
  let cs := chunks_exact N c in
  concat (fold_left (fun cs '(i, j) => swap_chunks cs (i * 3 + j) (j * 3 + i)) [(0, 1); (0, 2); (1, 2)]%nat cs).

(** mlkem768.rs:744-781  sample_poly_cbd_dual *)
Definition cbd_buf (sigma : list Z) (i : Z) : list Z := sigma ++ [i; SHAKE_PAD_BYTE] ++ repeat 0 6.
(** mlkem768.rs:744-781  sample_poly_cbd_dual *)
Definition sample_poly_cbd_dual (sigma : list Z) : res (list Z * list Z) :=
  let! samples := one_shot_sextet kf4 kf2of4 (map (cbd_buf sigma) [0; 1; 2; 3; 4; 5]) in
  let polys := map sample_cbd2 samples in
  Ok (concat (firstn 3 polys), concat (skipn 3 polys)).

(** ** Keys *)
(** mlkem768.rs:209-214  EncapKey *)
Record encap_key := { ek_t_hat : list Z; ek_rho : list Z; ek_ta : list Z }.
(** mlkem768.rs:42-47  DecapKey *)
Record decap_key := { dk_ek : encap_key; dk_pke : list Z; dk_h : list Z; dk_z : list Z }.

(** mlkem768.rs:254-260  EncapKey::as_bytes *)
Definition ek_as_bytes (e : encap_key) : list Z := ek_t_hat e ++ ek_rho e.
(** mlkem768.rs:76-85  DecapKey::as_bytes *)
Definition dk_as_bytes (d : decap_key) : list Z :=
  dk_pke d ++ ek_t_hat (dk_ek d) ++ ek_rho (dk_ek d) ++ dk_h d ++ dk_z d.
(** mlkem768.rs:67-70  DecapKey::encapsulation_key *)
Definition encapsulation_key (d : decap_key) : encap_key := dk_ek d.

(** mlkem768.rs:218-240  EncapKey::from_bytes of a 1184-byte array *)
Definition ek_from_bytes (fuel : nat) (input : list Z) : res encap_key :=
  let t_hat := ztake (K * 384) input in
  let rho := zdrop (K * 384) input in
  if negb (list_eqb t_hat (coeffs_to_bytes (coeffs_from_bytes t_hat))) then Err OutOfRange
  else
    let! ta := sample_poly_ntt fuel true rho in
    Ok {| ek_t_hat := t_hat; ek_rho := rho; ek_ta := ta |}.

(** mlkem768.rs:142-177  kpke_keygen *)
Definition kpke_keygen (fuel : nat) (d : list Z) : res (encap_key * list Z) :=
  let! g := sha3_512 kf [d; [K_BYTE]] in
  let rho := ztake 32 g in
  let sigma := zdrop 32 g in
  let! a_hat := sample_poly_ntt fuel false rho in
  let! (s, e) := sample_poly_cbd_dual sigma in
  let s_hat := coeffs_ntt s in
  let e_hat := coeffs_ntt e in
  let! t_hat := mul_add a_hat s_hat e_hat in
  Ok ({| ek_t_hat := coeffs_to_bytes t_hat; ek_rho := rho; ek_ta := coeffs_transpose a_hat |},
      coeffs_to_bytes (reduce_in_place s_hat)).

(** mlkem768.rs:88-111  keygen_internal of a 64-byte seed *)
Definition keygen_internal (fuel : nat) (seed : list Z) : res decap_key :=
  let d := ztake 32 seed in
  let z := zdrop 32 seed in
  let! (ek_pke, dk_pke) := kpke_keygen fuel d in
  let! h_ek := sha3_256 kf [ek_t_hat ek_pke; ek_rho ek_pke] in
  Ok {| dk_ek := ek_pke; dk_pke := dk_pke; dk_h := h_ek; dk_z := z |}.

(** mlkem768.rs:283-323  kpke_encrypt *)
Definition kpke_encrypt (e : encap_key) (m r : list Z) : res (list Z) :=
  let t_hat := coeffs_from_bytes (ek_t_hat e) in
  let! (y, e_1) := sample_poly_cbd_dual r in
  let! k := shake_new kf SHAKE_256_R_BYTES [r; [K_BYTE * 2]] in
  let! (buf, _) := shake_read kf SHAKE_256_R_BYTES k 128 in
  let e_2 := sample_cbd2 buf in
  let y_hat := coeffs_ntt y in
  let! p := mat_mul_and_inverse_ntt (ek_ta e) y_hat in
  let! u := coeffs_add p e_1 in
  let mu := from_message_bits m in
  let! v := coeffs_add (vec_mul_and_inverse_ntt t_hat y_hat) e_2 in
  let! v := coeffs_add v mu in
  let! c_1 := compress_into_bytes_du_10 u in
  let! c_2 := compress_into_bytes_dv_4 v in
  Ok (c_1 ++ c_2).

(** mlkem768.rs:263-281  encaps_internal: shared secret and ciphertext *)
Definition encaps_internal (e : encap_key) (m : list Z) : res (list Z * list Z) :=
  let! h_ek := sha3_256 kf [ek_t_hat e; ek_rho e] in
  let! kr := sha3_512 kf [m; h_ek] in
  let! c := kpke_encrypt e m (zdrop 32 kr) in
  Ok (ztake 32 kr, c).

(** mlkem768.rs:180-198  kpke_decrypt *)
Definition kpke_decrypt (d : decap_key) (c : list Z) : res (list Z) :=
  let c_1 := ztake (32 * DU * K) c in
  let c_2 := zdrop (32 * DU * K) c in
  let! u' := decompress_from_bytes_du_10 c_1 in
  let! v' := decompress_from_bytes_dv_4 c_2 in
  let s_hat := coeffs_from_bytes (dk_pke d) in
  let! w := coeffs_sub v' (vec_mul_and_inverse_ntt s_hat (coeffs_ntt u')) in
  to_message_bits w.

(** mlkem768.rs:114-139  decaps_internal *)
Definition decaps_internal (d : decap_key) (c : list Z) : res (list Z) :=
  let! m' := kpke_decrypt d c in
  let! kr' := sha3_512 kf [m'; dk_h d] in
  let k' := ztake 32 kr' in
  let r' := zdrop 32 kr' in
  let! j := shake_new kf SHAKE_256_R_BYTES [dk_z d; c] in
  let! (k_bar, _) := shake_read kf SHAKE_256_R_BYTES j 32 in
  let! c' := kpke_encrypt (dk_ek d) m' r' in
  Ok (ct_copy (ct_equal c c') k' k_bar).

(** mlkem768.rs:49-58  DecapKey::generate; [rng n] is SystemRandom filling [n] bytes *)
Definition generate (rng : Z -> res (list Z)) (fuel : nat) : res decap_key :=
  let! seed := rng 64 in keygen_internal fuel seed.
(** mlkem768.rs:246-251  EncapKey::encaps *)
Definition encaps (rng : Z -> res (list Z)) (e : encap_key) : res (list Z * list Z) :=
  let! m := rng 32 in encaps_internal e m.
End MlKem.
