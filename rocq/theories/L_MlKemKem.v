(** K-PKE and ML-KEM of the library against FIPS 203. *)
Require Import Verif.Base Verif.L_Base Verif.L_Blocks Verif.M_Ct Verif.L_Hmac Verif.T_Hash Verif.M_Sha3 Verif.S_Sha3 Verif.L_Poly1305 Verif.L_Sha3 Verif.T_Sha3
  Verif.S_MlKem Verif.M_MlKem Verif.S_MlKemAsm Verif.L_MlKemEnc Verif.L_MlKemSample Verif.L_MlKem.
Require Import ZifyNat.
Local Opaque keccak_f keccak_p RC round_constants set_words.

(** ** sizes of hash outputs *)
Section Sizes.
Variable kf : list Z -> list Z -> list Z.
Hypothesis Hkf : keccak_asm_ok kf.
Lemma gblocks R S0 : 8 <= R <= 200 -> forall k n s, reps S0 n s ->
  bytes (squeeze_blocks R k (Nat.iter n keccak_bytes S0)) /\ zlen (squeeze_blocks R k (Nat.iter n keccak_bytes S0)) = Z.of_nat k * R.
Proof.
  intros HR. induction k as [|k IH]; intros n s Hs; cbn [squeeze_blocks]. { split; [constructor|reflexivity]. }
  destruct (IH (S n) _ (reps_kf kf Hkf _ _ _ Hs)) as [C1 C2]. cbn [Nat.iter nat_rect] in C1, C2.
  assert (B : bytes (ztake R (Nat.iter n keccak_bytes S0)) /\ zlen (ztake R (Nat.iter n keccak_bytes S0)) = R).
  { destruct Hs as [OK <-]. split; [|rewrite zlen_ztake; auto; rewrite (bytes_len kf Hkf) by auto; lia].
    apply bytes_ztake. unfold bytes_of_lanes. apply L_Hmac.bytes_concat. apply Forall_map, Forall_forall. intros. apply le_bytes_bytes. }
  split; [apply bytes_app; tauto|]. rewrite zlen_app. unfold Nat.iter at 2. rewrite C2. destruct B as [_ ->]. lia.
Qed.
Lemma sponge_facts R PAD suf m d : rate R -> 24 <= R <= 168 -> pad_is PAD suf -> bytes m -> 0 <= d ->
  bytes (SPONGE R (bits_of_bytes m ++ suf) d) /\ zlen (SPONGE R (bits_of_bytes m ++ suf) d) = d.
Proof.
  intros HR HR2 Hp Hm Hd.
  destruct (SInv_absorbs kf Hkf R [m] [] (sponge_new R) HR bytes_nil ltac:(auto) (SInv_new kf Hkf R HR)) as (sp & E0 & I).
  cbn [app concat] in I. rewrite app_nil_r in I.
  destruct (SInv_final kf Hkf R PAD suf m sp HR HR2 Hp Hm I) as (A & E1 & OK & E2).
  assert (Hr : reps (sponge_absorb R (bits_of_bytes m ++ suf)) 0 A) by (split; auto).
  destruct (gblocks R _ ltac:(lia) (Z.to_nat (d / R + 1)) 0 A Hr) as [B L]. cbn [Nat.iter nat_rect] in B, L. unfold SPONGE.
  split; [apply bytes_ztake; auto|]. apply zlen_ztake. rewrite L. pose proof (Z.div_mod d R ltac:(lia)). pose proof (Z.mod_pos_bound d R ltac:(lia)).
  pose proof (Z.div_pos d R ltac:(lia) ltac:(lia)). lia.
Qed.
Lemma shake256_facts m d : bytes m -> 0 <= d -> bytes (SHAKE256 m d) /\ zlen (SHAKE256 m d) = d.
Proof. intros. apply (sponge_facts _ SHAKE_PAD_BYTE); auto; try lia. exists 17%nat; cbn; lia. apply pad_shake. Qed.
Lemma sha3_512_facts m : bytes m -> bytes (SHA3_512 m) /\ zlen (SHA3_512 m) = 64.
Proof. intros. apply (sponge_facts _ SHA_PAD_BYTE); auto; try lia. exists 9%nat; cbn; lia. apply pad_sha. Qed.
Lemma sha3_256_facts m : bytes m -> bytes (SHA3_256 m) /\ zlen (SHA3_256 m) = 32.
Proof. intros. apply (sponge_facts _ SHA_PAD_BYTE); auto; try lia. exists 17%nat; cbn; lia. apply pad_sha. Qed.
Lemma prf2_facts s b : bytes s -> byte_ok b -> bytes (PRF2 s b) /\ zlen (PRF2 s b) = 128.
Proof. intros. apply shake256_facts; [|lia]. apply bytes_app; split; auto. repeat constructor; auto; apply H0. Qed.
Lemma shake256_once message n : Forall bytes message -> 0 <= n ->
  exists k k', shake_new kf SHAKE_256_R_BYTES message = Ok k /\ shake_read kf SHAKE_256_R_BYTES k n = Ok (SHAKE256 (concat message) n, k').
Proof.
  intros Hm Hn. destruct (C11_shake256_stream kf Hkf message [n] Hm) as (k & outs & k' & E1 & E2 & E3 & E4); [repeat constructor; auto|].
  destruct outs as [|o [|]]; try discriminate E3. cbn [shake_reads] in E2. exists k.
  destruct (shake_read kf SHAKE_256_R_BYTES k n) as [[o' k1]| |]; cbn [bind] in E2; try discriminate. injection E2 as E2 E5.
  exists k1. split; auto. do 2 f_equal. cbn [concat fold_right] in E4. rewrite app_nil_r, Z.add_0_r in E4. congruence.
Qed.
End Sizes.

(** ** encodings of whole polynomials *)
Lemma decode_facts d m B : (0 < d)%nat -> bytes B -> (d * m = 8 * length B)%nat ->
  length (ByteDecode_raw d B) = m /\ Forall (lt2 d) (ByteDecode_raw d B) /\ ByteEncode d (ByteDecode_raw d B) = B.
Proof.
  intros Hd HB HL. destruct (packs_exists d m B HB HL) as (F & L & P). rewrite (packs_decode d F B) by auto.
  split; auto. split; [apply P|apply packs_encode; auto].
Qed.
Lemma mod_lt2 d F : (d < 12)%nat -> Forall (lt2 d) F -> map (fun x => x mod (if (d <? 12)%nat then 2 ^ Z.of_nat d else q)) F = F.
Proof.
  intros Hd H. replace (d <? 12)%nat with true by lia. induction H as [|x F Hx HF IH]; cbn [map]; auto. f_equal; auto. apply Z.mod_small. exact Hx.
Qed.
Lemma ByteDecode_small d m B : (0 < d < 12)%nat -> bytes B -> (d * m = 8 * length B)%nat -> ByteDecode d B = ByteDecode_raw d B.
Proof. intros Hd HB HL. unfold ByteDecode. apply mod_lt2; [lia|]. eapply decode_facts; eauto. lia. Qed.
Lemma ByteDecode_12 B : ByteDecode 12 B = map (fun x => x mod q) (ByteDecode_raw 12 B). Proof. reflexivity. Qed.
Lemma ByteDecode12_facts B : bytes B -> zlen B = 384 -> length (ByteDecode 12 B) = n256 /\ canon (ByteDecode 12 B).
Proof.
  intros HB HL. rewrite ByteDecode_12. split.
  - rewrite map_length. eapply decode_facts; auto; [lia|]. unfold zlen in HL. unfold n256. lia.
  - unfold canon. apply Forall_map, Forall_forall. intros. apply Z.mod_pos_bound. unfold q; lia.
Qed.
Lemma packs_each (h : Z -> Z) d fs Bs : Forall2 (fun f B => packs d (map h f) B) fs Bs -> packs d (map h (concat fs)) (concat Bs).
Proof. intros H. rewrite concat_map. apply packs_concat. induction H; constructor; auto. Qed.
Lemma enc_du us : Forall (fun f => length f = n256 /\ canon f) us ->
  compress_into_bytes_du_10 (concat us) = Ok (concat (map (fun f => ByteEncode 10 (map (Compress 10) f)) us)) /\
  zlen (concat (map (fun f => ByteEncode 10 (map (Compress 10) f)) us)) = 320 * zlen us /\ bytes (concat (map (fun f => ByteEncode 10 (map (Compress 10) f)) us)).
Proof.
  intros H.
  assert (X : Forall2 (fun f B => packs 10 (map (Compress 10) f) B) us (map (fun f => ByteEncode 10 (map (Compress 10) f)) us)).
  { induction H as [|f us [L C] F IH]; constructor; auto. destruct (compress_du_ok 64 f ltac:(lia)) as (B & _ & P); auto.
    { unfold zlen. rewrite L. reflexivity. } rewrite (packs_encode _ _ _ P). auto. }
  pose proof (packs_each _ _ _ _ X) as PP. assert (CC : canon (concat us)) by (unfold canon; clear X PP; induction H; cbn; [constructor|apply Forall_app; split; auto; apply H]).
  assert (LL : zlen (concat us) = 256 * zlen us). { clear -H. induction H as [|f us [L _] F IH]; [reflexivity|]. cbn [concat]. rewrite zlen_app, zlen_cons. unfold zlen at 1. rewrite L. unfold n256. lia. }
  destruct (compress_du_ok (64 * zlen us) (concat us)) as (B & E & P); auto. { pose proof (zlen_nonneg us). lia. } { lia. }
  rewrite E. rewrite <- (packs_encode _ _ _ P), (packs_encode _ _ _ PP). split; auto. split; [|apply PP].
  pose proof (packs_len _ _ _ PP) as Q1. rewrite map_length in Q1. unfold zlen in *. lia.
Qed.
Lemma enc_dv f : length f = n256 -> canon f -> compress_into_bytes_dv_4 f = Ok (ByteEncode 4 (map (Compress 4) f)) /\
  zlen (ByteEncode 4 (map (Compress 4) f)) = 128 /\ bytes (ByteEncode 4 (map (Compress 4) f)).
Proof.
  intros L C. destruct (compress_dv_ok 128 f) as (B & E & P); auto; [lia|unfold zlen; rewrite L; reflexivity|].
  rewrite (packs_encode _ _ _ P). split; auto. pose proof (packs_len _ _ _ P) as Q1. rewrite map_length, L in Q1. unfold zlen, n256 in *. split; [lia|apply P].
Qed.
Lemma enc_msg f : length f = n256 -> canon f -> to_message_bits f = Ok (ByteEncode 1 (map (Compress 1) f)) /\
  zlen (ByteEncode 1 (map (Compress 1) f)) = 32 /\ bytes (ByteEncode 1 (map (Compress 1) f)).
Proof.
  intros L C. destruct (to_message_bits_ok f) as (B & E & P); auto; [unfold zlen; rewrite L; reflexivity|].
  rewrite (packs_encode _ _ _ P). split; auto. pose proof (packs_len _ _ _ P) as Q1. rewrite map_length, L in Q1. unfold zlen, n256 in *. split; [lia|apply P].
Qed.
Lemma decompress_canon d F : (d = 1 \/ d = 4 \/ d = 10)%nat -> Forall (lt2 d) F -> canon (map (Decompress (Z.of_nat d)) F).
Proof.
  intros Hd H. unfold canon. apply Forall_map. eapply Forall_impl; [|exact H]. intros y Hy. unfold lt2 in Hy.
  destruct Hd as [-> | [-> | ->]].
  - change (2 ^ Z.of_nat 1) with 2 in Hy. assert (y = 0 \/ y = 1) as [-> | ->] by lia; split; vm_compute; congruence.
  - apply decompress_4_ok. exact Hy. - apply decompress_10_ok. exact Hy.
Qed.
Lemma dec_du c : bytes c -> zlen c = 960 ->
  let us := map (fun b => map (Decompress 10) (ByteDecode 10 b)) (chunks_exact 320 c) in
  decompress_from_bytes_du_10 c = Ok (concat us) /\ Forall (fun f => length f = n256 /\ canon f) us /\ length us = k3.
Proof.
  intros HB HL. destruct (chunk_facts byte_ok 320 3 c ltac:(lia) ltac:(lia) HL HB) as [E F]. cbv zeta.
  destruct (decompress_du_ok 192 c ltac:(lia) ltac:(lia) HB) as (G & -> & P). sp.
  - f_equal. set (bs := chunks_exact 320 c) in *. clearbody bs.
    assert (X : Forall2 (packs 10) (map (ByteDecode 10) bs) bs).
    { clear -F. induction F as [|b bs [L B] F IH]; constructor; auto. destruct (packs_exists 10 256 b B) as (H & LH & PH). { unfold zlen in L. lia. }
      unfold ByteDecode. rewrite (packs_decode 10 H b ltac:(lia) PH), mod_lt2 by (try lia; apply PH). exact PH. }
    apply packs_concat in X. rewrite E in X. rewrite (packs_inj 10 G _ c ltac:(lia) P X). rewrite concat_map, map_map. reflexivity.
  - apply Forall_map. eapply Forall_impl; [|exact F]. intros b [L B]. cbv beta.
    assert (LL : (10 * n256 = 8 * length b)%nat) by (unfold zlen in L; unfold n256; lia).
    destruct (decode_facts 10 n256 b ltac:(lia) B LL) as (D1 & D2 & _). rewrite (ByteDecode_small 10 n256 b) by (auto; lia). rewrite map_length. split; auto.
    apply (decompress_canon 10); auto.
  - rewrite map_length. apply L_GhashAdd.chunk_count; [lia|]. rewrite HL. reflexivity.
Qed.
Lemma dec_dv c : bytes c -> zlen c = 128 -> decompress_from_bytes_dv_4 c = Ok (map (Decompress 4) (ByteDecode 4 c)) /\
  length (map (Decompress 4) (ByteDecode 4 c)) = n256 /\ canon (map (Decompress 4) (ByteDecode 4 c)).
Proof.
  intros HB HL. destruct (decompress_dv_ok c HB) as (G & -> & P). assert (LL : (4 * n256 = 8 * length c)%nat) by (unfold zlen in HL; unfold n256; lia).
  destruct (decode_facts 4 n256 c ltac:(lia) HB LL) as (D1 & D2 & _). rewrite (ByteDecode_small 4 n256 c) by (auto; lia).
  rewrite (packs_decode 4 G c) in * by (auto; lia). sp; auto. - rewrite map_length; auto. - apply (decompress_canon 4); auto.
Qed.
Lemma dec_msg m : bytes m -> zlen m = 32 -> from_message_bits m = map (Decompress 1) (ByteDecode 1 m) /\
  length (map (Decompress 1) (ByteDecode 1 m)) = n256 /\ canon (map (Decompress 1) (ByteDecode 1 m)).
Proof.
  intros HB HL. destruct (from_message_bits_ok m HB) as (G & -> & P). assert (LL : (1 * n256 = 8 * length m)%nat) by (unfold zlen in HL; unfold n256; lia).
  destruct (decode_facts 1 n256 m ltac:(lia) HB LL) as (D1 & D2 & _). rewrite (ByteDecode_small 1 n256 m) by (auto; lia).
  rewrite (packs_decode 1 G m) in * by (auto; lia). sp; auto. - rewrite map_length; auto. - apply (decompress_canon 1); auto.
Qed.

Lemma poly_add_good f g : length (poly_add f g) = n256 /\ canon (poly_add f g). Proof. split; [apply poly_len|apply canon_poly]. Qed.
Lemma poly_sub_good f g : length (poly_sub f g) = n256 /\ canon (poly_sub f g). Proof. split; [apply poly_len|apply canon_poly]. Qed.
Lemma NTT_good f : length (NTT f) = n256 /\ canon (NTT f). Proof. split; [apply poly_len|apply canon_poly]. Qed.
Lemma PRF2_eq r b : SHAKE256 (r ++ [b]) 128 = PRF2 r b. Proof. reflexivity. Qed.
Local Opaque NTT NTT_inv dot poly_add poly_sub place SamplePolyCBD sample_cbd2 PRF2 SampleNTT ByteEncode ByteDecode SHA3_512 SHA3_256 SHAKE256 coeffs_add.
Section Kem.
Variable kf : list Z -> list Z -> list Z.
Variable kf4 kf2 : list (list Z) -> list Z -> list (list Z).
Hypothesis Hkf : keccak_asm_ok kf.
Hypothesis Hkf4 : keccak4_asm_ok kf4.
Hypothesis Hkf2 : keccak2of4_asm_ok kf2.
Variable a : asm.
Variable ord : list nat.
Hypothesis Ha : asm_ok ord a.
Let Ho : order_ok ord := order_is ord (ok_order ord a Ha).
Notation good f := (length f = n256 /\ canon f).

Lemma good_lens fs : Forall (fun f => good f) fs -> Forall (fun c => zlen c = N) (map (place ord) fs).
Proof. intros H. apply Forall_map. eapply Forall_impl; [|exact H]. intros f _. cbv beta. unfold zlen. rewrite place_len. destruct Ho as [-> _]. reflexivity. Qed.
Lemma to_bytes_ok fs : Forall (fun f => good f) fs -> coeffs_to_bytes a (concat (map (place ord) fs)) = concat (map (ByteEncode 12) fs).
Proof.
  intros H. unfold coeffs_to_bytes. rewrite chunks_concat; [|reflexivity|apply good_lens; auto]. f_equal. rewrite map_map. apply map_ext_in. intros f Hf.
  rewrite Forall_forall in H. destruct (H f Hf) as [L C]. apply (ok_tobytes ord a Ha); auto. eapply Forall_impl; [|exact C]. unfold q. cbn. intros; lia.
Qed.
Lemma decode_vec12_good b m : bytes b -> 0 <= m -> zlen b = m * 384 -> Forall (fun f => good f) (decode_vec12 b) /\ length (decode_vec12 b) = Z.to_nat m.
Proof.
  intros HB Hm HL. destruct (chunk_facts byte_ok 384 m b ltac:(lia) Hm HL HB) as [E F]. unfold decode_vec12. split.
  - apply Forall_map. eapply Forall_impl; [|exact F]. intros c [L B]. apply ByteDecode12_facts; auto.
  - rewrite map_length. apply L_GhashAdd.chunk_count; lia.
Qed.
Lemma from_bytes_ok b m : bytes b -> 0 <= m -> zlen b = m * 384 -> coeffs_from_bytes a b = concat (map (place ord) (decode_vec12 b)).
Proof.
  intros HB Hm HL. destruct (chunk_facts byte_ok 384 m b ltac:(lia) Hm HL HB) as [E F]. unfold coeffs_from_bytes, decode_vec12. rewrite map_map. f_equal.
  apply map_ext_in. intros c Hc. rewrite Forall_forall in F. destruct (F c Hc) as [L B]. rewrite (ok_frombytes ord a Ha) by auto.
  assert (LL : (12 * n256 = 8 * length c)%nat) by (unfold zlen in L; unfold n256; lia).
  destruct (decode_facts 12 n256 c ltac:(lia) B LL) as (D1 & D2 & _).
  rewrite (ok_reduce ord a Ha). - rewrite <- place_mod. reflexivity.
  - split; [rewrite place_len; apply Ho|]. apply place_bound; [unfold i16; lia|]. eapply Forall_impl; [|exact D2]. unfold lt2, i16. cbn. intros; lia.
Qed.

(** noise *)
Definition noise_raw (s : list Z) (n : Z) : list (list Z) := map (fun i => sample_cbd2 (PRF2 s (n + i))) [0; 1; 2].
Lemma cbd_dual_ok sigma : bytes sigma -> zlen sigma = 32 -> sample_poly_cbd_dual kf4 kf2 sigma = Ok (concat (noise_raw sigma 0), concat (noise_raw sigma 3)).
Proof.
  intros HB HL. unfold sample_poly_cbd_dual.
  replace (map (cbd_buf sigma) [0; 1; 2; 3; 4; 5]) with (map slot40 (map (fun i => sigma ++ [i]) [0; 1; 2; 3; 4; 5])).
  2:{ rewrite map_map. apply map_ext. intros i. unfold slot40, cbd_buf. rewrite zlen_app, HL. change (zlen [i]) with 1. rewrite <- app_assoc. reflexivity. }
  rewrite (C11_sextet_is_six_shake256 kf kf4 kf2 Hkf Hkf4 Hkf2).
  - reflexivity.
  - apply Forall_map. repeat (apply Forall_cons; [apply bytes_app; split; [auto|bytes_tac]|]). apply Forall_nil.
  - apply Forall_map. repeat (apply Forall_cons; [rewrite zlen_app, HL; reflexivity|]). apply Forall_nil.
  - reflexivity.
Qed.
Lemma cbd_one s b : bytes s -> byte_ok b -> length (sample_cbd2 (PRF2 s b)) = n256 /\ Forall (below 3) (sample_cbd2 (PRF2 s b)) /\
  map (fun x => x mod q) (sample_cbd2 (PRF2 s b)) = SamplePolyCBD (PRF2 s b).
Proof.
  intros Hs Hb. destruct (prf2_facts kf Hkf s b Hs Hb) as [B L]. destruct (sample_cbd2_ok _ L B) as (S1 & S2 & S3). sp; auto.
  eapply Forall_impl; [|exact S2]. unfold below. cbn. intros; lia.
Qed.
Lemma noise_ok s n : bytes s -> 0 <= n <= 250 -> Forall (fun c => length c = n256 /\ Forall (below 3) c) (noise_raw s n) /\
  map (map (fun x => x mod q)) (noise_raw s n) = noise s n.
Proof.
  intros Hs Hn. assert (G : forall i, 0 <= i <= 2 -> byte_ok (n + i)) by (unfold byte_ok; intros; lia).
  unfold noise_raw, noise. cbn [map].
  destruct (cbd_one s (n + 0) Hs (G 0 ltac:(lia))) as (A1 & A2 & A3). destruct (cbd_one s (n + 1) Hs (G 1 ltac:(lia))) as (B1 & B2 & B3).
  destruct (cbd_one s (n + 2) Hs (G 2 ltac:(lia))) as (C1 & C2 & C3). split.
  - repeat (apply Forall_cons; [split; assumption|]). apply Forall_nil.
  - rewrite A3, B3, C3. reflexivity.
Qed.
Lemma noise_ntt s n : bytes s -> 0 <= n <= 250 -> exists ds, coeffs_ntt a (concat (noise_raw s n)) = concat ds /\ vrel ord (below (8 * q)) ds (map NTT (noise s n)).
Proof.
  intros Hs Hn. destruct (noise_ok s n Hs Hn) as [F E]. destruct (ntt_vec_ok a ord Ha (noise_raw s n)) as (ds & E1 & R).
  { eapply Forall_impl; [|exact F]. intros c [L B]. split; auto. eapply Forall_impl; [|exact B]. unfold below, q. intros; lia. }
  exists ds. split; auto. rewrite <- E. rewrite map_map. exact R.
Qed.
Lemma noise_rel s n : bytes s -> 0 <= n <= 250 -> vrel nat_order (below 3) (noise_raw s n) (noise s n).
Proof.
  intros Hs Hn. destruct (noise_ok s n Hs Hn) as [F E]. rewrite <- E. clear E. induction F as [|c cs [L B] F IH]; cbn [map]; constructor; auto.
  split; [rewrite map_length; auto|]. split; auto. rewrite place_nat by (rewrite map_length; auto). apply congr_sym, congr_mod.
Qed.
Lemma noise_len s n : length (noise s n) = k3. Proof. reflexivity. Qed.

(** matrix *)
Lemma matrix_good it rho : bytes rho -> 0 <= it -> matrix_sampled it rho -> mat_ok (matrix_A it rho) /\ mat_ok (transpose (matrix_A it rho)).
Proof.
  intros Hr Hit Hm. assert (G : forall i j, sampled it (rho ++ [j; i]) -> byte_ok i -> byte_ok j -> good (SampleNTT it (rho ++ [j; i]))).
  { intros i j Hs Hi Hj. split; [exact Hs|]. apply (sample_canon kf Hkf); auto. apply bytes_app. split; auto. repeat constructor; first [apply Hi|apply Hj]. }
  unfold matrix_sampled in Hm. repeat match goal with H : Forall _ (_ :: _) |- _ => inversion_clear H end.
  split; unfold mat_ok, matrix_A, transpose; cbn [map seq k3 nth];
    repeat (apply Forall_cons; [split; [reflexivity|repeat (apply Forall_cons; [apply G; [assumption|unfold byte_ok; lia|unfold byte_ok; lia]|]); apply Forall_nil]|]); apply Forall_nil.
Qed.
Lemma transpose_ok (A : list (list (list Z))) : mat_ok A -> length A = k3 ->
  coeffs_transpose (concat (map (place ord) (concat A))) = concat (map (place ord) (concat (transpose A))).
Proof.
  intros HA LA. unfold coeffs_transpose. rewrite chunks_concat.
  - destruct A as [|r0 [|r1 [|r2 [|]]]]; try discriminate LA. inversion_clear HA. inversion_clear H0. inversion_clear H2. clear H3.
    destruct H as [L0 _], H1 as [L1 _], H0 as [L2 _].
    destruct r0 as [|a0 [|a1 [|a2 [|]]]]; try discriminate L0. destruct r1 as [|b0 [|b1 [|b2 [|]]]]; try discriminate L1. destruct r2 as [|c0 [|c1 [|c2 [|]]]]; try discriminate L2.
    reflexivity.
  - reflexivity.
  - apply good_lens. clear LA. induction HA as [|r A [_ H] HA IH]; cbn [concat]; [constructor|]. apply Forall_app; auto.
Qed.

(** ** keys *)
Record ek_good (it : Z) (e : encap_key) : Prop := {
  eg_it : 0 <= it;
  eg_t : bytes (ek_t_hat e) /\ zlen (ek_t_hat e) = 1152;
  eg_rho : bytes (ek_rho e) /\ zlen (ek_rho e) = 32;
  eg_sampled : matrix_sampled it (ek_rho e);
  eg_ta : ek_ta e = concat (map (place ord) (concat (transpose (matrix_A it (ek_rho e)))))
}.

Lemma from_bytes_exact fuel it input : bytes input -> zlen input = 1184 -> 0 <= it -> (Z.to_nat (2 * it) <= fuel)%nat -> matrix_sampled it (zdrop 1152 input) ->
  (ek_ok input -> exists e, ek_from_bytes kf kf4 a fuel input = Ok e /\ ek_as_bytes e = input /\ ek_good it e) /\
  (~ ek_ok input -> ek_from_bytes kf kf4 a fuel input = Err OutOfRange).
Proof.
  intros HB HL Hit Hf Hm. unfold ek_from_bytes. change (K * 384) with 1152.
  assert (L1 : zlen (ztake 1152 input) = 1152) by (rewrite zlen_ztake; lia). assert (L2 : zlen (zdrop 1152 input) = 32) by (rewrite zlen_zdrop; lia).
  assert (B1 : bytes (ztake 1152 input)) by (apply bytes_ztake; auto). assert (B2 : bytes (zdrop 1152 input)) by (apply bytes_zdrop; auto).
  destruct (decode_vec12_good (ztake 1152 input) 3 B1 ltac:(lia) ltac:(lia)) as [G _].
  rewrite (from_bytes_ok _ 3) by (auto; lia). rewrite to_bytes_ok by auto.
  rewrite (sample_matrix_ok kf kf4 Hkf Hkf4 a ord Ha fuel it true) by auto. cbn [bind matrix_order]. split.
  - intros [_ E]. rewrite E, list_eqb_refl. cbn [negb]. eexists. split; [reflexivity|]. split. { apply ztake_zdrop. } constructor; cbn [ek_t_hat ek_rho ek_ta]; auto.
  - intros HN. destruct (list_eqb _ _) eqn:E; auto. exfalso. apply HN. split; auto. apply list_eqb_eq in E. auto.
Qed.
Lemma hashG_parts m : bytes m -> let '(r, s) := HashG m in bytes r /\ zlen r = 32 /\ bytes s /\ zlen s = 32 /\ r = ztake 32 (SHA3_512 m) /\ s = zdrop 32 (SHA3_512 m).
Proof.
  intros HB. destruct (sha3_512_facts kf Hkf m HB) as [B L]. unfold HashG. sp; auto using bytes_ztake, bytes_zdrop.
  - rewrite zlen_ztake; lia. - rewrite zlen_zdrop; lia.
Qed.
Lemma vec_add_good x y : Forall (fun f => good f) (vec_add x y).
Proof. unfold vec_add. apply Forall_map, Forall_forall. intros [f g] _. apply poly_add_good. Qed.
Lemma enc12_facts fs : Forall (fun f => good f) fs -> bytes (concat (map (ByteEncode 12) fs)) /\ zlen (concat (map (ByteEncode 12) fs)) = 384 * zlen fs /\
  decode_vec12 (concat (map (ByteEncode 12) fs)) = fs.
Proof.
  intros H.
  assert (X : Forall (fun f => packs 12 f (ByteEncode 12 f) /\ zlen (ByteEncode 12 f) = 384) fs).
  { eapply Forall_impl; [|exact H]. intros f [L C]. cbv beta.
    assert (F2 : Forall (lt2 12) f) by (eapply Forall_impl; [|exact C]; unfold lt2, q; cbn; intros; lia).
    assert (LF : length (concat (map (int_bits 12) f)) = (12 * length f)%nat) by (clear; induction f; cbn [map concat]; auto; rewrite app_length, int_bits_len, IHf; cbn; lia).
    pose proof (bits_digits 12 f F2) as E.
    assert (V : 0 <= dval 12 f < 256 ^ Z.of_nat 384).
    { assert (D : 0 <= dval 12 f < 2 ^ (12 * Z.of_nat (length f))).
      { clear -F2. induction F2 as [|x f Hx F IH]; [cbn; lia|]. cbn [dval length]. unfold lt2 in Hx.
        replace (12 * Z.of_nat (S (length f))) with (12 + 12 * Z.of_nat (length f)) by lia. rewrite Z.pow_add_r by lia. change (Z.of_nat 12) with 12 in *. nia. }
      rewrite L in D. change 256 with (2 ^ 8). rewrite <- Z.pow_mul_r by lia. exact D. }
    assert (P : packs 12 f (le_bytes 384 (dval 12 f))).
    { apply packs_group; auto using le_bytes_bytes. - rewrite L, le_bytes_length. reflexivity. - rewrite le_val_le_bytes. symmetry. apply Z.mod_small. exact V. }
    rewrite (packs_encode _ _ _ P). split; [exact P|]. rewrite zlen_le_bytes. reflexivity. }
  sp.
  - clear H. induction X as [|f fs [P _] X IH]; cbn [map concat]; [constructor|]. apply bytes_app. split; auto. apply P.
  - clear H. induction X as [|f fs [P L] X IH]; cbn [map concat]; [reflexivity|]. rewrite zlen_app, zlen_cons, L, IH. lia.
  - unfold decode_vec12. rewrite chunks_concat; [|lia|]. 2:{ apply Forall_map. eapply Forall_impl; [|exact X]. cbn; tauto. }
    rewrite map_map. rewrite <- (map_id fs) at 2. apply map_ext_in. intros f Hf. rewrite Forall_forall in X, H. destruct (X f Hf) as [P _]. destruct (H f Hf) as [_ C].
    rewrite ByteDecode_12, (packs_decode 12 f) by (auto; lia). clear -C. induction C; cbn; auto. f_equal; auto. apply Z.mod_small. auto.
Qed.
Lemma ntt_good l : Forall (fun f => good f) (map NTT l).
Proof. apply Forall_map, Forall_forall. intros. apply NTT_good. Qed.
Lemma i16_8q x : below (8 * q) x -> i16 x. Proof. unfold below, i16, q. lia. Qed.

Lemma kpke_keygen_ok fuel it d : bytes d -> zlen d = 32 -> 0 <= it -> (Z.to_nat (2 * it) <= fuel)%nat -> matrix_sampled it (fst (HashG (d ++ [3]))) ->
  exists e dk, kpke_keygen kf kf4 kf2 a fuel d = Ok (e, dk) /\ ek_good it e /\ ek_ok (ek_as_bytes e) /\ KPKE_KeyGen it d = (ek_as_bytes e, dk) /\ bytes dk /\ zlen dk = 1152.
Proof.
  intros HB HL Hit Hf Hm. unfold kpke_keygen, KPKE_KeyGen.
  assert (Bd : bytes (d ++ [3])) by (apply bytes_app; split; [auto|bytes_tac]).
  rewrite (C11_sha3_512_is_fips202 kf Hkf) by (repeat (apply Forall_cons; [first [assumption|bytes_tac]|]); apply Forall_nil). cbn [bind concat].
  change [K_BYTE] with [3]. rewrite app_nil_r. pose proof (hashG_parts (d ++ [3]) Bd) as HP. destruct (HashG (d ++ [3])) as [rho sigma]. cbn [fst] in Hm.
  destruct HP as (R1 & R2 & S1 & S2 & <- & <-).
  rewrite (sample_matrix_ok kf kf4 Hkf Hkf4 a ord Ha fuel it false) by auto. cbn [bind matrix_order].
  rewrite cbd_dual_ok by auto. cbn [bind].
  destruct (noise_ntt sigma 0 S1 ltac:(lia)) as (ss & -> & Rs). destruct (noise_ntt sigma 3 S1 ltac:(lia)) as (es & -> & Re).
  destruct (matrix_good it rho R1 Hit Hm) as [M1 M2].
  rewrite (mul_add_ok a ord Ha (matrix_A it rho) ss (map NTT (noise sigma 0)) es (map NTT (noise sigma 3))); auto.
  2:{ clear -Re. inversion Re as [|? ? ? ? ? R1]; subst. inversion R1 as [|? ? ? ? ? R2]; subst. inversion R2 as [|? ? ? ? ? R3]; subst. inversion R3. reflexivity. }
  cbn [bind]. set (t := vec_add _ _). assert (Gt : Forall (fun f => good f) t) by apply vec_add_good.
  assert (Lt : zlen t = 3) by reflexivity. assert (Gs : Forall (fun f => good f) (map NTT (noise sigma 0))) by apply ntt_good.
  rewrite (reduce_rel a ord Ha ord ss (map NTT (noise sigma 0))); auto.
  2:{ eapply vrel_weaken; [|exact Rs]. apply i16_8q. } 2:{ eapply Forall_impl; [|exact Gs]. cbn; tauto. }
  rewrite !to_bytes_ok by auto. destruct (enc12_facts t Gt) as (T1 & T2 & T3). destruct (enc12_facts _ Gs) as (U1 & U2 & U3).
  rewrite transpose_ok by auto. eexists _, _. split; [reflexivity|]. unfold ek_as_bytes. cbn [ek_t_hat ek_rho]. sp; auto.
  - constructor; cbn [ek_t_hat ek_rho ek_ta]; auto; split; auto; lia.
  - unfold ek_ok. rewrite zlen_app, ztake_app_eq by lia. split; [lia|]. rewrite T3. reflexivity.
Qed.

Lemma place_nat_map fs : Forall (fun f => good f) fs -> map (place nat_order) fs = fs.
Proof. induction 1 as [|f fs [L _] F IH]; cbn [map]; auto. rewrite place_nat, IH by auto. reflexivity. Qed.
(** the steps of encryption and of the specification, over arbitrary values *)
Lemma kpke_encrypt_steps e m r t y e1 k buf k' yh p u w v c1 c2 :
  coeffs_from_bytes a (ek_t_hat e) = t -> sample_poly_cbd_dual kf4 kf2 r = Ok (y, e1) ->
  shake_new kf SHAKE_256_R_BYTES [r; [K_BYTE * 2]] = Ok k -> shake_read kf SHAKE_256_R_BYTES k 128 = Ok (buf, k') ->
  coeffs_ntt a y = yh -> mat_mul_and_inverse_ntt a (ek_ta e) yh = Ok p -> coeffs_add a p e1 = Ok u ->
  coeffs_add a (vec_mul_and_inverse_ntt a t yh) (sample_cbd2 buf) = Ok w -> coeffs_add a w (from_message_bits m) = Ok v ->
  compress_into_bytes_du_10 u = Ok c1 -> compress_into_bytes_dv_4 v = Ok c2 ->
  kpke_encrypt kf kf4 kf2 a e m r = Ok (c1 ++ c2).
Proof.
  intros E1 E2 E3 E4 E5 E6 E7 E8 E9 E10 E11. unfold kpke_encrypt. rewrite E1, E2. cbn [bind]. rewrite E3. cbn [bind]. rewrite E4. cbn [bind].
  rewrite E5, E6. cbn [bind]. rewrite E7. cbn [bind]. rewrite E8. cbn [bind]. rewrite E9. cbn [bind]. rewrite E10. cbn [bind]. rewrite E11. reflexivity.
Qed.
Lemma KPKE_Encrypt_steps it t rho m r : zlen t = 1152 ->
  KPKE_Encrypt it (t ++ rho) m r =
  concat (map (fun f => ByteEncode 10 (map (Compress 10) f)) (vec_add (map NTT_inv (mat_vec (transpose (matrix_A it rho)) (map NTT (noise r 0)))) (noise r 3))) ++
  ByteEncode 4 (map (Compress 4) (poly_add (poly_add (NTT_inv (dot (decode_vec12 t) (map NTT (noise r 0)))) (SamplePolyCBD (PRF2 r 6))) (map (Decompress 1) (ByteDecode 1 m)))).
Proof. intros L. unfold KPKE_Encrypt. rewrite (ztake_app_eq 1152), (zdrop_app_eq 1152) by lia. reflexivity. Qed.
Lemma vrel3 o P cs fs : vrel o P cs fs -> length cs = length fs.
Proof. induction 1; cbn; auto. Qed.
Lemma kpke_encrypt_ok it e m r : ek_good it e -> bytes m -> zlen m = 32 -> bytes r -> zlen r = 32 ->
  kpke_encrypt kf kf4 kf2 a e m r = Ok (KPKE_Encrypt it (ek_as_bytes e) m r) /\ zlen (KPKE_Encrypt it (ek_as_bytes e) m r) = 1088 /\ bytes (KPKE_Encrypt it (ek_as_bytes e) m r).
Proof.
  intros He Hm Lm Hr Lr. destruct He as [Hit [Bt Lt] [Brho Lrho] Hs Hta]. unfold ek_as_bytes. rewrite KPKE_Encrypt_steps by auto.
  pose proof (from_bytes_ok (ek_t_hat e) 3 Bt ltac:(lia) ltac:(lia)) as E1.
  destruct (decode_vec12_good (ek_t_hat e) 3 Bt ltac:(lia) ltac:(lia)) as [Gt Lgt].
  pose proof (cbd_dual_ok r Hr Lr) as E2.
  destruct (shake256_once kf Hkf [r; [K_BYTE * 2]] 128) as (k & k' & E3 & E4); [repeat (apply Forall_cons; [first [assumption|bytes_tac]|]); apply Forall_nil|lia|].
  cbn [concat] in E4. change [K_BYTE * 2] with [6] in E4. rewrite app_nil_r, PRF2_eq in E4.
  destruct (noise_ntt r 0 Hr ltac:(lia)) as (ys & E5 & Ry). destruct (matrix_good it (ek_rho e) Brho Hit Hs) as [M1 M2].
  assert (LN : length (map NTT (noise r 0)) = k3) by (rewrite map_length; apply noise_len). assert (L3 : length (transpose (matrix_A it (ek_rho e))) = k3) by reflexivity.
  pose proof (noise_rel r 3 Hr ltac:(lia)) as R3. assert (LR : length (noise_raw r 3) = k3) by reflexivity.
  set (yh := map NTT (noise r 0)) in *. set (A := transpose (matrix_A it (ek_rho e))) in *. clearbody yh A.
  destruct (mat_mul_ok a ord Ha A ys yh M2 L3 LN Ry) as (us & E6 & Ru). rewrite <- Hta in E6.
  assert (LU : length us = length (noise_raw r 3)). { rewrite (vrel3 _ _ _ _ Ru), map_length. unfold mat_vec. rewrite map_length. congruence. }
  pose proof (coeffs_add_ok a ord Ha nat_order (8 * q) 3 us (noise_raw r 3) _ (noise r 3) order_nat ltac:(unfold q; lia) Ru R3 LU) as E7.
  rewrite place_nat_map in E7 by apply vec_add_good.
  assert (LV : zlen (vec_add (map NTT_inv (mat_vec A yh)) (noise r 3)) = 3).
  { unfold vec_add, mat_vec, zlen. rewrite map_length, combine_length, !map_length, L3, noise_len. reflexivity. }
  pose proof (vec_add_good (map NTT_inv (mat_vec A yh)) (noise r 3)) as Gu. set (u := vec_add _ _) in *. clearbody u.
  pose proof (vec_mul_ok a ord Ha (map (place ord) (decode_vec12 (ek_t_hat e))) (decode_vec12 (ek_t_hat e)) ys yh Lgt (vrel_exact ord _ Gt) LN Ry) as Rv.
  set (vs := NTT_inv _) in *. clearbody vs.
  destruct (cbd_one r 6 Hr ltac:(unfold byte_ok; lia)) as (C1 & C2 & C3).
  assert (Re2 : rel nat_order (below 3) (sample_cbd2 (PRF2 r 6)) (SamplePolyCBD (PRF2 r 6))).
  { rewrite <- C3. split; [rewrite map_length; auto|]. split; auto. rewrite place_nat by (rewrite map_length; auto). apply congr_sym, congr_mod. }
  set (e2 := SamplePolyCBD (PRF2 r 6)) in *. clearbody e2.
  pose proof (coeffs_add1_ok a ord Ha nat_order (8 * q) 3 _ _ vs e2 order_nat ltac:(unfold q; lia) Rv Re2) as E8. rewrite place_nat in E8 by apply poly_add_good.
  destruct (dec_msg m Hm Lm) as (D1 & D2 & D3). set (mu := map (Decompress 1) (ByteDecode 1 m)) in *. clearbody mu.
  assert (QQ : forall f, canon f -> Forall (below q) f) by (intros f Hf; eapply Forall_impl; [|exact Hf]; unfold below, q; cbn; intros; lia).
  assert (QR : forall f, length f = n256 -> canon f -> rel nat_order (below q) f f).
  { intros f Lf Cf. split; [exact Lf|]. split; [apply QQ; exact Cf|]. rewrite place_nat by exact Lf. apply congr_refl. }
  pose proof (coeffs_add1_ok a ord Ha nat_order q q (poly_add vs e2) mu (poly_add vs e2) mu order_nat ltac:(unfold q; lia) (QR _ (proj1 (poly_add_good _ _)) (proj2 (poly_add_good _ _))) (QR _ D2 D3)) as E9.
  rewrite place_nat in E9 by apply poly_add_good. rewrite <- D1 in E9 at 1.
  pose proof (poly_add_good (poly_add vs e2) mu) as [Lv Cv]. set (v := poly_add (poly_add vs e2) mu) in *. clearbody v.
  destruct (enc_du u Gu) as (E10 & U1 & U2). destruct (enc_dv v Lv Cv) as (E11 & F2 & F3). split; [|split; [rewrite zlen_app; lia|apply bytes_app; auto]].
  exact (kpke_encrypt_steps e m r _ _ _ _ _ _ _ _ _ _ _ _ _ E1 E2 E3 E4 E5 E6 E7 E8 E9 E10 E11).
Qed.
Lemma kpke_decrypt_ok dk c : bytes (dk_pke dk) -> zlen (dk_pke dk) = 1152 -> bytes c -> zlen c = 1088 ->
  kpke_decrypt a dk c = Ok (KPKE_Decrypt (dk_pke dk) c) /\ zlen (KPKE_Decrypt (dk_pke dk) c) = 32 /\ bytes (KPKE_Decrypt (dk_pke dk) c).
Proof.
  intros Bd Ld Bc Lc. unfold kpke_decrypt, KPKE_Decrypt. change (32 * DU * K) with 960.
  destruct (dec_du (ztake 960 c) (bytes_ztake _ _ Bc) ltac:(rewrite zlen_ztake; lia)) as (D1 & D2 & D3). rewrite D1. cbn [bind].
  destruct (dec_dv (zdrop 960 c) (bytes_zdrop _ _ Bc) ltac:(rewrite zlen_zdrop; lia)) as (E1 & E2 & E3). rewrite E1. cbn [bind].
  set (us := map _ (chunks_exact 320 _)) in *. set (v := map (Decompress 4) _) in *. clearbody us v.
  rewrite (from_bytes_ok _ 3) by (auto; lia). destruct (decode_vec12_good (dk_pke dk) 3 Bd ltac:(lia) ltac:(lia)) as [Gt Lgt].
  destruct (ntt_vec_ok a ord Ha us) as (ds & -> & Rd). { eapply Forall_impl; [|exact D2]. intros f [L C]. split; auto. eapply Forall_impl; [|exact C]. unfold below, q. cbn. intros; lia. }
  replace (map (fun c0 => NTT (map (fun x => x mod q) c0)) us) with (map NTT us) in Rd.
  2:{ apply map_ext_in. intros f Hf. f_equal. rewrite Forall_forall in D2. destruct (D2 f Hf) as [_ C]. symmetry. clear -C. induction C; cbn; auto. f_equal; auto. apply Z.mod_small. auto. }
  pose proof (vec_mul_ok a ord Ha (map (place ord) (decode_vec12 (dk_pke dk))) (decode_vec12 (dk_pke dk)) ds (map NTT us) Lgt (vrel_exact ord _ Gt) ltac:(rewrite map_length; auto) Rd) as Rv.
  assert (Rvv : rel nat_order (below q) v v).
  { split; [auto|split; [|rewrite place_nat by auto; apply congr_refl]]. eapply Forall_impl; [|exact E3]. unfold below, q. cbn. intros; lia. }
  pose proof (coeffs_sub_ok a ord Ha nat_order q (8 * q) v _ v _ order_nat ltac:(unfold q; lia) Rvv Rv) as E. rewrite E.
  cbn [bind]. rewrite place_nat by apply poly_sub_good. apply enc_msg; apply poly_sub_good.
Qed.
End Kem.
