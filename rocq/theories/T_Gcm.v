(** C16 (AES and AES-GCM are FIPS 197 and SP 800-38D) and C14/C15 for AES-GCM. *)
Require Import Verif.Base Verif.L_Base Verif.L_Asn1 Verif.L_Blocks Verif.L_Bits Verif.L_Poly1305 Verif.M_Ct Verif.L_Hmac Verif.S_Aes Verif.M_Aes Verif.L_Aes
  Verif.M_Ghash Verif.S_Gcm Verif.L_Ghash Verif.L_GhashAdd Verif.M_AesGcm Verif.L_Gcm.
Require Import ZifyNat.
Local Opaque gcm_mul GHASH AES128 AES256 ghash_add avx_new avx512_new aes128_expand aes256_expand gcm_tag.

(** The AES-NI key schedule and rounds compute FIPS 197. *)
Theorem C16_aes_is_fips197 : forall key b,
  bytes key -> zlen key = 16 \/ zlen key = 32 -> zlen b = 16 ->
  exists k, aes_key_new key = Ok k /\ encrypt_block k b = AES key b.
Proof.
  intros key b Bk Lk Lb. destruct (aes_key_new_ok key Bk Lk) as (w & E & _ & S). exists w. split; auto.
  rewrite S by (unfold zlen in Lb; lia). unfold AES. destruct (zlen key =? 16); reflexivity.
Qed.
Print Assumptions C16_aes_is_fips197.

(** Any other key length panics; none is silently accepted. *)
Theorem C16_key_lengths : forall have512 key, gcm_new have512 key = Panic <-> zlen key <> 16 /\ zlen key <> 32.
Proof.
  intros b key. unfold gcm_new, aes_key_new. destruct (zlen key =? 16) eqn:A; [cbn [bind]; split; [discriminate|lia]|].
  destruct (zlen key =? 32) eqn:B; cbn [bind]; split; intros; try discriminate; try lia; try reflexivity.
Qed.
Print Assumptions C16_key_lengths.

Lemma gcm_new_ok have512 key : bytes key -> zlen key = 16 \/ zlen key = 32 ->
  exists w, gcm_new have512 key = Ok (mkGcm w (ghash_table_new have512 (be_val (encrypt_block w (repeat 0 16))))) /\
    (forall b, b16 (encrypt_block w b)) /\ (forall b, zlen b = 16 -> encrypt_block w b = AES key b).
Proof.
  intros Bk Lk. destruct (aes_key_new_ok key Bk Lk) as (w & E & So & S). exists w. split; [|split].
  - unfold gcm_new. rewrite E. reflexivity.
  - intros b. now apply b16_encrypt.
  - intros b Lb. rewrite S by (unfold zlen in Lb; lia). unfold AES. destruct (zlen key =? 16); reflexivity.
Qed.
Lemma gctr_same (E F : list Z -> list Z) cb l : (forall b, zlen b = 16 -> E b = F b) -> zlen cb = 16 -> GCTR E cb l = GCTR F cb l.
Proof. intros. unfold GCTR. now apply gctr_ext. Qed.
Lemma tag_same (E F : list Z -> list Z) iv C A : (forall b, zlen b = 16 -> E b = F b) -> zlen iv = 12 -> gcm_tag E iv C A = gcm_tag F iv C A.
Proof.
  intros H L. Local Transparent gcm_tag. unfold gcm_tag. cbv zeta. rewrite (H (repeat 0 16)) by reflexivity.
  apply gctr_same; auto. rewrite zlen_app, L. reflexivity.
Qed.
Lemma zlen_inc iv : zlen iv = 12 -> zlen (inc32 (iv ++ [0; 0; 0; 1])) = 16.
Proof. intros L. unfold inc32. rewrite ztake_app_eq by auto. rewrite zlen_app, zlen_be_bytes, L. reflexivity. Qed.
Local Opaque gcm_tag.

(** Encryption is GCM-AE of SP 800-38D with AES, with both GHASH tables and the AVX and AVX-512 loops, for every
    plaintext and AAD length the standard allows (plaintext up to 2^36 - 32 bytes, AAD below 2^61 bytes). *)
Theorem C16_encrypt_is_gcm : forall have512 key nonce aad pt,
  bytes key -> zlen key = 16 \/ zlen key = 32 -> bytes nonce -> zlen nonce = 12 -> bytes aad -> bytes pt ->
  zlen aad < 2 ^ 61 -> zlen pt <= gcm_max_bytes ->
  exists g, gcm_new have512 key = Ok g /\ gcm_encrypt g nonce aad pt = GCM_AE (AES key) nonce pt aad.
Proof.
  intros b key nonce aad pt Bk Lk Bn Ln Ba Bp La Lp. destruct (gcm_new_ok b key Bk Lk) as (w & En & HE & HA).
  eexists. split; [exact En|]. unfold gcm_encrypt.
  rewrite (gcm_run_ok w (encrypt_block w)); auto; [|unfold gcm_max_bytes in Lp; lia].
  unfold GCM_AE. cbv zeta. rewrite (gctr_same (encrypt_block w) (AES key)) by auto using zlen_inc.
  f_equal. apply tag_same; auto.
Qed.
Print Assumptions C16_encrypt_is_gcm.

(** Decryption is GCM-AD; on FAIL the buffer is zeroed. *)
Theorem C16_decrypt_is_gcm : forall have512 key nonce aad ct tag,
  bytes key -> zlen key = 16 \/ zlen key = 32 -> bytes nonce -> zlen nonce = 12 -> bytes aad -> bytes ct -> bytes tag ->
  zlen aad < 2 ^ 61 -> zlen ct <= gcm_max_bytes ->
  exists g, gcm_new have512 key = Ok g /\
    gcm_decrypt g nonce aad ct tag =
      match GCM_AD (AES key) nonce ct aad tag with
      | Some pt => (Ok tt, pt)
      | None => (Err DecryptFailed, repeat 0 (length ct))
      end.
Proof.
  intros b key nonce aad ct tag Bk Lk Bn Ln Ba Bc Bt La Lc. destruct (gcm_new_ok b key Bk Lk) as (w & En & HE & HA).
  eexists. split; [exact En|]. unfold gcm_decrypt.
  rewrite (gcm_run_ok w (encrypt_block w)); auto; [|unfold gcm_max_bytes in Lc; lia].
  unfold GCM_AD. cbv zeta. destruct (tag_facts (encrypt_block w) nonce ct aad HE) as [TL TB].
  assert (EL : length (GCTR (encrypt_block w) (inc32 (nonce ++ [0; 0; 0; 1])) ct) = length ct).
  { pose proof (GCTR_len (encrypt_block w) (inc32 (nonce ++ [0; 0; 0; 1])) ct HE) as X. unfold zlen in X. lia. }
  rewrite <- (tag_same (encrypt_block w) (AES key)) by auto.
  rewrite <- (gctr_same (encrypt_block w) (AES key)) by auto using zlen_inc. rewrite EL.
  destruct (ct_equal _ tag) eqn:C.
  - apply ct_equal_spec in C; auto. rewrite C, list_eqb_refl. reflexivity.
  - destruct (list_eqb _ tag) eqn:D; auto. apply list_eqb_eq in D. apply ct_equal_spec in D; auto. congruence.
Qed.
Print Assumptions C16_decrypt_is_gcm.

(** C14: what was encrypted decrypts, also when the two sides run on different CPUs. *)
Theorem C14_aes_gcm_round_trip : forall have512 have512' key nonce aad pt,
  bytes key -> zlen key = 16 \/ zlen key = 32 -> bytes nonce -> zlen nonce = 12 -> bytes aad -> bytes pt ->
  zlen aad < 2 ^ 61 -> zlen pt <= gcm_max_bytes ->
  exists g g' ct tag, gcm_new have512 key = Ok g /\ gcm_new have512' key = Ok g' /\
    gcm_encrypt g nonce aad pt = (ct, tag) /\ zlen ct = zlen pt /\ zlen tag = 16 /\
    gcm_decrypt g' nonce aad ct tag = (Ok tt, pt).
Proof.
  intros b b' key nonce aad pt Bk Lk Bn Ln Ba Bp La Lp. destruct (gcm_new_ok b key Bk Lk) as (w & En & HE & HA).
  destruct (gcm_new_ok b' key Bk Lk) as (w' & En' & HE' & HA').
  assert (Lp' : zlen pt < 2 ^ 61) by (unfold gcm_max_bytes in Lp; lia).
  do 4 eexists. split; [exact En|]. split; [exact En'|]. split.
  { unfold gcm_encrypt. rewrite (gcm_run_ok w (encrypt_block w)); auto. }
  set (icb := inc32 (nonce ++ [0; 0; 0; 1])). set (ct := GCTR (encrypt_block w) icb pt).
  assert (Lc : zlen ct = zlen pt) by now apply GCTR_len. assert (Bc : bytes ct) by now apply GCTR_bytes.
  split; [exact Lc|]. destruct (tag_facts (encrypt_block w) nonce ct aad HE) as [TL TB]. split; [exact TL|].
  unfold gcm_decrypt. rewrite (gcm_run_ok w' (encrypt_block w')); auto; try (rewrite Lc; auto).
  assert (EE : forall x, zlen x = 16 -> encrypt_block w x = encrypt_block w' x) by (intros; rewrite HA, HA'; auto).
  rewrite (tag_same (encrypt_block w) (encrypt_block w')) in * by auto.
  assert (C : ct_equal (gcm_tag (encrypt_block w') nonce ct aad) (gcm_tag (encrypt_block w') nonce ct aad) = true) by (apply ct_equal_spec; auto).
  rewrite C. fold icb. rewrite <- (gctr_same (encrypt_block w) (encrypt_block w')) by (auto; now apply zlen_inc).
  unfold ct. now rewrite GCTR_twice.
Qed.
Print Assumptions C14_aes_gcm_round_trip.

(** C15: any tag other than the SP 800-38D tag of (nonce, aad, ciphertext), of whatever length, gives DecryptFailed
    and an all-zero buffer; the right tag gives the plaintext. *)
Theorem C15_aes_gcm_rejects : forall have512 key nonce aad ct tag,
  bytes key -> zlen key = 16 \/ zlen key = 32 -> bytes nonce -> zlen nonce = 12 -> bytes aad -> bytes ct -> bytes tag ->
  zlen aad < 2 ^ 61 -> zlen ct <= gcm_max_bytes ->
  exists g, gcm_new have512 key = Ok g /\
  (tag = gcm_tag (AES key) nonce ct aad ->
     gcm_decrypt g nonce aad ct tag = (Ok tt, GCTR (AES key) (inc32 (nonce ++ [0; 0; 0; 1])) ct)) /\
  (tag <> gcm_tag (AES key) nonce ct aad ->
     gcm_decrypt g nonce aad ct tag = (Err DecryptFailed, repeat 0 (length ct))).
Proof.
  intros b key nonce aad ct tag Bk Lk Bn Ln Ba Bc Bt La Lc.
  destruct (C16_decrypt_is_gcm b key nonce aad ct tag) as (g & En & E); auto. exists g. split; auto. unfold GCM_AD in E. cbv zeta in E. split.
  - intros T. rewrite <- T, list_eqb_refl in E. exact E.
  - intros N. destruct (list_eqb (gcm_tag (AES key) nonce ct aad) tag) eqn:D; auto. apply list_eqb_eq in D. congruence.
Qed.
Print Assumptions C15_aes_gcm_rejects.

Corollary C15_aes_gcm_wrong_length_tag : forall have512 key nonce aad ct tag,
  bytes key -> zlen key = 16 \/ zlen key = 32 -> bytes nonce -> zlen nonce = 12 -> bytes aad -> bytes ct -> bytes tag ->
  zlen aad < 2 ^ 61 -> zlen ct <= gcm_max_bytes -> zlen tag <> 16 ->
  exists g, gcm_new have512 key = Ok g /\ gcm_decrypt g nonce aad ct tag = (Err DecryptFailed, repeat 0 (length ct)).
Proof.
  intros b key nonce aad ct tag Bk Lk Bn Ln Ba Bc Bt La Lc Lt.
  destruct (C15_aes_gcm_rejects b key nonce aad ct tag) as (g & En & _ & R); auto. exists g. split; auto. apply R. intros ->.
  destruct (gcm_new_ok b key Bk Lk) as (w & _ & HE & HA). rewrite <- (tag_same (encrypt_block w) (AES key)) in Lt by auto.
  destruct (tag_facts (encrypt_block w) nonce ct aad HE) as [TL _]. lia.
Qed.
Print Assumptions C15_aes_gcm_wrong_length_tag.

Corollary C15_aes_gcm_changed_tag : forall have512 key nonce aad pt g ct tag tag',
  bytes key -> zlen key = 16 \/ zlen key = 32 -> bytes nonce -> zlen nonce = 12 -> bytes aad -> bytes pt -> bytes tag' ->
  zlen aad < 2 ^ 61 -> zlen pt <= gcm_max_bytes ->
  gcm_new have512 key = Ok g -> gcm_encrypt g nonce aad pt = (ct, tag) -> tag' <> tag ->
  gcm_decrypt g nonce aad ct tag' = (Err DecryptFailed, repeat 0 (length pt)).
Proof.
  intros b key nonce aad pt g ct tag tag' Bk Lk Bn Ln Ba Bp Bt La Lp En Ee N.
  destruct (C16_encrypt_is_gcm b key nonce aad pt) as (g0 & En0 & E0); auto. rewrite En in En0. injection En0 as <-. rewrite Ee in E0.
  unfold GCM_AE in E0. cbv zeta in E0. injection E0 as -> ->.
  destruct (gcm_new_ok b key Bk Lk) as (w & _ & HE & HA). set (icb := inc32 (nonce ++ [0; 0; 0; 1])) in *.
  assert (EC : GCTR (AES key) icb pt = GCTR (encrypt_block w) icb pt) by (symmetry; apply gctr_same; auto; now apply zlen_inc).
  rewrite EC in *. assert (Lc : zlen (GCTR (encrypt_block w) icb pt) = zlen pt) by now apply GCTR_len.
  assert (Bc : bytes (GCTR (encrypt_block w) icb pt)) by now apply GCTR_bytes.
  destruct (C15_aes_gcm_rejects b key nonce aad (GCTR (encrypt_block w) icb pt) tag') as (g1 & En1 & _ & R); auto; [rewrite Lc; auto|].
  rewrite En in En1. injection En1 as <-. rewrite R by auto. f_equal. unfold zlen in Lc. apply Nat2Z.inj in Lc. now rewrite Lc.
Qed.
Print Assumptions C15_aes_gcm_changed_tag.

(** The 2^36 - 32 byte limit is not enforced: on the AVX path a longer plaintext is encrypted without error, and
    keystream block 2^32 - 1 is E(J0), the mask that protects the tag. *)
Theorem C16_length_limit_refuted : forall key nonce aad pt,
  bytes key -> zlen key = 16 \/ zlen key = 32 -> bytes nonce -> zlen nonce = 12 -> bytes aad -> bytes pt ->
  zlen aad < 2 ^ 61 -> zlen pt < 2 ^ 61 -> 16 * 2 ^ 32 <= zlen pt ->
  exists g, gcm_new false key = Ok g /\
    let ct := fst (gcm_encrypt g nonce aad pt) in
    ztake 16 (zdrop (16 * (2 ^ 32 - 1)) ct) =
    xor_min (ztake 16 (zdrop (16 * (2 ^ 32 - 1)) pt)) (AES key (nonce ++ [0; 0; 0; 1])).
Proof.
  intros key nonce aad pt Bk Lk Bn Ln Ba Bp La Lp Hlong. destruct (gcm_new_ok false key Bk Lk) as (w & En & HE & HA).
  eexists. split; [exact En|]. cbv zeta. unfold gcm_encrypt.
  rewrite (gcm_run_ok w (encrypt_block w)); auto. cbn [fst]. fold (J0 nonce). rewrite inc32_J0 by auto.
  set (q := 2 ^ 32 - 1). assert (Lt : zlen (ztake (16 * q) pt) = 16 * q) by (rewrite zlen_ztake; lia).
  unfold GCTR. replace (chunks 16 pt) with (chunks_exact 16 (ztake (16 * q) pt) ++ chunks 16 (zdrop (16 * q) pt)).
  2:{ rewrite <- (chunks_split 16 q) by lia. now rewrite ztake_zdrop. }
  pose (g0 := fun a => gcm_mul a 0). assert (Hg0 : forall a, g0 a = gcm_mul a 0) by reflexivity. clearbody g0.
  assert (Hr : forall x, aes_rounds (round_keys w) x = encrypt_block w x) by reflexivity.
  rewrite (gctr_encs 0 g0 Hg0 w _ Hr HE nonce Ln). rewrite (encs_app 0 g0 Hg0 w _ Hr HE), concat_app.
  assert (BX : blocks_ok (chunks_exact 16 (ztake (16 * q) pt))) by (apply chunks_blocks_ok; now apply bytes_ztake).
  assert (LX : zlen (chunks_exact 16 (ztake (16 * q) pt)) = q) by (rewrite zlen_chunks_exact, Lt by lia; rewrite Z.mul_comm, Z.div_mul; lia).
  assert (BE : blocks_ok (encs (encrypt_block w) nonce 0 (chunks_exact 16 (ztake (16 * q) pt)))) by (apply (encs_ok 0 g0 Hg0 w _ Hr HE); auto).
  assert (LE : zlen (concat (encs (encrypt_block w) nonce 0 (chunks_exact 16 (ztake (16 * q) pt)))) = 16 * q).
  { rewrite zlen_concat_blocks by auto. unfold zlen. rewrite encs_len. unfold zlen in LX. now rewrite LX. }
  rewrite zdrop_app_eq by auto. rewrite LX. assert (Ld : zlen (zdrop (16 * q) pt) = zlen pt - 16 * q) by (rewrite zlen_zdrop; lia).
  rewrite chunks_cons by lia. cbn [encs concat]. rewrite HA by (apply zlen_CB; auto).
  replace (CB nonce (0 + q)) with (J0 nonce) by reflexivity.
  apply ztake_app_eq. rewrite zlen_xor_min, zlen_ztake by lia.
  destruct (HE (J0 nonce)) as [_ L16]. rewrite HA in L16 by (unfold J0; rewrite zlen_app, Ln; reflexivity). unfold zlen. lia.
Qed.
Print Assumptions C16_length_limit_refuted.
Example C16_length_limit_example : let pt := repeat 0 (Z.to_nat (2 ^ 36)) in bytes pt /\ zlen pt < 2 ^ 61 /\ 16 * 2 ^ 32 <= zlen pt.
Proof.
  intros pt. subst pt. split; [apply bytes_repeat; unfold byte_ok; lia|]. rewrite zlen_repeat; lia.
Qed.

(** On the AVX-512 path the 64-bit counter addition also runs into the nonce when the block counter wraps: the block
    after counter value 2^32 - 1 is not inc32 of it. *)
Theorem C16_avx512_wrap_refuted : exists c : counter512,
  let blocks := fst (next4 c) in
  nth 2 blocks [] <> inc32 (nth 1 blocks []) /\ ztake 12 (nth 2 blocks []) <> ztake 12 (nth 1 blocks []).
Proof.
  exists (map counter_load [[1;2;3;4;5;6;7;8;9;10;11;12;255;255;255;254]; [1;2;3;4;5;6;7;8;9;10;11;12;255;255;255;255];
                            be_bytes 8 0x0102030405060708 ++ be_bytes 8 0x090a0b0d00000000; be_bytes 8 0x0102030405060708 ++ be_bytes 8 0x090a0b0d00000001]).
  cbv zeta. split; vm_compute; discriminate.
Qed.
Print Assumptions C16_avx512_wrap_refuted.
(** ... and such a counter is what the loop reaches: four additions of 4 from the lanes just below the wrap *)
Example C16_avx512_wrap_reached :
  snd (next4 (map counter_load [[1;2;3;4;5;6;7;8;9;10;11;12;255;255;255;250]; [1;2;3;4;5;6;7;8;9;10;11;12;255;255;255;251];
                                [1;2;3;4;5;6;7;8;9;10;11;12;255;255;255;252]; [1;2;3;4;5;6;7;8;9;10;11;12;255;255;255;253]])) =
  map counter_load [[1;2;3;4;5;6;7;8;9;10;11;12;255;255;255;254]; [1;2;3;4;5;6;7;8;9;10;11;12;255;255;255;255];
                    [1;2;3;4;5;6;7;8;9;10;11;13;0;0;0;0]; [1;2;3;4;5;6;7;8;9;10;11;13;0;0;0;1]].
Proof. vm_compute. reflexivity. Qed.

(** a concrete case meeting the hypotheses *)
Example C16_example :
  let key := map Z.of_nat (seq 0 16) in let nonce := map Z.of_nat (seq 100 12) in
  bytes key /\ (zlen key = 16 \/ zlen key = 32) /\ bytes nonce /\ zlen nonce = 12 /\ bytes [104; 105] /\ zlen [104; 105] <= gcm_max_bytes.
Proof. cbv zeta. split; [bytes_tac|]. split; [left; reflexivity|]. split; [bytes_tac|]. split; [reflexivity|]. split; [bytes_tac|]. unfold gcm_max_bytes. cbn. lia. Qed.
