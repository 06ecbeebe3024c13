(** The aarch64 AES, GHASH and AES-GCM code computes what the x86-64 code computes. *)
Require Import Verif.Base Verif.L_Base Verif.L_Asn1 Verif.L_Blocks Verif.L_Bits Verif.L_Poly1305 Verif.M_Ct Verif.L_Hmac Verif.S_Aes Verif.M_Aes Verif.L_Aes
  Verif.M_Ghash Verif.S_Gcm Verif.L_Clmul Verif.L_Ghash Verif.L_GhashAdd Verif.M_AesGcm Verif.L_Gcm Verif.L_Sha3 Verif.M_ArmGcm.
Require Import ZifyNat.
Local Opaque gcm_mul M rn clmul sbox.

(** *** AES *)
Lemma veorq_mm a b : veorq_u8 a b = mm_xor a b. Proof. reflexivity. Qed.
Lemma arm_rounds_fold kl : forall mids k0 b, arm_rounds (k0 :: mids ++ [kl]) b = aesenclast (fold_left aesenc mids (mm_xor b k0)) kl.
Proof.
  induction mids as [|m r IH]; intros k0 b; [reflexivity|]. cbn [app fold_left].
  change (fold_left aesenc r (aesenc (mm_xor b k0) m)) with (fold_left aesenc r (mm_xor (MixColumns (SubBytes (ShiftRows (mm_xor b k0)))) m)).
  rewrite <- IH. destruct r; reflexivity.
Qed.
Lemma arm_rounds_ok w b : (2 <= length w)%nat -> arm_rounds w b = aes_rounds (round_keys w) b.
Proof.
  intros L. destruct w as [|k0 w]; [cbn in L; lia|]. destruct w as [|k1 w]; [cbn in L; lia|].
  destruct (@exists_last _ (k1 :: w) ltac:(discriminate)) as (mids & kl & E). rewrite E, arm_rounds_fold.
  unfold aes_rounds, round_keys. cbn [hd tl]. rewrite removelast_last.
  f_equal. change (k0 :: mids ++ [kl]) with ((k0 :: mids) ++ [kl]). symmetry. apply last_last.
Qed.

(** words as four bytes *)
Definition u32 (w : Z) : Prop := 0 <= w < 2 ^ 32.
Definition bw (w : Z) : list Z := be_bytes 4 w.
Lemma bw_4 w : length (bw w) = 4%nat. Proof. apply be_bytes_length. Qed.
Lemma bw_bytes w : bytes (bw w). Proof. apply be_bytes_bytes. Qed.
Lemma be_val_bw w : u32 w -> be_val (bw w) = w.
Proof. intros H. unfold bw. rewrite be_val_be_bytes. apply Z.mod_small. exact H. Qed.
Lemma bw_be_val l : bytes l -> length l = 4%nat -> bw (be_val l) = l.
Proof. intros B L. unfold bw. rewrite <- L. now apply be_bytes_be_val. Qed.
Lemma be_val_u32 l : bytes l -> length l = 4%nat -> u32 (be_val l).
Proof. intros B L. pose proof (be_val_bound l B) as H. unfold zlen in H. rewrite L in H. exact H. Qed.
Lemma bw_inv w : u32 w -> exists a b c d, bw w = [a; b; c; d] /\ byte_ok a /\ byte_ok b /\ byte_ok c /\ byte_ok d /\
  w = be_val [a; b; c; d] /\ le_bytes 4 w = [d; c; b; a].
Proof.
  intros H. pose proof (bw_4 w) as L. pose proof (bw_bytes w) as B. pose proof (be_val_bw w H) as V.
  assert (LE : le_bytes 4 w = rev (bw w)) by (unfold bw, be_bytes; now rewrite rev_involutive).
  destruct (bw w) as [|a [|b [|c [|d [|]]]]]; try discriminate L.
  apply bytes_cons in B as [Ba B]. apply bytes_cons in B as [Bb B]. apply bytes_cons in B as [Bc B]. apply bytes_cons in B as [Bd _].
  exists a, b, c, d. rewrite LE. repeat (split; [assumption || reflexivity|]). split; [now symmetry|reflexivity].
Qed.
Lemma be_val_4 a b c d : be_val [a; b; c; d] = d + 256 * (c + 256 * (b + 256 * (a + 256 * 0))).
Proof. reflexivity. Qed.
Lemma bytes4 a b c d : byte_ok a -> byte_ok b -> byte_ok c -> byte_ok d -> bytes [a; b; c; d].
Proof. intros. do 4 (apply Forall_cons; [assumption|]). apply Forall_nil. Qed.

Lemma u32_lxor a b : u32 a -> u32 b -> u32 (Z.lxor a b).
Proof. apply lxor_range. Qed.
Lemma bw_lxor a b : u32 a -> u32 b -> bw (Z.lxor a b) = xor_word (bw a) (bw b).
Proof.
  intros Ha Hb. destruct (bw_inv a Ha) as (a0&a1&a2&a3&Ea&A0&A1&A2&A3&Va&_). destruct (bw_inv b Hb) as (b0&b1&b2&b3&Eb&B0&B1&B2&B3&Vb&_).
  rewrite Ea, Eb. rewrite Va, Vb, !be_val_4, !lxor_byte_cons by assumption. change (Z.lxor 0 0) with 0. rewrite <- be_val_4.
  rewrite bw_be_val; [reflexivity| |reflexivity]. apply bytes4; now apply lxor_byte.
Qed.
Lemma sub_word_ok w : u32 w -> u32 (arm_sub_word w) /\ bw (arm_sub_word w) = SubWord (bw w).
Proof.
  intros H. destruct (bw_inv w H) as (a&b&c&d&E&A&B&C&D&V&L). unfold arm_sub_word, vreinterpretq_u8_u32. cbn [repeat map concat]. rewrite L, E.
  assert (X : nth 0 (vreinterpretq_u32_u8 (vaeseq_u8 ([d; c; b; a] ++ [d; c; b; a] ++ [d; c; b; a] ++ [d; c; b; a] ++ []) [0;0;0;0;0;0;0;0;0;0;0;0;0;0;0;0])) 0
    = be_val [sbox a; sbox b; sbox c; sbox d]).
  { unfold vaeseq_u8. replace (veorq_u8 _ _) with ([d; c; b; a] ++ [d; c; b; a] ++ [d; c; b; a] ++ [d; c; b; a] ++ []) by (cbn; now rewrite !Z.lxor_0_r).
    replace (ShiftRows _) with ([d; c; b; a] ++ [d; c; b; a] ++ [d; c; b; a] ++ [d; c; b; a] ++ []) by reflexivity.
    reflexivity. }
  rewrite X. assert (BB : bytes [sbox a; sbox b; sbox c; sbox d]) by (apply bytes4; now apply sbox_byte).
  split; [now apply be_val_u32|]. now rewrite bw_be_val.
Qed.
Lemma rotl8_ok w : u32 w -> u32 (arm_rotl8 w) /\ bw (arm_rotl8 w) = RotWord (bw w).
Proof.
  intros H. destruct (bw_inv w H) as (a&b&c&d&E&A&B&C&D&V&L). rewrite E.
  assert (X : arm_rotl8 w = be_val [b; c; d; a]).
  { unfold arm_rotl8, rotl. rewrite Z.shiftl_mul_pow2, Z.shiftr_div_pow2 by lia. change (32 - 8) with 24.
    rewrite V, !be_val_4. unfold byte_ok in *.
    replace ((d + 256 * (c + 256 * (b + 256 * (a + 256 * 0)))) * 2 ^ 8) with (256 * (d + 256 * (c + 256 * b)) + a * 2 ^ 32) by (change (2 ^ 8) with 256; change (2 ^ 32) with (256 * 256 * 256 * 256); lia).
    rewrite Z.mod_add, Z.mod_small by (try lia; change (2 ^ 32) with 4294967296; lia).
    replace ((d + 256 * (c + 256 * (b + 256 * (a + 256 * 0)))) / 2 ^ 24) with a by (change (2 ^ 24) with 16777216; lia).
    replace (256 * (d + 256 * (c + 256 * b))) with (Z.shiftl (d + 256 * (c + 256 * b)) 8) by (rewrite Z.shiftl_mul_pow2 by lia; change (2 ^ 8) with 256; lia).
    rewrite lor_add by (change (2 ^ 8) with 256; lia). change (2 ^ 8) with 256. lia. }
  rewrite X. split; [apply be_val_u32; [now apply bytes4|reflexivity]|]. rewrite bw_be_val; [reflexivity|now apply bytes4|reflexivity].
Qed.
Lemma rcon_ok r : 1 <= r <= 10 -> u32 (Z.shiftl (idx 0 arm_RCON (r - 1)) 24 mod 2 ^ 32) /\ bw (Z.shiftl (idx 0 arm_RCON (r - 1)) 24 mod 2 ^ 32) = Rcon r.
Proof.
  intros H. assert (I : In r [1; 2; 3; 4; 5; 6; 7; 8; 9; 10]) by (cbn; lia). split; [apply Z.mod_pos_bound; lia|].
  cbn [In] in I. repeat destruct I as [<-|I]; try reflexivity. destruct I.
Qed.
Lemma xor_word_comm : forall a b, xor_word a b = xor_word b a.
Proof. unfold xor_word. induction a as [|x a IH]; intros [|y b]; cbn [combine map]; auto. rewrite IH. f_equal. apply Z.lxor_comm. Qed.

Lemma rest_ok c0 T a b c d : u32 c0 -> u32 a -> u32 b -> u32 c -> u32 d -> bw c0 = xor_word (bw a) T ->
  Forall u32 (arm_rest c0 b c d) /\ map bw (arm_rest c0 b c d) = four T (bw a) (bw b) (bw c) (bw d) /\ zlen (arm_rest c0 b c d) = 4.
Proof.
  intros H0 Ha Hb Hc Hd E. unfold arm_rest, four. assert (H1 : u32 (Z.lxor c0 b)) by now apply u32_lxor. assert (H2 : u32 (Z.lxor (Z.lxor c0 b) c)) by now apply u32_lxor.
  split; [do 4 (apply Forall_cons; [auto using u32_lxor|]); apply Forall_nil|]. split; [|reflexivity]. cbn [map]. rewrite !bw_lxor by assumption. rewrite E.
  rewrite (xor_word_comm (bw b)), (xor_word_comm (bw c)), (xor_word_comm (bw d)). reflexivity.
Qed.
Lemma split_last {A} (n : nat) (l : list A) (k : Z) : 0 <= k -> zlen l = k + Z.of_nat n -> exists p q, l = p ++ q /\ zlen p = k /\ length q = n.
Proof.
  intros Hk H. exists (ztake k l), (zdrop k l). split; [now rewrite ztake_zdrop|]. split; [rewrite zlen_ztake; lia|].
  apply Nat2Z.inj. change (Z.of_nat (length (zdrop k l))) with (zlen (zdrop k l)). rewrite zlen_zdrop; lia.
Qed.
Lemma zlen_map {A B} (f : A -> B) l : zlen (map f l) = zlen l. Proof. unfold zlen. now rewrite map_length. Qed.

Lemma step128_ok rk r : 1 <= r <= 10 -> zlen rk = 4 * r -> Forall u32 rk ->
  Forall u32 (arm_step128 rk r) /\ map bw (arm_step128 rk r) = expand 4 4 (map bw rk) /\ zlen (arm_step128 rk r) = 4 * (r + 1).
Proof.
  intros Hr HL HU. destruct (split_last 4 rk (4 * (r - 1)) ltac:(lia) ltac:(lia)) as (p & q & -> & Lp & Lq).
  destruct q as [|a [|b [|c [|d [|]]]]]; try discriminate Lq. apply Forall_app in HU as [Up Uq].
  inversion Uq as [|? ? Ua Uq1]; subst. inversion Uq1 as [|? ? Ub Uq2]; subst. inversion Uq2 as [|? ? Uc Uq3]; subst. inversion Uq3 as [|? ? Ud _]; subst.
  unfold arm_step128. rewrite zdrop_app_eq by lia. rewrite ztake_all by (change (zlen [a; b; c; d]) with 4; lia).
  change (idx 0 [a; b; c; d] 0) with a. change (idx 0 [a; b; c; d] 1) with b. change (idx 0 [a; b; c; d] 2) with c. change (idx 0 [a; b; c; d] 3) with d.
  destruct (rotl8_ok d Ud) as [R1 R2]. destruct (sub_word_ok _ R1) as [S1 S2]. destruct (rcon_ok r Hr) as [K1 K2].
  set (rc := Z.shiftl _ 24 mod 2 ^ 32) in *. clearbody rc. set (sw := arm_sub_word (arm_rotl8 d)) in *. clearbody sw.
  assert (U0 : u32 (Z.lxor sw rc)) by now apply u32_lxor.
  destruct (rest_ok (Z.lxor (Z.lxor sw rc) a) (xor_word (SubWord (RotWord (bw d))) (Rcon r)) a b c d) as (F & E & L); auto.
  { now apply u32_lxor. }
  { rewrite bw_lxor by assumption. rewrite xor_word_comm. f_equal. rewrite bw_lxor by assumption. rewrite S2, R2, K2. reflexivity. }
  split; [apply Forall_app; split; [apply Forall_app; split; assumption|exact F]|]. split.
  - rewrite (map_app bw (p ++ _)), E, (map_app bw p). cbn [map]. rewrite expand4_128 by (rewrite zlen_map; lia). rewrite zlen_map.
    replace (zlen p / 4 + 1) with r by lia. reflexivity.
  - rewrite !zlen_app, L. change (zlen [a; b; c; d]) with 4. lia.
Qed.
Lemma step256_ok rk r : 2 <= r <= 14 -> zlen rk = 4 * r -> Forall u32 rk ->
  Forall u32 (arm_step256 rk r) /\ map bw (arm_step256 rk r) = expand 4 8 (map bw rk) /\ zlen (arm_step256 rk r) = 4 * (r + 1).
Proof.
  intros Hr HL HU. destruct (split_last 8 rk (4 * (r - 2)) ltac:(lia) ltac:(lia)) as (p & q & -> & Lp & Lq).
  destruct q as [|a [|b [|c [|d [|e [|f [|g [|h [|]]]]]]]]]; try discriminate Lq. apply Forall_app in HU as [Up Uq].
  assert (Ua : u32 a /\ u32 b /\ u32 c /\ u32 d /\ u32 h).
  { rewrite Forall_forall in Uq. repeat split; apply Uq; cbn; auto 9. }
  destruct Ua as (Ua & Ub & Uc & Ud & Uh).
  unfold arm_step256. rewrite zdrop_app_eq by lia. rewrite ztake_all by (change (zlen [a; b; c; d; e; f; g; h]) with 8; lia).
  set (q := [a; b; c; d; e; f; g; h]) in *.
  change (idx 0 q 0) with a. change (idx 0 q 1) with b. change (idx 0 q 2) with c. change (idx 0 q 3) with d. change (idx 0 q 7) with h.
  assert (T : exists c0, (if Z.land r 1 =? 1 then Z.lxor (arm_sub_word h) a
     else Z.lxor (Z.lxor (arm_sub_word (arm_rotl8 h)) (Z.shiftl (idx 0 arm_RCON ((r - 1) / 2)) 24 mod 2 ^ 32)) a) = c0 /\ u32 c0 /\
     bw c0 = xor_word (bw a) (temp0 8 (4 * r) (bw h))).
  { eexists. split; [reflexivity|]. unfold temp0. assert (LA : Z.land r 1 = r mod 2) by (apply (Z.land_ones r 1); lia). rewrite LA.
    destruct (r mod 2 =? 1) eqn:O.
    - replace (4 * r mod 8 =? 0) with false by lia. destruct (sub_word_ok h Uh) as [S1 S2]. split; [now apply u32_lxor|].
      rewrite bw_lxor by assumption. rewrite xor_word_comm, S2. reflexivity.
    - replace (4 * r mod 8 =? 0) with true by lia. replace ((r - 1) / 2) with (r / 2 - 1) by lia. replace (4 * r / 8) with (r / 2) by lia.
      destruct (rotl8_ok h Uh) as [R1 R2]. destruct (sub_word_ok _ R1) as [S1 S2]. destruct (rcon_ok (r / 2) ltac:(lia)) as [K1 K2].
      split; [repeat apply u32_lxor; assumption|]. rewrite bw_lxor by (auto; now apply u32_lxor). rewrite xor_word_comm. f_equal.
      rewrite bw_lxor by assumption. rewrite S2, R2, K2. reflexivity. }
  destruct T as (c0 & -> & U0 & E0).
  destruct (rest_ok c0 (temp0 8 (4 * r) (bw h)) a b c d) as (F & E & L); auto.
  split; [apply Forall_app; split; [apply Forall_app; split; assumption|exact F]|]. split.
  - rewrite (map_app bw (p ++ _)), E, (map_app bw p). unfold q. cbn [map]. rewrite expand4_256 by (rewrite zlen_map; lia). rewrite zlen_map.
    replace (zlen p + 8) with (4 * r) by lia. reflexivity.
  - rewrite !zlen_app, L. change (zlen q) with 8. lia.
Qed.

Lemma steps_ok (step : list Z -> Z -> list Z) Nk lo hi :
  (forall rk r, lo <= r <= hi -> zlen rk = 4 * r -> Forall u32 rk ->
     Forall u32 (step rk r) /\ map bw (step rk r) = expand 4 Nk (map bw rk) /\ zlen (step rk r) = 4 * (r + 1)) ->
  forall n r rk, lo <= r -> r + Z.of_nat n <= hi + 1 -> zlen rk = 4 * r -> Forall u32 rk ->
  let out := fold_left step (map (fun i => r + Z.of_nat i) (seq 0 n)) rk in
  Forall u32 out /\ map bw out = expand (4 * n) Nk (map bw rk).
Proof.
  intros Hs. induction n as [|n IH]; intros r rk H1 H2 HL HU; [split; [exact HU|reflexivity]|].
  destruct (Hs rk r ltac:(lia) HL HU) as (U1 & E1 & L1). cbn [seq map fold_left]. rewrite Z.add_0_r.
  rewrite <- seq_shift, map_map. rewrite (map_ext (fun x => r + Z.of_nat (S x)) (fun x => r + 1 + Z.of_nat x)) by (intros; lia).
  destruct (IH (r + 1) (step rk r) ltac:(lia) ltac:(lia) L1 U1) as [U2 E2]. split; [exact U2|].
  cbv zeta in E2. rewrite E2, E1. replace (4 * S n)%nat with (4 + 4 * n)%nat by lia. now rewrite expand_app.
Qed.

Lemma chunks4_Forall (key : list Z) : bytes key -> Forall (fun w => bytes w /\ length w = 4%nat) (chunks_exact 4 key).
Proof.
  intros B. pose proof (chunks_Forall 4 key ltac:(lia) B) as F. eapply Forall_impl; [|exact F].
  intros w [Bw Lw]. split; [exact Bw|]. now apply zlen_length.
Qed.
Lemma key_words_ok key : bytes key -> Forall u32 (arm_key_words key) /\ map bw (arm_key_words key) = chunks_exact 4 key /\ zlen (arm_key_words key) = zlen key / 4.
Proof.
  intros B. pose proof (chunks4_Forall key B) as F. unfold arm_key_words. split; [|split].
  - apply Forall_map. eapply Forall_impl; [|exact F]. intros w [Bw Lw]. now apply be_val_u32.
  - rewrite map_map. rewrite <- (map_id (chunks_exact 4 key)) at 2. apply map_ext_in. intros w I. rewrite Forall_forall in F. destruct (F w I). now apply bw_be_val.
  - rewrite zlen_map. apply zlen_chunks_exact. lia.
Qed.
Lemma round_key_ok a b c d : vrev32q_u8 (vreinterpretq_u8_u32 [a; b; c; d]) = concat (map bw [a; b; c; d]).
Proof. reflexivity. Qed.
Lemma round_keys_ok n : forall rk, length rk = (4 * n)%nat -> arm_round_keys rk = map (@concat Z) (chunks_exact 4 (map bw rk)).
Proof.
  induction n as [|n IH]; intros rk L.
  - destruct rk; [reflexivity|cbn in L; lia].
  - do 4 (destruct rk as [|? rk]; [cbn in L; lia|]). change (z :: z0 :: z1 :: z2 :: rk) with ([z; z0; z1; z2] ++ rk). rewrite map_app.
    unfold arm_round_keys in *. rewrite !(chunks_exact_app 4 1) by (try lia; reflexivity). rewrite !map_app. rewrite (IH rk) by (cbn [length] in L; lia). f_equal.
Qed.
Lemma expand_length n Nk : forall w, length (expand n Nk w) = (n + length w)%nat.
Proof. induction n as [|n IH]; intros w; [reflexivity|]. cbn [expand]. rewrite IH, app_length. cbn [length]. lia. Qed.

Lemma arm_aes128_ok key : bytes key -> zlen key = 16 -> arm_aes128_new key = KeyExpansion 4 10 key.
Proof.
  intros B L. destruct (key_words_ok key B) as (U & E & Lw). rewrite L in Lw. change (16 / 4) with 4 in Lw.
  destruct (steps_ok arm_step128 4 1 10 (fun rk r => step128_ok rk r) 10 1 (arm_key_words key) ltac:(lia) ltac:(lia) Lw U) as [U2 E2].
  unfold arm_aes128_new, KeyExpansion. change [1; 2; 3; 4; 5; 6; 7; 8; 9; 10] with (map (fun i => 1 + Z.of_nat i) (seq 0 10)).
  cbv zeta in E2. rewrite E in E2. rewrite (round_keys_ok 11).
  - rewrite E2. reflexivity.
  - rewrite <- (map_length bw). rewrite E2, expand_length, <- E, map_length. unfold zlen in Lw. lia.
Qed.
Lemma arm_aes256_ok key : bytes key -> zlen key = 32 -> arm_aes256_new key = KeyExpansion 8 14 key.
Proof.
  intros B L. destruct (key_words_ok key B) as (U & E & Lw). rewrite L in Lw. change (32 / 4) with 8 in Lw.
  destruct (steps_ok arm_step256 8 2 14 (fun rk r => step256_ok rk r) 13 2 (arm_key_words key) ltac:(lia) ltac:(lia) Lw U) as [U2 E2].
  unfold arm_aes256_new, KeyExpansion. change [2; 3; 4; 5; 6; 7; 8; 9; 10; 11; 12; 13; 14] with (map (fun i => 2 + Z.of_nat i) (seq 0 13)).
  cbv zeta in E2. rewrite E in E2. rewrite (round_keys_ok 15).
  - rewrite E2. reflexivity.
  - rewrite <- (map_length bw). rewrite E2, expand_length, <- E, map_length. unfold zlen in Lw. lia.
Qed.
Lemma arm_key_same key : bytes key -> arm_key_new key = aes_key_new key.
Proof.
  intros B. unfold arm_key_new, aes_key_new. destruct (zlen key =? 16) eqn:A.
  - rewrite arm_aes128_ok, aes128_expand_ok by (auto; lia). reflexivity.
  - destruct (zlen key =? 32) eqn:C; [|reflexivity]. rewrite arm_aes256_ok, aes256_expand_ok by (auto; lia). reflexivity.
Qed.

(** *** GHASH *)
Lemma vextq1_swap x : vextq1 x = swap64 x.
Proof. unfold vextq1, swap64, half. rewrite Z.land_ones by lia. reflexivity. Qed.
Lemma poly_half : half false ARM_POLY_HI = half false GF128_POLY_HI. Proof. reflexivity. Qed.
Lemma vmull_poly x : vmull_p64_fix ARM_POLY_HI x = clmulepi64 GF128_POLY_HI x 0x00.
Proof. unfold vmull_p64_fix. rewrite poly_half. reflexivity. Qed.
Lemma arm_gf128_ok h : arm_gf128_big_endian h = gf128_big_endian h. Proof. reflexivity. Qed.
Lemma arm_xor_halves_ok h : arm_xor_halves h = xor_halves h.
Proof. unfold arm_xor_halves, xor_halves. now rewrite vextq1_swap. Qed.
Lemma arm_mul_acc_ok acc x h hx : arm_mul_acc acc x h hx = mul_acc acc x h hx.
Proof. destruct acc as [[lo mi] hi]. unfold arm_mul_acc, mul_acc. rewrite vextq1_swap. reflexivity. Qed.
Lemma arm_reduce_ok acc : arm_reduce acc = reduce acc.
Proof. destruct acc as [[lo mi] hi]. unfold arm_reduce, reduce. cbv zeta. rewrite !vextq1_swap, !vmull_poly. reflexivity. Qed.
Lemma arm_mul_ok a b : arm_mul a b = mul1 a b.
Proof. unfold arm_mul, mul1. cbv zeta. now rewrite arm_xor_halves_ok, arm_mul_acc_ok, arm_reduce_ok. Qed.
Definition arm_of (t : avx_table) : arm_table := mkArmTable (powers t) (powers_xor t).
Lemma arm_table_ok h : arm_table_new h = arm_of (avx_new h).
Proof.
  unfold arm_table_new, avx_new, arm_of. cbv zeta. cbn [more_powers powers powers_xor]. rewrite arm_gf128_ok, !arm_mul_ok.
  f_equal. apply map_ext. apply arm_xor_halves_ok.
Qed.
Lemma arm_mul8_ok h xs : length xs = 8%nat -> arm_mul8 (arm_of (avx_new h)) xs = mul8 (avx_new h) xs.
Proof.
  intros L. do 8 (destruct xs as [|? xs]; [discriminate L|]). destruct xs; [|discriminate L].
  unfold arm_mul8, mul8. rewrite arm_reduce_ok. f_equal. rewrite !arm_mul_acc_ok. reflexivity.
Qed.
Local Opaque mul1 mul8 avx_new avx512_new gf128_big_endian.
Lemma arm_power0 h : idx 0 (arm_powers (arm_of (avx_new h))) 0 = nth 0 (powers (avx_new h)) 0. Proof. reflexivity. Qed.
Lemma arm_one_block_ok h c x : arm_one_block (arm_table_new h) c x = M_Ghash.one_block (Avx (avx_new h)) c x.
Proof. unfold arm_one_block, M_Ghash.one_block. rewrite arm_table_ok, arm_power0, arm_mul_ok. reflexivity. Qed.

Lemma one_chunk n (l : list Z) : 0 < n -> zlen l = n -> chunks_exact n l = [l].
Proof. intros Hn L. rewrite chunks_exact_cons by lia. rewrite ztake_all, zdrop_all by lia. reflexivity. Qed.
Lemma to_be_ok b : bytes b -> zlen b = 16 -> to_uint64x2_be b = load_be b.
Proof.
  intros B L. unfold to_uint64x2_be, vrev64q_u8, load_be, vextq1. pose proof (ztake_zdrop 8 b) as E.
  assert (L1 : zlen (ztake 8 b) = 8) by (rewrite zlen_ztake; lia). assert (L2 : zlen (zdrop 8 b) = 8) by (rewrite zlen_zdrop; lia).
  assert (B1 : bytes (ztake 8 b)) by now apply bytes_ztake. assert (B2 : bytes (zdrop 8 b)) by now apply bytes_zdrop.
  set (x := ztake 8 b) in *. set (y := zdrop 8 b) in *. clearbody x y. subst b.
  rewrite (chunks_exact_app 8 1) by lia. rewrite (one_chunk 8 x), (one_chunk 8 y) by lia. cbn [app map concat]. rewrite app_nil_r, rev_app_distr.
  rewrite !le_val_app. assert (R1 : zlen (rev x) = 8) by (unfold zlen in *; now rewrite rev_length). assert (R2 : zlen (rev y) = 8) by (unfold zlen in *; now rewrite rev_length).
  rewrite R1, R2. change (256 ^ 8) with (2 ^ 64). fold (be_val x). fold (be_val y).
  pose proof (be_val_bound x B1) as X. pose proof (be_val_bound y B2) as Y. rewrite L1 in X. rewrite L2 in Y. change (256 ^ 8) with (2 ^ 64) in X, Y.
  rewrite Z.shiftr_div_pow2 by lia. rewrite (Z.mul_comm (2 ^ 64) (be_val y)), Z.mod_add, Z.div_add, Z.div_small, Z.mod_small by lia.
  rewrite Z.lor_comm, Z.add_0_l, lor_add by lia. rewrite (Z.mul_comm (2 ^ 64) (be_val x)). apply Z.add_comm.
Qed.

Section H.
Variable h : Z.
Hypothesis Hh : r128 h.
Variable g : Z -> Z.
Hypothesis Hg : forall a, g a = gcm_mul a h.

Lemma arm_add_block_ok c B : r128 c -> bytes B -> zlen B = 16 -> arm_add_block (arm_table_new h) c B = gblocks g c [B].
Proof.
  intros Hc BB LB. unfold arm_add_block. rewrite to_be_ok by assumption. change (arm_one_block (arm_table_new h) c (load_be B) = gblocks g c [B]).
  rewrite arm_one_block_ok. change (Avx (avx_new h)) with (tbl h false). rewrite (one_block_ok h Hh g Hg) by (auto; now apply load_be_r128). reflexivity.
Qed.
Lemma arm_eight_ok c bs : length bs = 8%nat -> blocks_ok bs -> r128 c -> arm_add_eight_blocks (arm_table_new h) c bs = gblocks g c bs.
Proof.
  intros L B Hc. rewrite <- (mul8_step h Hh g Hg) by assumption. unfold arm_add_eight_blocks. rewrite arm_table_ok, arm_mul8_ok.
  - f_equal. destruct bs as [|b bs]; [discriminate L|]. cbn [tl map xor_first]. change (idx [] (b :: bs) 0) with b.
    inversion B as [|? ? [B1 L1] B']; subst. rewrite to_be_ok by assumption. f_equal. apply map_ext_in. intros a I. unfold blocks_ok in B'. rewrite Forall_forall in B'. destruct (B' a I). now apply to_be_ok.
  - cbn [length]. rewrite map_length. destruct bs; [discriminate L|]. cbn [tl length] in *. lia.
Qed.
Lemma fold_ext_in {A B} (f k : A -> B -> A) : forall l a, (forall a x, In x l -> f a x = k a x) -> fold_left f l a = fold_left k l a.
Proof. induction l as [|x l IH]; intros a H; [reflexivity|]. cbn [fold_left]. rewrite H by now left. apply IH. intros. apply H. now right. Qed.
Lemma arm_ghash_add_ok c l : r128 c -> bytes l -> arm_ghash_add (arm_table_new h) c l = gblocks g c (chunks_exact 16 (pad16 l)).
Proof.
  intros Hc Bl. rewrite <- (ghash_add_ok h Hh g Hg false c l Hc Bl). unfold arm_ghash_add, ghash_add. cbn [tbl ghash_table_new add_wide_avx].
  assert (E1 : fold_left (fun c chunk8 => arm_eight_blocks (arm_table_new h) c (map be_val (chunks_exact 16 chunk8))) (chunks_exact 128 l) c =
    fold_left (fun current chunk8 => mul8 (avx_new h) (xor_first current (map load_be (chunks_exact 16 chunk8)))) (chunks_exact 128 l) c).
  { apply fold_ext_in. intros a x I. pose proof (chunks_Forall 128 l ltac:(lia) Bl) as F. rewrite Forall_forall in F. destruct (F x I) as [Bx Lx].
    assert (L8 : length (chunks_exact 16 x) = 8%nat) by (apply chunk_count; lia). unfold arm_eight_blocks. rewrite arm_table_ok, arm_mul8_ok.
    - f_equal. destruct (chunks_exact 16 x); [discriminate L8|]. reflexivity.
    - destruct (chunks_exact 16 x); [discriminate L8|]. cbn [map tl length] in *. rewrite map_length. lia. }
  rewrite E1. set (cur := fold_left _ (chunks_exact 128 l) c). set (rest := zdrop (128 * (zlen l / 128)) l).
  assert (E2 : fold_left (fun c chunk => arm_one_block (arm_table_new h) c (be_val chunk)) (chunks_exact 16 rest) cur =
    fold_left (fun c b => M_Ghash.one_block (Avx (avx_new h)) c (load_be b)) (chunks_exact 16 rest) cur).
  { apply fold_ext_in. intros a x _. rewrite arm_one_block_ok. reflexivity. }
  rewrite E2. set (cur2 := fold_left _ (chunks_exact 16 rest) cur). set (r := zdrop (16 * (zlen rest / 16)) rest).
  destruct (zlen r =? 0); [reflexivity|]. rewrite arm_one_block_ok. f_equal. unfold load_be, be_val. f_equal. f_equal.
  pose proof (zlen_nonneg r). unfold splice. rewrite ztake_0. cbn [app]. f_equal. unfold zdrop. rewrite Z.add_0_l.
  assert (SR : forall n k, skipn k (repeat 0 n) = repeat 0 (n - k)).
  { induction n as [|n IH]; intros [|k]; cbn [skipn repeat Nat.sub]; auto. }
  rewrite SR. f_equal. lia.
Qed.
End H.

(** *** AES-GCM *)
Lemma split12 (l : list Z) : bytes l -> zlen l = 12 ->
  exists a b c, l = a ++ b ++ c /\ chunks_exact 4 l = [a; b; c] /\ (bytes a /\ length a = 4%nat) /\ (bytes b /\ length b = 4%nat) /\ (bytes c /\ length c = 4%nat).
Proof.
  intros B Lz. assert (L : length l = 12%nat) by now apply zlen_length. clear Lz.
  do 12 (destruct l as [|? l]; [discriminate L|]). destruct l; [|discriminate L].
  pose proof (chunks4_Forall _ B) as F. eexists _, _, _. split; [|split; [reflexivity|]]; [reflexivity|].
  inversion F as [|? ? F1 F']; subst. inversion F' as [|? ? F2 F'']; subst. inversion F'' as [|? ? F3 _]; subst. auto.
Qed.
Section G.
Variable h : Z.
Hypothesis Hh : r128 h.
Variable g : Z -> Z.
Hypothesis Hg : forall a, g a = gcm_mul a h.
Variable key : aes_key.
Variable E : list Z -> list Z.
Hypothesis HEr : forall b, aes_rounds (round_keys key) b = E b.
Hypothesis HEa : forall b, arm_rounds key b = E b.
Hypothesis HE : forall b, b16 (E b).
Variable iv : list Z.
Hypothesis Biv : bytes iv.
Hypothesis Liv : zlen iv = 12.

(** the lanes before counter block i is made *)
Definition ARep (c : list Z) (i : Z) : Prop := c = map be_val (chunks_exact 4 iv) ++ [(1 + i) mod 2 ^ 32].
Lemma iv_split : exists a b c, iv = a ++ b ++ c /\ chunks_exact 4 iv = [a; b; c] /\ (bytes a /\ length a = 4%nat) /\ (bytes b /\ length b = 4%nat) /\ (bytes c /\ length c = 4%nat).
Proof. now apply split12. Qed.
Lemma rev_lanes a b c d : length a = 4%nat -> length b = 4%nat -> length c = 4%nat -> length d = 4%nat ->
  vreinterpretq_u32_u8 (vrev32q_u8 (a ++ b ++ c ++ d)) = [be_val a; be_val b; be_val c; be_val d].
Proof.
  intros La Lb Lc Ld. destruct (w4_len a La) as (a0&a1&a2&a3&->), (w4_len b Lb) as (b0&b1&b2&b3&->), (w4_len c Lc) as (c0&c1&c2&c3&->), (w4_len d Ld) as (d0&d1&d2&d3&->).
  reflexivity.
Qed.
Lemma arm_counter_new_ok : ARep (arm_counter_new (J0 iv)) 0.
Proof.
  destruct iv_split as (a&b&c&Ei&Ec&[_ La]&[_ Lb]&[_ Lc]). unfold ARep, arm_counter_new, J0. rewrite Ec, Ei, <- !app_assoc. rewrite rev_lanes by auto. reflexivity.
Qed.
Lemma arm_inc_ok : arm_inc = [0; 0; 0; 1]. Proof. reflexivity. Qed.
Lemma arm_next_ok s i : ARep s i -> arm_next s = (CB iv i, map be_val (chunks_exact 4 iv) ++ [(1 + (i + 1)) mod 2 ^ 32]).
Proof.
  intros ->. destruct iv_split as (a&b&c&Ei&Ec&[Ba La]&[Bb Lb]&[Bc Lc]). unfold arm_next. rewrite arm_inc_ok, Ec. cbn [map app].
  unfold vaddq_u32, map2. cbn [combine map]. rewrite !Z.add_0_r. rewrite !(Z.mod_small (be_val _) (2 ^ 32)) by now apply be_val_u32.
  rewrite Zplus_mod_idemp_l. replace (1 + i + 1) with (2 + i) by lia. replace (1 + (i + 1)) with (2 + i) by lia. f_equal.
  rewrite round_key_ok. cbn [map concat]. rewrite !bw_be_val by assumption. unfold CB. rewrite Ei, <- !app_assoc, app_nil_r. reflexivity.
Qed.
Lemma arm_nexts_ok n : forall s i, ARep s i -> exists s', arm_nexts n s = (CBs iv n i, s') /\ ARep s' (i + Z.of_nat n).
Proof.
  induction n as [|n IH]; intros s i HR.
  - exists s. split; [reflexivity|]. replace (i + Z.of_nat 0) with i by lia. exact HR.
  - cbn [arm_nexts]. rewrite (arm_next_ok s i HR). destruct (IH _ (i + 1) eq_refl) as (s' & E1 & R1). rewrite E1. exists s'.
    rewrite (CBs_S h g Hg key E HEr HE). split; [reflexivity|]. replace (i + Z.of_nat (S n)) with (i + 1 + Z.of_nat n) by lia. exact R1.
Qed.
Lemma veorq_encs : forall X i, map2 veorq_u8 X (map (arm_rounds key) (CBs iv (length X) i)) = encs E iv i X.
Proof.
  induction X as [|B r IH]; intros i; [reflexivity|]. change (length (B :: r)) with (S (length r)). rewrite (CBs_S h g Hg key E HEr HE). cbn [map encs].
  rewrite <- IH. unfold map2. cbn [combine map]. rewrite HEa. reflexivity.
Qed.
Lemma arm_step8_ok enc s cur out ch i : ARep s i -> r128 cur -> bytes ch -> zlen ch = 16 * 8 ->
  exists s', ARep s' (i + 8) /\ arm_step8 enc key (arm_table_new h) (s, cur, out) ch =
       (s', gblocks g cur (gsel E iv enc i (chunks_exact 16 ch)), out ++ concat (encs E iv i (chunks_exact 16 ch))).
Proof.
  intros HR Hc Bch Lch. destruct (arm_nexts_ok 8 s i HR) as (s' & E1 & R1). exists s'. split; [exact R1|].
  unfold arm_step8. rewrite E1.
  assert (L8 : length (chunks_exact 16 ch) = 8%nat) by (apply chunk_count; lia).
  assert (BX : blocks_ok (chunks_exact 16 ch)) by now apply chunks_blocks_ok.
  pose proof (veorq_encs (chunks_exact 16 ch) i) as EE. rewrite L8 in EE. rewrite EE.
  f_equal. f_equal. destruct enc; cbn [gsel]; apply (arm_eight_ok h Hh g Hg); auto. { now rewrite encs_len. } { now apply (encs_ok h g Hg key). }
Qed.
Lemma arm_single_ok enc s cur out ch i : ARep s i -> r128 cur -> bytes ch -> zlen ch = 16 * 1 ->
  exists s', ARep s' (i + 1) /\ arm_single enc key (arm_table_new h) (s, cur, out) ch =
       (s', gblocks g cur (gsel E iv enc i (chunks_exact 16 ch)), out ++ concat (encs E iv i (chunks_exact 16 ch))).
Proof.
  intros HR Hc Bch Lch. rewrite (one_chunk 16 ch) by lia.
  unfold arm_single. rewrite (arm_next_ok s i HR). eexists. split; [reflexivity|]. rewrite HEa. cbn [encs concat]. rewrite app_nil_r.
  change (veorq_u8 ch (E (CB iv i))) with (xor_min ch (E (CB iv i))).
  assert (OK : blocks_ok (encs E iv i [ch])) by (apply (encs_ok h g Hg key E HEr HE); constructor; [split; [assumption|lia]|constructor]).
  cbn [encs] in OK. inversion OK as [|? ? [O1 O2] _]; subst.
  f_equal. f_equal. destruct enc; cbn [gsel encs]; apply (arm_add_block_ok h Hh g Hg); auto; lia.
Qed.
Lemma arm_last_ok enc s cur l i : ARep s i -> r128 cur -> bytes l -> zlen l < 16 ->
  let out := gctr_blocks E (CB iv i) (chunks 16 l) in
  arm_last enc key (arm_table_new h) s cur l = (gblocks g cur (chunks_exact 16 (pad16 (if enc then out else l))), out).
Proof.
  intros HR Hc Bl Ll out. unfold arm_last. pose proof (zlen_nonneg l). destruct (zlen l =? 0) eqn:Z0.
  - assert (l = []) by (apply zlen_0_nil; lia). subst l. unfold out. destruct enc; reflexivity.
  - rewrite (arm_next_ok s i HR), HEa.
    assert (Eo : ztake (zlen l) (veorq_u8 (splice (repeat 0 16) 0 l) (E (CB iv i))) = out).
    { unfold out. rewrite chunks_short by lia. cbn [gctr_blocks]. rewrite app_nil_r. unfold splice. rewrite ztake_0. cbn [app]. apply xor_min_pad. }
    rewrite Eo. destruct (HE (CB iv i)) as [EB EL].
    assert (Bo : bytes out). { rewrite <- Eo. apply bytes_ztake. apply bytes_xor_min; [|exact EB]. unfold splice. rewrite ztake_0. cbn [app]. apply bytes_app. split; [exact Bl|]. apply bytes_zdrop, bytes_repeat. unfold byte_ok. lia. }
    f_equal. destruct enc; apply (arm_ghash_add_ok h Hh g Hg); auto.
Qed.

Lemma arm_cipher_ok enc cur aad l : r128 cur -> bytes aad -> bytes l ->
  let out := gctr_blocks E (CB iv 0) (chunks 16 l) in
  arm_cipher enc key (arm_table_new h) cur (J0 iv) aad l =
    (gblocks g (gblocks g cur (chunks_exact 16 (pad16 aad))) (chunks_exact 16 (pad16 (if enc then out else l))), out).
Proof.
  intros Hc Ba Bl out. unfold arm_cipher. rewrite (arm_ghash_add_ok h Hh g Hg) by auto.
  assert (Bpad : blocks_ok (chunks_exact 16 (pad16 aad))) by (apply chunks_blocks_ok, bytes_pad16, Ba).
  set (cur1 := gblocks g cur _). assert (Hc1 : r128 cur1) by now apply (gblocks_r128 h Hh g Hg).
  pose proof (zlen_nonneg l) as Hl. assert (Hq : 0 <= zlen l / 128) by (apply Z.div_pos; lia).
  assert (Lq : zlen (chunks_exact 128 l) = zlen l / 128) by (apply zlen_chunks_exact; lia).
  destruct (wide_loop h Hh g Hg key E HEr HE iv Biv ARep enc 8 (8 * (zlen l / 128)) (arm_step8 enc key (arm_table_new h)) ltac:(lia)
    (fun s cur out ch i HR Hr Bc Lc _ _ => arm_step8_ok enc s cur out ch i HR Hr Bc Lc)
    (chunks_exact 128 l) (arm_counter_new (J0 iv)) cur1 [] 0 arm_counter_new_ok Hc1 (chunks_Forall 128 l ltac:(lia) Bl) ltac:(lia) ltac:(lia)) as (s' & R' & E').
  rewrite E', Lq, Z.add_0_l in *. cbn [app]. clear E'.
  rewrite (chunks_group 8) in * by lia. change (16 * 8) with 128 in *.
  set (a := 128 * (zlen l / 128)) in *. set (X := chunks_exact 16 (ztake a l)) in *.
  assert (La : 0 <= a <= zlen l) by (unfold a; lia).
  assert (BX : blocks_ok X) by (apply chunks_blocks_ok; now apply bytes_ztake).
  assert (LX : zlen X = 8 * (zlen l / 128)).
  { unfold X. rewrite zlen_chunks_exact by lia. rewrite zlen_ztake by lia. unfold a. lia. }
  set (l2 := zdrop a l). assert (B2 : bytes l2) by now apply bytes_zdrop. assert (L2 : zlen l2 = zlen l - a) by (unfold l2; rewrite zlen_zdrop; lia).
  assert (Lq2 : zlen (chunks_exact 16 l2) = zlen l2 / 16) by (apply zlen_chunks_exact; lia).
  assert (Hc2 : r128 (gblocks g cur1 (gsel E iv enc 0 X))) by (apply (gblocks_r128 h Hh g Hg); auto; now apply (gsel_ok h g Hg key E HEr HE)).
  destruct (wide_loop h Hh g Hg key E HEr HE iv Biv ARep enc 1 (8 * (zlen l / 128) + zlen l2 / 16) (arm_single enc key (arm_table_new h)) ltac:(lia)
    (fun s cur out ch i HR Hr Bc Lc _ _ => arm_single_ok enc s cur out ch i HR Hr Bc Lc)
    (chunks_exact 16 l2) s' (gblocks g cur1 (gsel E iv enc 0 X)) (concat (encs E iv 0 X)) (8 * (zlen l / 128)) R' Hc2 (chunks_Forall 16 l2 ltac:(lia) B2) ltac:(lia) ltac:(lia)) as (s2 & R2 & E2).
  rewrite E2, Lq2 in *. clear E2.
  pose proof (chunks_group 1 l2 ltac:(lia)) as G1. change (16 * 1) with 16 in G1. rewrite G1. clear G1.
  set (b := 16 * (zlen l2 / 16)) in *. set (Y := chunks_exact 16 (ztake b l2)) in *.
  assert (Lb : 0 <= b <= zlen l2) by (unfold b; lia).
  assert (BY : blocks_ok Y) by (apply chunks_blocks_ok; now apply bytes_ztake).
  set (k := wide_len 1 (zlen l)). assert (Ek : k = a + b) by (unfold k, wide_len, b, a in *; lia).
  assert (EXY : X ++ Y = chunks_exact 16 (ztake k l)).
  { unfold X, Y. replace (ztake k l) with (ztake a l ++ ztake b l2).
    - rewrite (chunks_exact_app 16 (8 * (zlen l / 128))); [reflexivity|lia|lia|]. rewrite zlen_ztake by lia. unfold a. lia.
    - unfold l2, ztake, zdrop. rewrite Ek, Z2Nat.inj_add by lia. rewrite <- (firstn_skipn (Z.to_nat a) l) at 3.
      rewrite firstn_app. rewrite firstn_firstn. rewrite (Nat.min_r (Z.to_nat a + Z.to_nat b)) by lia. f_equal. f_equal. rewrite firstn_length. unfold zlen in *. lia. }
  assert (Ed : zdrop b l2 = zdrop k l). { unfold l2. rewrite L_Blocks.zdrop_zdrop by lia. f_equal. lia. }
  assert (Hc3 : r128 (gblocks g cur1 (gsel E iv enc 0 (X ++ Y)))).
  { apply (gblocks_r128 h Hh g Hg); auto. apply (gsel_ok h g Hg key E HEr HE). unfold blocks_ok in *. apply Forall_app. split; assumption. }
  replace (gblocks g (gblocks g cur1 (gsel E iv enc 0 X)) (gsel E iv enc (8 * (zlen l / 128)) Y)) with (gblocks g cur1 (gsel E iv enc 0 (X ++ Y))).
  2:{ rewrite (gsel_app h g Hg key E HEr HE), gblocks_app, LX. reflexivity. }
  replace (concat (encs E iv 0 X) ++ concat (encs E iv (8 * (zlen l / 128)) Y)) with (concat (encs E iv 0 (X ++ Y))).
  2:{ rewrite (encs_app h g Hg key E HEr HE), concat_app, LX. reflexivity. }
  rewrite EXY in *. rewrite Ed.
  replace (8 * (zlen l / 128) + 1 * (zlen l2 / 16)) with (1 * (zlen l / (16 * 1))) in R2 by (unfold a in *; change (16 * 1) with 16; lia).
  assert (Br : bytes (zdrop k l)) by now apply bytes_zdrop. assert (Lr : zlen (zdrop k l) < 16) by (rewrite zlen_zdrop by lia; unfold k, wide_len; lia).
  rewrite (arm_last_ok enc s2 _ _ _ R2 Hc3 Br Lr).
  destruct (assemble h g Hg key E HEr HE iv Liv enc 1 l cur1 ltac:(lia) Hc1 Bl) as [A1 A2].
  { apply GCTR_bytes; auto. } { apply GCTR_len; auto. }
  f_equal; [exact A2|exact A1].
Qed.
End G.

(** The three machine-dependent layers together: on aarch64 a key sets up the same values, and one run over a message
    gives the same buffer and tag as the x86-64 code without AVX-512. *)
Lemma arm_run_same w E iv aad l enc :
  (forall x, aes_rounds (round_keys w) x = E x) -> (forall x, arm_rounds w x = E x) -> (forall x, b16 (E x)) ->
  bytes iv -> zlen iv = 12 -> bytes aad -> bytes l ->
  arm_gcm_run enc (mkArmGcm w (arm_table_new (be_val (E (repeat 0 16))))) iv aad l =
  gcm_run enc (mkGcm w (ghash_table_new false (be_val (E (repeat 0 16))))) iv aad l.
Proof.
  intros HEr HEa HE Bi Li Ba Bl. set (h := be_val (E (repeat 0 16))).
  assert (Hh : r128 h).
  { destruct (HE (repeat 0 16)) as [B0 L0]. apply load_be_r128; auto. unfold zlen. now rewrite L0. }
  pose (g := fun a => gcm_mul a h). assert (Hg : forall a, g a = gcm_mul a h) by reflexivity. clearbody g.
  unfold arm_gcm_run, gcm_run. cbn [arm_gcm_key arm_gcm_gh gcm_key gcm_gh]. rewrite y0_list by (unfold zlen in Li; lia). fold (J0 iv).
  change (ghash_table_new false h) with (tbl h false).
  assert (R0 : r128 0) by (split; reflexivity || discriminate).
  change arm_ghash_new with 0. change ghash_new with 0.
  rewrite (arm_cipher_ok h Hh g Hg w E HEr HEa HE iv Bi Li) by assumption.
  rewrite (low_cipher_ok h Hh g Hg w E HEr HE iv Bi Li) by auto.
  set (out := gctr_blocks E (CB iv 0) (chunks 16 l)). set (C := if enc then out else l).
  assert (Bo : bytes out) by now apply GCTR_bytes. assert (BC : bytes C) by (destruct enc; auto).
  assert (BP : forall x, bytes x -> blocks_ok (chunks_exact 16 (pad16 x))) by (intros; apply chunks_blocks_ok; now apply bytes_pad16).
  set (cur := gblocks g _ _). assert (Hc : r128 cur) by (unfold cur; apply (gblocks_r128 h Hh g Hg); auto; apply (gblocks_r128 h Hh g Hg); auto).
  assert (Blb : bytes (lengths_block aad out)) by (unfold lengths_block; apply bytes_app; split; apply be_bytes_bytes).
  rewrite (arm_ghash_add_ok h Hh g Hg cur _ Hc Blb), (ghash_add_ok h Hh g Hg false cur _ Hc Blb).
  unfold arm_encrypt_block, encrypt_block. rewrite HEr, HEa. reflexivity.
Qed.
Lemma arm_new_same key : bytes key -> zlen key = 16 \/ zlen key = 32 ->
  exists w, gcm_new false key = Ok (mkGcm w (ghash_table_new false (be_val (encrypt_block w (repeat 0 16))))) /\
    arm_gcm_new key = Ok (mkArmGcm w (arm_table_new (be_val (encrypt_block w (repeat 0 16))))) /\
    (forall b, b16 (encrypt_block w b)) /\ (forall b, arm_rounds w b = encrypt_block w b).
Proof.
  intros Bk Lk. destruct (aes_key_new_ok key Bk Lk) as (w & En & So & S). exists w.
  assert (RR : forall b, arm_rounds w b = encrypt_block w b) by (intros b; unfold encrypt_block; apply arm_rounds_ok; destruct So as [_ L]; cbn in L; lia).
  split; [unfold gcm_new; now rewrite En|]. split; [|split; [intros b; now apply b16_encrypt|exact RR]].
  unfold arm_gcm_new. rewrite arm_key_same, En by assumption. cbn [bind]. unfold arm_encrypt_block. now rewrite RR.
Qed.
