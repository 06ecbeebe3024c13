(** C56: AES and AES-GCM as built for aarch64 (AESE/AESMC, PMULL, eight blocks at a time) are FIPS 197 and SP 800-38D too,
    and interoperate with the x86-64 code byte for byte. *)
Require Import Verif.Base Verif.L_Base Verif.L_Asn1 Verif.L_Blocks Verif.L_Poly1305 Verif.M_Ct Verif.L_Hmac Verif.S_Aes Verif.M_Aes Verif.L_Aes
  Verif.M_Ghash Verif.S_Gcm Verif.L_Ghash Verif.M_AesGcm Verif.L_Gcm Verif.M_ArmGcm Verif.L_ArmGcm Verif.T_Gcm.
Require Import ZifyNat.
Local Opaque gcm_mul GHASH AES128 AES256 ghash_add avx_new avx512_new aes128_expand aes256_expand gcm_tag arm_key_words arm_gcm_run gcm_run arm_table_new.

(** The aarch64 key schedule and the AESE/AESMC rounds compute FIPS 197. *)
Theorem C56_aes_is_fips197 : forall key b,
  bytes key -> zlen key = 16 \/ zlen key = 32 -> zlen b = 16 ->
  exists k, arm_key_new key = Ok k /\ arm_encrypt_block k b = AES key b.
Proof.
  intros key b Bk Lk Lb. destruct (arm_new_same key Bk Lk) as (w & _ & _ & _ & RR).
  destruct (aes_key_new_ok key Bk Lk) as (w' & E & [_ L2] & S). exists w'. rewrite arm_key_same by assumption. split; [exact E|].
  unfold arm_encrypt_block. rewrite arm_rounds_ok by exact L2. fold (encrypt_block w' b).
  rewrite S by (unfold zlen in Lb; lia). unfold AES. destruct (zlen key =? 16); reflexivity.
Qed.
Print Assumptions C56_aes_is_fips197.

Theorem C56_key_lengths : forall key, bytes key -> (arm_gcm_new key = Panic <-> zlen key <> 16 /\ zlen key <> 32).
Proof.
  intros key Bk. rewrite <- (C16_key_lengths false key). unfold arm_gcm_new, gcm_new. rewrite arm_key_same by assumption.
  destruct (aes_key_new key); cbn [bind]; split; intros; try discriminate; reflexivity.
Qed.
Print Assumptions C56_key_lengths.

(** Byte for byte the same results as the x86-64 code without AVX-512, whatever the lengths. *)
Theorem C56_same_as_x86 : forall key nonce aad inout tag,
  bytes key -> zlen key = 16 \/ zlen key = 32 -> bytes nonce -> zlen nonce = 12 -> bytes aad -> bytes inout ->
  exists g a, gcm_new false key = Ok g /\ arm_gcm_new key = Ok a /\
    arm_gcm_encrypt a nonce aad inout = gcm_encrypt g nonce aad inout /\
    arm_gcm_decrypt a nonce aad inout tag = gcm_decrypt g nonce aad inout tag.
Proof.
  intros key nonce aad inout tag Bk Lk Bn Ln Ba Bi. destruct (arm_new_same key Bk Lk) as (w & En & Ea & HE & RR).
  do 2 eexists. split; [exact En|]. split; [exact Ea|].
  assert (S : forall enc, arm_gcm_run enc (mkArmGcm w (arm_table_new (be_val (encrypt_block w (repeat 0 16))))) nonce aad inout =
    gcm_run enc (mkGcm w (ghash_table_new false (be_val (encrypt_block w (repeat 0 16))))) nonce aad inout).
  { intros enc. apply (arm_run_same w (encrypt_block w)); auto. }
  unfold arm_gcm_encrypt, gcm_encrypt, arm_gcm_decrypt, gcm_decrypt. rewrite !S. split; reflexivity.
Qed.
Print Assumptions C56_same_as_x86.

(** Encryption is GCM-AE of SP 800-38D with AES. *)
Theorem C56_encrypt_is_gcm : forall key nonce aad pt,
  bytes key -> zlen key = 16 \/ zlen key = 32 -> bytes nonce -> zlen nonce = 12 -> bytes aad -> bytes pt ->
  zlen aad < 2 ^ 61 -> zlen pt <= gcm_max_bytes ->
  exists a, arm_gcm_new key = Ok a /\ arm_gcm_encrypt a nonce aad pt = GCM_AE (AES key) nonce pt aad.
Proof.
  intros key nonce aad pt Bk Lk Bn Ln Ba Bp La Lp.
  destruct (C56_same_as_x86 key nonce aad pt [] Bk Lk Bn Ln Ba Bp) as (g & a & En & Ea & S & _). exists a. split; [exact Ea|]. rewrite S.
  destruct (C16_encrypt_is_gcm false key nonce aad pt Bk Lk Bn Ln Ba Bp La Lp) as (g' & En' & E). rewrite En in En'. injection En' as <-. exact E.
Qed.
Print Assumptions C56_encrypt_is_gcm.

(** Decryption is GCM-AD; on FAIL the buffer is zeroed. *)
Theorem C56_decrypt_is_gcm : forall key nonce aad ct tag,
  bytes key -> zlen key = 16 \/ zlen key = 32 -> bytes nonce -> zlen nonce = 12 -> bytes aad -> bytes ct -> bytes tag ->
  zlen aad < 2 ^ 61 -> zlen ct <= gcm_max_bytes ->
  exists a, arm_gcm_new key = Ok a /\
    arm_gcm_decrypt a nonce aad ct tag =
      match GCM_AD (AES key) nonce ct aad tag with
      | Some pt => (Ok tt, pt)
      | None => (Err DecryptFailed, repeat 0 (length ct))
      end.
Proof.
  intros key nonce aad ct tag Bk Lk Bn Ln Ba Bc Bt La Lc.
  destruct (C56_same_as_x86 key nonce aad ct tag Bk Lk Bn Ln Ba Bc) as (g & a & En & Ea & _ & S). exists a. split; [exact Ea|]. rewrite S.
  destruct (C16_decrypt_is_gcm false key nonce aad ct tag Bk Lk Bn Ln Ba Bc Bt La Lc) as (g' & En' & E). rewrite En in En'. injection En' as <-. exact E.
Qed.
Print Assumptions C56_decrypt_is_gcm.

(** What any x86-64 machine seals an aarch64 machine opens, and the other way round. *)
Theorem C56_interoperates : forall have512 key nonce aad pt,
  bytes key -> zlen key = 16 \/ zlen key = 32 -> bytes nonce -> zlen nonce = 12 -> bytes aad -> bytes pt ->
  zlen aad < 2 ^ 61 -> zlen pt <= gcm_max_bytes ->
  exists g a ct tag, gcm_new have512 key = Ok g /\ arm_gcm_new key = Ok a /\
    gcm_encrypt g nonce aad pt = (ct, tag) /\ arm_gcm_encrypt a nonce aad pt = (ct, tag) /\
    zlen ct = zlen pt /\ zlen tag = 16 /\
    gcm_decrypt g nonce aad ct tag = (Ok tt, pt) /\ arm_gcm_decrypt a nonce aad ct tag = (Ok tt, pt).
Proof.
  intros b key nonce aad pt Bk Lk Bn Ln Ba Bp La Lp.
  destruct (C14_aes_gcm_round_trip b b key nonce aad pt Bk Lk Bn Ln Ba Bp La Lp) as (g & g1 & ct & tag & En & En1 & Ee & Lc & Lt & Ed).
  rewrite En in En1. injection En1 as <-.
  destruct (C14_aes_gcm_round_trip b false key nonce aad pt Bk Lk Bn Ln Ba Bp La Lp) as (g2 & g3 & ct2 & tag2 & En2 & En3 & Ee2 & _ & _ & Ed2).
  rewrite En in En2. injection En2 as <-. rewrite Ee in Ee2. injection Ee2 as <- <-.
  destruct (C56_encrypt_is_gcm key nonce aad pt Bk Lk Bn Ln Ba Bp La Lp) as (a & Ea & EA).
  destruct (C16_encrypt_is_gcm b key nonce aad pt Bk Lk Bn Ln Ba Bp La Lp) as (g4 & En4 & EG). rewrite En in En4. injection En4 as <-.
  rewrite <- EG, Ee in EA.
  assert (Bc : bytes ct).
  { destruct (gcm_new_ok b key Bk Lk) as (w & _ & HE & HA). rewrite EG in Ee. unfold GCM_AE in Ee. cbv zeta in Ee. injection Ee as <- _.
    rewrite <- (gctr_same (encrypt_block w) (AES key)) by auto using zlen_inc. now apply GCTR_bytes. }
  destruct (C56_same_as_x86 key nonce aad ct tag Bk Lk Bn Ln Ba Bc) as (g5 & a5 & En5 & Ea5 & _ & S).
  rewrite Ea in Ea5. injection Ea5 as <-. rewrite En3 in En5. injection En5 as <-.
  exists g, a, ct, tag. split; [exact En|]. split; [exact Ea|]. split; [exact Ee|]. split; [exact EA|]. split; [exact Lc|]. split; [exact Lt|].
  split; [exact Ed|]. rewrite S. exact Ed2.
Qed.
Print Assumptions C56_interoperates.

(** Any tag but the right one, of whatever length, gives DecryptFailed and an all-zero buffer. *)
Corollary C56_rejects : forall key nonce aad ct tag,
  bytes key -> zlen key = 16 \/ zlen key = 32 -> bytes nonce -> zlen nonce = 12 -> bytes aad -> bytes ct -> bytes tag ->
  zlen aad < 2 ^ 61 -> zlen ct <= gcm_max_bytes -> tag <> gcm_tag (AES key) nonce ct aad ->
  exists a, arm_gcm_new key = Ok a /\ arm_gcm_decrypt a nonce aad ct tag = (Err DecryptFailed, repeat 0 (length ct)).
Proof.
  intros key nonce aad ct tag Bk Lk Bn Ln Ba Bc Bt La Lc N.
  destruct (C56_decrypt_is_gcm key nonce aad ct tag Bk Lk Bn Ln Ba Bc Bt La Lc) as (a & Ea & E). exists a. split; [exact Ea|]. rewrite E.
  unfold GCM_AD. cbv zeta. destruct (list_eqb (gcm_tag (AES key) nonce ct aad) tag) eqn:D; auto. apply list_eqb_eq in D. congruence.
Qed.
Print Assumptions C56_rejects.

(** a concrete case meeting the hypotheses: ten full blocks and a part, so that the eight-block loop, the single-block loop
    and the last part all run *)
Example C56_example :
  let key := map Z.of_nat (seq 0 32) in let nonce := map Z.of_nat (seq 100 12) in let pt := map Z.of_nat (seq 1 165) in
  bytes key /\ (zlen key = 16 \/ zlen key = 32) /\ bytes nonce /\ zlen nonce = 12 /\ bytes pt /\ zlen pt <= gcm_max_bytes.
Proof. cbv zeta. split; [bytes_tac|]. split; [right; reflexivity|]. split; [bytes_tac|]. split; [reflexivity|]. split; [bytes_tac|]. unfold gcm_max_bytes. cbn. lia. Qed.
