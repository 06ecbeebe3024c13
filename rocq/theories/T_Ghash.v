(** C60: all implementations of GHASH agree; few subkeys let a second message through. *)
Require Import Verif.Base Verif.L_Base Verif.L_Blocks Verif.L_Bits Verif.M_Aes Verif.S_Aes Verif.L_Aes
  Verif.M_Ghash Verif.S_Gcm Verif.L_Ghash Verif.L_GhashAdd Verif.M_AesGcm Verif.L_Gcm Verif.M_ArmGcm Verif.L_ArmGcm Verif.T_Gcm Verif.T_ArmGcm
  Verif.M_GhashGen Verif.L_GhashField Verif.L_GhashBound.
Require Verif.L_Sha3.
Require Import ZifyNat.
Local Opaque gcm_mul GHASH AES128 AES256 ghash_add arm_ghash_add gen_ghash_add avx_new avx512_new aes128_expand aes256_expand gcm_tag arm_key_words arm_gcm_run gcm_run arm_table_new G ev.

(** Fed the same pieces, one after another and each zero-padded to whole blocks, the AVX, AVX-512, Arm and portable
    code all give the 16 bytes of GHASH of SP 800-38D. *)
Theorem C60_implementations_agree : forall have512 h pieces, 0 <= h < 2 ^ 128 -> Forall bytes pieces ->
  let S := be_bytes 16 (GHASH h (concat (map pad16 pieces))) in
  ghash_into_bytes (fold_left (ghash_add (ghash_table_new have512 h)) pieces ghash_new) = S /\
  arm_into_bytes (fold_left (arm_ghash_add (arm_table_new h)) pieces arm_ghash_new) = S /\
  gen_into_bytes (fold_left (gen_ghash_add h) pieces gen_ghash_new) = S.
Proof.
  intros b h pieces Hh F. cbv zeta.
  pose (g := fun a => gcm_mul a h). assert (Hg : forall a, g a = gcm_mul a h) by reflexivity. clearbody g.
  assert (K : forall f : Z -> list Z -> Z, (forall c l, r128 c -> bytes l -> f c l = gblocks g c (chunks_exact 16 (pad16 l))) ->
    fold_left f pieces 0 = GHASH h (concat (map pad16 pieces))).
  { intros f Hf. rewrite (GHASH_gblocks h g Hg). pose proof r128_0 as H0. revert H0. generalize 0. induction F as [|l ls Bl F IH]; intros c Hc; [reflexivity|].
    cbn [fold_left map concat]. rewrite Hf, chunks16_pad_app, gblocks_app by auto. apply IH.
    apply (gblocks_r128 h Hh g Hg); auto. apply chunks_blocks_ok. now apply bytes_pad16. }
  unfold ghash_new, arm_ghash_new, gen_ghash_new. rewrite !K.
  - repeat split.
  - intros c l Hc Bl. exact (gen_add_ok h Hh g Hg c l Hc Bl).
  - intros c l Hc Bl. exact (arm_ghash_add_ok h Hh g Hg c l Hc Bl).
  - intros c l Hc Bl. exact (ghash_add_ok h Hh g Hg b c l Hc Bl).
Qed.
Print Assumptions C60_implementations_agree.

(** The product of SP 800-38D 6.3 makes the blocks a field: 1 is the block 80 00 .. 00, every other block than 0 has an
    inverse, and a product is 0 only if a factor is. *)
Theorem C60_blocks_are_a_field : forall a b c, 0 <= a < 2 ^ 128 -> 0 <= b < 2 ^ 128 -> 0 <= c < 2 ^ 128 ->
  0 <= gcm_mul a b < 2 ^ 128 /\
  gcm_mul a b = gcm_mul b a /\ gcm_mul (gcm_mul a b) c = gcm_mul a (gcm_mul b c) /\
  gcm_mul a (Z.lxor b c) = Z.lxor (gcm_mul a b) (gcm_mul a c) /\ gcm_mul (2 ^ 127) a = a /\
  (a <> 0 -> exists i, 0 <= i < 2 ^ 128 /\ gcm_mul a i = 2 ^ 127) /\
  (gcm_mul a b = 0 -> a = 0 \/ b = 0).
Proof.
  intros a b c Ha Hb Hc. change (2 ^ 127) with g1. split; [exact (gcm_mul_r128 a b Ha Hb)|]. split; [exact (gcm_mul_comm a b Ha Hb)|].
  rewrite (gcm_mul_G (gcm_mul a b) c), (gcm_mul_G a (gcm_mul b c)), (gcm_mul_G a (Z.lxor b c)), (gcm_mul_G a b), (gcm_mul_G b c), (gcm_mul_G a c), (gcm_mul_G g1 a).
  split; [exact (G_assoc a b c Ha Hb Hc)|]. split; [exact (G_lxor_r a b c Ha Hb Hc)|]. split; [exact (G_1_l a Ha)|]. split.
  - intros N. exists (ginv a). split; [exact (ginv_r128 a Ha)|]. rewrite gcm_mul_G. exact (G_inv a Ha N).
  - exact (G_zero a b Ha Hb).
Qed.
Print Assumptions C60_blocks_are_a_field.

(** (Spec only.) SP 800-38D 7.1 step 5: the hash of additional data A and ciphertext C under subkey H *)
Definition auth_hash (H : Z) (A C : list Z) : Z := GHASH H (pad16 A ++ pad16 C ++ be_bytes 8 (8 * zlen A) ++ be_bytes 8 (8 * zlen C)).
(** (Spec only.) the number of its blocks, the lengths block included *)
Definition auth_blocks (A C : list Z) : Z := (zlen A + 15) / 16 + (zlen C + 15) / 16 + 1.

(** Two different messages: for any difference D, their hashes differ by D under at most as many subkeys (out of 2^128) as
    the longer one has blocks. *)
Theorem C60_few_subkeys_collide : forall A C A' C' D Hs,
  bytes A -> bytes C -> bytes A' -> bytes C' -> zlen A < 2 ^ 61 -> zlen C < 2 ^ 61 -> zlen A' < 2 ^ 61 -> zlen C' < 2 ^ 61 ->
  (A, C) <> (A', C') -> 0 <= D < 2 ^ 128 ->
  NoDup Hs -> Forall (fun H => 0 <= H < 2 ^ 128 /\ Z.lxor (auth_hash H A C) (auth_hash H A' C') = D) Hs ->
  zlen Hs <= Z.max (auth_blocks A C) (auth_blocks A' C').
Proof.
  intros A C A' C' D Hs BA BC BA' BC' LA LC LA' LC' N HD ND F. unfold auth_blocks. rewrite <- !eblocks_len.
  now apply (collision_bound A C A' C' D Hs).
Qed.
Print Assumptions C60_few_subkeys_collide.

(** what is needed of a list of keys *)
Lemma AES_b16 key b : bytes key -> zlen key = 16 \/ zlen key = 32 -> zlen b = 16 -> b16 (AES key b).
Proof. intros Bk Lk Lb. destruct (gcm_new_ok false key Bk Lk) as (w & _ & HE & HA). rewrite <- HA by auto. apply HE. Qed.
Local Transparent gcm_tag.
Lemma gcm_tag_xor (E : list Z -> list Z) iv C A : gcm_tag E iv C A = xor_min (be_bytes 16 (auth_hash (be_val (E (repeat 0 16))) A C)) (E (iv ++ [0; 0; 0; 1])).
Proof.
  unfold gcm_tag. cbv zeta. fold (auth_hash (be_val (E (repeat 0 16))) A C). generalize (auth_hash (be_val (E (repeat 0 16))) A C). intros S.
  pose proof (zlen_be_bytes 16 S) as L. change (Z.of_nat 16) with 16 in L.
  assert (K : chunks 16 (be_bytes 16 S) = [be_bytes 16 S]).
  { unfold chunks. rewrite L. change (16 =? 16 / 16 * 16) with true. cbv iota. rewrite app_nil_r.
    rewrite chunks_exact_cons, zdrop_all, ztake_all, (chunks_exact_short 16 []) by (rewrite ?L; cbn; lia). reflexivity. }
  unfold GCTR. rewrite K. cbn [gctr_blocks]. apply app_nil_r.
Qed.
Local Opaque gcm_tag.
Lemma be_val_NoDup (l : list (list Z)) : NoDup l -> Forall b16 l -> NoDup (map be_val l).
Proof.
  induction 1 as [|x l N ND IH]; intros F; cbn [map]; constructor; inversion F as [|? ? [Bx Lx] F']; subst; auto.
  intros I. apply in_map_iff in I. destruct I as (y & E & I). rewrite Forall_forall in F'. destruct (F' y I) as [By Ly].
  apply be_val_inj in E; auto; [|lia]. subst. contradiction.
Qed.
Lemma le_val_xor_min a b : bytes a -> bytes b -> length a = length b -> le_val (xor_min a b) = Z.lxor (le_val a) (le_val b).
Proof. exact (L_Sha3.le_val_xor a b). Qed.
Lemma xor_min_rev a : forall b, length a = length b -> rev (xor_min a b) = xor_min (rev a) (rev b).
Proof.
  induction a as [|x a IH]; intros [|y b] L; try discriminate; auto. injection L as L. unfold xor_min in *. cbn [combine map rev].
  rewrite IH by auto. assert (P : forall (a b : list Z) x y, length a = length b -> map (fun '(x, y) => Z.lxor x y) (combine (a ++ [x]) (b ++ [y])) =
    map (fun '(x, y) => Z.lxor x y) (combine a b) ++ [Z.lxor x y]).
  { clear. induction a as [|u a IH]; intros [|v b] x y L; try discriminate; auto. injection L as L. cbn. now rewrite IH. }
  rewrite P; [reflexivity|]. now rewrite !rev_length.
Qed.
Lemma be_val_xor_min a b : bytes a -> bytes b -> length a = length b -> be_val (xor_min a b) = Z.lxor (be_val a) (be_val b).
Proof.
  intros Ba Bb L. unfold be_val. rewrite xor_min_rev by auto. apply le_val_xor_min; try (apply Forall_rev; assumption). now rewrite !rev_length.
Qed.
Lemma tag_bound iv A C T A' C' T' keys :
  bytes A -> bytes C -> bytes A' -> bytes C' -> zlen A < 2 ^ 61 -> zlen C < 2 ^ 61 -> zlen A' < 2 ^ 61 -> zlen C' < 2 ^ 61 -> zlen iv = 12 ->
  (A, C) <> (A', C') ->
  Forall (fun key => bytes key /\ (zlen key = 16 \/ zlen key = 32) /\
    gcm_tag (AES key) iv C A = T /\ gcm_tag (AES key) iv C' A' = T') keys ->
  NoDup (map (fun key => AES key (repeat 0 16)) keys) -> zlen keys <= Z.max (auth_blocks A C) (auth_blocks A' C').
Proof.
  intros BA BC BA' BC' LA LC LA' LC' Liv N F ND.
  destruct keys as [|k0 ks]; [change (zlen (@nil (list Z))) with 0; unfold auth_blocks; pose proof (zlen_nonneg A); pose proof (zlen_nonneg C); lia|].
  set (keys := k0 :: ks) in *.
  set (H := fun key => be_val (AES key (repeat 0 16))).
  assert (Z16 : zlen (repeat 0 16) = 16) by reflexivity.
  assert (RH : forall key, In key keys -> r128 (H key)).
  { intros key I. rewrite Forall_forall in F. destruct (F key I) as (Bk & Lk & _). destruct (AES_b16 key (repeat 0 16) Bk Lk Z16) as [B L].
    apply load_be_r128; auto. unfold zlen. lia. }
  assert (U : forall x k, r128 x -> b16 k -> be_val (xor_min (be_bytes 16 x) k) = Z.lxor x (be_val k)).
  { intros x k Hx [Bk Lk]. rewrite be_val_xor_min; [|apply be_bytes_bytes|exact Bk|rewrite be_bytes_length; unfold zlen in *; lia].
    rewrite be_val_be_bytes. change (256 ^ Z.of_nat 16) with (2 ^ 128). now rewrite Z.mod_small. }
  assert (V : forall x y z, Z.lxor x y = Z.lxor (Z.lxor x z) (Z.lxor y z)).
  { intros. rewrite (Z.lxor_comm y z), Z.lxor_assoc, <- (Z.lxor_assoc z z y), Z.lxor_nilpotent, Z.lxor_0_l. reflexivity. }
  assert (I0 : In k0 keys) by (left; reflexivity).
  assert (RA : forall key, In key keys -> r128 (auth_hash (H key) A C) /\ r128 (auth_hash (H key) A' C')).
  { intros key I. split; apply GHASH_r128; auto. }
  set (D := Z.lxor (auth_hash (H k0) A C) (auth_hash (H k0) A' C')).
  replace (zlen keys) with (zlen (map H keys)) by (unfold zlen; now rewrite map_length).
  apply (C60_few_subkeys_collide A C A' C' D (map H keys)); auto.
  - apply r128_lxor; now apply RA.
  - unfold H. rewrite <- (map_map (fun key => AES key (repeat 0 16)) be_val). apply be_val_NoDup; auto.
    apply Forall_forall. intros x I. apply in_map_iff in I. destruct I as (key & <- & I). rewrite Forall_forall in F. destruct (F key I) as (Bk & Lk & _).
    now apply AES_b16.
  - apply Forall_forall. intros x I. apply in_map_iff in I. destruct I as (key & <- & I). split; [now apply RH|].
    rewrite Forall_forall in F. destruct (F key I) as (Bk & Lk & E1 & E2). destruct (F k0 I0) as (Bk0 & Lk0 & E3 & E4).
    assert (Li : zlen (iv ++ [0; 0; 0; 1]) = 16) by (rewrite zlen_app, Liv; reflexivity).
    pose proof (AES_b16 key _ Bk Lk Li) as K1. pose proof (AES_b16 k0 _ Bk0 Lk0 Li) as K2.
    rewrite gcm_tag_xor in E1, E2, E3, E4. fold (H key) in E1, E2. fold (H k0) in E3, E4.
    destruct (RA key I) as [R1 R2], (RA k0 I0) as [R3 R4].
    apply (f_equal be_val) in E1. apply (f_equal be_val) in E2. apply (f_equal be_val) in E3. apply (f_equal be_val) in E4.
    rewrite U in E1, E2, E3, E4 by assumption. unfold D.
    rewrite (V _ _ (be_val (AES key (iv ++ [0; 0; 0; 1])))), (V (auth_hash (H k0) A C) _ (be_val (AES k0 (iv ++ [0; 0; 0; 1])))).
    rewrite E1, E2, E3, E4. reflexivity.
Qed.

(** The same for whole decryptions.  Take any two different messages under one nonce, with any tags.  The keys that accept
    both have at most as many different subkeys as the longer message has blocks.  So whoever has seen one message learns nothing that lets a second one through for more than
    that many of the 2^128 subkeys.  On x86-64 and on aarch64. *)
Theorem C60_forgery_bound : forall have512 nonce A C T A' C' T' keys,
  bytes nonce -> zlen nonce = 12 -> bytes A -> bytes C -> bytes A' -> bytes C' -> bytes T -> bytes T' ->
  zlen A < 2 ^ 61 -> zlen C <= gcm_max_bytes -> zlen A' < 2 ^ 61 -> zlen C' <= gcm_max_bytes ->
  (A, C) <> (A', C') ->
  Forall (fun key => bytes key /\ (zlen key = 16 \/ zlen key = 32) /\
    ((exists g, gcm_new have512 key = Ok g /\ fst (gcm_decrypt g nonce A C T) = Ok tt /\ fst (gcm_decrypt g nonce A' C' T') = Ok tt) \/
     (exists a, arm_gcm_new key = Ok a /\ fst (arm_gcm_decrypt a nonce A C T) = Ok tt /\ fst (arm_gcm_decrypt a nonce A' C' T') = Ok tt))) keys ->
  NoDup (map (fun key => AES key (repeat 0 16)) keys) ->
  zlen keys <= Z.max (auth_blocks A C) (auth_blocks A' C').
Proof.
  intros b nonce A C T A' C' T' keys Bn Ln BA BC BA' BC' BT BT' LA LC LA' LC' N F ND.
  apply (tag_bound nonce A C T A' C' T' keys); auto; try (unfold gcm_max_bytes in *; lia).
  eapply Forall_impl; [|exact F]. intros key (Bk & Lk & K). repeat split; auto.
  - assert (X : GCM_AD (AES key) nonce C A T <> None).
    { destruct K as [(g & En & E1 & _)|(a & En & E1 & _)].
      - destruct (C16_decrypt_is_gcm b key nonce A C T Bk Lk Bn Ln BA BC BT LA LC) as (g' & En' & E). rewrite En in En'. injection En' as <-.
        rewrite E in E1. destruct (GCM_AD (AES key) nonce C A T); discriminate.
      - destruct (C56_decrypt_is_gcm key nonce A C T Bk Lk Bn Ln BA BC BT LA LC) as (g' & En' & E). rewrite En in En'. injection En' as <-.
        rewrite E in E1. destruct (GCM_AD (AES key) nonce C A T); discriminate. }
    unfold GCM_AD in X. cbv zeta in X. destruct (list_eqb (gcm_tag (AES key) nonce C A) T) eqn:Q; [now apply list_eqb_eq in Q | contradiction].
  - assert (X : GCM_AD (AES key) nonce C' A' T' <> None).
    { destruct K as [(g & En & _ & E1)|(a & En & _ & E1)].
      - destruct (C16_decrypt_is_gcm b key nonce A' C' T' Bk Lk Bn Ln BA' BC' BT' LA' LC') as (g' & En' & E). rewrite En in En'. injection En' as <-.
        rewrite E in E1. destruct (GCM_AD (AES key) nonce C' A' T'); discriminate.
      - destruct (C56_decrypt_is_gcm key nonce A' C' T' Bk Lk Bn Ln BA' BC' BT' LA' LC') as (g' & En' & E). rewrite En in En'. injection En' as <-.
        rewrite E in E1. destruct (GCM_AD (AES key) nonce C' A' T'); discriminate. }
    unfold GCM_AD in X. cbv zeta in X. destruct (list_eqb (gcm_tag (AES key) nonce C' A') T') eqn:Q; [now apply list_eqb_eq in Q | contradiction].
Qed.
Print Assumptions C60_forgery_bound.

(** Two subkeys under which two messages do collide: the bound is 3, two are met. *)
Example C60_example_collision : let A := [] in let C := repeat 0 32 in let C' := (repeat 0 15 ++ [1]) ++ repeat 0 15 ++ [1] in
  (A, C) <> (A, C') /\ Z.max (auth_blocks A C) (auth_blocks A C') = 3 /\ NoDup [0; 2 ^ 127] /\
  Forall (fun H => 0 <= H < 2 ^ 128 /\ Z.lxor (auth_hash H A C) (auth_hash H A C') = 0) [0; 2 ^ 127].
Proof.
  cbv zeta. split; [discriminate|]. split; [reflexivity|]. split.
  - constructor; [intros [E|[]]; discriminate E | constructor; [intros [] | constructor]].
  - repeat constructor; try lia; vm_compute; reflexivity.
Qed.
(** The hypotheses of C60_forgery_bound are met by any key and the two messages it seals itself. *)
Example C60_example_forgery : let key := repeat 7 16 in let nonce := repeat 1 12 in exists g ct tag ct' tag',
  gcm_new true key = Ok g /\ ([5], ct) <> ([6], ct') /\
  fst (gcm_decrypt g nonce [5] ct tag) = Ok tt /\ fst (gcm_decrypt g nonce [6] ct' tag') = Ok tt.
Proof.
  cbv zeta. assert (B : forall x n, 0 <= x < 256 -> bytes (repeat x n)) by (intros; apply bytes_repeat; assumption).
  destruct (C14_aes_gcm_round_trip true true (repeat 7 16) (repeat 1 12) [5] [1; 2; 3]) as (g & g' & ct & tag & En & En' & _ & _ & _ & E1);
    [apply B; lia | now left | apply B; lia | reflexivity | exact (B 5 1%nat ltac:(lia)) | repeat constructor; unfold byte_ok; lia | reflexivity | discriminate |].
  destruct (C14_aes_gcm_round_trip true true (repeat 7 16) (repeat 1 12) [6] [1; 2; 3]) as (g2 & g2' & ct' & tag' & En2 & En2' & _ & _ & _ & E2);
    [apply B; lia | now left | apply B; lia | reflexivity | exact (B 6 1%nat ltac:(lia)) | repeat constructor; unfold byte_ok; lia | reflexivity | discriminate |].
  rewrite En in En'. injection En' as <-. rewrite En in En2. injection En2 as <-. rewrite En in En2'. injection En2' as <-.
  exists g, ct, tag, ct', tag'. rewrite E1, E2. repeat split; auto. discriminate.
Qed.
(** The portable and the fast code on a short input. *)
Example C60_example_ghash : let h := 0x66e94bd4ef8a2c3b884cfa59ca342b2e in
  gen_into_bytes (fold_left (gen_ghash_add h) [[]; [3; 0x88; 0xda; 0xce; 0x60; 0xb6; 0xa3; 0x92; 0xf3; 0x28; 0xc2; 0xb9; 0x71; 0xb2; 0xfe; 0x78]] gen_ghash_new) =
  [0x5e; 0x2e; 0xc7; 0x46; 0x91; 0x70; 0x62; 0x88; 0x2c; 0x85; 0xb0; 0x68; 0x53; 0x53; 0xde; 0xb7].
Proof. vm_compute. reflexivity. Qed.
