(** C12 (ChaCha20 / XChaCha20 keystream) and C13 (Poly1305). *)
Require Import Verif.Base Verif.L_Base Verif.L_Blocks Verif.L_Bits Verif.M_ChaCha Verif.S_ChaCha Verif.L_ChaCha
  Verif.M_Poly1305 Verif.L_Poly1305 Verif.M_Aead Verif.L_Aead.
Require Import ZifyNat.

(** ** C12.  The portable implementation, given the 16-byte nonce counter || nonce, encrypts any message as RFC 8439. *)
Theorem C12_portable_is_rfc8439 : forall key ctr nonce m,
  bytes key -> zlen key = 32 -> bytes nonce -> zlen nonce = 12 -> 0 <= ctr < 2 ^ 32 ->
  fst (cipher_generic (chacha_new key (le_bytes 4 ctr ++ nonce)) m) = chacha20_encrypt key ctr nonce m.
Proof.
  intros. fold (rfc_ctx key ctr nonce). rewrite cipher_generic_spec by (apply rfc_ctx_wc; auto). apply ks_xor_rfc; auto.
Qed.
Print Assumptions C12_portable_is_rfc8439.

(** the AVX2 implementation (8-block and 2-block paths, any length) too *)
Theorem C12_avx2_is_rfc8439 : forall key ctr nonce m,
  bytes key -> zlen key = 32 -> bytes nonce -> zlen nonce = 12 -> 0 <= ctr < 2 ^ 32 ->
  fst (cipher_x86 (format_key key (le_bytes 4 ctr ++ nonce)) m) = chacha20_encrypt key ctr nonce m.
Proof.
  intros key ctr nonce m Bk Lk Bn Ln Hc.
  destruct (format_key_ok key (le_bytes 4 ctr ++ nonce)) as [H1 H2]; auto using bytes_ctr_nonce, zlen_ctr_nonce.
  pose proof (cipher_x86_spec _ m H1) as S. destruct (cipher_x86 _ m) as [o c']. destruct S as (-> & _). rewrite H2.
  apply ks_xor_rfc; auto.
Qed.
Print Assumptions C12_avx2_is_rfc8439.

(** XChaCha20, both implementations: RFC ChaCha20 under the HChaCha20 subkey, counter 0 *)
Theorem C12_xchacha_is_draft : forall key nonce m,
  bytes key -> zlen key = 32 -> bytes nonce -> zlen nonce = 24 ->
  fst (cipher_generic (xchacha_new key nonce) m) = chacha20_encrypt (hchacha20 key (ztake 16 nonce)) 0 ([0; 0; 0; 0] ++ zdrop 16 nonce) m /\
  fst (cipher_x86 (xchacha_new_x86 key nonce) m) = chacha20_encrypt (hchacha20 key (ztake 16 nonce)) 0 ([0; 0; 0; 0] ++ zdrop 16 nonce) m.
Proof.
  intros key nonce m Bk Lk Bn Ln. destruct (xkey_len key nonce), (xnonce_len nonce); auto.
  assert (Ek : hchacha20 key (ztake 16 nonce) = xkey key nonce) by (unfold xkey; reflexivity).
  assert (En : [0; 0; 0; 0] ++ zdrop 16 nonce = xnonce nonce) by (unfold xnonce; reflexivity). rewrite Ek, En. split.
  - rewrite xchacha_new_rfc by auto. rewrite cipher_generic_spec by (apply rfc_ctx_wc; auto). apply ks_xor_rfc; auto; lia.
  - destruct (xchacha_new_x86_ok key nonce) as [H3 H4]; auto.
    pose proof (cipher_x86_spec _ m H3) as S. destruct (cipher_x86 _ m) as [o c']. destruct S as (-> & _). rewrite H4.
    rewrite xchacha_new_rfc by auto. apply ks_xor_rfc; auto; lia.
Qed.
Print Assumptions C12_xchacha_is_draft.

(** encrypting twice from the same context restores the message *)
Theorem C12_twice_is_identity : forall key nonce m,
  bytes key -> zlen key = 32 -> bytes nonce -> zlen nonce = 16 ->
  fst (cipher_generic (chacha_new key nonce) (fst (cipher_generic (chacha_new key nonce) m))) = m /\
  fst (cipher_x86 (format_key key nonce) (fst (cipher_x86 (format_key key nonce) m))) = m.
Proof.
  intros key nonce m Bk Lk Bn Ln. split.
  - pose proof (chacha_new_wc key nonce Bk Lk Bn Ln). rewrite !cipher_generic_spec by auto. apply ks_xor_twice.
  - destruct (format_key_ok key nonce) as [H1 H2]; auto.
    pose proof (cipher_x86_spec _ m H1) as S. destruct (cipher_x86 _ m) as [o c']. destruct S as (-> & _). cbn [fst].
    pose proof (cipher_x86_spec _ (ks_xor (of_x86 (format_key key nonce)) m) H1) as S. destruct (cipher_x86 _ (ks_xor _ _)) as [o c2].
    destruct S as (-> & _). apply ks_xor_twice.
Qed.
Print Assumptions C12_twice_is_identity.

(** Successive calls on one portable context, each but the last a whole number of 64-byte blocks, are one call. *)
Theorem C12_portable_resumes : forall key nonce a b,
  bytes key -> zlen key = 32 -> bytes nonce -> zlen nonce = 16 -> zlen a mod 64 = 0 ->
  let (oa, c1) := cipher_generic (chacha_new key nonce) a in
  oa ++ fst (cipher_generic c1 b) = fst (cipher_generic (chacha_new key nonce) (a ++ b)).
Proof.
  intros key nonce a b Bk Lk Bn Ln Ha. pose proof (chacha_new_wc key nonce Bk Lk Bn Ln) as W.
  rewrite !cipher_generic_spec by auto. rewrite cipher_generic_spec by (apply wc_bump, W). cbn [fst].
  pose proof (Z.div_mod (zlen a) 64 ltac:(lia)). pose proof (zlen_nonneg a). assert (0 <= zlen a / 64) by (apply Z.div_pos; lia).
  assert (E : nblk (zlen a) = zlen a / 64).
  { replace (zlen a) with (64 * (zlen a / 64) + 0) at 1 by lia. rewrite nblk_add, nblk_0. lia. }
  rewrite E. rewrite cipher_generic_spec by auto. cbn [fst]. symmetry. apply ks_xor_app; lia.
Qed.
Print Assumptions C12_portable_resumes.

(** On AVX2 the same holds exactly when the first call's length mod 128 is 0 or the implementations' counters
    agree: the new context is the portable one advanced by the blocks used, unless 32 < len mod 128 <= 64. *)
Theorem C12_avx2_counter : forall key nonce a,
  bytes key -> zlen key = 32 -> bytes nonce -> zlen nonce = 16 ->
  of_x86 (snd (cipher_x86 (format_key key nonce) a)) =
  bump (snd (cipher_generic (chacha_new key nonce) a)) (if (32 <? zlen a mod 128) && (zlen a mod 128 <=? 64) then 1 else 0).
Proof.
  intros key nonce a Bk Lk Bn Ln. pose proof (chacha_new_wc key nonce Bk Lk Bn Ln) as W.
  destruct (format_key_ok key nonce) as [H1 H2]; auto.
  pose proof (cipher_x86_spec _ a H1) as S. destruct (cipher_x86 _ a) as [o c']. destruct S as (_ & _ & E).
  rewrite H2 in E. rewrite cipher_generic_spec by auto. cbn [snd]. rewrite E, bump_bump. f_equal.
  pose proof (zlen_nonneg a). set (n := zlen a) in *.
  pose proof (Z.div_mod n 512 ltac:(lia)). pose proof (Z.mod_pos_bound n 512 ltac:(lia)).
  set (q := n / 512) in *. set (t := n mod 512) in *. unfold adv_2x, used_2x.
  pose proof (Z.div_mod t 128 ltac:(lia)). pose proof (Z.mod_pos_bound t 128 ltac:(lia)).
  set (u := t / 128) in *. set (v := t mod 128) in *.
  assert (Ev : n mod 128 = v) by (symmetry; apply (Z.mod_unique _ _ (4 * q + u)); lia). rewrite Ev.
  replace n with (64 * (8 * q + 2 * u) + v) by lia. rewrite nblk_add. 
  destruct (v =? 0) eqn:E0. { replace v with 0 by lia. rewrite nblk_0. cbn. lia. }
  destruct (Z.le_gt_cases v 64) as [L|L].
  - rewrite nblk_1 by lia. destruct (32 <? v) eqn:E1; cbn [andb]; [destruct (v <=? 64) eqn:E2|]; lia.
  - assert (nblk v = 2) as -> by (replace v with (64 * 1 + (v - 64)) by lia; rewrite nblk_add, nblk_1 by lia; lia).
    destruct (32 <? v) eqn:E1; cbn [andb]; [destruct (v <=? 64) eqn:E2|]; lia.
Qed.
Print Assumptions C12_avx2_counter.

(** Finding: the two implementations disagree after a 64-byte first call (not reachable through the AEADs,
    which make one 32-byte call and then one call for the whole message). *)
Theorem C12_avx2_resumes_refuted : exists key nonce a,
  bytes key /\ zlen key = 32 /\ bytes nonce /\ zlen nonce = 16 /\ zlen a mod 64 = 0 /\
  of_x86 (snd (cipher_x86 (format_key key nonce) a)) <> snd (cipher_generic (chacha_new key nonce) a).
Proof.
  exists (repeat 1 32), (repeat 2 16), (repeat 0 64).
  assert (B1 : bytes (repeat 1 32)) by (apply bytes_repeat; unfold byte_ok; lia).
  assert (B2 : bytes (repeat 2 16)) by (apply bytes_repeat; unfold byte_ok; lia).
  repeat match goal with |- _ /\ _ => split end; auto; try reflexivity.
  rewrite C12_avx2_counter by (auto; reflexivity). change (_ && _) with true. cbv iota.
  rewrite cipher_generic_spec by (apply chacha_new_wc; auto; reflexivity). cbn [snd]. rewrite bump_bump.
  intros E. apply (f_equal cc_nonce) in E. vm_compute in E. discriminate.
Qed.
Print Assumptions C12_avx2_resumes_refuted.

(** Finding: nothing limits the message length, and the 32-bit counter wraps.  A message of at least 2^32 blocks
    encrypted from counter 1 (as the AEADs do) reuses block 0, so its ciphertext contains plaintext xor the Poly1305 key. *)
Theorem C12_length_limit_refuted : forall key nonce m,
  bytes key -> zlen key = 32 -> bytes nonce -> zlen nonce = 12 -> 64 * (2 ^ 32 - 1) + 32 <= zlen m ->
  ztake 32 (zdrop (64 * (2 ^ 32 - 1)) (fst (cipher_generic (chacha_new key (le_bytes 4 1 ++ nonce)) m))) =
  xor_bytes (ztake 32 (zdrop (64 * (2 ^ 32 - 1)) m)) (ztake 32 (chacha20_block key 0 nonce)).
Proof.
  intros key nonce m Bk Lk Bn Ln Lm. fold (rfc_ctx key 1 nonce). rewrite cipher_generic_spec by (apply rfc_ctx_wc; auto). cbn [fst].
  set (q := 2 ^ 32 - 1) in *. rewrite <- (ztake_zdrop (64 * q) m) at 1.
  rewrite (ks_xor_app _ _ _ q) by (unfold q in *; rewrite ?zlen_ztake; lia).
  assert (L1 : zlen (ks_xor (rfc_ctx key 1 nonce) (ztake (64 * q) m)) = 64 * q) by (rewrite ks_xor_len, zlen_ztake; unfold q in *; lia).
  rewrite zdrop_app_ge by lia. rewrite L1, Z.sub_diag, zdrop_0. rewrite bump_rfc by (auto; lia). change ((1 + q) mod 2 ^ 32) with 0.
  set (r := zdrop (64 * q) m). assert (Lr : 32 <= zlen r) by (unfold r; rewrite zlen_zdrop; unfold q in *; lia).
  rewrite <- (ztake_zdrop 32 r) at 1. unfold ks_xor. rewrite ztake_zdrop.
  pose proof (nblk_ge (zlen r)). replace (Z.to_nat (nblk (zlen r))) with (1 + (Z.to_nat (nblk (zlen r)) - 1))%nat by lia.
  rewrite kstream_app, kstream_1 by (apply rfc_ctx_wc; auto). rewrite cblock_rfc by (auto; lia).
  set (blk := chacha20_block key 0 nonce). assert (Lb : zlen blk = 64) by (unfold blk; rewrite <- cblock_rfc by (auto; lia); apply cblock_len).
  rewrite <- (ztake_zdrop 32 r) at 1. rewrite <- (ztake_zdrop 32 blk) at 1. rewrite <- app_assoc.
  rewrite xor_zip_app by (rewrite !zlen_ztake by lia; lia).
  rewrite ztake_app_le by (rewrite xor_zip_length, zlen_ztake by lia; lia).
  rewrite ztake_all by (rewrite xor_zip_length, zlen_ztake by lia; lia).
  apply xor_zip_spec. rewrite !zlen_ztake by lia. lia.
Qed.
Print Assumptions C12_length_limit_refuted.

(** RFC 8439 section 2.3.2 / 2.4.2: key 00..1f, counter 1, nonce 00 00 00 09 00 00 00 4a 00 00 00 00 *)
Definition ex_key : list Z := map Z.of_nat (seq 0 32).
Definition ex_nonce : list Z := [0; 0; 0; 9; 0; 0; 0; 0x4a; 0; 0; 0; 0].
Example C12_rfc_block :
  ztake 16 (chacha20_block ex_key 1 ex_nonce) = [0x10; 0xf1; 0xe7; 0xe4; 0xd1; 0x3b; 0x59; 0x15; 0x50; 0x0f; 0xdd; 0x1f; 0xa3; 0x20; 0x71; 0xc4].
Proof. vm_compute. reflexivity. Qed.
Example C12_hypotheses : bytes ex_key /\ zlen ex_key = 32 /\ bytes ex_nonce /\ zlen ex_nonce = 12.
Proof. repeat split; bytes_tac. Qed.
(** draft-irtf-cfrg-xchacha-03 section 2.2.1 *)
Example C12_hchacha_vector :
  hchacha20 ex_key [0;0;0;9; 0;0;0;0x4a; 0;0;0;0; 0x31;0x41;0x59;0x27] =
  [0x82;0x41;0x3b;0x42;0x27;0xb2;0x7b;0xfe;0xd3;0x0e;0x42;0x50;0x8a;0x87;0x7d;0x73;
   0xa0;0xf9;0xe4;0xd5;0x8a;0x74;0xa8;0x53;0xc1;0x2e;0xc4;0x13;0x26;0xd3;0xec;0xdc].
Proof. vm_compute. reflexivity. Qed.

(** ** C13.  However a message is cut into pieces, the tag is the RFC 8439 tag of their concatenation; no
    arithmetic in the implementation overflows and nothing panics ([chk] in the model makes overflow a panic). *)
Theorem C13_poly1305_is_rfc8439 : forall key pieces,
  bytes key -> zlen key = 32 -> Forall bytes pieces ->
  (let! p := poly_new key in let! p := poly_adds p pieces in poly_finish p) = Ok (poly1305_mac key (concat pieces)).
Proof.
  intros key ms Bk Lk Bm. destruct (PInv_new key Bk Lk) as (p & -> & I). cbn [bind].
  destruct (PInv_adds key ms [] p I ltac:(constructor) Bm) as (p' & -> & I'). cbn [bind app] in *.
  apply PInv_finish; auto. clear -Bm. induction Bm; cbn [concat]. constructor. apply bytes_app; auto.
Qed.
Print Assumptions C13_poly1305_is_rfc8439.

Corollary C13_splitting_irrelevant : forall key pieces pieces',
  bytes key -> zlen key = 32 -> Forall bytes pieces -> Forall bytes pieces' -> concat pieces = concat pieces' ->
  (let! p := poly_new key in let! p := poly_adds p pieces in poly_finish p) =
  (let! p := poly_new key in let! p := poly_adds p pieces' in poly_finish p).
Proof. intros. rewrite !C13_poly1305_is_rfc8439 by auto. congruence. Qed.
Print Assumptions C13_splitting_irrelevant.

(** RFC 8439 section 2.5.2 *)
Definition ex_polykey : list Z := [0x85;0xd6;0xbe;0x78;0x57;0x55;0x6d;0x33;0x7f;0x44;0x52;0xfe;0x42;0xd5;0x06;0xa8;
  0x01;0x03;0x80;0x8a;0xfb;0x0d;0xb2;0xfd;0x4a;0xbf;0xf6;0xaf;0x41;0x49;0xf5;0x1b].
Definition ex_polymsg : list Z := [67;114;121;112;116;111;103;114;97;112;104;105;99;32;70;111;114;117;109;32;82;101;115;101;97;114;99;104;32;71;114;111;117;112].
Example C13_rfc_vector : poly1305_mac ex_polykey ex_polymsg = [0xa8;0x06;0x1d;0xc1;0x30;0x51;0x36;0xc6;0xc2;0x2b;0x8b;0xaf;0x0c;0x01;0x27;0xa9].
Proof. vm_compute. reflexivity. Qed.
Example C13_hypotheses : bytes ex_polykey /\ zlen ex_polykey = 32 /\ Forall bytes [ztake 5 ex_polymsg; []; zdrop 5 ex_polymsg].
Proof. repeat split; try bytes_tac. constructor; [bytes_tac|constructor; [bytes_tac|constructor; [bytes_tac|constructor]]]. Qed.
