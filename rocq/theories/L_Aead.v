(** ChaCha20-Poly1305 and XChaCha20-Poly1305 compute the RFC 8439 construction. *)
Require Import Verif.Base Verif.L_Base Verif.L_Blocks Verif.L_Bits Verif.M_Ct Verif.L_Hmac Verif.M_ChaCha Verif.S_ChaCha Verif.L_ChaCha
  Verif.M_Poly1305 Verif.L_Poly1305 Verif.M_Aead.
Require Import ZifyNat.

(** a stream cipher context for [nlen]-byte nonces that runs RFC 8439 ChaCha20 with the derived key and nonce *)
Definition stream_ok (s : stream) (nlen : Z) (kf : list Z -> list Z -> list Z) (nf : list Z -> list Z) : Prop :=
  forall key nonce, bytes key -> zlen key = 32 -> bytes nonce -> zlen nonce = nlen ->
  exists c1, st_cipher s (st_new s key nonce) (repeat 0 32) = (poly1305_key_gen (kf key nonce) (nf nonce), c1) /\
    (forall b, fst (st_cipher s c1 b) = chacha20_encrypt (kf key nonce) 1 (nf nonce) b) /\
    (forall b, bytes b -> bytes (chacha20_encrypt (kf key nonce) 1 (nf nonce) b)) /\
    (forall b, zlen (chacha20_encrypt (kf key nonce) 1 (nf nonce) b) = zlen b) /\
    (forall b, chacha20_encrypt (kf key nonce) 1 (nf nonce) (chacha20_encrypt (kf key nonce) 1 (nf nonce) b) = b) /\
    bytes (poly1305_key_gen (kf key nonce) (nf nonce)) /\ zlen (poly1305_key_gen (kf key nonce) (nf nonce)) = 32.

Lemma xor_zip_zeros n k : Z.of_nat n <= zlen k -> xor_zip (repeat 0 n) k = ztake (Z.of_nat n) k.
Proof.
  revert k. induction n as [|n IH]; intros k H; cbn [repeat xor_zip]. { rewrite ztake_0. reflexivity. }
  destruct k as [|y k]. { change (zlen (@nil Z)) with 0 in H. lia. } rewrite zlen_cons in H.
  cbn [xor_zip]. rewrite IH by lia. unfold ztake. rewrite !Nat2Z.id. cbn [firstn]. rewrite Z.lxor_0_l. reflexivity.
Qed.
Lemma kstream_bytes c n : bytes (kstream c n).
Proof.
  unfold kstream. generalize 0%nat as s. induction n; intros s; cbn [seq flat_map]. constructor.
  apply bytes_app. split. apply cblock_bytes. apply IHn.
Qed.
Lemma ks_xor_bytes c b : bytes b -> bytes (ks_xor c b).
Proof. intros. apply xor_zip_bytes; auto using kstream_bytes. Qed.
Lemma ks_xor_len c b : zlen (ks_xor c b) = zlen b.
Proof. apply xor_zip_length. Qed.
Lemma ks_xor_twice c b : ks_xor c (ks_xor c b) = b.
Proof. unfold ks_xor at 1. rewrite ks_xor_len. apply xor_zip_twice. Qed.

Lemma rfc_facts key nonce : bytes key -> zlen key = 32 -> bytes nonce -> zlen nonce = 12 ->
  ks_xor (rfc_ctx key 0 nonce) (repeat 0 32) = poly1305_key_gen key nonce /\
  (forall b, bytes b -> bytes (chacha20_encrypt key 1 nonce b)) /\
  (forall b, zlen (chacha20_encrypt key 1 nonce b) = zlen b) /\
  (forall b, chacha20_encrypt key 1 nonce (chacha20_encrypt key 1 nonce b) = b) /\
  bytes (poly1305_key_gen key nonce) /\ zlen (poly1305_key_gen key nonce) = 32.
Proof.
  intros Bk Lk Bn Ln.
  assert (E : ks_xor (rfc_ctx key 0 nonce) (repeat 0 32) = poly1305_key_gen key nonce).
  { unfold ks_xor, poly1305_key_gen. change (Z.to_nat (nblk (zlen (repeat 0 32)))) with 1%nat.
    rewrite kstream_1 by (apply rfc_ctx_wc; auto). rewrite cblock_rfc by (auto; lia).
    apply (xor_zip_zeros 32). rewrite <- cblock_rfc, cblock_len by (auto; lia). lia. }
  split; auto. split; [|split; [|split; [|split]]].
  - intros. rewrite <- ks_xor_rfc by (auto; lia). auto using ks_xor_bytes.
  - intros. rewrite <- ks_xor_rfc by (auto; lia). apply ks_xor_len.
  - intros. rewrite <- !ks_xor_rfc by (auto; lia). apply ks_xor_twice.
  - rewrite <- E. apply ks_xor_bytes. apply bytes_repeat; unfold byte_ok; lia.
  - rewrite <- E, ks_xor_len. reflexivity.
Qed.

Lemma chacha_portable_ok : stream_ok chacha_portable 12 (fun k _ => k) (fun n => n).
Proof.
  intros key nonce Bk Lk Bn Ln. cbn [chacha_portable st_cipher st_new st_ctx]. unfold full_nonce12. rewrite full_nonce by auto.
  change (chacha_new key (le_bytes 4 0 ++ nonce)) with (rfc_ctx key 0 nonce).
  destruct (rfc_facts key nonce) as (E & F); auto.
  rewrite cipher_generic_spec by (apply rfc_ctx_wc; auto). rewrite E. eexists; split; [reflexivity|]. split; [|exact F].
  intros b. rewrite cipher_generic_spec by (apply wc_bump, rfc_ctx_wc; auto). cbn [fst].
  rewrite bump_rfc by (auto; lia). apply ks_xor_rfc; auto; lia.
Qed.
Lemma xchacha_portable_ok : stream_ok xchacha_portable 24 xkey xnonce.
Proof.
  intros key nonce Bk Lk Bn Ln. cbn [xchacha_portable st_cipher st_new st_ctx]. rewrite xchacha_new_rfc by auto.
  destruct (xkey_len key nonce), (xnonce_len nonce); auto.
  destruct (rfc_facts (xkey key nonce) (xnonce nonce)) as (E & F); auto.
  rewrite cipher_generic_spec by (apply rfc_ctx_wc; auto). rewrite E. eexists; split; [reflexivity|]. split; [|exact F].
  intros b. rewrite cipher_generic_spec by (apply wc_bump, rfc_ctx_wc; auto). cbn [fst].
  rewrite bump_rfc by (auto; lia). apply ks_xor_rfc; auto; lia.
Qed.
Lemma x86_two c key nonce : bytes key -> zlen key = 32 -> bytes nonce -> zlen nonce = 12 ->
  x86_ok c -> of_x86 c = rfc_ctx key 0 nonce ->
  exists c1, cipher_x86 c (repeat 0 32) = (poly1305_key_gen key nonce, c1) /\
    forall b, fst (cipher_x86 c1 b) = chacha20_encrypt key 1 nonce b.
Proof.
  intros Bk Lk Bn Ln Hc Ec. pose proof (cipher_x86_spec c (repeat 0 32) Hc) as S. destruct (cipher_x86 c (repeat 0 32)) as [o c1].
  destruct S as (-> & H1 & E1). rewrite Ec in *. exists c1. destruct (rfc_facts key nonce) as (-> & _); auto. split; auto.
  intros b. pose proof (cipher_x86_spec c1 b H1) as S. destruct (cipher_x86 c1 b) as [o c2]. destruct S as (-> & _). cbn [fst].
  rewrite E1, bump_rfc by (auto; lia). apply ks_xor_rfc; auto; lia.
Qed.
Lemma chacha_avx2_ok : stream_ok chacha_avx2 12 (fun k _ => k) (fun n => n).
Proof.
  intros key nonce Bk Lk Bn Ln. cbn [chacha_avx2 st_cipher st_new st_ctx]. unfold full_nonce12. rewrite full_nonce by auto.
  destruct (format_key_ok key (le_bytes 4 0 ++ nonce)) as [H1 H2]; auto using bytes_ctr_nonce, zlen_ctr_nonce.
  destruct (x86_two _ key nonce Bk Lk Bn Ln H1 H2) as (c1 & E1 & E2). exists c1. split; auto. split; auto.
  apply rfc_facts; auto.
Qed.
Lemma xchacha_avx2_ok : stream_ok xchacha_avx2 24 xkey xnonce.
Proof.
  intros key nonce Bk Lk Bn Ln. cbn [xchacha_avx2 st_cipher st_new st_ctx].
  destruct (xchacha_new_x86_ok key nonce) as [H1 H2]; auto. rewrite xchacha_new_rfc in H2 by auto.
  destruct (xkey_len key nonce), (xnonce_len nonce); auto.
  destruct (x86_two _ (xkey key nonce) (xnonce nonce) ltac:(auto) ltac:(auto) ltac:(auto) ltac:(auto) H1 H2) as (c1 & E1 & E2).
  exists c1. split; auto. split; auto. apply rfc_facts; auto.
Qed.

(** ** the construction *)
Lemma pad16_val (x : list Z) : Z.to_nat ((- zlen x) mod 16) = Z.to_nat (if 16 - Z.land (zlen x) 15 =? 16 then 0 else 16 - Z.land (zlen x) 15).
Proof.
  f_equal. rewrite (land_ones_mod 4) by lia. change (2 ^ 4) with 16. pose proof (Z.mod_pos_bound (zlen x) 16 ltac:(lia)).
  destruct (_ =? 16) eqn:E.
  - apply Z.mod_opp_l_z; lia.
  - rewrite Z.mod_opp_l_nz; lia.
Qed.
Lemma aead_pad_ok key m p x : bytes m -> PInv key m p -> exists p', aead_pad p (zlen x) = Ok p' /\ PInv key (m ++ pad16 x) p'.
Proof.
  intros Hm I. unfold aead_pad, pad16. rewrite pad16_val.
  destruct (_ =? 16) eqn:E.
  - cbn [Z.to_nat repeat]. rewrite app_nil_r. eauto.
  - set (k := 16 - _) in *. pose proof (land_range_r 4 (zlen x) 15 ltac:(lia)).
    assert (T : ztake k (repeat 0 16) = repeat 0 (Z.to_nat k)).
    { replace 16%nat with (Z.to_nat k + (16 - Z.to_nat k))%nat by (unfold k; lia). rewrite repeat_app, ztake_app_le by (rewrite zlen_repeat; lia).
      apply ztake_all. rewrite zlen_repeat. unfold k. lia. }
    rewrite T. apply PInv_add; auto. apply bytes_repeat; unfold byte_ok; lia.
Qed.
Lemma bytes_pad16 x : bytes (pad16 x).
Proof. unfold pad16. apply bytes_repeat; unfold byte_ok; lia. Qed.

Lemma aead_cipher_ok s nlen kf nf key nonce aad inout enc : stream_ok s nlen kf nf ->
  bytes key -> zlen key = 32 -> bytes nonce -> zlen nonce = nlen -> bytes aad -> bytes inout ->
  let out := chacha20_encrypt (kf key nonce) 1 (nf nonce) inout in
  aead_cipher s key nonce aad inout enc = Ok (out, aead_tag (kf key nonce) (nf nonce) aad (if enc then out else inout)).
Proof.
  intros Hs Bk Lk Bn Ln Ba Bi out. destruct (Hs key nonce Bk Lk Bn Ln) as (c1 & E1 & E2 & Bo & Lo & _ & Bp & Lp).
  unfold aead_cipher. rewrite E1. set (pk := poly1305_key_gen _ _) in *.
  destruct (PInv_new pk Bp Lp) as (p0 & -> & I0). cbn [bind].
  destruct (PInv_add pk [] p0 aad I0 ltac:(constructor) Ba) as (p1 & -> & I1). cbn [bind app] in *.
  destruct (aead_pad_ok pk aad p1 aad Ba I1) as (p2 & -> & I2). cbn [bind].
  assert (B2 : bytes (aad ++ pad16 aad)) by (apply bytes_app; auto using bytes_pad16).
  set (ct := if enc then out else inout).
  assert (Bct : bytes ct) by (unfold ct, out; destruct enc; auto).
  destruct (PInv_add pk _ p2 ct I2 B2 Bct) as (p3 & A3 & I3).
  assert (B3 : bytes ((aad ++ pad16 aad) ++ ct)) by (apply bytes_app; auto).
  assert (X : (if enc then let '(out, _) := st_cipher s c1 inout in let! poly := poly_add_bytes p2 out in Ok (out, poly)
    else let! poly := poly_add_bytes p2 inout in let '(out, _) := st_cipher s c1 inout in Ok (out, poly)) = Ok (out, p3)).
  { specialize (E2 inout). destruct (st_cipher s c1 inout) as [o c2]. cbn [fst] in E2. fold out in E2. subst o.
    unfold ct in A3. destruct enc; rewrite A3; reflexivity. }
  rewrite X. cbn [bind].
  assert (Lct : zlen out = zlen ct) by (unfold ct, out; destruct enc; auto). rewrite Lct.
  destruct (aead_pad_ok pk _ p3 ct B3 I3) as (p4 & -> & I4). cbn [bind].
  assert (B4 : bytes (((aad ++ pad16 aad) ++ ct) ++ pad16 ct)) by (apply bytes_app; auto using bytes_pad16).
  destruct (PInv_add pk _ p4 (le_bytes 8 (zlen aad)) I4 B4 (le_bytes_bytes _ _)) as (p5 & -> & I5). cbn [bind].
  assert (B5 : bytes ((((aad ++ pad16 aad) ++ ct) ++ pad16 ct) ++ le_bytes 8 (zlen aad))) by (apply bytes_app; auto using le_bytes_bytes).
  destruct (PInv_add pk _ p5 (le_bytes 8 (zlen ct)) I5 B5 (le_bytes_bytes _ _)) as (p6 & -> & I6). cbn [bind].
  rewrite (PInv_finish pk _ p6 Bp Lp) with (2 := I6) by (apply bytes_app; auto using le_bytes_bytes). cbn [bind].
  do 3 f_equal. unfold aead_tag, mac_data. fold pk. f_equal. rewrite <- !app_assoc. reflexivity.
Qed.

Lemma aead_tag_facts k n aad ct : bytes (aead_tag k n aad ct) /\ zlen (aead_tag k n aad ct) = 16.
Proof. unfold aead_tag, poly1305_mac. split. apply le_bytes_bytes. apply zlen_le_bytes. Qed.

Lemma aead_decrypt_ok s nlen kf nf key nonce aad inout tag : stream_ok s nlen kf nf ->
  bytes key -> zlen key = 32 -> bytes nonce -> zlen nonce = nlen -> bytes aad -> bytes inout -> bytes tag ->
  aead_decrypt s key nonce aad inout tag =
    Ok (if list_eqb tag (aead_tag (kf key nonce) (nf nonce) aad inout)
        then (Ok tt, chacha20_encrypt (kf key nonce) 1 (nf nonce) inout)
        else (Err DecryptFailed, repeat 0 (length inout))).
Proof.
  intros Hs Bk Lk Bn Ln Ba Bi Bt. unfold aead_decrypt. rewrite (aead_cipher_ok s nlen kf nf) by auto. cbn [bind].
  destruct (aead_tag_facts (kf key nonce) (nf nonce) aad inout) as [TB TL].
  pose proof (ct_equal_spec _ tag TB Bt) as C.
  destruct (ct_equal _ tag) eqn:E.
  - rewrite <- (proj1 C eq_refl), list_eqb_refl. reflexivity.
  - destruct (list_eqb tag _) eqn:F. apply list_eqb_eq in F. subst tag. destruct C as [_ C]. discriminate (C eq_refl).
    destruct (Hs key nonce Bk Lk Bn Ln) as (_ & _ & _ & _ & Lo & _). specialize (Lo inout). unfold zlen in Lo. apply Nat2Z.inj in Lo. rewrite Lo. reflexivity.
Qed.
