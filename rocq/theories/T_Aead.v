(** C14 (AEAD round trip) and C15 (AEAD rejection) for ChaCha20-Poly1305 and XChaCha20-Poly1305.
    AES-GCM is in T_Gcm.v. *)
Require Import Verif.Base Verif.L_Base Verif.M_ChaCha Verif.S_ChaCha Verif.L_ChaCha Verif.M_Poly1305 Verif.M_Aead Verif.L_Aead.
Require Import ZifyNat.

(** Encryption is the RFC 8439 AEAD (section 2.8), on both implementations. *)
Theorem C14_chacha20poly1305_encrypts_per_rfc : forall s key nonce aad pt,
  s = chacha_portable \/ s = chacha_avx2 ->
  bytes key -> zlen key = 32 -> bytes nonce -> zlen nonce = 12 -> bytes aad -> bytes pt ->
  aead_encrypt s key nonce aad pt =
    let ct := chacha20_encrypt key 1 nonce pt in Ok (ct, aead_tag key nonce aad ct).
Proof.
  intros s key nonce aad pt [-> | ->] **; unfold aead_encrypt.
  - apply (aead_cipher_ok _ 12 (fun k _ => k) (fun n => n)); auto using chacha_portable_ok.
  - apply (aead_cipher_ok _ 12 (fun k _ => k) (fun n => n)); auto using chacha_avx2_ok.
Qed.
Print Assumptions C14_chacha20poly1305_encrypts_per_rfc.

Theorem C14_xchacha20poly1305_encrypts_per_draft : forall s key nonce aad pt,
  s = xchacha_portable \/ s = xchacha_avx2 ->
  bytes key -> zlen key = 32 -> bytes nonce -> zlen nonce = 24 -> bytes aad -> bytes pt ->
  aead_encrypt s key nonce aad pt =
    let ct := chacha20_encrypt (xkey key nonce) 1 (xnonce nonce) pt in
    Ok (ct, aead_tag (xkey key nonce) (xnonce nonce) aad ct).
Proof.
  intros s key nonce aad pt [-> | ->] **; unfold aead_encrypt.
  - apply (aead_cipher_ok _ 24 xkey xnonce); auto using xchacha_portable_ok.
  - apply (aead_cipher_ok _ 24 xkey xnonce); auto using xchacha_avx2_ok.
Qed.
Print Assumptions C14_xchacha20poly1305_encrypts_per_draft.

(** the nonce length of each of the four AEAD instances *)
Definition nonce_len (s : stream) (n : Z) : Prop :=
  (n = 12 /\ (s = chacha_portable \/ s = chacha_avx2)) \/ (n = 24 /\ (s = xchacha_portable \/ s = xchacha_avx2)).
Lemma nonce_len_ok s n : nonce_len s n -> exists kf nf, stream_ok s n kf nf.
Proof.
  intros [[-> [-> | ->]] | [-> [-> | ->]]]; eauto using chacha_portable_ok, chacha_avx2_ok, xchacha_portable_ok, xchacha_avx2_ok.
Qed.

(** C14: decrypting what was encrypted gives the message back; the ciphertext is as long as the message and
    the tag is 16 bytes. *)
Theorem C14_chacha_round_trip : forall s n key nonce aad pt,
  nonce_len s n -> bytes key -> zlen key = 32 -> bytes nonce -> zlen nonce = n -> bytes aad -> bytes pt ->
  exists ct tag, aead_encrypt s key nonce aad pt = Ok (ct, tag) /\ zlen ct = zlen pt /\ zlen tag = 16 /\
    aead_decrypt s key nonce aad ct tag = Ok (Ok tt, pt).
Proof.
  intros s n key nonce aad pt Hs Bk Lk Bn Ln Ba Bp. destruct (nonce_len_ok s n Hs) as (kf & nf & So).
  destruct (So key nonce Bk Lk Bn Ln) as (_ & _ & _ & Bo & Lo & Tw & _ & _).
  pose proof (aead_cipher_ok s n kf nf key nonce aad pt true So Bk Lk Bn Ln Ba Bp) as E. cbv zeta iota in E.
  do 2 eexists. split; [exact E|]. destruct (aead_tag_facts (kf key nonce) (nf nonce) aad (chacha20_encrypt (kf key nonce) 1 (nf nonce) pt)) as [TB TL].
  split; [apply Lo|]. split; [exact TL|].
  rewrite (aead_decrypt_ok s n kf nf) by auto. rewrite list_eqb_refl, Tw. reflexivity.
Qed.
Print Assumptions C14_chacha_round_trip.

(** the portable and AVX2 implementations interoperate *)
Theorem C14_implementations_agree : forall key nonce aad buf tag,
  bytes key -> zlen key = 32 -> bytes nonce -> bytes aad -> bytes buf -> bytes tag ->
  (zlen nonce = 12 -> aead_encrypt chacha_portable key nonce aad buf = aead_encrypt chacha_avx2 key nonce aad buf /\
     aead_decrypt chacha_portable key nonce aad buf tag = aead_decrypt chacha_avx2 key nonce aad buf tag) /\
  (zlen nonce = 24 -> aead_encrypt xchacha_portable key nonce aad buf = aead_encrypt xchacha_avx2 key nonce aad buf /\
     aead_decrypt xchacha_portable key nonce aad buf tag = aead_decrypt xchacha_avx2 key nonce aad buf tag).
Proof.
  intros. split; intros Ln; split.
  - rewrite !C14_chacha20poly1305_encrypts_per_rfc by auto. reflexivity.
  - rewrite (aead_decrypt_ok chacha_portable 12 (fun k _ => k) (fun n => n)), (aead_decrypt_ok chacha_avx2 12 (fun k _ => k) (fun n => n))
      by auto using chacha_portable_ok, chacha_avx2_ok. reflexivity.
  - rewrite !C14_xchacha20poly1305_encrypts_per_draft by auto. reflexivity.
  - rewrite (aead_decrypt_ok xchacha_portable 24 xkey xnonce), (aead_decrypt_ok xchacha_avx2 24 xkey xnonce)
      by auto using xchacha_portable_ok, xchacha_avx2_ok. reflexivity.
Qed.
Print Assumptions C14_implementations_agree.

(** C15: for any ciphertext and any tag of any length, decryption succeeds iff the tag is exactly the RFC tag of
    (nonce, aad, ciphertext); then the buffer is the plaintext.  Otherwise the result is DecryptFailed and the
    buffer is all zeroes.  It never panics. *)
Theorem C15_chacha20poly1305_rejects : forall s key nonce aad ct tag,
  s = chacha_portable \/ s = chacha_avx2 ->
  bytes key -> zlen key = 32 -> bytes nonce -> zlen nonce = 12 -> bytes aad -> bytes ct -> bytes tag ->
  (tag = aead_tag key nonce aad ct ->
     aead_decrypt s key nonce aad ct tag = Ok (Ok tt, chacha20_encrypt key 1 nonce ct)) /\
  (tag <> aead_tag key nonce aad ct ->
     aead_decrypt s key nonce aad ct tag = Ok (Err DecryptFailed, repeat 0 (length ct))).
Proof.
  intros s key nonce aad ct tag Hs Bk Lk Bn Ln Ba Bc Bt.
  assert (E : stream_ok s 12 (fun k _ => k) (fun n => n)) by (destruct Hs as [-> | ->]; auto using chacha_portable_ok, chacha_avx2_ok).
  rewrite (aead_decrypt_ok s 12 (fun k _ => k) (fun n => n)) by auto. split.
  - intros ->. rewrite list_eqb_refl. reflexivity.
  - intros N. apply list_eqb_neq in N. rewrite N. reflexivity.
Qed.
Print Assumptions C15_chacha20poly1305_rejects.

Theorem C15_xchacha20poly1305_rejects : forall s key nonce aad ct tag,
  s = xchacha_portable \/ s = xchacha_avx2 ->
  bytes key -> zlen key = 32 -> bytes nonce -> zlen nonce = 24 -> bytes aad -> bytes ct -> bytes tag ->
  (tag = aead_tag (xkey key nonce) (xnonce nonce) aad ct ->
     aead_decrypt s key nonce aad ct tag = Ok (Ok tt, chacha20_encrypt (xkey key nonce) 1 (xnonce nonce) ct)) /\
  (tag <> aead_tag (xkey key nonce) (xnonce nonce) aad ct ->
     aead_decrypt s key nonce aad ct tag = Ok (Err DecryptFailed, repeat 0 (length ct))).
Proof.
  intros s key nonce aad ct tag Hs Bk Lk Bn Ln Ba Bc Bt.
  assert (E : stream_ok s 24 xkey xnonce) by (destruct Hs as [-> | ->]; auto using xchacha_portable_ok, xchacha_avx2_ok).
  rewrite (aead_decrypt_ok s 24 xkey xnonce) by auto. split.
  - intros ->. rewrite list_eqb_refl. reflexivity.
  - intros N. apply list_eqb_neq in N. rewrite N. reflexivity.
Qed.
Print Assumptions C15_xchacha20poly1305_rejects.

(** consequence: a tag that is not 16 bytes long is always rejected, and so is any change to a valid tag *)
Corollary C15_wrong_length_tag : forall s n key nonce aad ct tag,
  nonce_len s n -> bytes key -> zlen key = 32 -> bytes nonce -> zlen nonce = n -> bytes aad -> bytes ct -> bytes tag ->
  zlen tag <> 16 -> aead_decrypt s key nonce aad ct tag = Ok (Err DecryptFailed, repeat 0 (length ct)).
Proof.
  intros s n key nonce aad ct tag Hs Bk Lk Bn Ln Ba Bc Bt Lt. destruct (nonce_len_ok s n Hs) as (kf & nf & So).
  rewrite (aead_decrypt_ok s n kf nf) by auto. destruct (list_eqb tag _) eqn:E; auto. exfalso. apply list_eqb_eq in E. subst tag.
  apply Lt. apply aead_tag_facts.
Qed.
Print Assumptions C15_wrong_length_tag.
Corollary C15_changed_tag : forall s n key nonce aad pt ct tag tag',
  nonce_len s n -> bytes key -> zlen key = 32 -> bytes nonce -> zlen nonce = n -> bytes aad -> bytes pt -> bytes tag' ->
  aead_encrypt s key nonce aad pt = Ok (ct, tag) -> tag' <> tag ->
  aead_decrypt s key nonce aad ct tag' = Ok (Err DecryptFailed, repeat 0 (length pt)).
Proof.
  intros s n key nonce aad pt ct tag tag' Hs Bk Lk Bn Ln Ba Bp Bt E N. destruct (nonce_len_ok s n Hs) as (kf & nf & So).
  destruct (So key nonce Bk Lk Bn Ln) as (_ & _ & _ & Bo & Lo & Tw & _ & _).
  unfold aead_encrypt in E. rewrite (aead_cipher_ok s n kf nf) in E by auto. injection E as <- <-.
  rewrite (aead_decrypt_ok s n kf nf) by auto.
  destruct (list_eqb tag' _) eqn:F. { apply list_eqb_eq in F. contradiction. }
  specialize (Lo pt). unfold zlen in Lo. apply Nat2Z.inj in Lo. rewrite Lo. reflexivity.
Qed.
Print Assumptions C15_changed_tag.

(** a concrete run: hypotheses are met, and the model computes *)
Example C14_example :
  let key := map Z.of_nat (seq 0 32) in let nonce := map Z.of_nat (seq 100 12) in
  nonce_len chacha_portable 12 /\ bytes key /\ zlen key = 32 /\ bytes nonce /\ zlen nonce = 12 /\
  aead_encrypt chacha_portable key nonce [1; 2; 3] [104; 105] =
    Ok ([92; 120], [244; 247; 185; 15; 217; 86; 185; 152; 79; 233; 81; 137; 131; 220; 226; 95]).
Proof.
  cbv zeta. split; [left; auto|]. split; [bytes_tac|]. split; [reflexivity|]. split; [bytes_tac|]. split; [reflexivity|].
  vm_compute. reflexivity.
Qed.
