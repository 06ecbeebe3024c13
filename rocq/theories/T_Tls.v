(** C39 (TLS record round trip), C40 (record decryption is total and bounded), C43 (nonces never repeat). *)
Require Import Verif.Base Verif.L_Base Verif.L_Blocks Verif.L_Bits Verif.L_Hmac Verif.S_ChaCha Verif.S_Aes Verif.S_Gcm Verif.S_Tls Verif.M_Aes Verif.M_Aead Verif.M_AesGcm Verif.M_TlsRecord Verif.L_TlsRecord.
Require Import ZifyNat.
Local Opaque AES chacha20_encrypt aead_tag GCTR gcm_tag gcm_encrypt gcm_decrypt aead_encrypt aead_decrypt.

(** a message a TLS implementation hands to an encrypter *)
Definition sendable (m : plain_out) : Prop :=
  Forall bytes (po_chunks m) /\ 0 < po_typ m < 256 /\ 0 <= po_ver m < 2 ^ 16 /\ zlen (concat (po_chunks m)) <= 16384.
Definition content (m : plain_out) : list Z := concat (po_chunks m).
(** both ends use the same AEAD; each may run another implementation of it *)
Definition peers (x y : aead_alg) : Prop := match x, y with AlgChaCha _, AlgChaCha _ => True | AlgGcm _, AlgGcm _ => True | _, _ => False end.
Lemma peers_spec x y key : peers x y -> spec_of x key = spec_of y key.
Proof. destruct x, y; cbn; tauto. Qed.
Lemma content_bytes m : Forall bytes (po_chunks m) -> bytes (content m).
Proof. apply bytes_concat. Qed.
Lemma okin_intro n a p : bytes n -> zlen n = 12 -> bytes a /\ zlen a < 2 ^ 61 -> bytes p -> zlen p <= 2 ^ 36 - 32 -> okin n a p.
Proof. unfold okin. tauto. Qed.
Lemma split16 (c t : list Z) : zlen t = 16 -> ztake (zlen (c ++ t) - 16) (c ++ t) = c /\ zdrop (zlen (c ++ t) - 16) (c ++ t) = t.
Proof. intros H. replace (zlen (c ++ t) - 16) with (zlen c) by (rewrite zlen_app; lia). rewrite ztake_app_eq, zdrop_app_eq by auto. auto. Qed.

(** *** TLS1.3 *)
(** the two TLS1.3 ciphers are the same function of their AEAD *)
Lemma same13 A iv m seq : gcm_tls13_encrypt A iv m seq = chacha_tls13_encrypt A iv m seq. Proof. reflexivity. Qed.
Lemma same13d A iv m seq : gcm_tls13_decrypt A iv m seq = chacha_tls13_decrypt A iv m seq. Proof. reflexivity. Qed.
Lemma enc13 alg key iv : alg_ok alg key -> exists A enc dec, good A (spec_of alg key) /\ tls13_encrypter alg key iv = Ok enc /\ tls13_decrypter alg key iv = Ok dec /\
  (forall m seq, enc m seq = chacha_tls13_encrypt A iv m seq) /\ (forall m seq, dec m seq = chacha_tls13_decrypt A iv m seq).
Proof.
  intros H. destruct (alg_good alg key H) as (A & E & G). exists A. unfold tls13_encrypter, tls13_decrypter. rewrite E. cbn [bind].
  destruct alg; eexists _, _; (split; [exact G|]); (split; [reflexivity|]); (split; [reflexivity|]); split; intros; reflexivity.
Qed.
Lemma sealed13 A S iv m seq : good A S -> bytes iv -> zlen iv = 12 -> 0 <= seq < 2 ^ 64 -> sendable m ->
  exists c t, seal S (nonce_new iv seq) (make_tls13_aad (zlen (content m) + 17)) (content m ++ [po_typ m]) = (c, t) /\
    zlen c = zlen (content m) + 1 /\ zlen t = 16 /\ bytes c /\ bytes t /\
    unseal S (nonce_new iv seq) (make_tls13_aad (zlen (content m) + 17)) c t = Some (content m ++ [po_typ m]) /\
    chacha_tls13_encrypt A iv m seq = Ok (mkMsg 23 0x0303 (c ++ t)) /\ okin (nonce_new iv seq) (make_tls13_aad (zlen (content m) + 17)) c.
Proof.
  intros G Bi Li Hs (Bc & Ht & Hv & Hl). pose proof (content_bytes m Bc) as B. destruct (nonce_ok iv seq Bi Li Hs) as (_ & Bn & Ln). fold (content m) in Hl.
  pose proof (zlen_nonneg (content m)) as NN. pose proof (aad13_facts (zlen (content m) + 17) ltac:(lia)) as FA.
  assert (LP : zlen (content m ++ [po_typ m]) = zlen (content m) + 1) by (rewrite zlen_app; reflexivity).
  assert (K : okin (nonce_new iv seq) (make_tls13_aad (zlen (content m) + 17)) (content m ++ [po_typ m])).
  { apply okin_intro; auto; [|lia]. apply Forall_app; split; auto. constructor; [unfold byte_ok; lia|constructor]. }
  destruct (seal S _ _ (content m ++ [po_typ m])) as [c t] eqn:E. exists c, t. destruct (g_rt A S G _ _ _ _ _ K E) as (L1 & L2 & B1 & B2 & U). rewrite LP in L1.
  sp; auto.
  - unfold chacha_tls13_encrypt, CHACHAPOLY1305_OVERHEAD. fold (content m). cbv zeta. replace (zlen (content m) + 1 + 16) with (zlen (content m) + 17) by lia. rewrite (g_enc A S G _ _ _ K), E. reflexivity.
  - destruct K as (K1 & K2 & K3 & K4 & _). unfold okin. sp; auto. lia.
Qed.

(** An encrypted TLS1.3 record is the one RFC 8446 prescribes. *)
Theorem C39_tls13_record : forall alg key iv m seq, alg_ok alg key -> bytes iv -> zlen iv = 12 -> 0 <= seq < 2 ^ 64 -> sendable m ->
  exists enc, tls13_encrypter alg key iv = Ok enc /\
    enc m seq = Ok (mkMsg 23 0x0303 (tls13_record (spec_of alg key) iv seq (po_typ m) (content m))).
Proof.
  intros alg key iv m seq Ha Bi Li Hs Hm. destruct (enc13 alg key iv Ha) as (A & enc & dec & G & E1 & _ & E2 & _). exists enc. split; auto. rewrite E2.
  destruct (sealed13 A _ iv m seq G Bi Li Hs Hm) as (c & t & S1 & _ & _ & _ & _ & _ & -> & _). unfold tls13_record.
  destruct (nonce_ok iv seq Bi Li Hs) as (<- & _). destruct Hm as (_ & _ & _ & Hl). fold (content m) in Hl. pose proof (zlen_nonneg (content m)).
  rewrite <- ad13_ok by lia. rewrite S1. reflexivity.
Qed.
Print Assumptions C39_tls13_record.

(** TLS1.3: what one end encrypts with sequence number [seq] the other decrypts, under the same keys and
    [seq], to the same type and content; for either AEAD and whatever implementation each end runs. *)
Theorem C39_tls13_round_trip : forall alg alg' key iv m seq, alg_ok alg key -> alg_ok alg' key -> peers alg alg' ->
  bytes iv -> zlen iv = 12 -> 0 <= seq < 2 ^ 64 -> sendable m ->
  exists enc dec r, tls13_encrypter alg key iv = Ok enc /\ tls13_decrypter alg' key iv = Ok dec /\
    enc m seq = Ok r /\ zlen (ms_payload r) = zlen (content m) + 17 /\ dec r seq = Ok (mkMsg (po_typ m) 0x0304 (content m)).
Proof.
  intros alg alg' key iv m seq Ha Ha' Hp Bi Li Hs Hm. destruct (enc13 alg key iv Ha) as (A & enc & _ & G & E1 & _ & E2 & _).
  destruct (enc13 alg' key iv Ha') as (A' & _ & dec & G' & _ & D1 & _ & D2). rewrite <- (peers_spec _ _ key Hp) in G'. set (S := spec_of alg key) in *.
  destruct (sealed13 A S iv m seq G Bi Li Hs Hm) as (c & t & S1 & L1 & L2 & B1 & B2 & U & S2 & K).
  exists enc, dec, (mkMsg 23 0x0303 (c ++ t)). sp; auto; [rewrite E2; auto|cbn [ms_payload]; rewrite zlen_app; lia|].
  rewrite D2. unfold chacha_tls13_decrypt. cbn [ms_payload]. unfold CHACHAPOLY1305_OVERHEAD. pose proof (zlen_nonneg (content m)) as NN.
  destruct (split16 c t L2) as [-> ->]. replace (zlen (c ++ t)) with (zlen (content m) + 17) by (rewrite zlen_app; lia).
  rewrite (proj2 (Z.ltb_ge _ _)) by lia. rewrite (g_dec A' S G' _ _ _ _ K B2), U. cbn [opened bind fst snd].
  destruct Hm as (_ & Ht & _ & Hl). fold (content m) in Hl. unfold into_tls13_unpadded_message. rewrite zlen_app. change (zlen [po_typ m]) with 1. unfold MAX_FRAGMENT_LEN.
  rewrite (proj2 (Z.ltb_ge _ _)) by lia. rewrite rev_app_distr. cbn [rev app unpad]. rewrite (proj2 (Z.eqb_neq _ _)) by lia. rewrite rev_involutive.
  rewrite (proj2 (Z.ltb_ge _ _)) by lia. reflexivity.
Qed.
Print Assumptions C39_tls13_round_trip.

(** TLS1.3 decryption of any received record: never a panic; a payload exactly when the record
    authenticates and its plaintext is a TLSInnerPlaintext of at most 2^14 + 1 bytes. *)
Theorem C40_tls13_decrypt : forall alg key iv r seq, alg_ok alg key -> bytes iv -> zlen iv = 12 -> 0 <= seq < 2 ^ 64 ->
  bytes (ms_payload r) -> zlen (ms_payload r) < 2 ^ 16 ->
  exists dec, tls13_decrypter alg key iv = Ok dec /\ dec r seq <> Panic /\
    let len := zlen (ms_payload r) in
    let plain := unseal (spec_of alg key) (record_nonce iv seq) (ad13 len) (ztake (len - 16) (ms_payload r)) (zdrop (len - 16) (ms_payload r)) in
    (forall m', dec r seq = Ok m' <->
      16 <= len /\ ms_ver m' = 0x0304 /\ exists p, plain = Some p /\ inner_plaintext p (ms_payload m') (ms_typ m') /\ zlen p <= 16385) /\
    (len < 16 -> dec r seq = Err DecryptError) /\
    (plain = None -> dec r seq = Err DecryptError).
Proof.
  intros alg key iv r seq Ha Bi Li Hs Br Lr. destruct (enc13 alg key iv Ha) as (A & _ & dec & G & _ & D1 & _ & D2). exists dec. split; auto.
  destruct (nonce_ok iv seq Bi Li Hs) as (<- & Bn & Ln). pose proof (zlen_nonneg (ms_payload r)) as NN. cbv zeta. rewrite <- ad13_ok by lia. rewrite D2. clear D1 D2 dec.
  unfold chacha_tls13_decrypt, CHACHAPOLY1305_OVERHEAD. cbv zeta. set (len := zlen (ms_payload r)) in *.
  destruct (Z.ltb_spec len 16) as [Hlt|Hge].
  { split; [discriminate|]. split; [|split; auto]. intros m'. split; [discriminate|lia]. }
  assert (K : okin (nonce_new iv seq) (make_tls13_aad len) (ztake (len - 16) (ms_payload r))).
  { apply okin_intro; auto using aad13_facts, bytes_ztake. rewrite zlen_ztake; lia. }
  rewrite (g_dec A _ G _ _ _ _ K) by (apply bytes_zdrop; auto).
  destruct (unseal _ _ _ _ _) as [p|] eqn:U.
  2: { cbn [opened bind fst snd]. split; [discriminate|]. split; [|split; auto; lia]. intros m'. split; [discriminate|]. intros (_ & _ & p & X & _). discriminate. }
  cbn [opened bind fst snd]. unfold into_tls13_unpadded_message, MAX_FRAGMENT_LEN. pose proof (unpad_spec p) as UP.
  destruct (Z.ltb_spec (16384 + 1) (zlen p)) as [Hbig|Hok].
  { split; [discriminate|]. split; [|split; [lia|discriminate]]. intros m'. split; [discriminate|]. intros (_ & _ & p' & X & _ & Y). injection X as <-. lia. }
  destruct (unpad (rev p)) as [[t c]|].
  2: { split; [discriminate|]. split; [|split; [lia|discriminate]]. intros m'. split; [discriminate|]. intros (_ & _ & p' & X & Y & _). injection X as <-. destruct (UP _ _ Y). }
  pose proof (inner_len _ _ _ UP). rewrite (proj2 (Z.ltb_ge _ _)) by lia. split; [discriminate|]. split; [|split; [lia|discriminate]].
  intros m'. split.
  - intros X. injection X as <-. cbn [ms_ver ms_payload ms_typ]. split; [lia|]. split; [reflexivity|]. exists p. auto with zarith.
  - intros (_ & V & p' & X & Y & _). injection X as <-. destruct (inner_unique _ _ _ _ _ UP Y) as [-> ->]. destruct m'. cbn in *. subst. reflexivity.
Qed.
Print Assumptions C40_tls13_decrypt.
(** ... hence the payload is at most 2^14 bytes and the type is not zero *)
Corollary C40_tls13_bounded : forall alg key iv r seq dec m', alg_ok alg key -> bytes iv -> zlen iv = 12 -> 0 <= seq < 2 ^ 64 ->
  bytes (ms_payload r) -> zlen (ms_payload r) < 2 ^ 16 -> tls13_decrypter alg key iv = Ok dec -> dec r seq = Ok m' ->
  zlen (ms_payload m') <= 16384 /\ ms_typ m' <> 0.
Proof.
  intros alg key iv r seq dec m' Ha Bi Li Hs Br Lr HD H. destruct (C40_tls13_decrypt alg key iv r seq Ha Bi Li Hs Br Lr) as (d & E & _ & X & _).
  assert (d = dec) by congruence. subst d. apply X in H as (_ & _ & p & _ & Y & Z). pose proof (inner_len _ _ _ Y). destruct Y. split; auto. lia.
Qed.
Print Assumptions C40_tls13_bounded.

(** *** TLS1.2, ChaCha20-Poly1305 *)
Lemma enc12c s key iv : alg_ok (AlgChaCha s) key -> zlen iv = 12 -> exists A, good A (s_chacha key) /\
  tls12_encrypter (AlgChaCha s) key iv [] = Ok (chacha_tls12_encrypt A iv) /\ tls12_decrypter (AlgChaCha s) key iv = Ok (chacha_tls12_decrypt A iv).
Proof.
  intros H L. destruct (alg_good _ key H) as (A & E & G). exists A. unfold tls12_encrypter, tls12_decrypter. rewrite E. cbn [bind]. rewrite (proj2 (Z.eqb_eq _ _) L). auto.
Qed.
(** a message of any length (the limit is not enforced here, see below) *)
Definition sendable12 (m : plain_out) : Prop :=
  Forall bytes (po_chunks m) /\ 0 < po_typ m < 256 /\ 0 <= po_ver m < 2 ^ 16 /\ zlen (concat (po_chunks m)) < 2 ^ 16.
Lemma sealed12 A S iv m seq : good A S -> bytes iv -> zlen iv = 12 -> 0 <= seq < 2 ^ 64 -> sendable12 m ->
  exists c t, seal S (nonce_new iv seq) (make_tls12_aad seq (po_typ m) (po_ver m) (zlen (content m))) (content m) = (c, t) /\
    zlen c = zlen (content m) /\ zlen t = 16 /\ bytes c /\ bytes t /\
    unseal S (nonce_new iv seq) (make_tls12_aad seq (po_typ m) (po_ver m) (zlen (content m))) c t = Some (content m) /\
    okin (nonce_new iv seq) (make_tls12_aad seq (po_typ m) (po_ver m) (zlen (content m))) c /\
    ta_enc A (nonce_new iv seq) (make_tls12_aad seq (po_typ m) (po_ver m) (zlen (content m))) (content m) = Ok (c, t).
Proof.
  intros G Bi Li Hs (Bc & Ht & Hv & Hl). pose proof (content_bytes m Bc) as B. destruct (nonce_ok iv seq Bi Li Hs) as (_ & Bn & Ln). fold (content m) in Hl.
  pose proof (aad12_facts seq (po_typ m) (po_ver m) (zlen (content m)) ltac:(unfold byte_ok; lia)) as FA.
  set (aad := make_tls12_aad seq (po_typ m) (po_ver m) (zlen (content m))) in *.
  assert (K : okin (nonce_new iv seq) aad (content m)) by (apply okin_intro; auto; lia).
  destruct (seal S _ _ (content m)) as [c t] eqn:E. exists c, t. destruct (g_rt A S G _ _ _ _ _ K E) as (L1 & L2 & B1 & B2 & U).
  sp; auto; [|rewrite (g_enc A S G _ _ _ K), E; reflexivity]. destruct K as (K1 & K2 & K3 & K4 & _). unfold okin. sp; auto. lia.
Qed.
Theorem C39_tls12_chacha_round_trip : forall s s' key iv m seq, alg_ok (AlgChaCha s) key -> alg_ok (AlgChaCha s') key ->
  bytes iv -> zlen iv = 12 -> 0 <= seq < 2 ^ 64 -> sendable12 m ->
  exists enc dec r, tls12_encrypter (AlgChaCha s) key iv [] = Ok enc /\ tls12_decrypter (AlgChaCha s') key iv = Ok dec /\ enc m seq = Ok r /\
    r = mkMsg (po_typ m) (po_ver m) (tls12_chacha_record (s_chacha key) iv seq (po_typ m) (po_ver m) (content m)) /\
    dec r seq = Ok (mkMsg (po_typ m) (po_ver m) (content m)).
Proof.
  intros s s' key iv m seq Ha Ha' Bi Li Hs Hm. destruct (enc12c s key iv Ha Li) as (A & G & E1 & _). destruct (enc12c s' key iv Ha' Li) as (A' & G' & _ & D1).
  destruct (sealed12 A _ iv m seq G Bi Li Hs Hm) as (c & t & S1 & L1 & L2 & B1 & B2 & U & K & S2).
  eexists _, _, (mkMsg (po_typ m) (po_ver m) (c ++ t)). split; [exact E1|]. split; [exact D1|]. destruct Hm as (_ & Ht & Hv & Hl). fold (content m) in Hl. pose proof (zlen_nonneg (content m)) as NN. sp.
  - unfold chacha_tls12_encrypt. fold (content m). cbv zeta. rewrite S2. reflexivity.
  - f_equal. unfold tls12_chacha_record. destruct (nonce_ok iv seq Bi Li Hs) as (<- & _). rewrite <- ad12_ok by lia. rewrite S1. reflexivity.
  - unfold chacha_tls12_decrypt, CHACHAPOLY1305_OVERHEAD. cbn [ms_payload ms_typ ms_ver]. destruct (split16 c t L2) as [-> ->].
    replace (zlen (c ++ t)) with (zlen (content m) + 16) by (rewrite zlen_app; lia). rewrite (proj2 (Z.ltb_ge _ _)) by lia.
    replace (zlen (content m) + 16 - 16) with (zlen (content m)) by lia. rewrite (g_dec A' _ G' _ _ _ _ K B2), U. reflexivity.
Qed.
Print Assumptions C39_tls12_chacha_round_trip.
(** Decryption of any record: no panic; success exactly when the record authenticates. *)
Theorem C40_tls12_chacha_decrypt : forall s key iv r seq, alg_ok (AlgChaCha s) key -> bytes iv -> zlen iv = 12 -> 0 <= seq < 2 ^ 64 ->
  bytes (ms_payload r) -> zlen (ms_payload r) < 2 ^ 16 -> byte_ok (ms_typ r) ->
  exists dec, tls12_decrypter (AlgChaCha s) key iv = Ok dec /\
    let len := zlen (ms_payload r) - 16 in
    dec r seq = if len <? 0 then Err DecryptError else
      match unseal (s_chacha key) (record_nonce iv seq) (ad12 seq (ms_typ r) (ms_ver r) len) (ztake len (ms_payload r)) (zdrop len (ms_payload r)) with
      | Some p => Ok (mkMsg (ms_typ r) (ms_ver r) p)
      | None => Err DecryptError
      end.
Proof.
  intros s key iv r seq Ha Bi Li Hs Br Lr Ht. destruct (enc12c s key iv Ha Li) as (A & G & _ & D1). eexists. split; [exact D1|]. cbv zeta.
  unfold chacha_tls12_decrypt, CHACHAPOLY1305_OVERHEAD. cbv zeta. pose proof (zlen_nonneg (ms_payload r)) as NN. set (len := zlen (ms_payload r)) in *.
  destruct (Z.ltb_spec len 16) as [Hlt|Hge]; [rewrite (proj2 (Z.ltb_lt _ _)) by lia; reflexivity|]. rewrite (proj2 (Z.ltb_ge _ _)) by lia.
  destruct (nonce_ok iv seq Bi Li Hs) as (<- & Bn & Ln). rewrite <- ad12_ok by lia.
  rewrite (g_dec A _ G).
  - destruct (unseal _ _ _ _ _); reflexivity.
  - apply okin_intro; auto using aad12_facts, bytes_ztake. rewrite zlen_ztake; lia.
  - apply bytes_zdrop; auto.
Qed.
Print Assumptions C40_tls12_chacha_decrypt.
(** Finding: unlike the three other ciphers, this one has no limit on the plaintext: records carrying more
    than 2^14 bytes are decrypted and delivered. *)
Theorem C40_tls12_chacha_bound_refuted : forall s key iv seq, alg_ok (AlgChaCha s) key -> bytes iv -> zlen iv = 12 -> 0 <= seq < 2 ^ 64 ->
  exists dec r m', tls12_decrypter (AlgChaCha s) key iv = Ok dec /\ zlen (ms_payload r) < 2 ^ 16 /\ dec r seq = Ok m' /\ 16384 < zlen (ms_payload m').
Proof.
  intros s key iv seq Ha Bi Li Hs. set (big := repeat 0 (Z.to_nat 20000)). assert (LB : zlen big = 20000) by (unfold big, zlen; rewrite repeat_length; lia).
  assert (BB : bytes big) by (unfold big; apply Forall_forall; intros x Hx; apply repeat_spec in Hx; subst; unfold byte_ok; lia). clearbody big.
  destruct (C39_tls12_chacha_round_trip s s key iv (mkPlainOut 23 0x0303 [big]) seq Ha Ha Bi Li Hs) as (enc & dec & r & _ & D & _ & Er & X).
  { unfold sendable12. cbn [po_chunks po_typ po_ver concat]. rewrite app_nil_r. sp; try lia. constructor; auto. }
  unfold content in *. cbn [po_chunks po_typ po_ver concat] in *. rewrite app_nil_r in *.
  exists dec, r. eexists. split; [exact D|]. split; [|split; [exact X|cbn [ms_payload]; lia]].
  subst r. cbn [ms_payload]. unfold tls12_chacha_record. destruct (enc12c s key iv Ha Li) as (A & G & _). destruct (seal _ _ _ big) as [c t] eqn:E.
  destruct (nonce_ok iv seq Bi Li Hs) as (NE & Bn & Ln). rewrite <- NE, <- ad12_ok in E by lia.
  destruct (g_rt A _ G _ _ _ _ _ (okin_intro _ _ _ Bn Ln (aad12_facts seq 23 0x0303 _ ltac:(unfold byte_ok; lia)) BB ltac:(lia)) E) as (L1 & L2 & _). rewrite zlen_app. lia.
Qed.
Print Assumptions C40_tls12_chacha_bound_refuted.

(** *** TLS1.2, AES-GCM *)
Lemma enc12g b key salt explicit : alg_ok (AlgGcm b) key -> zlen salt = 4 -> zlen explicit = 8 -> exists A, good A (s_gcm key) /\
  tls12_encrypter (AlgGcm b) key salt explicit = Ok (gcm_tls12_encrypt A (salt ++ explicit)) /\ tls12_decrypter (AlgGcm b) key salt = Ok (gcm_tls12_decrypt A salt).
Proof.
  intros H L1 L2. destruct (alg_good _ key H) as (A & E & G). exists A. unfold tls12_encrypter, tls12_decrypter, gcm_iv. rewrite E. cbn [bind].
  rewrite (proj2 (Z.eqb_eq _ _) L1), (proj2 (Z.eqb_eq _ _) L2). cbn [andb bind]. auto.
Qed.
(** the explicit part of the nonce: the key-block value xored with the sequence number *)
Definition explicit_nonce (explicit : list Z) (seq : Z) : list Z := xor_bytes explicit (be_bytes 8 seq).
Lemma nonce_parts salt explicit seq : zlen salt = 4 -> 0 <= seq < 2 ^ 64 -> record_nonce (salt ++ explicit) seq = salt ++ explicit_nonce explicit seq.
Proof.
  intros L H. unfold record_nonce, explicit_nonce. rewrite be12 by auto.
  destruct salt as [|a [|b [|c [|d [|]]]]]; try discriminate. 2: { unfold zlen in L. cbn in L. lia. }
  cbn [app repeat xor_bytes]. rewrite !Z.lxor_0_r. reflexivity.
Qed.
Lemma gcm_splice salt e : zlen salt = 4 -> zlen e = 8 -> splice (splice (repeat 0 12) 0 salt) 4 e = salt ++ e.
Proof.
  intros L1 L2. assert (E : splice (repeat 0 12) 0 salt = salt ++ repeat 0 8).
  { destruct salt as [|a [|b [|c [|d [|]]]]]; try discriminate. reflexivity. unfold zlen in L1. cbn in L1. lia. }
  rewrite E. unfold splice. rewrite ztake_app_eq by auto. f_equal. rewrite zdrop_all; [apply app_nil_r|]. rewrite zlen_app, L1, L2. change (zlen (repeat 0 8)) with 8. lia.
Qed.
Lemma xor_bytes_facts x y : bytes x -> bytes y -> length x = length y -> bytes (xor_bytes x y) /\ length (xor_bytes x y) = length x.
Proof.
  revert y. induction x as [|s x IH]; intros [|t y] Bx By Ll; try discriminate; cbn [xor_bytes length]; [split; auto; constructor|].
  inversion_clear Bx. inversion_clear By. destruct (IH y) as [I1 I2]; auto. split; [constructor; auto; apply lxor_byte; auto|lia].
Qed.
Lemma explicit_facts e seq : bytes e -> zlen e = 8 -> bytes (explicit_nonce e seq) /\ zlen (explicit_nonce e seq) = 8.
Proof.
  intros B L. destruct (xor_bytes_facts e (be_bytes 8 seq) B (be_bytes_bytes _ _)) as [X Y]; [rewrite be_bytes_length; unfold zlen in L; lia|].
  split; auto. unfold explicit_nonce, zlen in *. lia.
Qed.
Theorem C39_tls12_gcm_round_trip : forall b b' key salt explicit m seq, alg_ok (AlgGcm b) key -> alg_ok (AlgGcm b') key ->
  bytes salt -> zlen salt = 4 -> bytes explicit -> zlen explicit = 8 -> 0 <= seq < 2 ^ 64 -> sendable m ->
  exists enc dec r, tls12_encrypter (AlgGcm b) key salt explicit = Ok enc /\ tls12_decrypter (AlgGcm b') key salt = Ok dec /\ enc m seq = Ok r /\
    r = mkMsg (po_typ m) (po_ver m) (tls12_gcm_record (s_gcm key) salt (explicit_nonce explicit seq) seq (po_typ m) (po_ver m) (content m)) /\
    dec r seq = Ok (mkMsg (po_typ m) (po_ver m) (content m)).
Proof.
  intros b b' key salt explicit m seq Ha Ha' Bs Ls Be Le Hs Hm. destruct (enc12g b key salt explicit Ha Ls Le) as (A & G & E1 & _). destruct (enc12g b' key salt explicit Ha' Ls Le) as (A' & G' & _ & D1).
  assert (Bi : bytes (salt ++ explicit)) by (apply Forall_app; auto). assert (Li : zlen (salt ++ explicit) = 12) by (rewrite zlen_app; lia).
  assert (Hm' : sendable12 m) by (destruct Hm as (? & ? & ? & ?); unfold sendable12; sp; auto; lia).
  destruct (sealed12 A _ _ m seq G Bi Li Hs Hm') as (c & t & S1 & L1 & L2 & B1 & B2 & U & K & S2).
  destruct (nonce_ok _ seq Bi Li Hs) as (NE & _). rewrite nonce_parts in NE by auto. rewrite NE in *. set (e := explicit_nonce explicit seq) in *.
  assert (LE : zlen e = 8) by (apply explicit_facts; auto).
  eexists _, _, (mkMsg (po_typ m) (po_ver m) (e ++ c ++ t)). split; [exact E1|]. split; [exact D1|]. destruct Hm as (_ & Ht & Hv & Hl). fold (content m) in Hl. pose proof (zlen_nonneg (content m)) as NN. sp.
  - unfold gcm_tls12_encrypt, AESGCM_EXPLICIT_NONCE_LEN. fold (content m). cbv zeta. rewrite NE. rewrite (zdrop_app_eq 4) by auto. rewrite zdrop_app_eq, ztake_app_eq by auto. rewrite S2. reflexivity.
  - f_equal. unfold tls12_gcm_record. rewrite <- ad12_ok by lia. rewrite S1. reflexivity.
  - unfold gcm_tls12_decrypt, AESGCM_OVERHEAD, AESGCM_EXPLICIT_NONCE_LEN, AESGCM_TAG, MAX_FRAGMENT_LEN. cbn [ms_payload ms_typ ms_ver]. cbv zeta.
    rewrite !(zdrop_app_eq 8), !(ztake_app_eq 8) by auto. destruct (split16 c t L2) as [-> ->].
    replace (zlen (e ++ c ++ t)) with (zlen (content m) + 24) by (rewrite !zlen_app; lia). rewrite (proj2 (Z.ltb_ge _ _)) by lia.
    replace (zlen (content m) + 24 - (8 + 16)) with (zlen (content m)) by lia. rewrite gcm_splice by auto. rewrite (g_dec A' _ G' _ _ _ _ K B2), U. cbn [opened bind fst snd].
    rewrite (proj2 (Z.ltb_ge _ _)) by lia. rewrite zdrop_app_eq, ztake_app_eq by auto. reflexivity.
Qed.
Print Assumptions C39_tls12_gcm_round_trip.
Theorem C40_tls12_gcm_decrypt : forall b key salt r seq, alg_ok (AlgGcm b) key -> bytes salt -> zlen salt = 4 -> 0 <= seq < 2 ^ 64 ->
  bytes (ms_payload r) -> zlen (ms_payload r) < 2 ^ 16 -> byte_ok (ms_typ r) ->
  exists dec, tls12_decrypter (AlgGcm b) key salt = Ok dec /\
    let len := zlen (ms_payload r) - 24 in
    let rest := zdrop 8 (ms_payload r) in
    dec r seq = if len <? 0 then Err DecryptError else
      match unseal (s_gcm key) (salt ++ ztake 8 (ms_payload r)) (ad12 seq (ms_typ r) (ms_ver r) len) (ztake len rest) (zdrop len rest) with
      | Some p => if 16384 <? len then Err PeerSentOversizedRecord else Ok (mkMsg (ms_typ r) (ms_ver r) p)
      | None => Err DecryptError
      end.
Proof.
  intros b key salt r seq Ha Bs Ls Hs Br Lr Ht. destruct (enc12g b key salt (repeat 0 8) Ha Ls eq_refl) as (A & G & _ & D1). eexists. split; [exact D1|]. cbv zeta.
  unfold gcm_tls12_decrypt, AESGCM_OVERHEAD, AESGCM_EXPLICIT_NONCE_LEN, AESGCM_TAG, MAX_FRAGMENT_LEN. cbv zeta. pose proof (zlen_nonneg (ms_payload r)) as NN. set (P := ms_payload r) in *.
  change (8 + 16) with 24. destruct (Z.ltb_spec (zlen P) 24) as [Hlt|Hge]; [rewrite (proj2 (Z.ltb_lt (zlen P - 24) 0)) by lia; reflexivity|]. rewrite (proj2 (Z.ltb_ge (zlen P - 24) 0)) by lia.
  assert (LR : zlen (zdrop 8 P) = zlen P - 8) by (rewrite zlen_zdrop; lia). replace (zlen (zdrop 8 P) - 16) with (zlen P - 24) by lia.
  assert (L8 : zlen (ztake 8 P) = 8) by (rewrite zlen_ztake; lia). rewrite gcm_splice by auto. rewrite <- ad12_ok by lia.
  assert (K : okin (salt ++ ztake 8 P) (make_tls12_aad seq (ms_typ r) (ms_ver r) (zlen P - 24)) (ztake (zlen P - 24) (zdrop 8 P))).
  { apply okin_intro; auto using aad12_facts, bytes_ztake, bytes_zdrop; [apply Forall_app; split; auto; apply bytes_ztake; auto|rewrite zlen_app; lia|rewrite zlen_ztake; lia]. }
  rewrite (g_dec A _ G _ _ _ _ K) by (apply bytes_zdrop, bytes_zdrop; auto).
  destruct (unseal _ _ _ _ _) as [p|] eqn:U; [|reflexivity]. cbn [opened bind fst snd]. destruct (16384 <? zlen P - 24); [reflexivity|].
  destruct (g_len A _ G _ _ _ _ _ K U) as [LP BP]. rewrite zlen_ztake in LP by lia. rewrite zdrop_app_eq by auto. rewrite ztake_app_eq by lia. reflexivity.
Qed.
Print Assumptions C40_tls12_gcm_decrypt.

(** ** C43 *)
(** The nonce an encrypter passes to its AEAD, observed by running it with an AEAD that returns the nonce
    in place of the tag. *)
Definition recorder : tls_aead := {| ta_enc := fun n _ b => Ok (b, n); ta_dec := fun _ _ b _ => Ok (Ok tt, b) |}.
Definition nonce_of (r : res message) : option (list Z) :=
  match r with Ok m => Some (zdrop (zlen (ms_payload m) - 12) (ms_payload m)) | _ => None end.
Lemma lxor_cancel a b c : Z.lxor a b = Z.lxor a c -> b = c.
Proof. intros H. rewrite <- (Z.lxor_0_l b), <- (Z.lxor_0_l c), <- (Z.lxor_nilpotent a), !Z.lxor_assoc, H. reflexivity. Qed.
Lemma xor_inj x : forall y z, length y = length x -> length z = length x -> xor_bytes x y = xor_bytes x z -> y = z.
Proof.
  induction x as [|a x IH]; intros [|b y] [|c z] L1 L2 E; try discriminate; auto. cbn [xor_bytes] in E. injection E as E1 E2. apply lxor_cancel in E1. f_equal; auto.
Qed.
Lemma nonce_inj iv seq seq' : bytes iv -> zlen iv = 12 -> 0 <= seq < 2 ^ 64 -> 0 <= seq' < 2 ^ 64 -> nonce_new iv seq = nonce_new iv seq' -> seq = seq'.
Proof.
  intros B L H H' E. destruct (nonce_ok iv seq B L H) as (E1 & _). destruct (nonce_ok iv seq' B L H') as (E2 & _). rewrite E1, E2 in E. unfold record_nonce in E.
  apply xor_inj in E; try (rewrite be_bytes_length; unfold zlen in L; lia).
  apply (f_equal be_val) in E. rewrite !be_val_be_bytes in E. change (256 ^ Z.of_nat 12) with (2 ^ 96) in E. rewrite !Z.mod_small in E by lia. exact E.
Qed.
Lemma last12 (a n : list Z) : zlen n = 12 -> zdrop (zlen (a ++ n) - 12) (a ++ n) = n.
Proof. intros H. replace (zlen (a ++ n) - 12) with (zlen a) by (rewrite zlen_app; lia). apply zdrop_app_eq. auto. Qed.
(** every encrypter: the nonce is a function of the IV and the sequence number alone *)
Lemma nonce_used iv m seq enc : bytes iv -> zlen iv = 12 -> 0 <= seq < 2 ^ 64 ->
  In enc [chacha_tls13_encrypt; chacha_tls12_encrypt; gcm_tls13_encrypt; gcm_tls12_encrypt] -> nonce_of (enc recorder iv m seq) = Some (nonce_new iv seq).
Proof.
  intros B L H Hin. destruct (nonce_ok iv seq B L H) as (_ & _ & LN).
  destruct Hin as [<-|[<-|[<-|[<-|[]]]]]; unfold chacha_tls13_encrypt, chacha_tls12_encrypt, gcm_tls13_encrypt, gcm_tls12_encrypt; cbv zeta; cbn [ta_enc recorder bind nonce_of ms_payload fst snd];
    f_equal; rewrite ?(app_assoc _ _ (nonce_new iv seq)); apply last12; auto.
Qed.
(** Two records protected with the same key by the same encrypter (so the same IV) and different sequence
    numbers never use the same nonce, whatever their contents. *)
Theorem C43_nonces_never_repeat : forall enc iv m m' seq seq',
  In enc [chacha_tls13_encrypt; chacha_tls12_encrypt; gcm_tls13_encrypt; gcm_tls12_encrypt] ->
  bytes iv -> zlen iv = 12 -> 0 <= seq < 2 ^ 64 -> 0 <= seq' < 2 ^ 64 -> seq <> seq' ->
  nonce_of (enc recorder iv m seq) <> nonce_of (enc recorder iv m' seq') /\
  exists n, nonce_of (enc recorder iv m seq) = Some n /\ zlen n = 12.
Proof.
  intros enc iv m m' seq seq' Hin B L H H' Hne. rewrite !(nonce_used iv _ _ enc) by auto. split.
  - intros E. injection E as E. apply nonce_inj in E; auto.
  - eexists. split; [reflexivity|]. apply nonce_ok; auto.
Qed.
Print Assumptions C43_nonces_never_repeat.

(** *** hypotheses are met *)
Example C39_ex_alg : alg_ok (AlgChaCha chacha_avx2) (repeat 7 32) /\ alg_ok (AlgGcm true) (repeat 7 16) /\ sendable (mkPlainOut 22 0x0303 [[1; 2]; [3]]) /\
  content (mkPlainOut 22 0x0303 [[1; 2]; [3]]) = [1; 2; 3].
Proof.
  split; [split; [bytes_tac|split; auto]|]. split; [split; [bytes_tac|left; reflexivity]|]. split; [|reflexivity].
  unfold sendable. cbn [po_chunks po_typ po_ver]. sp; try lia; [repeat constructor; lia|]. unfold zlen. cbn. lia.
Qed.
Example C43_ex : nonce_new (repeat 1 12) 1 = [1; 1; 1; 1; 1; 1; 1; 1; 1; 1; 1; 0] /\ nonce_new (repeat 1 12) 256 = [1; 1; 1; 1; 1; 1; 1; 1; 1; 1; 0; 1].
Proof. split; reflexivity. Qed.
