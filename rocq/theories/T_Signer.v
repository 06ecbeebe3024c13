(** C53, signing: what the signers offered to rustls produce verifies with the key they publish. *)
Require Import Verif.Base Verif.L_Base Verif.M_Asn1 Verif.M_Pkix Verif.M_Pkcs8 Verif.M_Sha2 Verif.M_Hmac Verif.M_PosInt Verif.M_Rsa Verif.M_RsaKey Verif.M_Pkcs1.
Require Import Verif.M_Ec Verif.M_Ecdsa Verif.M_Ed25519 Verif.M_Sign Verif.M_Provider.
Require Import Verif.S_Curve Verif.S_Ec Verif.S_Ecdsa Verif.S_Ed Verif.S_EdLow Verif.S_Der Verif.S_Pkix Verif.S_Sha2 Verif.S_Pkcs1 Verif.S_Bignum.
Require Import Verif.L_PosInt Verif.L_Rsa Verif.L_Pkcs1 Verif.L_Asn1 Verif.L_Pkix Verif.L_Hmac Verif.T_Hash Verif.T_Pkcs8 Verif.T_RsaKey Verif.T_RsaSig Verif.T_Ec Verif.T_Ecdsa Verif.T_EcdsaKey Verif.T_Ed25519 Verif.T_EdKey.
Require Import Verif.L_Mont Verif.L_Fermat Verif.S_Rsa Verif.T_Rsa Verif.T_Provider.
Require Import ZifyNat.

(** *** C53: signatures of the offered signers verify with the public key they publish *)
Section Signers.
Variables (c1 c2 : curve) (ce : edcurve) (W : lows).
Hypothesis O : lows_ok c1 c2 ce W.

Lemma ec_signer c E (I : ec_impl c E) (L48 : ec_bytes E <= 48) oid (OI : any_ok (AnyObjectId oid))
  (LA : zlen (S_Der.tlv 48 (S_Der.tlv 6 id_ecPublicKey ++ S_Der.tlv 6 oid)) <= 21) H Hs lim (HI : implements H Hs lim) kid sid
  d rng random fuel m sig : 1 <= d < c_n c -> rng 16 = Ok random -> bytes random -> zlen random = 16 -> bytes m -> zlen m < lim ->
  ecdsa_signer_sign E H d rng fuel m = Some (Ok sig) ->
  exists x y r t, pt_mul c d (Some (c_g c)) = Some (x, y) /\ der_sig sig r t /\ 1 <= r < c_n c /\ 0 <= t < c_n c /\
    (match to_spki_der E oid d (repeat 0 128) with Ok (buf, n) => Ok (Some (ztake n buf)) | Err _ => Ok None | Panic => Panic end)
      = Ok (Some (spki_doc oid (sec1 (ec_bytes E) x y))) /\
    (t <> 0 -> va_verify (ec_verify kid E sid H) (sec1 (ec_bytes E) x y) m sig = Ok tt).
Proof.
  intros D RG BR LR BM LM SG. unfold ecdsa_signer_sign in SG.
  destruct (ecdsa_sign_asn1 E H rng fuel d [m] (repeat 0 128)) as [[[out l]| |]|] eqn:SA; try discriminate SG. injection SG as <-.
  destruct (C29_public_key c E I d D) as (x & y & M & PE).
  destruct (C49_spki_export c E I L48 oid OI d D) as (x' & y' & M' & SP). assert (x' = x /\ y' = y) as [-> ->] by (split; congruence).
  assert (PK : exists pk, pk_from_x962 E (sec1 (ec_bytes E) x y) = Ok pk).
  { pose proof (ei_group c E I) as CG. destruct (C28_round_trip c E I x y) as (pk & PK & _); [|eauto]. rewrite <- M. apply L_Curve.mul_closed; [exact CG|exact (cg_g _ CG)]. }
  destruct PK as [pk PK].
  assert (BM1 : Forall bytes [m]) by (repeat constructor; exact BM). assert (LM1 : zlen (concat [m]) < lim) by (cbn [concat]; rewrite app_nil_r; exact LM).
  destruct (C30_sign_asn1_verifies c E I L48 H Hs lim HI rng random fuel d [m] _ out l _ pk RG BR LR D BM1 LM1 PE PK SA) as (r & t & DS & RR & TT & _ & _ & V).
  exists x, y, r, t. split; [exact M|]. split; [exact DS|]. split; [exact RR|]. split; [exact TT|]. split.
  - rewrite SP. assert (SZ : zlen (spki_doc oid (sec1 (ec_bytes E) x y)) <= 128).
    { assert (LP : zlen (sec1 (ec_bytes E) x y) <= 97).
      { unfold sec1. rewrite zlen_cons, zlen_app. unfold zlen. rewrite !be_bytes_length. lia. }
      unfold spki_doc. cbn [tree_Spki tree_Alg any_tree der_enc SEQ map concat app]. rewrite !app_nil_r. unfold OID, BITS. cbn [der_enc].
      set (pb := sec1 (ec_bytes E) x y) in *. clearbody pb. set (al := S_Der.tlv 48 (S_Der.tlv 6 id_ecPublicKey ++ S_Der.tlv 6 oid)) in *. clearbody al. pose proof (zlen_nonneg pb). pose proof (zlen_nonneg al).
      pose proof (tlv_short 3 (0 :: pb) ltac:(rewrite zlen_cons; lia)) as T1. rewrite zlen_cons in T1. pose proof (zlen_nonneg (S_Der.tlv 3 (0 :: pb))).
      eapply Z.le_trans; [apply tlv_short|]; rewrite !zlen_app; lia. }
    set (doc := spki_doc _ _) in *. clearbody doc. change (zlen (repeat 0 128)) with 128. destruct (Z.ltb_spec 128 (zlen doc)); [lia|]. now rewrite ztake_app_eq by reflexivity.
  - intros NZ. cbn [ec_verify va_verify]. rewrite PK. cbn [bind]. now rewrite (V NZ).
Qed.

(** The ECDSA signers: the signature is a DER pair (r, s), and unless s = 0
    (see C30) the algorithm for the signer's scheme accepts it with the public
    key inside the document the signer publishes. *)
Theorem C53_p256_signer : forall d rng random fuel m sig scheme, 1 <= d < c_n c1 -> rng 16 = Ok random -> bytes random -> zlen random = 16 ->
  bytes m -> zlen m < 2 ^ 61 -> signer_sign W (AP256 d) scheme rng fuel m = Some (Ok sig) ->
  exists x y r s, pt_mul c1 d (Some (c_g c1)) = Some (x, y) /\ der_sig sig r s /\ 1 <= r < c_n c1 /\ 0 <= s < c_n c1 /\
    let key := sec1 (ec_bytes (lw_p256 W)) x y in
    public_key_spki W (AP256 d) = Ok (Some (spki_doc id_prime256v1 key)) /\
    (s <> 0 -> va_verify (V_P256_SHA256 W) key m sig = Ok tt).
Proof.
  intros d rng random fuel m sig scheme D RG BR LR BM LM SG.
  refine (ec_signer c1 _ (wo_p256 _ _ _ _ O) (wo_l1 _ _ _ _ O) _ _ _ _ _ _ (hashes_imp Sha256 SHA256 (2 ^ 61) _) ID_ECDSA_P256 ID_ECDSA_SHA256 d rng random fuel m sig D RG BR LR BM LM SG).
  - exact oid1. - vm_compute. discriminate. - left; reflexivity.
Qed.
Theorem C53_p384_signer : forall d rng random fuel m sig scheme, 1 <= d < c_n c2 -> rng 16 = Ok random -> bytes random -> zlen random = 16 ->
  bytes m -> zlen m < 2 ^ 64 -> signer_sign W (AP384 d) scheme rng fuel m = Some (Ok sig) ->
  exists x y r s, pt_mul c2 d (Some (c_g c2)) = Some (x, y) /\ der_sig sig r s /\ 1 <= r < c_n c2 /\ 0 <= s < c_n c2 /\
    let key := sec1 (ec_bytes (lw_p384 W)) x y in
    public_key_spki W (AP384 d) = Ok (Some (spki_doc id_secp384r1 key)) /\
    (s <> 0 -> va_verify (V_P384_SHA384 W) key m sig = Ok tt).
Proof.
  intros d rng random fuel m sig scheme D RG BR LR BM LM SG.
  refine (ec_signer c2 _ (wo_p384 _ _ _ _ O) (wo_l2 _ _ _ _ O) _ _ _ _ _ _ (hashes_imp Sha384 SHA384 (2 ^ 64) _) ID_ECDSA_P384 ID_ECDSA_SHA384 d rng random fuel m sig D RG BR LR BM LM SG).
  - exact oid2. - vm_compute. discriminate. - right; left; reflexivity.
Qed.

(** The Ed25519 signer, for a key made from any seed. *)
Theorem C53_ed25519_signer : forall seed k rng fuel m scheme, bytes seed -> zlen seed = 32 -> ed_from_bytes (lw_ed W) seed = Ok k -> bytes m -> zlen m < 2 ^ 61 ->
  exists sig key, signer_sign W (AEd25519 k) scheme rng fuel m = Some (Ok sig) /\
    public_key_spki W (AEd25519 k) = Ok (Some (ed_spki None key)) /\ va_verify (V_ED25519 W) key m sig = Ok tt.
Proof.
  intros seed k rng fuel m scheme B Q K BM LM. pose proof (wo_ed _ _ _ _ O) as EO. pose proof (wo_edlow _ _ _ _ O) as EL.
  assert (LM' : zlen m < 2 ^ 63) by (eapply Z.lt_trans; [exact LM|reflexivity]).
  pose proof (C34_sign_exact ce _ EO EL seed k m B Q BM LM' K) as SG. pose proof (C34_public_key_decodes ce _ EO EL seed k B Q K) as PD.
  pose proof (C34_sign_verifies ce _ EO EL seed k m _ _ B Q BM LM' K SG PD) as V.
  assert (PT : exists A, on_ed ce A /\ sg_vk k = (ed_enc A, ed_words A)).
  { destruct (C34_public_key ce _ EO EL seed B Q) as (k' & K' & PK). assert (k' = k) as -> by congruence.
    unfold vk_from_bytes in PD. destruct (Z.eqb_spec (zlen (fst (sg_vk k))) 32) as [QQ|]; [|discriminate PD]. destruct (el_decode (lw_ed W) (fst (sg_vk k))) as [w|] eqn:D; [|discriminate PD].
    assert (BK : bytes (fst (sg_vk k))) by (rewrite PK; apply enc_bytes).
    destruct (lo_decode_sound ce _ EL _ w BK QQ D) as (A & OA & EA). exists A. split; [exact OA|]. rewrite EA, (lo_decode ce _ EL A OA) in D. injection PD as PD. rewrite <- PD, EA. congruence. }
  destruct PT as (A & OA & VK). exists (rfc_sign ce SHA512 seed m), (ed_enc A). cbn [signer_sign public_key_spki]. split; [now rewrite SG|]. split.
  - destruct (C50_spki_export ce _ EL A OA) as (_ & SZ & EX). rewrite VK, EX. change (zlen (repeat 0 64)) with 64. set (doc := ed_spki None _) in *. clearbody doc.
    destruct (Z.ltb_spec 64 (zlen doc)); [lia|]. now rewrite ztake_app_eq by reflexivity.
  - cbn [V_ED25519 va_verify]. rewrite VK in PD, V. cbn [fst] in PD. rewrite PD. cbn [bind]. now rewrite V.
Qed.

Lemma below_bytes n : 0 < n -> n < 2 ^ (8 * byte_length n).
Proof.
  intros P. apply Z.log2_lt_pow2; [exact P|]. unfold byte_length. pose proof (Z.log2_nonneg n). generalize dependent (Z.log2 n). intros l L. Z.div_mod_to_equations. lia.
Qed.
Lemma public_doc_len n e doc : 0 < n -> byte_length n <= 1024 -> 0 <= e < 2 ^ 31 -> T_RsaKey.public_doc n e doc -> zlen doc <= byte_length n + 21.
Proof.
  intros P K E (ni & ei & [In Vn] & [Ie Ve] & ->). pose proof (below_bytes n P) as Bn. set (k := byte_length n) in *.
  assert (K0 : 0 <= k). { unfold k, byte_length. pose proof (Z.div_pos (Z.log2 n) 8 (Z.log2_nonneg n)). lia. } clearbody k.
  assert (LN : zlen ni <= k + 1).
  { apply (int_len ni (k + 1) In); [lia|]. rewrite Vn. split; [pose proof (T_RsaKey.p2nn (8 * (k + 1) - 1)); lia|].
    apply Z.lt_le_trans with (1 := Bn). apply Z.pow_le_mono_r; lia. }
  assert (LE : zlen ei <= 4). { apply (int_len ei 4 Ie); [lia|]. rewrite Ve. change (8 * 4 - 1) with 31. change (2 ^ 31) with 2147483648 in *. lia. }
  unfold tree_RSAPublicKey. pose proof (int_enc_len ni (k + 1) LN ltac:(lia)). pose proof (int_enc_len ei 4 LE ltac:(lia)).
  eapply Z.le_trans; [apply (seq_len [INT ni; INT ei] (k + 17)); [|lia]|lia].
  refine (Z.le_trans _ _ _ (enc_cons _ _ (k + 5) 8 _ (enc_cons _ _ 8 0 _ enc_nil)) _); lia.
Qed.

Lemma pub_facts x e key : usable_pub (lw_bn W) x e key -> 0 < val x /\ 0 < e /\ (e < 2 ^ 32 -> T_RsaKey.public_ok (val x) e).
Proof.
  intros Up. destruct (key_is _ _ _ _ Up) as (_ & On & Bn & E0). split; [|split; [exact E0|]].
  - eapply Z.lt_le_trans; [|apply Bn]. apply Z.pow_pos_nonneg; lia.
  - intros E. split; [exact On|]. split; [exact Bn|]. split; assumption.
Qed.
Lemma public_doc_bytes n e doc : 0 < n -> byte_length n <= 1024 -> 0 <= e < 2 ^ 31 -> T_RsaKey.public_doc n e doc -> bytes doc /\ zlen doc <= 1045.
Proof.
  intros P K E D. pose proof (public_doc_len n e doc P K E D) as L. split; [|lia]. destruct D as (ni & ei & [In Vn] & [Ie Ve] & ->).
  apply bytes_der_enc; [|lia]. cbn. unfold byte_ok. destruct In, Ie. repeat split; auto; lia.
Qed.
Lemma public_doc_inj n e n' e' doc : bytes doc -> zlen doc <= 1045 -> T_RsaKey.public_doc n e doc -> T_RsaKey.public_doc n' e' doc -> n' = n /\ e' = e.
Proof.
  intros B L (ni & ei & [I1 V1] & [I2 V2] & E1) (ni' & ei' & [J1 V1'] & [J2 V2'] & E2).
  assert (A : from_bytes RSAPublicKey doc = Ok (ni, ei)) by (apply (x_dec _ _ _ exact_RSAPublicKey); [exact B|]; split; [split; assumption|]; split; [exact E1|lia]).
  assert (A' : from_bytes RSAPublicKey doc = Ok (ni', ei')) by (apply (x_dec _ _ _ exact_RSAPublicKey); [exact B|]; split; [split; assumption|]; split; [exact E2|lia]).
  assert (ni' = ni /\ ei' = ei) as [-> ->] by (split; congruence). split; congruence.
Qed.

(** The RSA signer writes the signature to the front of a buffer as long as the
    modulus and returns the whole buffer.  The signature is written in whole
    64-bit words, without leading zero words; so when it has as many words as
    the modulus it is accepted with the published key, ... *)
Definition rsa_published (n e : Z) (doc : list Z) (key : list Z) : Prop :=
  T_RsaKey.public_doc n e key /\ doc = der_enc (SEQ [SEQ [OID (oid_spec [1; 2; 840; 113549; 1; 1; 1]); NULL]; BITS key]).
(** the algorithm for an RSA scheme *)
Definition rsa_alg (s : scheme) : option valg :=
  match s with
  | RSA_PKCS1_SHA256 => Some (V_PKCS1_SHA256 W) | RSA_PKCS1_SHA384 => Some (V_PKCS1_SHA384 W) | RSA_PKCS1_SHA512 => Some (V_PKCS1_SHA512 W)
  | RSA_PSS_SHA256 => Some (V_PSS_SHA256 W) | RSA_PSS_SHA384 => Some (V_PSS_SHA384 W) | RSA_PSS_SHA512 => Some (V_PSS_SHA512 W)
  | _ => None
  end.

Lemma rsa_publishes p q d dp dq iqmp x e key : usable_priv (lw_bn W) p q d dp dq iqmp x e key -> e < 2 ^ 31 ->
  exists doc pub, rsa_published (val x) e doc pub /\ public_key_spki W (ARsa key) = Ok (Some doc) /\ bytes pub.
Proof.
  intros U E31. destruct (priv_pub _ _ _ _ _ _ _ _ _ _ U) as [Up _]. destruct (key_len _ _ _ _ Up) as (Kl & Kb & Ku & _).
  pose proof Up as (Wx & Nx & E0 & PN). destruct (pub_facts _ _ _ Up) as (P & _).
  assert (E32 : 0 <= e < 2 ^ 32) by (change (2 ^ 31) with 2147483648 in *; change (2 ^ 32) with 4294967296; lia).
  assert (ES : signed32 e = e) by (unfold signed32; destruct (Z.ltb_spec e (2 ^ 31)); [reflexivity|lia]).
  destruct (C25_spki _ x (val x) e _ (conj Wx eq_refl) PN E32) as (pub & doc & PD & ED & EX). rewrite ES in PD.
  exists doc, pub. split; [split; assumption|]. split.
  - cbn [public_key_spki]. unfold sk_modulus_len. change (M_RsaKey.sk_public_key key) with (pr_public key). rewrite Kl, EX, zlen_zeros.
    pose proof (public_doc_len (val x) e pub P ltac:(lia) ltac:(lia) PD) as L.
    assert (LD : zlen doc <= byte_length (val x) + 64).
    { set (k := byte_length (val x)) in *. clearbody k. rewrite ED.
      assert (LB : zlen (der_enc (BITS pub)) <= k + 26). { unfold BITS. cbn [der_enc]. pose proof (T_RsaKey.tlv_len 3 (0 :: pub)). rewrite zlen_cons in *. lia. }
      eapply Z.le_trans; [apply (seq_len _ (15 + (k + 26 + 0))); [|lia]|lia]. apply enc_cons; [vm_compute; discriminate|]. apply enc_cons; [exact LB|apply enc_nil]. }
    destruct (Z.ltb_spec (Z.of_nat (Z.to_nat (byte_length (val x) + 64))) (zlen doc)); [lia|]. now rewrite ztake_app_eq by reflexivity.
  - apply (public_doc_bytes (val x) e pub P ltac:(lia) ltac:(lia) PD).
Qed.

Lemma word_len64 n : 0 < n -> (64 | Z.log2 n + 1) -> byte_length n = 8 * word_length n /\ (8 | byte_length n).
Proof.
  intros P [z Hz]. unfold byte_length, word_length. destruct (Z.eqb_spec n 0); [lia|]. revert Hz. generalize (Z.log2 n). intros l Hz.
  assert (E : l / 8 + 1 = 8 * (l / 64 + 1)) by (Z.div_mod_to_equations; lia). split; [exact E|]. exists (l / 64 + 1). lia.
Qed.

Lemma below_words v : 0 <= v -> v < 256 ^ (8 * word_length v).
Proof.
  intros P. unfold word_length. destruct (Z.eqb_spec v 0) as [->|N]; [reflexivity|]. change 256 with (2 ^ 8).
  pose proof (Z.div_pos (Z.log2 v) 64 (Z.log2_nonneg v)). rewrite <- Z.pow_mul_r by lia. apply Z.log2_lt_pow2; [lia|].
  generalize dependent (Z.log2 v). intros l L. Z.div_mod_to_equations. lia.
Qed.

Lemma zero_filled k s : zlen s <= k -> zlen (zero_fill k s) = k /\ be_val (zero_fill k s) = be_val s * 256 ^ (k - zlen s).
Proof.
  intros L. unfold zero_fill. rewrite zlen_app, be_val_app, be_val_repeat0, zlen_zeros. split; [lia|]. rewrite Z2Nat.id by lia. lia.
Qed.

(** what C22 and C23 say of each scheme; all that is needed of the two sections above *)
Lemma rsa_scheme_sign s a rng m p q d dp dq iqmp x e key : rsa_alg s = Some a -> usable_priv (lw_bn W) p q d dp dq iqmp x e key ->
  (64 | Z.log2 (val x) + 1) -> bytes m -> zlen m < 2 ^ 61 -> (forall n, exists salt, rng n = Ok salt /\ bytes salt /\ zlen salt = n) ->
  exists valid sig0, rsa_signer_sign W key s rng m = Ok (zero_fill (byte_length (val x)) sig0) /\
    zlen sig0 = 8 * word_length (be_val sig0) /\ zlen sig0 <= byte_length (val x) /\ bytes sig0 /\ be_val sig0 < val x /\
    valid sig0 (val x) e /\
    (forall t t' n e, valid t n e -> be_val t = be_val t' -> zlen t' <= byte_length n -> valid t' n e) /\
    (forall pk t, bytes pk -> bytes t -> (va_verify a pk m t = Ok tt <-> rsa_accepts (valid t) pk)).
Proof.
  intros RA U D64 BM LM RNG. pose proof (wo_bn _ _ _ _ O) as BN. destruct (priv_pub _ _ _ _ _ _ _ _ _ _ U) as [Up _]. destruct (key_len _ _ _ _ Up) as (Kl & Kb & Ku & _).
  destruct (pub_facts _ _ _ Up) as (P & _).
  destruct (word_len64 _ P D64) as [K8 D8].
  assert (EW : word_length (val x) = p_used x).
  { destruct (byte_length_used x (proj1 (proj2 Up)) (proj2 (val_bound 128 x (proj1 Up)))) as (_ & _ & _ & I8). apply I8 in D8. lia. }
  assert (L64 : zlen m < 2 ^ 64) by (eapply Z.lt_trans; [exact LM|reflexivity]).
  assert (PK : forall verify sign Hs oid lim b, In (verify, sign, Hs, oid, lim) (pkcs1_algs (lw_bn W)) -> zlen m < lim ->
    In b (all_algorithms W) -> (forall pk t, promised c1 c2 ce (ec_bytes (lw_p256 W)) (ec_bytes (lw_p384 W)) (va_key b) (va_sig b) pk m t = rsa_accepts (pkcs1_accepts Hs oid m t) pk) ->
    exists valid sig0, sign key (byte_length (val x)) m = Ok sig0 /\
    zlen sig0 = 8 * word_length (be_val sig0) /\ zlen sig0 <= byte_length (val x) /\ bytes sig0 /\ be_val sig0 < val x /\
    valid sig0 (val x) e /\
    (forall t t' n e, valid t n e -> be_val t = be_val t' -> zlen t' <= byte_length n -> valid t' n e) /\
    (forall pk t, bytes pk -> bytes t -> (va_verify b pk m t = Ok tt <-> rsa_accepts (valid t) pk))).
  { intros verify sign Hs oid lim b HA LL IB PR. destruct (C24_pkcs1 _ BN _ _ _ _ _ HA _ _ _ _ _ _ _ _ _ U D8 m BM LL (byte_length (val x))) as [S _].
    destruct (S ltac:(lia)) as (sg & SG & V & L1 & L2 & BS).
    destruct (C22_verify _ BN _ _ _ _ _ HA x e _ Up sg m BS BM LL) as [VV _]. apply VV in V.
    exists (fun t => pkcs1_accepts Hs oid m t), sg. repeat (split; [assumption||apply V|]). split.
    - intros t t' n' e' (A1 & A2 & EM & A3) E _. unfold pkcs1_accepts. rewrite <- E. eauto.
    - intros pk t BP BT. rewrite <- PR. apply (C53_verify c1 c2 ce W O b IB pk m t BP BM BT LM). }
  assert (PS : forall H Hs lim b, In (H, Hs, lim) hashes -> zlen m < lim ->
    In b (all_algorithms W) -> (forall pk t, promised c1 c2 ce (ec_bytes (lw_p256 W)) (ec_bytes (lw_p384 W)) (va_key b) (va_sig b) pk m t = rsa_accepts (pss_accepts Hs (ha_out H) m t) pk) ->
    exists valid sig0, sign_pss (lw_bn W) H rng key (byte_length (val x)) m = Ok sig0 /\
    zlen sig0 = 8 * word_length (be_val sig0) /\ zlen sig0 <= byte_length (val x) /\ bytes sig0 /\ be_val sig0 < val x /\
    valid sig0 (val x) e /\
    (forall t t' n e, valid t n e -> be_val t = be_val t' -> zlen t' <= byte_length n -> valid t' n e) /\
    (forall pk t, bytes pk -> bytes t -> (va_verify b pk m t = Ok tt <-> rsa_accepts (valid t) pk))).
  { intros H Hs lim b HA LL IB PR. destruct (RNG (ha_out H)) as (salt & RS & BSa & LSa).
    destruct (C24_pss _ BN _ _ _ HA _ _ _ _ _ _ _ _ _ U D64 rng m BM LL (byte_length (val x))) as [S _].
    destruct (S ltac:(lia) salt RS BSa LSa) as (sg & SG & V & L1 & L2 & BS).
    destruct (C23_verify_signature _ BN _ _ _ HA x e _ Up sg m BS BM LL) as [VV _]. apply VV in V. rewrite <- EW in V.
    exists (fun t => pss_accepts Hs (ha_out H) m t), sg. repeat (split; [assumption||apply V|]). split.
    - intros t t' n' e' (A1 & A2 & A3) E L. unfold pss_accepts. rewrite <- E. auto.
    - intros pk t BP BT. rewrite <- PR. apply (C53_verify c1 c2 ce W O b IB pk m t BP BM BT LM). }
  assert (H1 : In (Sha256, SHA256, 2 ^ 61) hashes) by (left; reflexivity).
  assert (H2 : In (Sha384, SHA384, 2 ^ 64) hashes) by (right; left; reflexivity).
  assert (H3 : In (Sha512, SHA512, 2 ^ 64) hashes) by (right; right; left; reflexivity).
  unfold rsa_signer_sign. unfold sk_modulus_len. change (M_RsaKey.sk_public_key key) with (pr_public key). rewrite Kl.
  assert (FIN : forall r, (exists valid sig0, r = Ok sig0 /\
    zlen sig0 = 8 * word_length (be_val sig0) /\ zlen sig0 <= byte_length (val x) /\ bytes sig0 /\ be_val sig0 < val x /\
    valid sig0 (val x) e /\
    (forall t t' n e, valid t n e -> be_val t = be_val t' -> zlen t' <= byte_length n -> valid t' n e) /\
    (forall pk t, bytes pk -> bytes t -> (va_verify a pk m t = Ok tt <-> rsa_accepts (valid t) pk))) ->
    exists valid sig0, (let! sig := map_err r (fun _ => GeneralError) in Ok (zero_fill (byte_length (val x)) sig)) = Ok (zero_fill (byte_length (val x)) sig0) /\
    zlen sig0 = 8 * word_length (be_val sig0) /\ zlen sig0 <= byte_length (val x) /\ bytes sig0 /\ be_val sig0 < val x /\
    valid sig0 (val x) e /\
    (forall t t' n e, valid t n e -> be_val t = be_val t' -> zlen t' <= byte_length n -> valid t' n e) /\
    (forall pk t, bytes pk -> bytes t -> (va_verify a pk m t = Ok tt <-> rsa_accepts (valid t) pk))).
  { intros r (valid & sg & -> & R). exists valid, sg. split; [reflexivity|exact R]. }
  destruct s; cbn [rsa_alg] in RA; try discriminate RA; injection RA as <-; apply FIN.
  - apply (PK _ _ _ _ _ (V_PKCS1_SHA256 W) (or_introl eq_refl) LM); [offered 12%nat|reflexivity].
  - apply (PK _ _ _ _ _ (V_PKCS1_SHA384 W) (or_intror (or_introl eq_refl)) L64); [offered 11%nat|reflexivity].
  - apply (PK _ _ _ _ _ (V_PKCS1_SHA512 W) (or_intror (or_intror (or_introl eq_refl))) L64); [offered 10%nat|reflexivity].
  - apply (PS _ _ _ (V_PSS_SHA256 W) H1 LM); [offered 9%nat|reflexivity].
  - apply (PS _ _ _ (V_PSS_SHA384 W) H2 L64); [offered 8%nat|reflexivity].
  - apply (PS _ _ _ (V_PSS_SHA512 W) H3 L64); [offered 7%nat|reflexivity].
Qed.

Theorem C53_rsa_signer : forall s a rng fuel m p q d dp dq iqmp x e key, rsa_alg s = Some a -> usable_priv (lw_bn W) p q d dp dq iqmp x e key ->
  (64 | Z.log2 (val x) + 1) -> e < 2 ^ 31 -> bytes m -> zlen m < 2 ^ 61 -> (forall n, exists salt, rng n = Ok salt /\ bytes salt /\ zlen salt = n) ->
  let k := byte_length (val x) in
  exists doc pub sig v, rsa_published (val x) e doc pub /\ public_key_spki W (ARsa key) = Ok (Some doc) /\
    signer_sign W (ARsa key) s rng fuel m = Some (Ok sig) /\ zlen sig = k /\ 0 <= v < val x /\
    va_verify a pub m (be_bytes (Z.to_nat k) v) = Ok tt /\
    be_val sig = v * 256 ^ (k - 8 * word_length v) /\
    (word_length v = word_length (val x) -> sig = be_bytes (Z.to_nat k) v /\ va_verify a pub m sig = Ok tt).
Proof.
  intros s a rng fuel m p q d dp dq iqmp x e key RA U D64 E31 BM LM RNG k.
  destruct (rsa_publishes _ _ _ _ _ _ _ _ _ U E31) as (doc & pub & RP & PS & BP).
  destruct (rsa_scheme_sign s a rng m _ _ _ _ _ _ _ _ _ RA U D64 BM LM RNG) as (valid & sg & SG & L1 & L2 & BS & VB & VD & VN & VA).
  fold k in SG, L2. destruct (zero_filled k sg L2) as [ZL ZV].
  destruct (priv_pub _ _ _ _ _ _ _ _ _ _ U) as [Up _]. destruct (key_len _ _ _ _ Up) as (_ & Kb & _ & _). fold k in Kb.
  destruct (pub_facts _ _ _ Up) as (P & E0 & PO). assert (E32 : e < 2 ^ 32) by (eapply Z.lt_trans; [exact E31|reflexivity]). specialize (PO E32).
  assert (V0 : 0 <= be_val sg) by (apply be_val_bound; exact BS).
  set (good := be_bytes (Z.to_nat k) (be_val sg)).
  assert (GB : bytes good) by apply be_bytes_bytes.
  assert (GL : zlen good = k) by (unfold good, zlen; rewrite be_bytes_length; lia).
  assert (GV : be_val good = be_val sg).
  { unfold good. rewrite be_val_be_bytes, Z2Nat.id by lia. apply Z.mod_small. split; [exact V0|]. apply Z.lt_trans with (1 := VB).
    change 256 with (2 ^ 8). rewrite <- Z.pow_mul_r by lia. apply below_bytes. exact P. }
  assert (ACC : va_verify a pub m good = Ok tt).
  { apply VA; [exact BP|exact GB|]. destruct RP as [PD _]. exists (val x), e. split; [exact PD|]. split; [exact PO|].
    apply (VN sg good); [exact VD|now symmetry|fold k; lia]. }
  exists doc, pub, (zero_fill k sg), (be_val sg). split; [exact RP|]. split; [exact PS|]. split; [cbn [signer_sign]; now rewrite SG|]. split; [exact ZL|].
  split; [split; assumption|]. split; [exact ACC|]. split; [rewrite ZV, L1; reflexivity|].
  intros WE. destruct (word_len64 _ P D64) as [K8 _]. fold k in K8. assert (LS : zlen sg = k) by lia.
  assert (EQ : zero_fill k sg = good).
  { unfold zero_fill. rewrite LS, Z.sub_diag. cbn [Z.to_nat repeat]. rewrite app_nil_r. unfold good. symmetry. rewrite <- LS. unfold zlen. rewrite Nat2Z.id. now apply be_bytes_be_val. }
  split; [exact EQ|]. now rewrite EQ.
Qed.

(** Raising to the power e is one-to-one modulo n. *)
Lemma rsa_injective p q n e d dp dq qi a b : rsa_valid p q n e d dp dq qi -> 0 <= a < n -> 0 <= b < n -> a ^ e mod n = b ^ e mod n -> a = b.
Proof.
  intros V A B E. pose proof V as [P Q P2 Q2 Dn En He [Hd [Ed1 Ed2]] _ _ _].
  assert (INV : forall y, cong n ((y ^ e) ^ d) y).
  { intros y. rewrite <- Z.pow_mul_r by lia. rewrite En. clear E. apply crt_cong; [now apply primes_rel| |]; rewrite <- (Z.pow_1_r y) at 2; apply pow_cong_phi; try assumption; try nia; apply one_cong; auto; lia. }
  assert (N0 : n <> 0) by (clear - A; lia).
  assert (C : cong n a b).
  { apply cong_trans with ((a ^ e) ^ d); [apply cong_sym, INV|]. apply cong_trans with ((b ^ e) ^ d); [|apply INV]. apply cong_pow. now apply mod_cong. }
  rewrite (cong_small n a b A C). now apply Z.mod_small.
Qed.

(** ... and otherwise (about once in 2^64 signatures) what the signer returns
    is not the signature: for PKCS#1 the key's own verification rejects it. *)
Theorem C53_rsa_signer_short_refuted : forall s a rng fuel m p q d dp dq iqmp x e key,
  In s [RSA_PKCS1_SHA256; RSA_PKCS1_SHA384; RSA_PKCS1_SHA512] -> rsa_alg s = Some a -> usable_priv (lw_bn W) p q d dp dq iqmp x e key ->
  (64 | Z.log2 (val x) + 1) -> e < 2 ^ 31 -> bytes m -> zlen m < 2 ^ 61 -> (forall n, exists salt, rng n = Ok salt /\ bytes salt /\ zlen salt = n) ->
  exists doc pub sig v, rsa_published (val x) e doc pub /\ public_key_spki W (ARsa key) = Ok (Some doc) /\
    signer_sign W (ARsa key) s rng fuel m = Some (Ok sig) /\
    va_verify a pub m (be_bytes (Z.to_nat (byte_length (val x))) v) = Ok tt /\
    (word_length v < word_length (val x) -> va_verify a pub m sig = Err InvalidSignature).
Proof.
  intros s a rng fuel m p q d dp dq iqmp x e key IN RA U D64 E31 BM LM RNG.
  destruct (C53_rsa_signer s a rng fuel m _ _ _ _ _ _ _ _ _ RA U D64 E31 BM LM RNG) as (doc & pub & sig & v & RP & PS & SG & ZL & VB & ACC & ZV & _).
  exists doc, pub, sig, v. split; [exact RP|]. split; [exact PS|]. split; [exact SG|]. split; [exact ACC|]. intros SH.
  destruct (priv_pub _ _ _ _ _ _ _ _ _ _ U) as [Up _]. destruct (key_len _ _ _ _ Up) as (_ & Kb & Ku & _). set (k := byte_length (val x)) in *.
  destruct (pub_facts _ _ _ Up) as (P & E0 & _). destruct (word_len64 _ P D64) as [K8 _]. fold k in K8.
  assert (K1 : k <= 1024) by lia.
  destruct (public_doc_bytes (val x) e pub P K1 ltac:(lia) (proj1 RP)) as [BP LP].
  assert (BS : bytes sig).
  { destruct (rsa_scheme_sign s a rng m _ _ _ _ _ _ _ _ _ RA U D64 BM LM RNG) as (_ & sg & SG' & _ & _ & BS & _). cbn [signer_sign] in SG. rewrite SG' in SG.
    injection SG as <-. unfold zero_fill. apply bytes_app. split; [exact BS|]. apply Forall_forall. intros z Hz. apply repeat_spec in Hz. subst z. split; [discriminate|reflexivity]. }
  assert (DB : forall verify sign Hs oid lim, In (verify, sign, Hs, oid, lim) (pkcs1_algs (lw_bn W)) -> bytes (DigestInfo oid (Hs m))).
  { intros verify sign Hs oid lim HA. destruct (alg_cases _ _ _ _ _ _ HA) as (H & di & HI & _ & _ & _ & Bdi & Dg). rewrite Dg. apply bytes_app. split; [exact Bdi|]. apply (im_bytes _ _ _ (hashes_imp _ _ _ HI)). }
  assert (AC : exists Hs oid, bytes (DigestInfo oid (Hs m)) /\ In a (all_algorithms W) /\ forall t, promised c1 c2 ce (ec_bytes (lw_p256 W)) (ec_bytes (lw_p384 W)) (va_key a) (va_sig a) pub m t = rsa_accepts (pkcs1_accepts Hs oid m t) pub).
  { destruct IN as [<-|[<-|[<-|[]]]]; injection RA as <-.
    - exists SHA256, id_sha256. split; [apply (DB _ _ _ _ _ (or_introl eq_refl))|]. split; [offered 12%nat|reflexivity].
    - exists SHA384, id_sha384. split; [apply (DB _ _ _ _ _ (or_intror (or_introl eq_refl)))|]. split; [offered 11%nat|reflexivity].
    - exists SHA512, id_sha512. split; [apply (DB _ _ _ _ _ (or_intror (or_intror (or_introl eq_refl))))|]. split; [offered 10%nat|reflexivity]. }
  destruct AC as (Hs & oid & BD & IB & PR).
  destruct (C53_verify c1 c2 ce W O a IB pub m sig BP BM BS LM) as [V1 [T|T]]; [exfalso|exact T]. apply V1 in T. rewrite PR in T.
  assert (GB : bytes (be_bytes (Z.to_nat k) v)) by apply be_bytes_bytes.
  apply (proj1 (C53_verify c1 c2 ce W O a IB pub m _ BP BM GB LM)) in ACC. rewrite PR in ACC.
  destruct T as (n1 & e1 & D1 & _ & _ & LT & EM & EN & PW). destruct ACC as (n2 & e2 & D2 & _ & _ & LT2 & EM2 & EN2 & PW2).
  destruct (public_doc_inj _ _ _ _ _ BP LP (proj1 RP) D1) as [-> ->]. destruct (public_doc_inj _ _ _ _ _ BP LP (proj1 RP) D2) as [-> ->].
  assert (EM2 = EM) as -> by congruence.
  assert (GV : be_val (be_bytes (Z.to_nat k) v) = v).
  { rewrite be_val_be_bytes, Z2Nat.id by lia. apply Z.mod_small. split; [apply VB|]. apply Z.lt_trans with (1 := proj2 VB).
    change 256 with (2 ^ 8). rewrite <- Z.pow_mul_r by lia. apply below_bytes. exact P. }
  rewrite GV in PW2, LT2.
  assert (SV : be_val sig = v). { apply (rsa_injective _ _ _ _ _ _ _ _ _ _ (up_valid _ _ _ _ _ _ _ _ _ _ U)); [split; [apply be_val_bound; exact BS|exact LT]|exact VB|congruence]. }
  assert (V0 : v <> 0).
  { intros ->. rewrite Z.pow_0_l in PW2 by exact E0. rewrite Z.mod_0_l in PW2 by lia. unfold EMSA_PKCS1 in EN. destruct (_ <? _); [discriminate EN|].
    match type of EN with Some ?l = Some _ => assert (EE : EM = l) by congruence end. rewrite EE, be_val_app in PW2. change (be_val [0; 1]) with 1 in PW2. set (r := repeat 255 _ ++ _) in *.
    assert (BR : bytes r). { unfold r. apply bytes_app. split; [|apply bytes_app; split; [apply bytes_cons; split; [split; [discriminate|reflexivity]|constructor]|exact BD]]. apply Forall_forall. intros z Hz. apply repeat_spec in Hz. subst z. split; [discriminate|reflexivity]. }
    pose proof (be_val_bound r BR). pose proof (Z.pow_pos_nonneg 256 (zlen r) ltac:(lia) (zlen_nonneg r)). lia. }
  rewrite ZV in SV. assert (X : 1 < 256 ^ (k - 8 * word_length v)) by (apply Z.pow_gt_1; lia).
  set (u := 256 ^ (k - 8 * word_length v)) in *. clearbody u. assert (0 < v) by lia. nia.
Qed.
End Signers.
Print Assumptions C53_p256_signer.
Print Assumptions C53_p384_signer.
Print Assumptions C53_ed25519_signer.
Print Assumptions C53_rsa_signer.
Print Assumptions C53_rsa_signer_short_refuted.

(** A key pair, a signature and its acceptance: Ed25519 on the small curve; and an ECDSA signature of the kind the
    signers return, for a small hash. *)
Example C53_ed25519_some : exists k sig key, ed_from_bytes (lw_ed tiny_lows) (repeat 7 32) = Ok k /\
  signer_sign tiny_lows (AEd25519 k) ED25519 (fun _ => Err RngFailed) 1 [1; 2; 3] = Some (Ok sig) /\
  va_verify (V_ED25519 tiny_lows) key [1; 2; 3] sig = Ok tt.
Proof.
  assert (B : bytes (repeat 7 32)) by (repeat constructor; discriminate). assert (BM : bytes [1; 2; 3]) by (repeat constructor; discriminate).
  destruct (C34_public_key _ _ (wo_ed _ _ _ _ tiny_lows_ok) (wo_edlow _ _ _ _ tiny_lows_ok) (repeat 7 32) B eq_refl) as (k & K & _).
  destruct (C53_ed25519_signer _ _ _ _ tiny_lows_ok (repeat 7 32) k (fun _ => Err RngFailed) 1%nat [1; 2; 3] ED25519 B eq_refl K BM ltac:(reflexivity)) as (sig & key & SG & _ & V).
  exists k, sig, key. auto.
Qed.
Example C53_ecdsa_some : ecdsa_signer_sign L_EcRef.tiny_ec Toy8 7 (fun _ => Ok (repeat 9 16)) 1 [1] = Some (Ok [48; 6; 2; 1; 15; 2; 1; 49]).
Proof. vm_compute. reflexivity. Qed.
