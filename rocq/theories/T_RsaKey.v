(** Property C25: import and export of RSA keys. *)
Require Import Verif.Base Verif.L_Base Verif.L_Blocks Verif.M_Util Verif.L_Util Verif.M_Asn1 Verif.M_Pkix Verif.S_Der Verif.S_Pkix
  Verif.L_Asn1 Verif.L_Asn1Int Verif.L_Pkix Verif.M_Pkcs8 Verif.T_Pkcs8
  Verif.M_PosInt Verif.S_Bignum Verif.L_PosInt Verif.T_PosInt Verif.L_Mont Verif.M_Rsa Verif.S_Rsa Verif.L_Rsa Verif.T_Rsa
  Verif.M_RsaKey.
Require Import ZifyNat.

(** [lia] with the powers of two in the context made opaque (they are large numbers) *)
Ltac plia := repeat match goal with H : context [2 ^ ?k] |- _ => let x := fresh in set (x := 2 ^ k) in *; clearbody x end; lia.
(** *** Numbers *)
(** [x] holds the number [v] in [N] words, without leading zero words *)
Definition holds (N : Z) (x : posint) (v : Z) : Prop := wf N x /\ val x = v.
Definition trimmed (x : posint) : Prop := p_used x = bn_digitsize (as_words x).
(** [i] is the contents of the DER INTEGER for [v] *)
Definition der_int (v : Z) (i : list Z) : Prop := is_int i /\ int_value i = v.

Lemma trimmed_unique N x y : wf N x -> wf N y -> trimmed x -> trimmed y -> val x = val y -> x = y.
Proof.
  intros Wx Wy Tx Ty E. destruct x as [wx ux], y as [wy uy]. f_equal.
  - pose proof (val_words _ _ Wx) as A. pose proof (val_words _ _ Wy) as B. cbn [p_words] in *.
    destruct Wx as ([Lx Ux] & _), Wy as ([Ly Uy] & _). cbn [p_words] in *.
    apply limbs_val_inj; auto; [unfold zlen in *; lia|lia].
  - unfold trimmed in *. cbn [p_used] in *. rewrite Tx, Ty. unfold bn_digitsize.
    change (bn_bitsize (as_words (mkPI wx ux))) with (len_bits (mkPI wx ux)).
    change (bn_bitsize (as_words (mkPI wy uy))) with (len_bits (mkPI wy uy)).
    rewrite !len_bits_val, E. reflexivity.
Qed.

Lemma read_ok N b : 0 <= N -> bytes b -> be_val b < 2 ^ (64 * N) ->
  exists x, pfrom_bytes N b = Ok x /\ holds N x (be_val b) /\ trimmed x.
Proof. intros HN Hb L. destruct (from_bytes_spec N b HN Hb) as [A _]. destruct (A L) as (x & E & W & V & U). exists x. repeat split; auto; apply W. Qed.
Lemma read_inv N b x : 0 <= N -> bytes b -> pfrom_bytes N b = Ok x -> holds N x (be_val b) /\ trimmed x /\ be_val b < 2 ^ (64 * N).
Proof.
  intros HN Hb E. destruct (Z.lt_ge_cases (be_val b) (2 ^ (64 * N))) as [L|G].
  - destruct (read_ok N b HN Hb L) as (x' & E' & H). assert (x' = x) by congruence. subst. tauto.
  - destruct (from_bytes_spec N b HN Hb) as [_ B]. rewrite B in E by assumption. discriminate.
Qed.
Lemma read_is N b x : 0 <= N -> bytes b -> holds N x (be_val b) -> trimmed x -> pfrom_bytes N b = Ok x.
Proof.
  intros HN Hb [W V] T. destruct (read_ok N b HN Hb) as (x' & E' & [W' V'] & T').
  - rewrite <- V. apply val_boundN with (1 := W).
  - rewrite E'. f_equal. apply (trimmed_unique N); auto; congruence.
Qed.
Lemma read_total N b : 0 <= N -> bytes b -> pfrom_bytes N b <> Panic.
Proof. intros HN Hb. destruct (C18_from_bytes N b HN Hb) as [(x & -> & _)|[-> _]]; discriminate. Qed.

Lemma nonneg_be i : is_int i -> 0 <= int_value i -> be_val i = int_value i.
Proof.
  intros [Hb M] H. destruct i as [|x r]; [reflexivity|]. unfold int_value in *. destruct (Z.leb_spec 128 x); [|reflexivity].
  pose proof (be_val_bound (x :: r) Hb). lia.
Qed.
Lemma int_len i k : is_int i -> 1 <= k -> - 2 ^ (8 * k - 1) <= int_value i < 2 ^ (8 * k - 1) -> zlen i <= k.
Proof.
  intros [Hb M] Hk B. destruct i as [|x [|y r]]; [cbn in M; tauto|rewrite !zlen_cons; change (zlen (@nil Z)) with 0; lia|].
  pose proof (minimal_far x y r Hb M) as F. destruct (Z.le_gt_cases (zlen (x :: y :: r)) k); [assumption|exfalso].
  rewrite !zlen_cons in *. pose proof (zlen_nonneg r).
  assert (P : 2 ^ (8 * k - 1) <= 128 * 256 ^ zlen r).
  { change 128 with (2 ^ 7). change 256 with (2 ^ 8). rewrite <- Z.pow_mul_r, <- Z.pow_add_r by lia. apply Z.pow_le_mono_r; lia. }
  revert F B P. generalize (2 ^ (8 * k - 1)) (128 * 256 ^ zlen r) (int_value (x :: y :: r)). clear. intros; lia.
Qed.

Lemma p2nn a : 0 <= 2 ^ a. Proof. apply Z.pow_nonneg. lia. Qed.
Lemma c64 : 0 <= 64. Proof. lia. Qed.
Lemma c128 : 0 <= 128. Proof. lia. Qed.

(** *** Public keys *)
(** RFC 8017 A.1.1 document for the public key (n, e) *)
Definition public_doc (n e : Z) (b : list Z) : Prop :=
  exists ni ei, der_int n ni /\ der_int e ei /\ b = der_enc (tree_RSAPublicKey (ni, ei)).
(** which (n, e) are usable: odd modulus of 256 to 1024 bytes, exponent from 1 to 2^32 - 1 *)
Definition public_ok (n e : Z) : Prop := Z.odd n = true /\ 2 ^ 2040 <= n < 2 ^ 8192 /\ 0 < e < 2 ^ 32.
(** the key object for (n, e) *)
Definition public_key_of (bn : bignum) (n e : Z) (key : rsa_pub) : Prop :=
  exists x, holds 128 x n /\ trimmed x /\ pub_new bn x e = Ok key.

Lemma tlv_len t b : zlen b <= 65535 -> zlen (tlv t b) <= zlen b + 4.
Proof.
  intros H. unfold tlv. rewrite zlen_cons, zlen_app. pose proof (zlen_nonneg b).
  assert (zlen (der_length (zlen b)) <= 3); [|lia].
  destruct (Z.ltb_spec (zlen b) 128); [rewrite der_length_small by lia|destruct (Z.ltb_spec (zlen b) 256);
    [rewrite der_length_81 by lia|rewrite der_length_82 by lia]]; rewrite ?zlen_cons; change (zlen (@nil Z)) with 0; lia.
Qed.
Lemma seq_len l : forall k, zlen (concat (map der_enc l)) <= k -> k <= 65535 -> zlen (der_enc (SEQ l)) <= k + 4.
Proof. intros k H Hk. unfold SEQ. cbn [der_enc]. pose proof (tlv_len 48 (concat (map der_enc l))). lia. Qed.
Lemma int_enc_len i k : zlen i <= k -> k <= 65535 -> zlen (der_enc (INT i)) <= k + 4.
Proof. intros H Hk. unfold INT. cbn [der_enc]. pose proof (tlv_len 2 i). lia. Qed.
Lemma enc_cons d l k1 k2 : zlen (der_enc d) <= k1 -> zlen (concat (map der_enc l)) <= k2 -> zlen (concat (map der_enc (d :: l))) <= k1 + k2.
Proof. intros. cbn [map concat]. rewrite zlen_app. lia. Qed.
Lemma enc_nil : zlen (concat (map der_enc [])) <= 0. Proof. cbn. lia. Qed.

Lemma public_len ni ei : zlen ni <= 1025 -> zlen ei <= 8 -> zlen (der_enc (tree_RSAPublicKey (ni, ei))) <= 1045.
Proof.
  intros Hn He. unfold tree_RSAPublicKey. apply (seq_len _ 1041); [|lia].
  refine (enc_cons _ _ 1029 12 _ (enc_cons _ _ 12 0 _ enc_nil)); [apply (int_enc_len _ 1025); lia|apply (int_enc_len _ 8); lia].
Qed.

Lemma pow_le a b : a <= b -> 2 ^ a <= 2 ^ b. Proof. intros. apply Z.pow_le_mono_r; lia. Qed.
Lemma modulus_contents n i : der_int n i -> 0 <= n < 2 ^ 8192 -> zlen i <= 1025.
Proof.
  intros [I V] B. apply (int_len i 1025 I); [lia|]. rewrite V. pose proof (pow_le 8192 (8 * 1025 - 1) ltac:(lia)).
  revert B H. generalize (2 ^ 8192) (2 ^ (8 * 1025 - 1)). clear. intros; lia.
Qed.

(** Importing a public key succeeds exactly on the PKCS#1 document of a usable (n, e), and gives the key object of
    that (n, e). *)
Theorem C25_public_import : forall bn b key, bytes b ->
  vk_from_pkcs1_der bn b = Ok key <->
  exists n e, public_doc n e b /\ public_ok n e /\ public_key_of bn n e key.
Proof.
  intros bn b key Hb. pose proof exact_RSAPublicKey as X. split.
  - intros H. unfold vk_from_pkcs1_der in H.
    destruct (from_bytes RSAPublicKey b) as [[ni ei]| |] eqn:D; try discriminate. cbn [bind] in H.
    apply (x_dec _ _ _ X) in D as ([In Ie] & Eb & _); [|assumption].
    rewrite (is_negative_spec ni In) in H. destruct (Z.ltb_spec (int_value ni) 0); [discriminate|].
    destruct (pfrom_bytes MAX_PUBLIC_MODULUS_WORDS ni) as [x| |] eqn:R; try discriminate. cbn [bind] in H.
    change MAX_PUBLIC_MODULUS_WORDS with 128 in R. apply read_inv in R as ([Wx Vx] & Tx & Bx); [|lia|apply In].
    destruct (integer_as_usize ei) as [e| |] eqn:Ee; try discriminate. cbn [bind] in H.
    apply (as_usize_spec ei e Ie) in Ee as [-> He].
    unfold to_u32 in H. destruct (Z.ltb_spec (int_value ei) (2 ^ 32)); [|discriminate]. cbn [bind] in H.
    destruct (C19_public_key bn x (int_value ei) Wx) as [I [K|K]]; [|congruence].
    pose proof (proj1 I K) as (O & B & Z0). rewrite (nonneg_be ni In) in Vx by assumption.
    exists (val x), (int_value ei). split; [|split].
    + exists ni, ei. split; [split; auto|]. split; [split; auto|assumption].
    + split; [assumption|]. split; [assumption|plia].
    + exists x. split; [split; auto|]. split; auto.
  - intros (n & e & (ni & ei & [In Vn] & [Ie Ve] & Eb) & (O & B & E) & (x & [Wx Vx] & Tx & K)).
    assert (N0 : 0 <= n < 2 ^ 8192). { split; [|apply B]. apply Z.le_trans with (2 := proj1 B). apply p2nn. }
    assert (L1 : zlen ni <= 1025) by (apply (modulus_contents n); [split; auto|assumption]).
    assert (L2 : zlen ei <= 8). { apply int_len; [assumption|plia|]. rewrite Ve. change (2 ^ (8 * 8 - 1)) with (2 ^ 63). change (2 ^ 32) with 4294967296 in E. change (2 ^ 63) with 9223372036854775808. plia. }
    pose proof (public_len ni ei L1 L2) as L.
    unfold vk_from_pkcs1_der. rewrite (proj2 (x_dec _ _ _ X b (ni, ei) Hb)). 2:{ split; [split; assumption|]. split; [assumption|]. rewrite Eb. plia. }
    cbn [bind]. rewrite (is_negative_spec ni In), Vn. destruct (Z.ltb_spec n 0); [plia|].
    change MAX_PUBLIC_MODULUS_WORDS with 128.     rewrite (read_is 128 ni x); [|exact c128|apply In| |assumption].
    2:{ split; [assumption|]. rewrite nonneg_be by (assumption || plia). congruence. }
    cbn [bind]. rewrite (proj2 (as_usize_spec ei e Ie)). 2:{ split; [congruence|]. change (2 ^ 32) with 4294967296 in E. change (2 ^ 63) with 9223372036854775808. plia. }
    cbn [bind]. unfold to_u32. destruct (Z.ltb_spec e (2 ^ 32)); [|plia]. exact K.
Qed.
Print Assumptions C25_public_import.

(** ... and every usable (n, e) has a key object. *)
Theorem C25_public_exists : forall bn n e, public_ok n e -> exists key, public_key_of bn n e key.
Proof.
  intros bn n e (O & B & E).
  assert (P : 0 <= n). { apply Z.le_trans with (2 := proj1 B). apply p2nn. }
  assert (V : be_val (be_bytes 1024 n) = n).
  { rewrite be_val_be_bytes. apply Z.mod_small. split; [assumption|]. change 256 with (2 ^ 8). rewrite <- Z.pow_mul_r by plia. apply B. }
  destruct (read_ok 128 (be_bytes 1024 n)) as (x & _ & [W Vx] & T); [plia|apply be_bytes_bytes|rewrite V; apply B|].
  rewrite V in Vx. destruct (C19_public_key bn x e W) as [I _]. exists (pub_make bn x e), x. split; [split; assumption|].
  split; [assumption|]. apply I. rewrite Vx. repeat split; auto; plia.
Qed.
Print Assumptions C25_public_exists.

(** Import never panics. *)
Theorem C25_public_total : forall bn b, bytes b -> vk_from_pkcs1_der bn b <> Panic.
Proof.
  intros bn b Hb. pose proof exact_RSAPublicKey as X. unfold vk_from_pkcs1_der. pose proof (x_total _ _ _ X b Hb) as T.
  destruct (from_bytes RSAPublicKey b) as [[ni ei]| |] eqn:D; try discriminate; try congruence. cbn [bind].
  apply (x_dec _ _ _ X) in D as ([In Ie] & Eb & _); [|assumption].
  destruct (integer_is_negative ni); [discriminate|]. pose proof (read_total 128 ni c128 (proj1 In)) as R.
  change MAX_PUBLIC_MODULUS_WORDS with 128.
  destruct (pfrom_bytes 128 ni); cbn [bind]; try discriminate; try congruence. pose proof (as_usize_total ei) as U.
  destruct (integer_as_usize ei); cbn [bind]; try discriminate; try congruence. unfold to_u32.
  destruct (_ <? _); cbn [bind]; [|discriminate]. unfold pub_new. destruct (_ || _); discriminate.
Qed.
Print Assumptions C25_public_total.

(** the contents written for a number *)
Lemma export_int N x len : wf N x -> 8 * N + 1 <= len -> exists b, pto_bytes_asn1 x len = Ok b /\ der_int (val x) (integer_new b) /\
  zlen (integer_new b) <= 8 * N + 1.
Proof.
  intros W L. pose proof (wf_used N x W) as U. destruct (C18_to_bytes_asn1 N x len W) as [A _].
  destruct (A ltac:(lia)) as (b & E & B & Lb & V). exists (0 :: b). split; [assumption|].
  assert (B0 : bytes (0 :: b)) by (apply bytes_cons; split; [red; lia|assumption]).
  destruct (integer_new_spec (0 :: b) B0) as [I Vi]. assert (Vz : int_value (0 :: b) = val x) by (rewrite <- V; reflexivity).
  split; [split; [exact I|congruence]|]. apply int_len; [exact I|lia|]. rewrite Vi, Vz. pose proof (val_boundN N x W) as [V0 V1].
  assert (2 ^ (64 * N) <= 2 ^ (8 * (8 * N + 1) - 1)) by (apply Z.pow_le_mono_r; lia).
  revert V0 V1 H. generalize (2 ^ (64 * N)) (2 ^ (8 * (8 * N + 1) - 1)). clear. intros; lia.
Qed.
(** the exponent is written as a signed 32-bit number *)
Definition signed32 (e : Z) : Z := if e <? 2 ^ 31 then e else e - 2 ^ 32.
Lemma export_exp e : 0 <= e < 2 ^ 32 -> der_int (signed32 e) (integer_new (be_bytes 4 e)) /\ zlen (integer_new (be_bytes 4 e)) <= 4.
Proof.
  intros B. destruct (integer_new_spec (be_bytes 4 e) (be_bytes_bytes 4 e)) as [I V].
  assert (VE : int_value (be_bytes 4 e) = signed32 e).
  { pose proof (be_val_be_bytes 4 e) as W. change (256 ^ Z.of_nat 4) with (2 ^ 32) in W. rewrite Z.mod_small in W by assumption.
    pose proof (be_bytes_bytes 4 e) as BB. assert (LL : zlen (be_bytes 4 e) = 4) by (unfold zlen; now rewrite be_bytes_length).
    destruct (be_bytes 4 e) as [|x r]; [discriminate|]. unfold int_value, signed32. rewrite LL. rewrite zlen_cons in LL.
    inversion BB as [|? ? Bx Br]; subst. pose proof (be_val_bound r Br) as Q. rewrite be_val_cons in *. replace (zlen r) with 3 in * by lia.
    change (256 ^ 3) with 16777216 in *. change (256 ^ 4) with 4294967296. change (2 ^ 31) with 2147483648. change (2 ^ 32) with 4294967296 in *.
    red in Bx. destruct (Z.leb_spec 128 x), (Z.ltb_spec (x * 16777216 + be_val r) 2147483648); lia. }
  split; [split; [exact I|congruence]|]. apply int_len; [exact I|lia|]. rewrite V, VE. unfold signed32.
  change (2 ^ (8 * 4 - 1)) with 2147483648. change (2 ^ 31) with 2147483648. change (2 ^ 32) with 4294967296 in *. destruct (Z.ltb_spec e 2147483648); lia.
Qed.

(** Export of a public key: the PKCS#1 document of n and of the exponent read as a signed 32-bit number. *)
Theorem C25_public_export : forall bn x n e key, holds 128 x n -> pub_new bn x e = Ok key -> 0 <= e < 2 ^ 32 ->
  exists doc, public_doc n (signed32 e) doc /\ bytes doc /\ zlen doc <= 1045 /\ forall out,
    vk_to_pkcs1_der key out =
      if zlen out <? zlen doc then Err UnexpectedEof else Ok (doc ++ zdrop (zlen doc) out, zlen doc).
Proof.
  intros bn x n e key [W V] K He. destruct (C19_public_key bn x e W) as [_ [D|D]]; [|congruence].
  assert (key = pub_make bn x e) as -> by congruence.
  destruct (export_int 128 x 1025 W ltac:(lia)) as (b & Eb & [Ib Vb] & Lb). destruct (export_exp e He) as [[Ie Ve] Le].
  pose proof (public_len (integer_new b) (integer_new (be_bytes 4 e)) Lb ltac:(lia)) as L.
  exists (der_enc (tree_RSAPublicKey (integer_new b, integer_new (be_bytes 4 e)))). split; [|split; [|split; [exact L|]]].
  - exists (integer_new b), (integer_new (be_bytes 4 e)). split; [split; [assumption|congruence]|]. split; [split; assumption|reflexivity].
  - apply bytes_der_enc; [|lia]. cbn. unfold byte_ok. destruct Ib, Ie. repeat split; auto; lia.
  - intros out. unfold vk_to_pkcs1_der. cbn [pub_make pub_n pub_e]. change (MAX_PUBLIC_MODULUS_BYTES + 1) with 1025. rewrite Eb. cbn [bind].
    rewrite (exact_encode_into _ _ _ exact_RSAPublicKey); [|split; assumption|lia].
    set (doc := der_enc _) in *. destruct (Z.ltb_spec (zlen out) (zlen doc)); [reflexivity|]. cbn [bind].
    pose proof (zlen_nonneg doc). rewrite zlen_app, zlen_zdrop by lia.
    destruct (Z.ltb_spec (zlen doc + (zlen out - zlen doc)) (zlen doc)); [lia|reflexivity].
Qed.
Print Assumptions C25_public_export.

(** Export then import: the same key, if the exponent is below 2^31. *)
Theorem C25_public_round_trip : forall bn n e key out out' len, public_key_of bn n e key -> 0 <= e < 2 ^ 31 ->
  vk_to_pkcs1_der key out = Ok (out', len) -> vk_from_pkcs1_der bn (ztake len out') = Ok key.
Proof.
  intros bn n e key out out' len (x & [W V] & T & K) He H.
  assert (He' : 0 <= e < 2 ^ 32) by (change (2 ^ 31) with 2147483648 in He; change (2 ^ 32) with 4294967296; lia).
  destruct (C25_public_export bn x n e key (conj W V) K He') as (doc & D & B & L & Eo). rewrite Eo in H.
  destruct (Z.ltb_spec (zlen out) (zlen doc)); [discriminate|]. injection H as <- <-. rewrite ztake_app.
  apply C25_public_import; [assumption|]. exists n, e.
  assert (signed32 e = e) as Es by (unfold signed32; destruct (Z.ltb_spec e (2 ^ 31)); [reflexivity|lia]). rewrite Es in D.
  split; [assumption|]. destruct (C19_public_key bn x e W) as [I [C|C]]; [|congruence]. pose proof (proj1 I C) as (O & Bn & Z0).
  rewrite V in *. split; [split; [assumption|]; split; [assumption|lia]|]. exists x. split; [split; assumption|]. split; assumption.
Qed.
Print Assumptions C25_public_round_trip.

(** ... but not above: a key with such an exponent can be imported, and its export is rejected. *)
Theorem C25_public_round_trip_refuted : forall bn n e key out out' len, public_key_of bn n e key -> 2 ^ 31 <= e < 2 ^ 32 ->
  vk_to_pkcs1_der key out = Ok (out', len) -> vk_from_pkcs1_der bn (ztake len out') = Err IntegerOutOfRange.
Proof.
  intros bn n e key out out' len (x & [W V] & T & K) He H. assert (He' : 0 <= e < 2 ^ 32) by (change (2 ^ 31) with 2147483648 in He; lia).
  destruct (C25_public_export bn x n e key (conj W V) K He') as (doc & (ni & ei & [In Vn] & [Ie Ve] & Ed) & B & L & Eo). rewrite Eo in H.
  destruct (Z.ltb_spec (zlen out) (zlen doc)); [discriminate|]. injection H as <- <-. rewrite ztake_app.
  unfold vk_from_pkcs1_der. rewrite (proj2 (x_dec _ _ _ exact_RSAPublicKey doc (ni, ei) B)); [|split; [split; assumption|]; split; [assumption|lia]].
  cbn [bind]. pose proof (val_boundN 128 x W) as [V0 V1]. rewrite (is_negative_spec ni In), Vn.
  destruct (Z.ltb_spec n 0); [lia|]. change MAX_PUBLIC_MODULUS_WORDS with 128. rewrite (read_is 128 ni x); [|exact c128|apply In| |assumption].
  2:{ split; [assumption|]. rewrite nonneg_be by (assumption || lia). congruence. }
  cbn [bind]. unfold integer_as_usize. rewrite (is_negative_spec ei Ie), Ve. unfold signed32. destruct (Z.ltb_spec e (2 ^ 31)); [lia|].
  destruct (Z.ltb_spec (e - 2 ^ 32) 0); [reflexivity|]. lia.
Qed.
Print Assumptions C25_public_round_trip_refuted.

(** Both kinds of key exist. *)
Example C25_ex_small : public_ok (2 ^ 2047 + 1) 65537 /\ 65537 < 2 ^ 31.
Proof.
  split; [|reflexivity]. split; [reflexivity|]. split; [|split; reflexivity].
  pose proof (Z.pow_lt_mono_r 2 2040 2047 ltac:(lia) ltac:(lia) ltac:(lia)). pose proof (Z.pow_lt_mono_r 2 2047 2048 ltac:(lia) ltac:(lia) ltac:(lia)).
  pose proof (Z.pow_lt_mono_r 2 2048 8192 ltac:(lia) ltac:(lia) ltac:(lia)). revert H H0 H1. generalize (2 ^ 2040) (2 ^ 2047) (2 ^ 2048) (2 ^ 8192). clear. intros; lia.
Qed.
Example C25_ex_large : public_ok (2 ^ 2047 + 1) (2 ^ 32 - 5) /\ 2 ^ 31 <= 2 ^ 32 - 5.
Proof. split; [|discriminate]. destruct C25_ex_small as [(A & B & _) _]. split; [assumption|]. split; [assumption|]. split; reflexivity. Qed.

(** SubjectPublicKeyInfo: algorithm rsaEncryption with NULL parameters around the PKCS#1 document. *)
Theorem C25_spki : forall bn x n e key, holds 128 x n -> pub_new bn x e = Ok key -> 0 <= e < 2 ^ 32 ->
  exists pkcs1 spki, public_doc n (signed32 e) pkcs1 /\
    spki = der_enc (SEQ [SEQ [OID (oid_spec [1; 2; 840; 113549; 1; 1; 1]); NULL]; BITS pkcs1]) /\ forall out,
    vk_to_spki_der key out =
      if zlen out <? zlen spki then Err UnexpectedEof else Ok (spki ++ zdrop (zlen spki) out, zlen spki).
Proof.
  intros bn x n e key Hx K He. destruct (C25_public_export bn x n e key Hx K He) as (doc & D & B & L & Eo).
  eexists doc, _. split; [assumption|]. split; [reflexivity|]. intros out. unfold vk_to_spki_der. rewrite Eo.
  rewrite zlen_zeros. change (Z.of_nat (Z.to_nat (MAX_PUBLIC_MODULUS_BYTES + 64))) with 1088.
  destruct (Z.ltb_spec 1088 (zlen doc)); [lia|]. cbn [bind]. rewrite ztake_app.
  rewrite (exact_encode_into _ _ _ exact_Spki).
  - cbn [tree_Spki tree_Alg any_tree]. change (oid_spec [1; 2; 840; 113549; 1; 1; 1]) with id_rsaEncryption. set (spki := der_enc _) in *.
    destruct (Z.ltb_spec (zlen out) (zlen spki)); [reflexivity|]. cbn [bind].
    pose proof (zlen_nonneg spki). rewrite zlen_app, zlen_zdrop by lia.
    destruct (Z.ltb_spec (zlen spki + (zlen out - zlen spki)) (zlen spki)); [lia|reflexivity].
  - split; [split; [split; [bytes_tac|vm_compute; discriminate]|exact I]|exact B].
  - cbn [tree_Spki tree_Alg any_tree]. apply Z.le_lt_trans with 2000; [|reflexivity].
    assert (zlen (der_enc (BITS doc)) <= 1050). { unfold BITS. cbn [der_enc]. pose proof (tlv_len 3 (0 :: doc)). rewrite zlen_cons in *. lia. }
    apply (seq_len _ 1996); [|lia]. refine (enc_cons _ _ 946 1050 _ (enc_cons _ _ 1050 0 H0 enc_nil)). vm_compute. discriminate.
Qed.
Print Assumptions C25_spki.

(** *** Private keys *)
(** The numbers of a private key. *)
Record rsa_numbers := mkNums { k_n : Z; k_e : Z; k_d : Z; k_p : Z; k_q : Z; k_dp : Z; k_dq : Z; k_qi : Z }.
(** RFC 8017 A.1.2 document for these numbers *)
Definition private_doc (k : rsa_numbers) (b : list Z) : Prop :=
  exists ni ei di pi qi dpi dqi qii,
    der_int (k_n k) ni /\ der_int (k_e k) ei /\ der_int (k_d k) di /\ der_int (k_p k) pi /\ der_int (k_q k) qi /\
    der_int (k_dp k) dpi /\ der_int (k_dq k) dqi /\ der_int (k_qi k) qii /\
    b = der_enc (SEQ [INT [0]; INT ni; INT ei; INT di; INT pi; INT qi; INT dpi; INT dqi; INT qii]).
(** The document that import really looks for: the six private numbers are taken from the contents octets as unsigned
    numbers, so that a negative one is not recognised. *)
Definition private_doc_unsigned (k : rsa_numbers) (b : list Z) : Prop :=
  exists ni ei di pi qi dpi dqi qii,
    der_int (k_n k) ni /\ der_int (k_e k) ei /\
    (is_int di /\ be_val di = k_d k) /\ (is_int pi /\ be_val pi = k_p k) /\ (is_int qi /\ be_val qi = k_q k) /\
    (is_int dpi /\ be_val dpi = k_dp k) /\ (is_int dqi /\ be_val dqi = k_dq k) /\ (is_int qii /\ be_val qii = k_qi k) /\
    b = der_enc (SEQ [INT [0]; INT ni; INT ei; INT di; INT pi; INT qi; INT dpi; INT dqi; INT qii]).
(** Which numbers are accepted: a usable public key, p and q odd, p of 128 to 512 bytes, and sizes.  Nothing relates the
    numbers to each other. *)
Definition private_ok (k : rsa_numbers) : Prop :=
  public_ok (k_n k) (k_e k) /\ Z.odd (k_p k) = true /\ Z.odd (k_q k) = true /\
  2 ^ 1016 <= k_p k < 2 ^ 4096 /\ 0 <= k_q k < 2 ^ 4096 /\ 0 <= k_d k < 2 ^ 8192 /\
  0 <= k_dp k < 2 ^ 4096 /\ 0 <= k_dq k < 2 ^ 4096 /\ 0 <= k_qi k < 2 ^ 4096.
(** the key object made of these numbers, all stored without leading zero words *)
Definition private_key_of (bn : bignum) (k : rsa_numbers) (key : rsa_priv) : Prop :=
  exists p q d dp dq iqmp n,
    (holds 64 p (k_p k) /\ trimmed p) /\ (holds 64 q (k_q k) /\ trimmed q) /\ (holds 128 d (k_d k) /\ trimmed d) /\
    (holds 64 dp (k_dp k) /\ trimmed dp) /\ (holds 64 dq (k_dq k) /\ trimmed dq) /\ (holds 64 iqmp (k_qi k) /\ trimmed iqmp) /\
    (holds 128 n (k_n k) /\ trimmed n) /\ priv_new bn p q d dp dq iqmp n (k_e k) = Ok key.

Lemma len_bytes_range x : wf 64 x ->
  (MIN_PRIVATE_MODULUS_BYTES <=? len_bytes x) && (len_bytes x <=? MAX_PRIVATE_MODULUS_BYTES) = true <-> 2 ^ 1016 <= val x < 2 ^ 4096.
Proof.
  intros W. unfold len_bytes, MIN_PRIVATE_MODULUS_BYTES, MAX_PRIVATE_MODULUS_BYTES, MIN_PRIVATE_MODULUS_BITS, MAX_PRIVATE_MODULUS_BITS.
  change (1024 / 8) with 128. change (4096 / 8) with 512. rewrite len_bits_val. pose proof (val_bound 64 x W) as B.
  destruct (Z.eqb_spec (val x) 0) as [E|E].
  - rewrite E. change ((0 + 7) / 8) with 0. split; [discriminate|]. intros [H _]. exfalso. apply Z.le_ngt in H. apply H. apply Z.pow_pos_nonneg; lia.
  - pose proof (Z.log2_le_pow2 (val x) 1016 ltac:(lia)) as L1. pose proof (Z.log2_lt_pow2 (val x) 4096 ltac:(lia)) as L2. rewrite L1, L2.
    set (l := Z.log2 (val x)). rewrite andb_true_iff, !Z.leb_le. clear. split; intros; Z.div_mod_to_equations; lia.
Qed.

Lemma priv_new_ok bn p q d dp dq iqmp n e : wf 64 p -> wf 64 q -> wf 128 n ->
  (exists key, priv_new bn p q d dp dq iqmp n e = Ok key) <->
  Z.odd (val p) = true /\ Z.odd (val q) = true /\ 2 ^ 1016 <= val p < 2 ^ 4096 /\
  Z.odd (val n) = true /\ 2 ^ 2040 <= val n < 2 ^ 8192 /\ e <> 0.
Proof.
  intros Wp Wq Wn. unfold priv_new. rewrite (is_even_val 64 p Wp), (is_even_val 64 q Wq) by lia. rewrite <- !Z.negb_odd.
  pose proof (len_bytes_range p Wp) as R. destruct (C19_public_key bn n e Wn) as [I D].
  destruct (Z.odd (val p)); cbn [negb orb]; [|split; [intros (? & ?); discriminate|intros (? & ?); discriminate]].
  destruct (Z.odd (val q)); cbn [negb orb]; [|split; [intros (? & ?); discriminate|intros (? & ? & ?); discriminate]].
  destruct (_ && _); cbn [negb].
  - destruct R as [R _]. specialize (R eq_refl). destruct D as [D|D]; rewrite D; cbn [bind].
    + pose proof (proj1 I D). split; [tauto|]. intros _. eexists. reflexivity.
    + split; [intros (? & ?); discriminate|]. intros (_ & _ & _ & H). apply I in H. congruence.
  - split; [intros (? & ?); discriminate|]. intros (_ & _ & H & _). apply R in H. discriminate.
Qed.

Lemma private_len v : Forall (fun i => zlen i <= 513) [fst (snd (snd (snd (snd v)))); fst (snd (snd (snd (snd (snd v)))));
    fst (snd (snd (snd (snd (snd (snd v)))))); fst (snd (snd (snd (snd (snd (snd (snd v))))))); snd (snd (snd (snd (snd (snd (snd (snd v)))))))] ->
  zlen (fst (snd v)) <= 1025 -> zlen (fst (snd (snd v))) <= 8 -> zlen (fst (snd (snd (snd v)))) <= 1025 -> fst v = 0 ->
  zlen (der_enc (tree_RSAPrivateKey v)) <= 4747.
Proof.
  destruct v as (ver & n & e & d & p & q & dp & dq & qi). cbn [fst snd]. intros F Hn He Hd Hv.
  inversion F as [|? ? Hp F1]; subst. inversion F1 as [|? ? Hq F2]; subst. inversion F2 as [|? ? Hdp F3]; subst.
  inversion F3 as [|? ? Hdq F4]; subst. inversion F4 as [|? ? Hqi _]; subst. unfold tree_RSAPrivateKey.
  eapply Z.le_trans; [apply (seq_len _ (5 + (1029 + (12 + (1029 + (517 + (517 + (517 + (517 + (517 + 0)))))))))); [|lia]|lia].
  apply enc_cons; [vm_compute; discriminate|]. apply enc_cons; [apply (int_enc_len _ 1025); lia|]. apply enc_cons; [apply (int_enc_len _ 8); lia|].
  apply enc_cons; [apply (int_enc_len _ 1025); lia|].
  do 5 (apply enc_cons; [apply (int_enc_len _ 513); lia|]). apply enc_nil.
Qed.

(** A number of at most 8k bits has contents octets of at most k + 1 bytes, also if these are read as unsigned. *)
Lemma unsigned_len i k : is_int i -> 1 <= k -> be_val i < 2 ^ (8 * k) -> zlen i <= k + 1.
Proof.
  intros I Hk B. pose proof I as [Hb M]. destruct (Z.lt_ge_cases (int_value i) 0) as [N|P].
  - destruct i as [|x r]; [cbn in M; tauto|]. pose proof (be_val_bound _ Hb) as Q. unfold int_value in N. rewrite be_val_cons in *.
    destruct (Z.leb_spec 128 x); [|lia]. rewrite zlen_cons. destruct (Z.le_gt_cases (zlen r) k); [lia|exfalso].
    assert (2 ^ (8 * k) <= 256 ^ zlen r) by (change 256 with (2 ^ 8); rewrite <- Z.pow_mul_r by lia; apply Z.pow_le_mono_r; lia).
    inversion Hb as [|? ? Bx Br]; subst. pose proof (be_val_bound r Br) as R. set (A := 256 ^ zlen r) in *. nia.
  - apply int_len; [assumption|lia|]. rewrite (nonneg_be i I P) in B.
    assert (2 ^ (8 * k) <= 2 ^ (8 * (k + 1) - 1)) by (apply Z.pow_le_mono_r; lia).
    revert P B H. generalize (2 ^ (8 * k)) (2 ^ (8 * (k + 1) - 1)) (int_value i). clear. intros; lia.
Qed.

(** Importing a private key succeeds exactly on the documents whose numbers (private ones read unsigned) pass the listed
    checks; the key object is the one of these numbers. *)
Theorem C25_private_import : forall bn b key, bytes b ->
  sk_from_pkcs1_der bn b = Ok key <->
  exists k, private_doc_unsigned k b /\ private_ok k /\ private_key_of bn k key.
Proof.
  intros bn b key Hb. pose proof exact_RSAPrivateKey as X. split.
  - intros H. unfold sk_from_pkcs1_der in H.
    destruct (from_bytes RSAPrivateKey b) as [v| |] eqn:D; try discriminate. cbn [bind] in H.
    destruct v as (ver & ni & ei & di & pi & qi & dpi & dqi & qii).
    apply (x_dec _ _ _ X) in D as ((_ & In & Ie & Id & Ip & Iq & Idp & Idq & Iqi) & Eb & _); [|assumption].
    destruct (Z.eqb_spec ver 0) as [->|]; [|discriminate]. cbn [negb] in H.
    rewrite (is_negative_spec ni In) in H. destruct (Z.ltb_spec (int_value ni) 0); [discriminate|].
    change MAX_PUBLIC_MODULUS_WORDS with 128 in H. change MAX_PRIVATE_MODULUS_WORDS with 64 in H.
    destruct (pfrom_bytes 128 ni) as [n| |] eqn:Rn; try discriminate. cbn [bind] in H.
    apply read_inv in Rn as ([Wn Vn] & Tn & _); [|exact c128|apply In].
    destruct (integer_as_usize ei) as [e| |] eqn:Ee; try discriminate. cbn [bind] in H.
    apply (as_usize_spec ei e Ie) in Ee as [-> He].
    unfold to_u32 in H. destruct (Z.ltb_spec (int_value ei) (2 ^ 32)); [|discriminate]. cbn [bind] in H.
    destruct (pfrom_bytes 64 pi) as [p| |] eqn:Rp; try discriminate. cbn [bind] in H.
    destruct (pfrom_bytes 64 qi) as [q| |] eqn:Rq; try discriminate. cbn [bind] in H.
    destruct (pfrom_bytes 128 di) as [d| |] eqn:Rd; try discriminate. cbn [bind] in H.
    destruct (pfrom_bytes 64 dpi) as [dp| |] eqn:Rdp; try discriminate. cbn [bind] in H.
    destruct (pfrom_bytes 64 dqi) as [dq| |] eqn:Rdq; try discriminate. cbn [bind] in H.
    destruct (pfrom_bytes 64 qii) as [iq| |] eqn:Rqi; try discriminate. cbn [bind] in H.
    apply read_inv in Rp as ([Wp Vp] & Tp & Bp); [|exact c64|apply Ip]. apply read_inv in Rq as ([Wq Vq] & Tq & Bq); [|exact c64|apply Iq].
    apply read_inv in Rd as (Hd & Td & Bd); [|exact c128|apply Id]. apply read_inv in Rdp as (Hdp & Tdp & Bdp); [|exact c64|apply Idp].
    apply read_inv in Rdq as (Hdq & Tdq & Bdq); [|exact c64|apply Idq]. apply read_inv in Rqi as (Hqi & Tqi & Bqi); [|exact c64|apply Iqi].
    destruct (proj1 (priv_new_ok bn p q d dp dq iq n (int_value ei) Wp Wq Wn) (ex_intro _ key H)) as (Op & Oq & Rgp & On & Rgn & Ne).
    rewrite (nonneg_be ni In) in Vn by assumption.
    exists (mkNums (int_value ni) (int_value ei) (be_val di) (be_val pi) (be_val qi) (be_val dpi) (be_val dqi) (be_val qii)). split; [|split].
    + exists ni, ei, di, pi, qi, dpi, dqi, qii. cbn [k_n k_e k_d k_p k_q k_dp k_dq k_qi]. unfold der_int.
      split; [auto|]. split; [auto|]. split; [auto|]. split; [auto|]. split; [auto|]. split; [auto|]. split; [auto|]. split; [auto|]. exact Eb.
    + unfold private_ok, public_ok. cbn [k_n k_e k_d k_p k_q k_dp k_dq k_qi]. rewrite Vn, Vp, Vq in *.
      change (64 * 64) with 4096 in *. change (64 * 128) with 8192 in *.
      split; [split; [assumption|]; split; [assumption|plia]|]. split; [assumption|]. split; [assumption|]. split; [assumption|].
      split; [split; [apply (be_val_bound qi (proj1 Iq))|assumption]|].
      split; [split; [apply (be_val_bound di (proj1 Id))|assumption]|].
      split; [split; [apply (be_val_bound dpi (proj1 Idp))|assumption]|].
      split; [split; [apply (be_val_bound dqi (proj1 Idq))|assumption]|].
      split; [apply (be_val_bound qii (proj1 Iqi))|assumption].
    + exists p, q, d, dp, dq, iq, n. cbn [k_n k_e k_d k_p k_q k_dp k_dq k_qi].
      split; [split; [split|]; assumption|]. split; [split; [split|]; assumption|]. split; [auto|]. split; [auto|]. split; [auto|]. split; [auto|].
      split; [split; [split|]; auto|]. exact H.
  - intros (k & (ni & ei & di & pi & qi & dpi & dqi & qii & [In Vn] & [Ie Ve] & [Id Vd] & [Ip Vp] & [Iq Vq] & [Idp Vdp] & [Idq Vdq] & [Iqi Vqi] & Eb)
      & ((On & Rn & Re) & Op & Oq & Rp & Rq & Rd & Rdp & Rdq & Rqi)
      & (p & q & d & dp & dq & iq & n & [Hp Tp] & [Hq Tq] & [Hd Td] & [Hdp Tdp] & [Hdq Tdq] & [Hqi Tqi] & [Hn Tn] & K)).
    assert (N0 : 0 <= k_n k < 2 ^ 8192). { split; [|apply Rn]. apply Z.le_trans with (2 := proj1 Rn). apply p2nn. }
    assert (L1 : zlen ni <= 1025) by (apply (modulus_contents (k_n k)); [split; auto|assumption]).
    assert (L2 : zlen ei <= 8). { apply int_len; [assumption|plia|]. rewrite Ve. change (2 ^ (8 * 8 - 1)) with 9223372036854775808. change (2 ^ 32) with 4294967296 in Re. plia. }
    assert (L3 : zlen di <= 1025) by (apply (unsigned_len di 1024); [assumption|plia|rewrite Vd; apply Rd]).
    assert (U : forall i v, is_int i -> be_val i = v -> v < 2 ^ 4096 -> zlen i <= 513) by (intros i v Hi Hv Hl; apply (unsigned_len i 512); [assumption|plia|rewrite Hv; apply Hl]).
    assert (L : zlen (der_enc (tree_RSAPrivateKey (0, (ni, (ei, (di, (pi, (qi, (dpi, (dqi, qii)))))))))) <= 4747).
    { apply private_len; cbn [fst snd]; [|assumption|assumption|assumption|reflexivity].
      apply Forall_cons; [apply (U _ (k_p k)); [assumption|assumption|apply Rp]|]. apply Forall_cons; [apply (U _ (k_q k)); [assumption|assumption|apply Rq]|].
      apply Forall_cons; [apply (U _ (k_dp k)); [assumption|assumption|apply Rdp]|]. apply Forall_cons; [apply (U _ (k_dq k)); [assumption|assumption|apply Rdq]|].
      apply Forall_cons; [apply (U _ (k_qi k)); [assumption|assumption|apply Rqi]|]. constructor. }
    unfold sk_from_pkcs1_der. rewrite (proj2 (x_dec _ _ _ X b (0, (ni, (ei, (di, (pi, (qi, (dpi, (dqi, qii)))))))) Hb)).
    2:{ split; [split; [now left|]; repeat (split; [assumption|]); assumption|]. split; [exact Eb|]. rewrite Eb. apply Z.le_trans with (1 := L). plia. }
    cbn [bind]. change (negb (0 =? 0)) with false. cbv iota. rewrite (is_negative_spec ni In), Vn. destruct (Z.ltb_spec (k_n k) 0); [plia|].
    change MAX_PUBLIC_MODULUS_WORDS with 128. change MAX_PRIVATE_MODULUS_WORDS with 64.
    rewrite (read_is 128 ni n); [|exact c128|apply In|rewrite nonneg_be by (assumption || plia); rewrite Vn; assumption|assumption].
    cbn [bind]. rewrite (proj2 (as_usize_spec ei (k_e k) Ie)). 2:{ split; [congruence|]. change (2 ^ 32) with 4294967296 in Re. change (2 ^ 63) with 9223372036854775808. plia. }
    cbn [bind]. unfold to_u32. destruct (Z.ltb_spec (k_e k) (2 ^ 32)); [|plia]. cbn [bind].
    rewrite (read_is 64 pi p); [|exact c64|apply Ip|rewrite Vp; assumption|assumption]. cbn [bind].
    rewrite (read_is 64 qi q); [|exact c64|apply Iq|rewrite Vq; assumption|assumption]. cbn [bind].
    rewrite (read_is 128 di d); [|exact c128|apply Id|rewrite Vd; assumption|assumption]. cbn [bind].
    rewrite (read_is 64 dpi dp); [|exact c64|apply Idp|rewrite Vdp; assumption|assumption]. cbn [bind].
    rewrite (read_is 64 dqi dq); [|exact c64|apply Idq|rewrite Vdq; assumption|assumption]. cbn [bind].
    rewrite (read_is 64 qii iq); [|exact c64|apply Iqi|rewrite Vqi; assumption|assumption]. cbn [bind]. exact K.
Qed.
Print Assumptions C25_private_import.

(** a number of N words, as a PosInt *)
Lemma posint_exists N v : 0 <= N -> 0 <= v < 2 ^ (64 * N) -> exists x, holds N x v /\ trimmed x.
Proof.
  intros HN B. assert (V : be_val (be_bytes (Z.to_nat (8 * N)) v) = v).
  { rewrite be_val_be_bytes. apply Z.mod_small. change 256 with (2 ^ 8). rewrite <- Z.pow_mul_r by lia. replace (8 * Z.of_nat (Z.to_nat (8 * N))) with (64 * N) by lia. assumption. }
  destruct (read_ok N (be_bytes (Z.to_nat (8 * N)) v) HN) as (x & _ & H); [apply be_bytes_bytes|rewrite V; apply B|]. rewrite V in H. now exists x.
Qed.

(** All numbers that pass the checks make a key. *)
Theorem C25_private_exists : forall bn k, private_ok k -> exists key, private_key_of bn k key.
Proof.
  intros bn k ((On & Rn & Re) & Op & Oq & Rp & Rq & Rd & Rdp & Rdq & Rqi).
  assert (N0 : 0 <= k_n k < 2 ^ (64 * 128)). { split; [|apply Rn]. apply Z.le_trans with (2 := proj1 Rn). apply p2nn. }
  assert (P0 : 0 <= k_p k < 2 ^ (64 * 64)). { split; [|apply Rp]. apply Z.le_trans with (2 := proj1 Rp). apply p2nn. }
  destruct (posint_exists 128 _ c128 N0) as (n & [Wn Vn] & Tn). destruct (posint_exists 64 _ c64 P0) as (p & [Wp Vp] & Tp).
  destruct (posint_exists 64 (k_q k) c64 Rq) as (q & [Wq Vq] & Tq). destruct (posint_exists 128 (k_d k) c128 Rd) as (d & Hd & Td).
  destruct (posint_exists 64 (k_dp k) c64 Rdp) as (dp & Hdp & Tdp). destruct (posint_exists 64 (k_dq k) c64 Rdq) as (dq & Hdq & Tdq).
  destruct (posint_exists 64 (k_qi k) c64 Rqi) as (iq & Hqi & Tqi).
  destruct (proj2 (priv_new_ok bn p q d dp dq iq n (k_e k) Wp Wq Wn)) as (key & K).
  { rewrite Vp, Vq, Vn. repeat (split; [assumption|]). plia. }
  exists key, p, q, d, dp, dq, iq, n. split; [split; [split|]; assumption|]. split; [split; [split|]; assumption|]. split; [auto|]. split; [auto|]. split; [auto|]. split; [auto|].
  split; [split; [split|]; auto|]. exact K.
Qed.
Print Assumptions C25_private_exists.

Theorem C25_private_total : forall bn b, bytes b -> sk_from_pkcs1_der bn b <> Panic.
Proof.
  intros bn b Hb. pose proof exact_RSAPrivateKey as X. unfold sk_from_pkcs1_der. pose proof (x_total _ _ _ X b Hb) as T.
  destruct (from_bytes RSAPrivateKey b) as [v| |] eqn:D; try congruence; [|discriminate]. cbn [bind].
  destruct v as (ver & ni & ei & di & pi & qi & dpi & dqi & qii).
  apply (x_dec _ _ _ X) in D as ((_ & In & Ie & Id & Ip & Iq & Idp & Idq & Iqi) & Eb & _); [|assumption].
  destruct (negb _); [discriminate|]. destruct (integer_is_negative ni); [discriminate|].
  change MAX_PUBLIC_MODULUS_WORDS with 128. change MAX_PRIVATE_MODULUS_WORDS with 64.
  pose proof (read_total 128 ni c128 (proj1 In)). destruct (pfrom_bytes 128 ni); cbn [bind]; try discriminate; try congruence.
  pose proof (as_usize_total ei) as U. destruct (integer_as_usize ei); cbn [bind]; try discriminate; try congruence. unfold to_u32.
  destruct (_ <? _); cbn [bind]; [|discriminate].
  pose proof (read_total 64 pi c64 (proj1 Ip)). destruct (pfrom_bytes 64 pi); cbn [bind]; try discriminate; try congruence.
  pose proof (read_total 64 qi c64 (proj1 Iq)). destruct (pfrom_bytes 64 qi); cbn [bind]; try discriminate; try congruence.
  pose proof (read_total 128 di c128 (proj1 Id)). destruct (pfrom_bytes 128 di); cbn [bind]; try discriminate; try congruence.
  pose proof (read_total 64 dpi c64 (proj1 Idp)). destruct (pfrom_bytes 64 dpi); cbn [bind]; try discriminate; try congruence.
  pose proof (read_total 64 dqi c64 (proj1 Idq)). destruct (pfrom_bytes 64 dqi); cbn [bind]; try discriminate; try congruence.
  pose proof (read_total 64 qii c64 (proj1 Iqi)). destruct (pfrom_bytes 64 qii); cbn [bind]; try discriminate; try congruence.
  unfold priv_new. destruct (_ || _); [discriminate|]. unfold pub_new. destruct (_ || _); discriminate.
Qed.
Print Assumptions C25_private_total.

(** Export of any private key object (its numbers need not be trimmed). *)
Theorem C25_private_export : forall bn p q d dp dq iqmp n k key,
  holds 64 p (k_p k) -> holds 64 q (k_q k) -> holds 128 d (k_d k) -> holds 64 dp (k_dp k) -> holds 64 dq (k_dq k) ->
  holds 64 iqmp (k_qi k) -> holds 128 n (k_n k) -> 0 <= k_e k < 2 ^ 31 -> priv_new bn p q d dp dq iqmp n (k_e k) = Ok key ->
  exists doc, private_doc k doc /\ bytes doc /\ zlen doc <= 4747 /\ forall out,
    sk_to_pkcs1_der key out =
      if zlen out <? zlen doc then Err UnexpectedEof else Ok (doc ++ zdrop (zlen doc) out, zlen doc).
Proof.
  intros bn p q d dp dq iqmp n k key [Wp Vp] [Wq Vq] [Wd Vd] [Wdp Vdp] [Wdq Vdq] [Wi Vi] [Wn Vn] He K.
  assert (He' : 0 <= k_e k < 2 ^ 32) by (change (2 ^ 31) with 2147483648 in He; change (2 ^ 32) with 4294967296; lia).
  unfold priv_new in K. destruct (_ || _); [discriminate|]. destruct (C19_public_key bn n (k_e k) Wn) as [_ [D|D]]; rewrite D in K; [|discriminate].
  cbn [bind] in K. injection K as <-.
  destruct (export_exp (k_e k) He') as [[Ie Ve] Le].
  assert (signed32 (k_e k) = k_e k) as Es by (unfold signed32; destruct (Z.ltb_spec (k_e k) (2 ^ 31)); [reflexivity|lia]). rewrite Es in Ve.
  destruct (export_int 128 n 1025 Wn ltac:(lia)) as (nb & En & [In Un] & Ln). destruct (export_int 128 d 1025 Wd ltac:(lia)) as (db & Ed & [Id Ud] & Ld).
  destruct (export_int 64 p 513 Wp ltac:(lia)) as (pb & Ep & [Ip Up] & Lp). destruct (export_int 64 q 513 Wq ltac:(lia)) as (qb & Eq & [Iq Uq] & Lq).
  destruct (export_int 64 dp 513 Wdp ltac:(lia)) as (dpb & Edp & [Idp Udp] & Ldp). destruct (export_int 64 dq 513 Wdq ltac:(lia)) as (dqb & Edq & [Idq Udq] & Ldq).
  destruct (export_int 64 iqmp 513 Wi ltac:(lia)) as (ib & Ei & [Ii Ui] & Li).
  set (v := (0, (integer_new nb, (integer_new (be_bytes 4 (k_e k)), (integer_new db, (integer_new pb, (integer_new qb, (integer_new dpb, (integer_new dqb, integer_new ib))))))))).
  assert (Hok : ok_RSAPrivateKey v). { unfold v. split; [now left|]. repeat (split; [assumption|]). assumption. }
  assert (L : zlen (der_enc (tree_RSAPrivateKey v)) <= 4747).
  { apply private_len; cbn [v fst snd]; [|assumption|lia|assumption|reflexivity]. repeat (apply Forall_cons; [assumption|]). constructor. }
  exists (der_enc (tree_RSAPrivateKey v)). split; [|split; [|split; [exact L|]]].
  - exists (integer_new nb), (integer_new (be_bytes 4 (k_e k))), (integer_new db), (integer_new pb), (integer_new qb), (integer_new dpb), (integer_new dqb), (integer_new ib).
    unfold der_int. repeat (split; [split; [assumption|congruence]|]). reflexivity.
  - apply bytes_der_enc; [|apply Z.le_trans with (1 := L); lia]. unfold v. cbn [tree_RSAPrivateKey SEQ INT der_bytes].
    split; [red; lia|]. split; [split; [red; lia|bytes_tac]|].
    repeat (split; [split; [red; lia|match goal with I : is_int ?i |- bytes ?i => apply I end]|]). exact I.
  - intros out. unfold sk_to_pkcs1_der, encode_components. cbn [priv_make pub_make pr_public pub_n pub_e pr_p pr_q pr_d pr_dp pr_dq pr_iqmp].
    change (MAX_PUBLIC_MODULUS_BYTES + 1) with 1025. change (MAX_PRIVATE_MODULUS_BYTES + 1) with 513.
    rewrite En. cbn [bind]. rewrite Ep. cbn [bind]. rewrite Eq. cbn [bind]. rewrite Ed. cbn [bind]. rewrite Edp. cbn [bind]. rewrite Edq. cbn [bind].
    rewrite Ei. cbn [bind co_modulus co_exponent co_p co_q co_d co_dp co_dq co_iqmp]. fold v.
    rewrite (exact_encode_into _ _ _ exact_RSAPrivateKey); [|assumption|apply Z.le_lt_trans with (1 := L); reflexivity].
    set (doc := der_enc _) in *. clearbody v doc. destruct (Z.ltb_spec (zlen out) (zlen doc)); [reflexivity|]. cbn [bind].
    pose proof (zlen_nonneg doc). rewrite zlen_app, zlen_zdrop by lia.
    destruct (Z.ltb_spec (zlen doc + (zlen out - zlen doc)) (zlen doc)); [lia|reflexivity].
Qed.
Print Assumptions C25_private_export.

Lemma doc_unsigned k b : private_ok k -> private_doc k b -> private_doc_unsigned k b.
Proof.
  intros ((On & Rn & Re) & Op & Oq & Rp & Rq & Rd & Rdp & Rdq & Rqi) (ni & ei & di & pi & qi & dpi & dqi & qii & Hn & He & [Id Vd] & [Ip Vp] & [Iq Vq] & [Idp Vdp] & [Idq Vdq] & [Iqi Vqi] & Eb).
  assert (P0 : 0 <= k_p k). { apply Z.le_trans with (2 := proj1 Rp). apply p2nn. }
  exists ni, ei, di, pi, qi, dpi, dqi, qii. split; [assumption|]. split; [assumption|].
  split; [split; [assumption|rewrite nonneg_be; [assumption|assumption|rewrite Vd; apply Rd]]|].
  split; [split; [assumption|rewrite nonneg_be; [assumption|assumption|rewrite Vp; apply P0]]|].
  split; [split; [assumption|rewrite nonneg_be; [assumption|assumption|rewrite Vq; apply Rq]]|].
  split; [split; [assumption|rewrite nonneg_be; [assumption|assumption|rewrite Vdp; apply Rdp]]|].
  split; [split; [assumption|rewrite nonneg_be; [assumption|assumption|rewrite Vdq; apply Rdq]]|].
  split; [split; [assumption|rewrite nonneg_be; [assumption|assumption|rewrite Vqi; apply Rqi]]|]. exact Eb.
Qed.

(** Export then import: the same key, and with PKCS#8 too. *)
Theorem C25_private_round_trip : forall bn k key out out' len, private_ok k -> private_key_of bn k key -> k_e k < 2 ^ 31 ->
  sk_to_pkcs1_der key out = Ok (out', len) -> sk_from_pkcs1_der bn (ztake len out') = Ok key.
Proof.
  intros bn k key out out' len Hk HK He H. pose proof HK as (p & q & d & dp & dq & iq & n & [Hp Tp] & [Hq Tq] & [Hd Td] & [Hdp Tdp] & [Hdq Tdq] & [Hqi Tqi] & [Hn Tn] & K).
  assert (0 <= k_e k < 2 ^ 31) as He' by (destruct Hk as ((_ & _ & Re) & _); lia).
  destruct (C25_private_export bn p q d dp dq iq n k key) as (doc & D & B & L & Eo); try assumption. rewrite Eo in H.
  destruct (Z.ltb_spec (zlen out) (zlen doc)); [discriminate|]. injection H as <- <-. rewrite ztake_app.
  apply C25_private_import; [assumption|]. exists k. split; [now apply doc_unsigned|]. split; assumption.
Qed.
Print Assumptions C25_private_round_trip.

Lemma pkcs8_len priv : zlen priv <= 4747 -> zlen (pkcs8_doc id_rsaEncryption (Some AnyNull) priv None) <= 65539.
Proof.
  intros L. unfold pkcs8_doc, tree_OneAsymmetricKey. cbn [app]. apply Z.le_trans with (5000 + 4); [|lia].
  apply seq_len; [|lia]. apply Z.le_trans with (5 + (100 + (4751 + 0))); [|lia].
  apply enc_cons; [vm_compute; discriminate|]. apply enc_cons; [vm_compute; discriminate|]. apply enc_cons; [|apply enc_nil].
  unfold OCTETS. cbn [der_enc]. pose proof (tlv_len 4 priv). lia.
Qed.
Theorem C25_pkcs8_round_trip : forall bn k key out out' len, private_ok k -> private_key_of bn k key -> k_e k < 2 ^ 31 ->
  sk_to_pkcs8_der key out = Ok (out', len) -> sk_from_pkcs8_der bn (ztake len out') = Ok key.
Proof.
  intros bn k key out out' len Hk HK He H. pose proof HK as (p & q & d & dp & dq & iq & n & [Hp Tp] & [Hq Tq] & [Hd Td] & [Hdp Tdp] & [Hdq Tdq] & [Hqi Tqi] & [Hn Tn] & K).
  assert (0 <= k_e k < 2 ^ 31) as He' by (destruct Hk as ((_ & _ & Re) & _); lia).
  destruct (C25_private_export bn p q d dp dq iq n k key) as (doc & D & B & L & Eo); try assumption.
  unfold sk_to_pkcs8_der in H. rewrite Eo, zlen_zeros in H. change (Z.of_nat (Z.to_nat MAX_PKCS1_BUFFER_LEN)) with 4747 in H.
  destruct (Z.ltb_spec 4747 (zlen doc)); [lia|]. cbn [bind] in H. rewrite ztake_app in H.
  assert (F : pkcs8_fields id_rsaEncryption (Some AnyNull) doc None).
  { split; [split; [bytes_tac|vm_compute; discriminate]|]. split; [intros a E; injection E as <-; exact I|]. split; [assumption|discriminate]. }
  destruct (C06_round_trip _ _ _ _ _ _ _ F (pkcs8_len doc L) H) as (k8 & E8 & P8 & _). unfold sk_from_pkcs8_der. rewrite E8. cbn [bind]. rewrite P8.
  apply C25_private_import; [assumption|]. exists k. split; [now apply doc_unsigned|]. split; assumption.
Qed.
Print Assumptions C25_pkcs8_round_trip.

(** The private half of a key and its public half agree on n and e. *)
Theorem C25_public_half : forall bn k key, private_ok k -> private_key_of bn k key ->
  public_key_of bn (k_n k) (k_e k) (sk_public_key key).
Proof.
  intros bn k key _ (p & q & d & dp & dq & iq & n & _ & _ & _ & _ & _ & _ & [Hn Tn] & K). exists n. split; [assumption|]. split; [assumption|].
  unfold priv_new in K. destruct (_ || _); [discriminate|]. destruct (pub_new bn n (k_e k)); try discriminate. cbn [bind] in K. now injection K as <-.
Qed.
Print Assumptions C25_public_half.

(** *** What the import does not check *)
(** Keys whose modulus is not the product of the primes, whose exponents do not match, or whose "primes" are not prime,
    are imported without error (using such a key to sign then reports an error: C20). *)
Definition k_bad : rsa_numbers := mkNums (2 ^ 2047 + 1) 1 0 (2 ^ 1023 + 1) 1 0 0 0.
Lemma k_bad_ok : private_ok k_bad.
Proof.
  assert (Z0 : forall a, 0 <= a -> 0 < 2 ^ a) by (intros; apply Z.pow_pos_nonneg; lia).
  destruct C25_ex_small as [(A & B & _) _]. unfold private_ok, k_bad. cbn [k_n k_e k_d k_p k_q k_dp k_dq k_qi]. split; [split; [assumption|]; split; [assumption|split; reflexivity]|].
  split; [reflexivity|]. split; [reflexivity|]. split.
  - pose proof (Z.pow_lt_mono_r 2 1016 1023 ltac:(plia) ltac:(plia) ltac:(plia)). pose proof (Z.pow_lt_mono_r 2 1023 1024 ltac:(plia) ltac:(plia) ltac:(plia)).
    pose proof (Z.pow_lt_mono_r 2 1024 4096 ltac:(plia) ltac:(plia) ltac:(plia)). revert H H0 H1. generalize (2 ^ 1016) (2 ^ 1023) (2 ^ 1024) (2 ^ 4096). clear. intros; plia.
  - split; [split; [plia|exact (proj1 (Z.pow_gt_1 2 4096 ltac:(plia)) ltac:(plia))]|].
    split; [split; [plia|apply Z0; plia]|]. split; [split; [plia|apply Z0; plia]|]. split; split; (plia || apply Z0; plia).
Qed.
Lemma k_bad_n : k_n k_bad <> k_p k_bad * k_q k_bad.
Proof. cbn [k_bad k_n k_p k_q]. rewrite Z.mul_1_r. intros E. apply Z.add_cancel_r in E. apply Z.pow_inj_r in E; [discriminate E|lia|lia|lia]. Qed.
Lemma k_bad_d : k_e k_bad * k_d k_bad mod (k_p k_bad - 1) <> 1.
Proof. cbn [k_bad k_d k_e k_p]. rewrite Z.mul_0_r, Z.mod_0_l; [discriminate|]. rewrite Z.add_simpl_r. apply Z.pow_nonzero; lia. Qed.
Lemma k_bad_e : 0 <= k_e k_bad < 2 ^ 31. Proof. split; [discriminate|reflexivity]. Qed.
Local Opaque k_bad.
Theorem C25_consistency_refuted : exists k, private_ok k /\ k_n k <> k_p k * k_q k /\ k_e k * k_d k mod (k_p k - 1) <> 1 /\
  forall bn, exists b key, bytes b /\ private_doc k b /\ sk_from_pkcs1_der bn b = Ok key.
Proof.
  exists k_bad. split; [exact k_bad_ok|]. split; [exact k_bad_n|]. split; [exact k_bad_d|]. 
  intros bn. destruct (C25_private_exists bn k_bad k_bad_ok) as (key & HK). pose proof HK as (p & q & d & dp & dq & iq & n & [Hp Tp] & [Hq Tq] & [Hd Td] & [Hdp Tdp] & [Hdq Tdq] & [Hqi Tqi] & [Hn Tn] & K).
    destruct (C25_private_export bn p q d dp dq iq n k_bad key) as (doc & D & B & L & Eo); try assumption; [exact k_bad_e|].
    exists doc, key. split; [assumption|]. split; [assumption|]. apply C25_private_import; [assumption|]. exists k_bad. split; [apply doc_unsigned; [exact k_bad_ok|assumption]|]. split; [exact k_bad_ok|assumption].
Qed.
Print Assumptions C25_consistency_refuted.

(** A negative private number is accepted, as if it were positive. *)
Theorem C25_negative_refuted : forall bn k ni ei di pi qi dpi dqi, private_ok k -> k_qi k = 255 ->
  der_int (k_n k) ni -> der_int (k_e k) ei -> der_int (k_d k) di -> der_int (k_p k) pi -> der_int (k_q k) qi ->
  der_int (k_dp k) dpi -> der_int (k_dq k) dqi -> forall key, private_key_of bn k key ->
  forall b, b = der_enc (SEQ [INT [0]; INT ni; INT ei; INT di; INT pi; INT qi; INT dpi; INT dqi; INT [255]]) -> bytes b ->
  int_value [255] = -1 /\ sk_from_pkcs1_der bn b = Ok key.
Proof.
  intros bn k ni ei di pi qi dpi dqi Hk Eq Hn He [Id Vd] [Ip Vp] [Iq Vq] [Idp Vdp] [Idq Vdq] key HK b Eb Hb. split; [reflexivity|].
  apply C25_private_import; [assumption|]. exists k. split; [|split; assumption].
  pose proof Hk as ((On & Rn & Re) & Op & Oq & Rp & Rq & Rd & Rdp & Rdq & Rqi).
  assert (P0 : 0 <= k_p k). { apply Z.le_trans with (2 := proj1 Rp). apply p2nn. }
  exists ni, ei, di, pi, qi, dpi, dqi, [255]. split; [assumption|]. split; [assumption|].
  split; [split; [assumption|rewrite nonneg_be; [assumption|assumption|rewrite Vd; apply Rd]]|].
  split; [split; [assumption|rewrite nonneg_be; [assumption|assumption|rewrite Vp; apply P0]]|].
  split; [split; [assumption|rewrite nonneg_be; [assumption|assumption|rewrite Vq; apply Rq]]|].
  split; [split; [assumption|rewrite nonneg_be; [assumption|assumption|rewrite Vdp; apply Rdp]]|].
  split; [split; [assumption|rewrite nonneg_be; [assumption|assumption|rewrite Vdq; apply Rdq]]|].
  split; [split; [split; [bytes_tac|exact I]|rewrite Eq; reflexivity]|]. exact Eb.
Qed.
Print Assumptions C25_negative_refuted.

Lemma der_int_exists N v : 0 <= N -> 0 <= v < 2 ^ (64 * N) -> exists i, der_int v i /\ zlen i <= 8 * N + 1.
Proof. intros HN B. destruct (posint_exists N v HN B) as (x & [W V] & _). destruct (export_int N x (8 * N + 1) W ltac:(lia)) as (b & _ & H & L). rewrite V in H. eauto. Qed.
(** a concrete such document *)
Example C25_ex_negative : forall bn, exists pre b key, b = der_enc (SEQ (pre ++ [INT [255]])) /\ int_value [255] = -1 /\ sk_from_pkcs1_der bn b = Ok key.
Proof.
  intros bn. pose proof k_bad_ok as ((On & Rn & Re) & Op & Oq & Rp & Rq & Rd & Rdp & Rdq & Rqi).
  set (k := mkNums (k_n k_bad) (k_e k_bad) (k_d k_bad) (k_p k_bad) (k_q k_bad) (k_dp k_bad) (k_dq k_bad) 255).
  assert (Hk : private_ok k).
  { split; [split; [exact On|split; [exact Rn|exact Re]]|]. split; [exact Op|]. split; [exact Oq|]. split; [exact Rp|]. split; [exact Rq|]. split; [exact Rd|]. split; [exact Rdp|]. split; [exact Rdq|].
    split; [discriminate|]. change 255 with (2 ^ 8 - 1). cbn [k k_qi]. apply Z.le_lt_trans with (2 ^ 8); [discriminate|]. apply Z.pow_lt_mono_r; plia. }
  destruct (C25_private_exists bn k Hk) as (key & HK).
  assert (N0 : 0 <= k_n k < 2 ^ (64 * 128)). { split; [|apply Rn]. apply Z.le_trans with (2 := proj1 Rn). apply p2nn. }
  assert (P0 : 0 <= k_p k < 2 ^ (64 * 64)). { split; [|apply Rp]. apply Z.le_trans with (2 := proj1 Rp). apply p2nn. }
  assert (E0 : 0 <= k_e k < 2 ^ (64 * 1)). { change (2 ^ 32) with 4294967296 in Re. change (2 ^ (64 * 1)) with 18446744073709551616. change (k_e k) with (k_e k_bad). plia. }
  destruct (der_int_exists 128 _ c128 N0) as (ni & Hn & Ln). destruct (der_int_exists 64 _ c64 P0) as (pi & Hp & Lp).
  destruct (der_int_exists 1 _ ltac:(plia) E0) as (ei & He & Le). destruct (der_int_exists 128 (k_d k) c128 Rd) as (di & Hd & Ld).
  destruct (der_int_exists 64 (k_q k) c64 Rq) as (qi & Hq & Lq). destruct (der_int_exists 64 (k_dp k) c64 Rdp) as (dpi & Hdp & Ldp).
  destruct (der_int_exists 64 (k_dq k) c64 Rdq) as (dqi & Hdq & Ldq).
  exists [INT [0]; INT ni; INT ei; INT di; INT pi; INT qi; INT dpi; INT dqi]. eexists. exists key. split; [reflexivity|].
  assert (L : zlen (der_enc (SEQ ([INT [0]; INT ni; INT ei; INT di; INT pi; INT qi; INT dpi; INT dqi] ++ [INT [255]]))) <= 65539).
  { apply Z.le_trans with (6000 + 4); [|plia]. apply seq_len; [|plia]. apply Z.le_trans with (5 + (1029 + (13 + (1029 + (517 + (517 + (517 + (517 + (5 + 0))))))))); [|plia]. cbn [app].
    apply enc_cons; [vm_compute; discriminate|]. apply enc_cons; [apply (int_enc_len _ 1025); plia|]. apply enc_cons; [apply (int_enc_len _ 9); plia|].
    apply enc_cons; [apply (int_enc_len _ 1025); plia|]. do 4 (apply enc_cons; [apply (int_enc_len _ 513); plia|]). apply enc_cons; [vm_compute; discriminate|]. apply enc_nil. }
  refine (C25_negative_refuted bn k ni ei di pi qi dpi dqi Hk eq_refl Hn He Hd Hp Hq Hdp Hdq key HK _ eq_refl _).
  apply bytes_der_enc; [|exact L]. cbn [app SEQ INT der_bytes].
  split; [red; plia|]. split; [split; [red; plia|bytes_tac]|].
  do 7 (split; [split; [red; plia|match goal with I : der_int _ ?i |- bytes ?i => apply I end]|]). split; [split; [red; plia|bytes_tac]|exact I].
Qed.
