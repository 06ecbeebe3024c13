(** Property C50: Ed25519 key documents (RFC 8410). *)
Require Import ZArith Znumtheory.
Require Import Verif.Base Verif.L_Base Verif.M_Asn1 Verif.M_Pkix Verif.S_Der Verif.S_Pkix Verif.L_Asn1 Verif.L_Pkix Verif.M_Pkcs8 Verif.T_Pkcs8 Verif.T_EcdsaKey.
Require Import Verif.M_Util Verif.M_Sha2 Verif.S_Sha2 Verif.S_Ed Verif.L_Ed Verif.M_Ed25519 Verif.S_EdLow Verif.L_EdEx Verif.T_Ed25519.
Require Import ZifyNat.

(** CurvePrivateKey ::= OCTET STRING, RFC 8410 section 7.  Spec only. *)
Definition curve_private (seed : list Z) : list Z := der_enc (OCTETS seed).
(** OneAsymmetricKey for Ed25519, the parameters absent.  Spec only. *)
Definition ed_pkcs8 (seed : list Z) (pub : option (list Z)) : list Z := pkcs8_doc id_ed25519 None (curve_private seed) pub.
(** SubjectPublicKeyInfo for Ed25519 with the given parameters.  Spec only. *)
Definition ed_spki (params : option any) (pub : list Z) : list Z := der_enc (tree_Spki any_tree ((id_ed25519, params), pub)).

(** The algorithm is 1.3.101.112. *)
Lemma id_ed_ok : is_oid id_ed25519 /\ id_ed25519 = [43; 101; 112].
Proof. split; [|reflexivity]. vm_compute. split; [repeat constructor; discriminate|discriminate]. Qed.

Lemma thirty_two (P : list Z -> Prop) : (forall a0 a1 a2 a3 a4 a5 a6 a7 a8 a9 a10 a11 a12 a13 a14 a15 a16 a17 a18 a19 a20 a21 a22 a23 a24 a25 a26 a27 a28 a29 a30 a31,
  P [a0; a1; a2; a3; a4; a5; a6; a7; a8; a9; a10; a11; a12; a13; a14; a15; a16; a17; a18; a19; a20; a21; a22; a23; a24; a25; a26; a27; a28; a29; a30; a31]) ->
  forall l, zlen l = 32 -> P l.
Proof.
  intros H l Q. unfold zlen in Q. assert (QL : length l = 32%nat) by lia. clear Q.
  do 32 (destruct l as [|? l]; [discriminate QL|]). destruct l; [apply H|discriminate QL].
Qed.
Lemma private_doc : forall seed, zlen seed = 32 -> curve_private seed = 4 :: 32 :: seed.
Proof. apply thirty_two. reflexivity. Qed.
Lemma private_encode : forall seed, zlen seed = 32 -> encode_into OctetString seed (repeat 0 34) = Ok (4 :: 32 :: seed, 34).
Proof. apply thirty_two. reflexivity. Qed.
Lemma octets_from b s : bytes b -> zlen s = 32 -> (from_bytes OctetString b = Ok s <-> (bytes s /\ b = curve_private s)).
Proof.
  intros B Q. rewrite (goodf_from_bytes _ _ _ _ b s goodf_OctetString B). unfold nofollow, curve_private, OCTETS. cbn [der_enc].
  split; [tauto|]. intros [BS E]. split; [exact BS|]. split; [exact I|]. split; [exact E|].
  rewrite E. change (tlv 4 s) with (curve_private s). rewrite private_doc, !zlen_cons by exact Q. lia.
Qed.
Lemma private_bytes seed : bytes seed -> zlen seed = 32 -> bytes (curve_private seed) /\ zlen (curve_private seed) = 34.
Proof.
  intros B Q. rewrite private_doc by exact Q. split; [|rewrite !zlen_cons; lia]. apply bytes_cons. split; [unfold byte_ok; lia|]. apply bytes_cons. split; [unfold byte_ok; lia|exact B].
Qed.

Lemma ed_fields seed pub : bytes seed -> zlen seed = 32 -> (forall p, pub = Some p -> bytes p) -> pkcs8_fields id_ed25519 None (curve_private seed) pub.
Proof. intros B Q P. split; [apply id_ed_ok|]. split; [discriminate|]. split; [apply private_bytes; assumption|exact P]. Qed.

Lemma ed_pkcs8_size seed pub : zlen seed = 32 -> (forall p, pub = Some p -> zlen p = 32) -> zlen (ed_pkcs8 seed pub) <= 90.
Proof.
  intros Q P. unfold ed_pkcs8, pkcs8_doc. cbn [tree_OneAsymmetricKey tree_Alg any_tree der_enc SEQ map concat app].
  assert (L : zlen (curve_private seed) = 34) by (rewrite private_doc by exact Q; rewrite !zlen_cons; lia).
  destruct id_ed_ok as [_ ->]. set (pd := curve_private seed) in *. clearbody pd. unfold OID, OCTETS. cbn [der_enc]. rewrite !app_nil_r.
  assert (N1 : zlen (tlv 6 [43; 101; 112]) = 5) by reflexivity.
  pose proof (tlv_short 48 (tlv 6 [43; 101; 112]) ltac:(lia)). pose proof (tlv_short 4 pd ltac:(lia)).
  destruct pub as [p|].
  - specialize (P p eq_refl). cbn [map concat app der_enc]. assert (zlen (der_enc (INT [1])) = 3) by reflexivity.
    pose proof (tlv_short 129 (0 :: p) ltac:(rewrite zlen_cons; lia)) as T2. rewrite zlen_cons in T2.
    eapply Z.le_trans; [apply tlv_short|]; rewrite ?app_nil_r, ?zlen_app; lia.
  - cbn [map concat app der_enc]. assert (zlen (der_enc (INT [0])) = 3) by reflexivity.
    eapply Z.le_trans; [apply tlv_short|]; rewrite ?app_nil_r, ?zlen_app; lia.
Qed.

Section Keys.
Variable c : edcurve.
Variable L : ed_low.
Hypothesis ok : ed_ok c.
Hypothesis low : ed_low_ok c L.

Lemma public_ok seed : bytes (rfc_public c SHA512 seed) /\ zlen (rfc_public c SHA512 seed) = 32.
Proof. unfold rfc_public. split; [apply enc_bytes|apply enc_len]. Qed.

(** Reading a PKCS#8 document succeeds exactly when the input starts with an
    Ed25519 one without parameters, whose private key is an OCTET STRING of 32
    bytes, and whose public key, if it has one, is the one of that seed. *)
Theorem C50_pkcs8_import : forall b, bytes b ->
  (forall k, ed_from_pkcs8_der L b = Ok k <->
     exists seed pub rest, b = ed_pkcs8 seed pub ++ rest /\ bytes seed /\ zlen seed = 32 /\
       (pub = None \/ pub = Some (rfc_public c SHA512 seed)) /\ ed_from_bytes L seed = Ok k) /\
  ed_from_pkcs8_der L b <> Panic.
Proof.
  intros b B. unfold ed_from_pkcs8_der.
  assert (FWD : forall seed pub rest, b = ed_pkcs8 seed pub ++ rest -> bytes seed -> zlen seed = 32 ->
     (pub = None \/ pub = Some (rfc_public c SHA512 seed)) ->
     exists k', pkcs8_decode b id_ed25519 None = Ok k' /\ pkcs8_private_key k' = curve_private seed /\ pkcs8_public_key k' = pub).
  { intros seed pub rest E BS Q P. apply C06_import; [exact B|]. split; [exists rest; exact E|]. split.
    - apply ed_fields; auto. intros p ->. destruct P as [P|P]; [discriminate P|]. injection P as ->. apply public_ok.
    - fold (ed_pkcs8 seed pub). eapply Z.le_trans; [apply ed_pkcs8_size|lia]; auto. intros p ->. destruct P as [P|P]; [discriminate P|]. injection P as ->. apply public_ok. }
  destruct (pkcs8_decode b id_ed25519 None) as [k8|e|] eqn:D; [| |destruct (C06_total b _ _ B D)]; cbn [bind].
  2:{ split; [|discriminate]. intros k. split; [discriminate|]. intros (seed & pub & rest & E & BS & Q & P & _).
      destruct (FWD seed pub rest E BS Q P) as (k' & D' & _). discriminate D'. }
  destruct (proj1 (C06_import b id_ed25519 None (pkcs8_private_key k8) (pkcs8_public_key k8) B)) as ((rest & E1) & F & SZ); [eauto|].
  destruct F as (_ & _ & FB & _).
  assert (GEN : forall pk, from_bytes OctetString (pkcs8_private_key k8) = Ok pk -> bytes pk).
  { intros pk Q. apply (proj1 (goodf_from_bytes _ _ _ _ _ _ goodf_OctetString FB)) in Q. tauto. }
  split.
  - intros k. split.
    + destruct (from_bytes OctetString (pkcs8_private_key k8)) as [pk| |] eqn:O; cbn [bind]; try discriminate.
      pose proof (GEN pk eq_refl) as BP. unfold ed_from_bytes at 1. destruct (Z.eqb_spec (zlen pk) 32) as [Q|Q]; [|discriminate].
      destruct (C34_public_key c L ok low pk BP Q) as (k' & EK & PK). assert (EK' := EK). unfold ed_from_bytes in EK'. rewrite Q in EK'. cbn [Z.eqb Pos.eqb] in EK'. rewrite EK'. cbn [bind].
      intros H. apply (octets_from _ _ FB Q) in O. destruct O as [_ O].
      exists pk, (pkcs8_public_key k8), rest. rewrite O in E1. split; [exact E1|]. split; [exact BP|]. split; [exact Q|].
      destruct (pkcs8_public_key k8) as [al|].
      * destruct (list_eqb al (fst (sg_vk k'))) eqn:LE; [|discriminate H]. apply list_eqb_eq in LE. split; [right; congruence|congruence].
      * split; [left; reflexivity|congruence].
    + intros (seed & pub & rest' & E & BS & Q & P & EK).
      destruct (FWD seed pub rest' E BS Q P) as (k' & D' & PV & PB). injection D' as <-.
      rewrite PV, PB, (proj2 (octets_from (curve_private seed) seed (proj1 (private_bytes seed BS Q)) Q)) by auto. cbn [bind].
      rewrite EK. cbn [bind]. destruct P as [-> | ->]; [reflexivity|].
      destruct (C34_public_key c L ok low seed BS Q) as (k' & EK' & PK). rewrite EK in EK'. injection EK' as <-. rewrite PK.
      rewrite list_eqb_refl. reflexivity.
  - destruct (from_bytes OctetString (pkcs8_private_key k8)) as [pk| |] eqn:O; cbn [bind]; try discriminate.
    + unfold ed_from_bytes. destruct (Z.eqb_spec (zlen pk) 32) as [Q|Q]; [|discriminate].
      destruct (C34_public_key c L ok low pk (GEN pk eq_refl) Q) as (k' & EK & PK). unfold ed_from_bytes in EK. rewrite Q in EK. cbn [Z.eqb Pos.eqb] in EK. rewrite EK. cbn [bind].
      destruct (pkcs8_public_key k8) as [al|]; [destruct (list_eqb al (fst (sg_vk k')))|]; discriminate.
    + intros _. apply (from_bytes_total _ _ _ _ (pkcs8_private_key k8) goodf_OctetString FB). exact O.
Qed.

(** A document whose public key is not the seed's is refused for that reason. *)
Theorem C50_public_key_checked : forall seed pub rest, bytes seed -> zlen seed = 32 -> bytes pub -> zlen pub <= 60000 -> bytes rest ->
  pub <> rfc_public c SHA512 seed -> ed_from_pkcs8_der L (ed_pkcs8 seed (Some pub) ++ rest) = Err MismatchedPkcs8PublicKey.
Proof.
  intros seed pub rest BS Q BP LP BR NE.
  assert (F : pkcs8_fields id_ed25519 None (curve_private seed) (Some pub)) by (apply ed_fields; auto; intros p H; injection H as <-; exact BP).
  assert (SZ : zlen (ed_pkcs8 seed (Some pub)) <= 65539).
  { unfold ed_pkcs8, pkcs8_doc. cbn [tree_OneAsymmetricKey tree_Alg any_tree der_enc SEQ map concat app].
    pose proof (proj2 (private_bytes seed BS Q)) as LC.
    destruct id_ed_ok as [_ ->]. set (pd := curve_private seed) in *. clearbody pd. unfold OID, OCTETS. cbn [der_enc]. rewrite !app_nil_r.
    assert (N1 : zlen (tlv 6 [43; 101; 112]) = 5) by reflexivity.
    pose proof (tlv_short 48 (tlv 6 [43; 101; 112]) ltac:(lia)). pose proof (tlv_short 4 pd ltac:(lia)).
    cbn [der_enc]. assert (zlen (der_enc (INT [1])) = 3) by reflexivity.
    pose proof (tlv_medium 129 (0 :: pub) ltac:(rewrite zlen_cons; lia)) as T2. rewrite zlen_cons in T2.
    eapply Z.le_trans; [apply tlv_medium|]; cbn [app]; rewrite ?app_nil_r, ?zlen_app; lia. }
  assert (BD : bytes (ed_pkcs8 seed (Some pub))).
  { unfold ed_pkcs8, pkcs8_doc. apply bytes_der_enc; [|exact SZ].
    assert (T : forall z, 0 <= z < 256 -> byte_ok z) by auto.
    assert (CB : forall z l, 0 <= z < 256 -> bytes l -> bytes (z :: l)) by (intros; apply bytes_cons; auto).
    assert (NB : bytes []) by constructor. destruct id_ed_ok as [[BI _] _]. pose proof (proj1 (private_bytes seed BS Q)) as BO.
    set (ie := id_ed25519) in *. clearbody ie. set (pd := curve_private seed) in *. clearbody pd. clear - T CB NB BI BO BP.
    cbn -[bytes]; repeat split; try (apply T; lia); auto; try (apply CB; [lia|auto]). }
  destruct (proj2 (C06_import (ed_pkcs8 seed (Some pub) ++ rest) id_ed25519 None (curve_private seed) (Some pub) ltac:(apply bytes_app; auto))) as (k8 & D & PV & PB).
  { split; [exists rest; reflexivity|]. auto. }
  unfold ed_from_pkcs8_der. rewrite D. cbn [bind]. rewrite PV, PB.
  rewrite (proj2 (octets_from (curve_private seed) seed (proj1 (private_bytes seed BS Q)) Q)) by auto. cbn [bind].
  destruct (C34_public_key c L ok low seed BS Q) as (k & EK & PK). rewrite EK. cbn [bind]. rewrite PK.
  destruct (list_eqb pub (rfc_public c SHA512 seed)) eqn:LE; [apply list_eqb_eq in LE; contradiction|reflexivity].
Qed.

Lemma ed_pkcs8_bytes seed : bytes seed -> zlen seed = 32 -> bytes (ed_pkcs8 seed (Some (rfc_public c SHA512 seed))).
Proof.
  intros BS Q. destruct (public_ok seed) as [BP LP]. unfold ed_pkcs8, pkcs8_doc. apply bytes_der_enc.
  2:{ assert (SZ : zlen (ed_pkcs8 seed (Some (rfc_public c SHA512 seed))) <= 90) by (apply ed_pkcs8_size; auto; intros p H; injection H as <-; exact LP).
      unfold ed_pkcs8, pkcs8_doc in SZ. lia. }
  assert (T : forall z, 0 <= z < 256 -> byte_ok z) by auto.
  assert (CB : forall z l, 0 <= z < 256 -> bytes l -> bytes (z :: l)) by (intros; apply bytes_cons; auto).
  assert (NB : bytes []) by constructor. destruct id_ed_ok as [[BI _] _]. pose proof (proj1 (private_bytes seed BS Q)) as BO.
  set (pub := rfc_public c SHA512 seed) in *. clearbody pub.
  set (ie := id_ed25519) in *. clearbody ie. set (pd := curve_private seed) in *. clearbody pd. clear - T CB NB BI BO BP.
  cbn -[bytes]; repeat split; try (apply T; lia); auto; try (apply CB; [lia|auto]).
Qed.

(** Writing a key gives the version 2 document with its public key, or fails
    because the buffer is too short; reading the document gives the key back. *)
Theorem C50_pkcs8_export : forall seed k, bytes seed -> zlen seed = 32 -> ed_from_bytes L seed = Ok k ->
  let doc := ed_pkcs8 seed (Some (rfc_public c SHA512 seed)) in
  sg_seed k = seed /\ ed_from_pkcs8_der L doc = Ok k /\ zlen doc <= 90 /\
  forall out, ed_to_pkcs8_der k out = if zlen out <? zlen doc then Err UnexpectedEof else Ok (doc ++ zdrop (zlen doc) out, zlen doc).
Proof.
  intros seed k BS Q EK doc. assert (EK' := EK). unfold ed_from_bytes in EK'. rewrite Q in EK'. cbn [Z.eqb Pos.eqb] in EK'.
  destruct (from_seed_ok c L ok low seed BS Q) as (k' & EK2 & SS & _ & _ & _ & VK). rewrite EK' in EK2. injection EK2 as <-.
  destruct (public_ok seed) as [BP LP].
  assert (SZ : zlen doc <= 90) by (apply ed_pkcs8_size; auto; intros p H; injection H as <-; exact LP).
  split; [exact SS|]. split; [|split; [exact SZ|]].
  - apply C50_pkcs8_import; [apply ed_pkcs8_bytes; auto|]. exists seed, (Some (rfc_public c SHA512 seed)), []. rewrite app_nil_r. split; [reflexivity|]. split; [exact BS|]. split; [exact Q|]. split; [right; reflexivity|exact EK].
  - intros out. unfold ed_to_pkcs8_der. rewrite SS, private_encode by exact Q. cbn [bind Z.eqb Pos.eqb]. rewrite VK. cbn [fst].
    rewrite <- private_doc by exact Q.
    apply (C06_export id_ed25519 None (curve_private seed) (Some (rfc_public c SHA512 seed)) out).
    + apply ed_fields; auto. intros p H. injection H as <-. exact BP.
    + fold (ed_pkcs8 seed (Some (rfc_public c SHA512 seed))). fold doc. lia.
Qed.

(** Reading a SubjectPublicKeyInfo succeeds exactly on a document (the whole
    input) that names Ed25519 and holds the encoding of a point of the curve;
    the parameters may be anything (see the refutation below). *)
Theorem C50_spki_import : forall b, bytes b ->
  (forall A, on_ed c A ->
    (ed_from_spki_der L b = Ok (ed_enc A, ed_words A) <->
     exists params, (forall a, params = Some a -> any_ok a) /\ b = ed_spki params (ed_enc A) /\ zlen b <= 65539)) /\
  (forall vk, ed_from_spki_der L b = Ok vk -> exists A, on_ed c A /\ vk = (ed_enc A, ed_words A)) /\
  ed_from_spki_der L b <> Panic.
Proof.
  intros b B. unfold ed_from_spki_der. split; [|split].
  - intros A OA. split.
    + destruct (from_bytes SubjectPublicKeyInfo b) as [[[al ps] key]| |] eqn:D; cbn [bind]; try discriminate.
      apply (x_dec _ _ _ exact_Spki) in D; [|exact B]. destruct D as (([OI OP] & OK) & E & SZ).
      destruct (list_eqb al id_ed25519) eqn:LE; [|discriminate]. apply list_eqb_eq in LE. subst al. intros H.
      exists ps. split; [intros a ->; exact OP|]. split; [|exact SZ].
      assert (KE : key = ed_enc A); [|subst key; exact E]. unfold vk_from_bytes in H. destruct (zlen key =? 32); [|discriminate]. destruct (el_decode L key); [|discriminate]. injection H as H _. exact H.
    + intros (ps & PO & E & SZ). replace (from_bytes SubjectPublicKeyInfo b) with (Ok ((id_ed25519, ps), ed_enc A)).
      2:{ symmetry. apply (x_dec _ _ _ exact_Spki); [exact B|]. split; [|split; [exact E|exact SZ]]. split; [split; [apply id_ed_ok|destruct ps; auto]|apply enc_bytes]. }
      cbn [bind]. rewrite list_eqb_refl. exact (proj1 (C34_key_decode c L low _ (enc_bytes A)) A OA eq_refl).
  - intros vk. destruct (from_bytes SubjectPublicKeyInfo b) as [[[al ps] key]| |] eqn:D; cbn [bind]; try discriminate.
    apply (x_dec _ _ _ exact_Spki) in D; [|exact B]. destruct D as (([OI OP] & OK) & E & SZ).
    destruct (list_eqb al id_ed25519); [|discriminate]. intros H. unfold vk_from_bytes in H. destruct (Z.eqb_spec (zlen key) 32) as [Q|Q]; [|discriminate H].
    destruct (el_decode L key) as [w|] eqn:W; [|discriminate H]. destruct (lo_decode_sound c L low key w OK Q W) as (A & OA & ->). exists A. split; [exact OA|].
    rewrite (lo_decode c L low A OA) in W. injection W as <-. injection H as <-. reflexivity.
  - pose proof (x_total _ _ _ exact_Spki b B) as NP. destruct (from_bytes SubjectPublicKeyInfo b) as [[[al ps] key]| |] eqn:D; cbn [bind]; try congruence.
    destruct (list_eqb al id_ed25519); [|discriminate]. unfold vk_from_bytes. destruct (zlen key =? 32); [|discriminate]. destruct (el_decode L key); discriminate.
Qed.

(** RFC 8410 section 3 has the parameters absent; a document with any legal
    parameters is accepted as if it had none. *)
Theorem C50_spki_parameters_refuted : forall A a, on_ed c A -> any_ok a -> zlen (ed_spki (Some a) (ed_enc A)) <= 65539 ->
  bytes (ed_spki (Some a) (ed_enc A)) -> ed_from_spki_der L (ed_spki (Some a) (ed_enc A)) = Ok (ed_enc A, ed_words A).
Proof.
  intros A a OA AO SZ B. apply (proj1 (C50_spki_import _ B) A OA). exists (Some a). split; [intros x H; injection H as <-; exact AO|]. auto.
Qed.

Lemma ed_spki_size pub : zlen pub = 32 -> zlen (ed_spki None pub) <= 60.
Proof.
  intros LP. unfold ed_spki. cbn [tree_Spki tree_Alg any_tree der_enc SEQ map concat app]. destruct id_ed_ok as [_ ->].
  unfold OID, BITS. cbn [der_enc]. rewrite !app_nil_r.
  assert (N1 : zlen (tlv 6 [43; 101; 112]) = 5) by reflexivity.
  pose proof (tlv_short 48 (tlv 6 [43; 101; 112]) ltac:(lia)).
  pose proof (tlv_short 3 (0 :: pub) ltac:(rewrite zlen_cons; lia)) as T1. rewrite zlen_cons in T1.
  eapply Z.le_trans; [apply tlv_short|]; rewrite !zlen_app; lia.
Qed.

(** Writing a public key gives the document without parameters, or WrongLength
    if the buffer is too short; reading it gives the key back. *)
Theorem C50_spki_export : forall A, on_ed c A -> let doc := ed_spki None (ed_enc A) in
  ed_from_spki_der L doc = Ok (ed_enc A, ed_words A) /\ zlen doc <= 60 /\
  forall out, ed_to_spki_der (ed_enc A, ed_words A) out = if zlen out <? zlen doc then Err WrongLength else Ok (doc ++ zdrop (zlen doc) out, zlen doc).
Proof.
  intros A OA doc. pose proof (enc_bytes A) as BP. pose proof (enc_len A) as LP. pose proof (ed_spki_size _ LP) as SZ. fold doc in SZ.
  assert (OK : ok_Spki any_ok ((id_ed25519, None), ed_enc A)). { split; [|exact BP]. split; [apply id_ed_ok|exact I]. }
  assert (BD : bytes doc).
  { unfold doc, ed_spki. apply bytes_der_enc; [|unfold doc, ed_spki in SZ; lia].
    assert (T : forall z, 0 <= z < 256 -> byte_ok z) by auto.
    assert (CB : forall z l, 0 <= z < 256 -> bytes l -> bytes (z :: l)) by (intros; apply bytes_cons; auto).
    assert (NB : bytes []) by constructor. destruct id_ed_ok as [[BI _] _].
    set (pub := ed_enc A) in *. clearbody pub. set (ie := id_ed25519) in *. clearbody ie. clear - T CB NB BI BP.
    cbn -[bytes]; repeat split; try (apply T; lia); auto; try (apply CB; [lia|auto]). }
  split; [|split; [exact SZ|]].
  - apply (proj1 (C50_spki_import doc BD) A OA). exists None. split; [discriminate|]. split; [reflexivity|lia].
  - intros out. unfold ed_to_spki_der. cbn [fst].
    rewrite (exact_encode_into _ _ _ exact_Spki); [|exact OK|fold (ed_spki None (ed_enc A)); fold doc; lia].
    fold (ed_spki None (ed_enc A)). fold doc. clearbody doc. destruct (Z.ltb_spec (zlen out) (zlen doc)); cbn [map_err bind]; [reflexivity|].
    pose proof (zlen_nonneg doc). rewrite zlen_app, zlen_zdrop by lia. destruct (Z.ltb_spec (zlen doc + (zlen out - zlen doc)) (zlen doc)); [lia|reflexivity].
Qed.

(** Generating a key is reading 32 bytes from the random source as its seed;
    the source's failure is the result's. *)
Theorem C50_generate : forall rng,
  (forall seed, rng 32 = Ok seed -> bytes seed -> zlen seed = 32 -> ed_generate L rng = ed_from_bytes L seed /\ exists k, ed_generate L rng = Ok k /\ sg_seed k = seed) /\
  (forall e, rng 32 = Err e -> ed_generate L rng = Err e).
Proof.
  intros rng. unfold ed_generate. split.
  - intros seed R BS Q. rewrite R. cbn [bind]. unfold ed_from_bytes. rewrite Q. cbn [Z.eqb Pos.eqb]. split; [reflexivity|].
    destruct (from_seed_ok c L ok low seed BS Q) as (k & EK & SS & _). eauto.
  - intros e R. rewrite R. reflexivity.
Qed.
End Keys.
Print Assumptions C50_pkcs8_import.
Print Assumptions C50_public_key_checked.
Print Assumptions C50_pkcs8_export.
Print Assumptions C50_spki_import.
Print Assumptions C50_spki_parameters_refuted.
Print Assumptions C50_spki_export.
Print Assumptions C50_generate.

(** Concrete cases on the small curve. *)
Example C50_some :
  bytes (repeat 7 32) /\ zlen (repeat 7 32) = 32 /\ on_ed tiny_ed (3, 9) /\
  ed_from_spki_der tiny_low (ed_spki None (ed_enc (3, 9))) = Ok (ed_enc (3, 9), ed_words (3, 9)) /\
  ed_from_spki_der tiny_low (ed_spki (Some AnyNull) (ed_enc (3, 9))) = Ok (ed_enc (3, 9), ed_words (3, 9)) /\
  ed_from_spki_der tiny_low (ed_spki None (le_bytes 32 3)) = Err NotOnCurve /\
  ed_from_spki_der tiny_low (ed_spki None (le_bytes 31 1)) = Err WrongLength /\
  ed_to_spki_der (ed_enc (3, 9), ed_words (3, 9)) (repeat 0 5) = Err WrongLength /\
  ed_from_pkcs8_der tiny_low (ed_pkcs8 (repeat 7 31) None) = Err WrongLength.
Proof.
  split; [repeat constructor; discriminate|]. split; [reflexivity|]. split; [exact (eo_b tiny_ed tiny_ed_ok)|].
  repeat split; vm_compute; reflexivity.
Qed.
