(** Import and export of P-256 and P-384 private keys (SEC 1, PKCS#8) and
    export of public keys (SubjectPublicKeyInfo): property C49. *)
Require Import Verif.Base Verif.L_Base Verif.M_Asn1 Verif.M_Pkix Verif.M_Pkcs8 Verif.S_Der Verif.S_Pkix Verif.L_Asn1 Verif.L_Asn1Int Verif.L_Pkix Verif.T_Pkcs8.
Require Import Verif.M_Ec Verif.S_Curve Verif.S_Ec Verif.L_Curve Verif.L_EcKey Verif.L_CurveEx Verif.L_EcRef Verif.T_Ec.
Require Import Verif.M_Ecdsa Verif.L_Ecdsa.
Require Import ZifyNat.

(** The ECPrivateKey document of RFC 5915. *)
Definition sec1_doc (key : list Z) (params pub : option (list Z)) : list Z :=
  der_enc (tree_EcPrivateKey (1, (key, (params, pub)))).
(** The document names no curve or this one, and gives no public key or the right one. *)
Definition sec1_consistent (c : curve) (len : Z) (oid : list Z) (d : Z) (params pub : option (list Z)) : Prop :=
  (params = None \/ params = Some oid) /\
  (pub = None \/ exists x y, pt_mul c d (Some (c_g c)) = Some (x, y) /\ pub = Some (sec1 len x y)).
(** The SubjectPublicKeyInfo document of RFC 5480. *)
Definition spki_doc (oid pub : list Z) : list Z :=
  der_enc (tree_Spki any_tree ((id_ecPublicKey, Some (AnyObjectId oid)), pub)).

Lemma tlv_short t b : zlen b < 256 -> zlen (tlv t b) <= zlen b + 3.
Proof.
  intros L. unfold tlv, der_length. rewrite zlen_cons, zlen_app. destruct (Z.ltb_spec (zlen b) 128) as [S|S].
  - change (zlen [zlen b]) with 1. lia.
  - assert (D : be_digits 16 (zlen b) = [zlen b]).
    { generalize dependent (zlen b). intros z L S. change (be_digits 16 z) with (if z <=? 0 then [] else be_digits 15 (z / 256) ++ [z mod 256]). destruct (Z.leb_spec z 0); [lia|].
      rewrite Z.div_small, Z.mod_small by lia. reflexivity. }
    rewrite D. change (zlen ((128 + zlen [zlen b]) :: [zlen b])) with 2. lia.
Qed.

Lemma tlv_medium t b : zlen b < 65536 -> zlen (tlv t b) <= zlen b + 4.
Proof.
  intros L. destruct (Z.ltb_spec (zlen b) 256) as [S|S]; [pose proof (tlv_short t b S); lia|].
  rewrite zlen_tlv. unfold der_length. destruct (Z.ltb_spec (zlen b) 128); [lia|].
  assert (D : be_digits 16 (zlen b) = [zlen b / 256; zlen b mod 256]).
  { generalize dependent (zlen b). intros z L S _. change (be_digits 16 z) with (if z <=? 0 then [] else (if z / 256 <=? 0 then [] else be_digits 14 (z / 256 / 256) ++ [z / 256 mod 256]) ++ [z mod 256]).
    assert (1 <= z / 256 < 256) by (Z.div_mod_to_equations; lia).
    destruct (Z.leb_spec z 0); [lia|]. destruct (Z.leb_spec (z / 256) 0); [lia|]. rewrite (Z.div_small (z / 256)), (Z.mod_small (z / 256)) by lia. reflexivity. }
  rewrite D. change (zlen ((128 + zlen [zlen b / 256; zlen b mod 256]) :: [zlen b / 256; zlen b mod 256])) with 3. lia.
Qed.

Lemma id_ec_ok : is_oid id_ecPublicKey /\ zlen id_ecPublicKey = 7.
Proof. vm_compute. repeat split; try discriminate. repeat constructor; vm_compute; discriminate. Qed.

Section Keys.
Variable c : curve.
Variable E : ec.
Hypothesis I : ec_impl c E.
Hypothesis L48 : ec_bytes E <= 48.
Variable oid : list Z.
Hypothesis OI : is_oid oid.
Let n := c_n c.
Local Notation len := (ec_bytes E).

Lemma encode_public d : 1 <= d < n -> exists x y, pt_mul c d (Some (c_g c)) = Some (x, y) /\
  sk_encode_public E d MAX_UNCOMPRESSED_PUBLIC_KEY_LEN = Ok (sec1 len x y) /\ bytes (sec1 len x y) /\ zlen (sec1 len x y) = 1 + len + len.
Proof.
  intros D. destruct (public_key_exact c E I d D) as (x & y & M & P). exists x, y. split; [exact M|].
  unfold sk_encode_public, MAX_UNCOMPRESSED_PUBLIC_KEY_LEN, ec_point_bytes. destruct (Z.ltb_spec 97 (1 + len + len)); [lia|].
  split; [exact P|]. unfold sec1. change (be_bytes (Z.to_nat len)) with (to_be E). split.
  - constructor; [unfold byte_ok; lia|]. apply bytes_app. split; apply to_be_bytes.
  - rewrite zlen_cons, zlen_app, !(to_be_len c E I). lia.
Qed.

Lemma sec1_import_ok b : bytes b ->
  (forall d, from_sec1_der E oid b = Ok d <->
     exists key params pub, b = sec1_doc key params pub /\ zlen b <= 65539 /\ ok_EcPrivateKey (1, (key, (params, pub))) /\
       d = be_val key /\ 1 <= d < n /\ sec1_consistent c len oid d params pub) /\
  from_sec1_der E oid b <> Panic.
Proof.
  intros B. unfold from_sec1_der. pose proof exact_EcPrivateKey as X.
  destruct (from_bytes EcPrivateKey b) as [[ver [key [params pub]]]|e|] eqn:D; [| |destruct (x_total _ _ _ X b B D)].
  2: { cbn [bind]. split; [|discriminate]. intros d. split; [discriminate|]. intros (key & params & pub & E1 & L & O & _).
       assert (Q : from_bytes EcPrivateKey b = Ok (1, (key, (params, pub)))) by (apply (x_dec _ _ _ X); auto). congruence. }
  cbn [bind]. apply (x_dec _ _ _ X) in D; [|exact B]. destruct D as (O & ED & LD). pose proof O as (-> & OK & _ & _).
  assert (UN : forall key' params' pub', b = sec1_doc key' params' pub' -> ok_EcPrivateKey (1, (key', (params', pub'))) ->
    key' = key /\ params' = params /\ pub' = pub).
  { intros key' params' pub' E1 O1.
    assert (Q : from_bytes EcPrivateKey b = Ok (1, (key', (params', pub')))) by (apply (x_dec _ _ _ X); auto).
    assert (Q' : from_bytes EcPrivateKey b = Ok (1, (key, (params, pub)))) by (apply (x_dec _ _ _ X); auto).
    rewrite Q in Q'. injection Q' as -> -> ->. auto. }
  assert (PM : (params = None \/ params = Some oid) \/
    (match params with Some x => if list_eqb x oid then Ok tt else Err MismatchedSec1Curve | None => Ok tt end) = Err MismatchedSec1Curve /\
    params <> None /\ params <> Some oid).
  { destruct params as [o|]; [|auto]. destruct (list_eqb o oid) eqn:LE.
    - apply list_eqb_eq in LE. subst o. auto.
    - right. split; [reflexivity|]. split; [discriminate|]. intros Q. injection Q as ->. rewrite list_eqb_refl in LE. discriminate LE. }
  destruct PM as [PM|(PM & N1 & N2)].
  2: { rewrite PM. cbn [bind]. split; [|discriminate]. intros d. split; [discriminate|].
       intros (key' & params' & pub' & E1 & _ & O1 & _ & _ & (P1 & _)). destruct (UN _ _ _ E1 O1) as (-> & -> & ->). tauto. }
  assert (PE : (match params with Some x => if list_eqb x oid then Ok tt else Err MismatchedSec1Curve | None => Ok tt end) = Ok tt).
  { destruct PM as [-> | ->]; [reflexivity|]. rewrite list_eqb_refl. reflexivity. }
  rewrite PE. cbn [bind]. destruct (private_key_decode c E I key OK) as (K1 & K2 & K3). fold n in K1, K2.
  destruct (sk_from_bytes E key) as [d|e|] eqn:SK; cbn [bind].
  - destruct (proj1 (K1 d) eq_refl) as [EK DR]. destruct (encode_public d ltac:(lia)) as (x & y & M & EP & _ & _). rewrite EP. cbn [bind].
    assert (PB : (pub = None \/ pub = Some (sec1 len x y)) \/ (exists q, pub = Some q /\ q <> sec1 len x y)).
    { destruct pub as [q|]; [|auto]. destruct (list_eq_dec Z.eq_dec q (sec1 len x y)) as [-> |]; eauto. }
    assert (RES : forall d', (exists key0 params0 pub0, b = sec1_doc key0 params0 pub0 /\ zlen b <= 65539 /\
        ok_EcPrivateKey (1, (key0, (params0, pub0))) /\ d' = be_val key0 /\ 1 <= d' < n /\ sec1_consistent c len oid d' params0 pub0) <->
        d' = d /\ (pub = None \/ pub = Some (sec1 len x y))).
    { intros d'. split.
      - intros (key' & params' & pub' & E1 & _ & O1 & E2 & _ & (_ & P2)). destruct (UN _ _ _ E1 O1) as (-> & -> & ->).
        assert (d' = d) as -> by congruence. split; [reflexivity|]. destruct P2 as [->|(x' & y' & M' & ->)]; [auto|].
        rewrite M in M'. injection M' as <- <-. auto.
      - intros (-> & P2). exists key, params, pub. split; [exact ED|]. split; [exact LD|]. split; [exact O|]. split; [exact EK|].
        split; [lia|]. split; [exact PM|].
        destruct P2 as [-> | ->]; [auto|]. right. exists x, y. auto. }
    destruct PB as [PB|(q & -> & NQ)].
    + assert (PS : (match pub with Some expected => if list_eqb (sec1 len x y) expected then Ok tt else Err MismatchedSec1PublicKey | None => Ok tt end) = Ok tt).
      { destruct PB as [-> | ->]; [reflexivity|]. rewrite list_eqb_refl. reflexivity. }
      rewrite PS. cbn [bind]. split; [|discriminate]. intros d'. rewrite RES. split; [intros Q; injection Q as <-; auto|intros (-> & _); reflexivity].
    + destruct (list_eqb (sec1 len x y) q) eqn:LE; [apply list_eqb_eq in LE; congruence|]. cbn [bind]. split; [|discriminate].
      intros d'. rewrite RES. split; [discriminate|]. intros (_ & [Q|Q]); [discriminate Q|injection Q as ->; contradiction].
  - split; [|discriminate]. intros d. split; [discriminate|]. intros (key' & params' & pub' & E1 & _ & O1 & -> & DR & _).
    destruct (UN _ _ _ E1 O1) as (-> & -> & ->). exfalso. assert (Q : Err e = Ok (be_val key)) by (apply K1; auto). discriminate Q.
  - exfalso. destruct (Z_lt_dec (be_val key) (256 ^ len)) as [L1|L1]; [|discriminate (K3 ltac:(lia))].
    destruct (Z_le_dec n (be_val key)); [discriminate (K2 ltac:(right; lia))|].
    pose proof (be_val_nonneg key OK). destruct (Z.eq_dec (be_val key) 0) as [Z0|]; [discriminate (K2 ltac:(left; exact Z0))|].
    assert (Q : @Panic Z = Ok (be_val key)) by (apply K1; split; [reflexivity|lia]). discriminate Q.
Qed.

Definition own_doc (d x y : Z) (params : option (list Z)) : list Z := sec1_doc (be_bytes (Z.to_nat len) d) params (Some (sec1 len x y)).

Lemma own_doc_ok d params : 1 <= d < n -> (params = None \/ params = Some oid) -> exists x y,
  pt_mul c d (Some (c_g c)) = Some (x, y) /\ bytes (own_doc d x y params) /\ zlen (own_doc d x y params) <= 200 /\
  from_sec1_der E oid (own_doc d x y params) = Ok d /\
  forall out, to_sec1_der_detail E d params out =
    if zlen out <? zlen (own_doc d x y params) then Err UnexpectedEof
    else Ok (own_doc d x y params ++ zdrop (zlen (own_doc d x y params)) out, zlen (own_doc d x y params)).
Proof.
  intros D PM. destruct (encode_public d D) as (x & y & M & EP & BP & LP). exists x, y. split; [exact M|].
  pose proof (len_pos c E I) as LEN. pose proof (nR c E I) as NR. fold n in NR.
  assert (TL : zlen (to_be E d) = len) by apply (to_be_len c E I). assert (TB : bytes (to_be E d)) by apply to_be_bytes.
  assert (TV : be_val (to_be E d) = d) by (apply (to_be_val c E I); lia).
  unfold own_doc. change (be_bytes (Z.to_nat len) d) with (to_be E d).
  assert (SE : sk_to_bytes E d = to_be E d) by reflexivity.
  set (kb := to_be E d) in *. clearbody kb.
  assert (OK : ok_EcPrivateKey (1, (kb, (params, Some (sec1 len x y))))).
  { cbn. unfold is_octets. repeat split; try assumption; destruct PM as [-> | ->]; auto; apply OI. }
  assert (SZ : zlen (sec1_doc kb params (Some (sec1 len x y))) <= 200).
  { clear - OI L48 LP TL PM. unfold sec1_doc. cbn [tree_EcPrivateKey der_enc SEQ]. rewrite !map_app, !concat_app.
    set (pb := sec1 len x y) in *. clearbody pb.
    assert (P : zlen (concat (map der_enc match params with Some o => [Cons 160 [OID o]] | None => [] end)) <= 22).
    { destruct PM as [-> | ->]; cbn [map concat der_enc OID]; [cbn; lia|]. rewrite !app_nil_r. destruct OI as [_ LO].
      pose proof (tlv_short 6 oid ltac:(lia)) as T1. pose proof (zlen_nonneg (tlv 6 oid)). pose proof (tlv_short 160 (tlv 6 oid) ltac:(lia)). unfold OID. cbn [der_enc]. lia. }
    assert (Q : zlen (concat (map der_enc [Cons 161 [BITS pb]])) <= 104).
    { cbn [map concat der_enc BITS]. rewrite !app_nil_r. pose proof (tlv_short 3 (0 :: pb) ltac:(rewrite zlen_cons; lia)) as T1.
      rewrite zlen_cons in T1. pose proof (tlv_short 161 (tlv 3 (0 :: pb)) ltac:(lia)). lia. }
    assert (S : zlen (concat (map der_enc [INT [1]; OCTETS kb])) <= 55).
    { cbn [map concat der_enc INT OCTETS]. rewrite app_nil_r, zlen_app. pose proof (tlv_short 4 kb ltac:(lia)).
      assert (zlen (tlv 2 [1]) = 3) by reflexivity. lia. }
    eapply Z.le_trans; [apply tlv_short|]; rewrite !zlen_app; lia. }
  assert (BD : bytes (sec1_doc kb params (Some (sec1 len x y)))).
  { unfold sec1_doc. apply bytes_der_enc; [|fold (sec1_doc kb params (Some (sec1 len x y))); lia].
    assert (T : forall z, 0 <= z < 256 -> byte_ok z) by auto.
    assert (CB : forall z l, 0 <= z < 256 -> bytes l -> bytes (z :: l)) by (intros; apply bytes_cons; auto).
    assert (NB : bytes []) by constructor. destruct OI as [BO _]. set (pb := sec1 len x y) in *. clearbody pb.
    destruct PM as [-> | ->]; cbn -[bytes]; repeat split; try (apply T; lia); auto; try (apply CB; [lia|auto]). }
  split; [exact BD|]. split; [exact SZ|]. split.
  - apply sec1_import_ok; [exact BD|]. exists kb, params, (Some (sec1 len x y)). split; [reflexivity|]. split; [lia|]. split; [exact OK|].
    split; [congruence|]. split; [lia|]. split; [exact PM|]. right. exists x, y. auto.
  - intros out. unfold to_sec1_der_detail, sk_encode, MAX_SCALAR_LEN. destruct (Z.ltb_spec 48 len); [lia|]. cbn [bind]. rewrite EP. cbn [bind].
    rewrite SE. rewrite (exact_encode_into _ _ _ exact_EcPrivateKey); [|exact OK|fold (sec1_doc kb params (Some (sec1 len x y))); lia].
    fold (sec1_doc kb params (Some (sec1 len x y))). set (doc := sec1_doc kb params (Some (sec1 len x y))) in *. clearbody doc.
    destruct (Z.ltb_spec (zlen out) (zlen doc)); cbn [bind]; [reflexivity|]. pose proof (zlen_nonneg doc).
    rewrite zlen_app, zlen_zdrop by lia. destruct (Z.ltb_spec (zlen doc + (zlen out - zlen doc)) (zlen doc)); [lia|reflexivity].
Qed.

Let alg := Some (AnyObjectId oid).
Lemma pkcs8_fields_ok inner : bytes inner -> pkcs8_fields id_ecPublicKey alg inner None.
Proof.
  intros B. split; [apply id_ec_ok|]. split; [|split; [exact B|discriminate]]. intros a Q. injection Q as <-. exact OI.
Qed.

Lemma pkcs8_small inner : bytes inner -> zlen inner <= 200 -> bytes (pkcs8_doc id_ecPublicKey alg inner None) /\ zlen (pkcs8_doc id_ecPublicKey alg inner None) <= 250.
Proof.
  intros B L. assert (SZ : zlen (pkcs8_doc id_ecPublicKey alg inner None) <= 250).
  { unfold pkcs8_doc, alg. cbn [tree_OneAsymmetricKey tree_Alg any_tree der_enc SEQ map concat app].
    destruct OI as [_ LO]. destruct id_ec_ok as [_ LI].
    set (ie := id_ecPublicKey) in *. clearbody ie. clear - LI LO L. rewrite !app_nil_r.
    assert (zlen (der_enc (INT [0])) = 3) by reflexivity. unfold OID, OCTETS. cbn [der_enc].
    pose proof (tlv_short 6 ie ltac:(lia)). pose proof (tlv_short 6 oid ltac:(lia)).
    pose proof (zlen_nonneg (tlv 6 ie)). pose proof (zlen_nonneg (tlv 6 oid)).
    pose proof (tlv_short 48 (tlv 6 ie ++ tlv 6 oid) ltac:(rewrite zlen_app; lia)) as T. rewrite zlen_app in T.
    pose proof (tlv_short 4 inner ltac:(lia)).
    eapply Z.le_trans; [apply tlv_short|]; rewrite !zlen_app; lia. }
  split; [|exact SZ]. unfold pkcs8_doc. apply bytes_der_enc.
  - destruct OI as [BO _]. destruct id_ec_ok as [[BI _] _]. cbn. unfold byte_ok. repeat split; try lia; auto. repeat constructor; unfold byte_ok; lia.
  - unfold pkcs8_doc in SZ. lia.
Qed.

Lemma to_pkcs8_ok d : 1 <= d < n -> exists x y, pt_mul c d (Some (c_g c)) = Some (x, y) /\
  let doc := pkcs8_doc id_ecPublicKey alg (own_doc d x y None) None in
  bytes doc /\ zlen doc <= 250 /\
  forall out, to_pkcs8_der E oid d out = if zlen out <? zlen doc then Err UnexpectedEof else Ok (doc ++ zdrop (zlen doc) out, zlen doc).
Proof.
  intros D. destruct (own_doc_ok d None D ltac:(auto)) as (x & y & M & B & L & _ & T). exists x, y. split; [exact M|]. intros doc.
  destruct (pkcs8_small _ B L) as [BD LD]. fold doc in BD, LD. split; [exact BD|]. split; [exact LD|]. intros out.
  unfold to_pkcs8_der. rewrite T.
  assert (LZ : zlen (repeat 0 (Z.to_nat (MAX_SCALAR_LEN + MAX_UNCOMPRESSED_PUBLIC_KEY_LEN + 128))) = 273) by reflexivity.
  set (buf := repeat 0 (Z.to_nat (MAX_SCALAR_LEN + MAX_UNCOMPRESSED_PUBLIC_KEY_LEN + 128))) in *. clearbody buf. rewrite LZ.
  destruct (Z.ltb_spec 273 (zlen (own_doc d x y None))); [lia|]. cbn [bind]. rewrite ztake_app_eq by reflexivity.
  apply (C06_export id_ecPublicKey alg (own_doc d x y None) None out); [apply pkcs8_fields_ok, B|]. fold doc. lia.
Qed.

Lemma to_spki_ok d : 1 <= d < n -> exists x y, pt_mul c d (Some (c_g c)) = Some (x, y) /\
  let doc := spki_doc oid (sec1 len x y) in
  forall out, to_spki_der E oid d out = if zlen out <? zlen doc then Err UnexpectedEof else Ok (doc ++ zdrop (zlen doc) out, zlen doc).
Proof.
  intros D. destruct (encode_public d D) as (x & y & M & EP & BP & LP). exists x, y. split; [exact M|]. intros doc out.
  assert (OK : ok_Spki any_ok ((id_ecPublicKey, alg), sec1 len x y)).
  { split; [|exact BP]. split; [apply id_ec_ok|exact OI]. }
  assert (SZ : zlen doc <= 250).
  { unfold doc, spki_doc. cbn [tree_Spki tree_Alg any_tree der_enc SEQ map concat app].
    destruct OI as [_ LO]. destruct id_ec_ok as [_ LI]. set (pb := sec1 len x y) in *. clearbody pb.
    set (ie := id_ecPublicKey) in *. clearbody ie. clear - LI LO LP L48. rewrite !app_nil_r.
    unfold OID, BITS. cbn [der_enc].
    pose proof (tlv_short 6 ie ltac:(lia)). pose proof (tlv_short 6 oid ltac:(lia)).
    pose proof (zlen_nonneg (tlv 6 ie)). pose proof (zlen_nonneg (tlv 6 oid)).
    pose proof (tlv_short 48 (tlv 6 ie ++ tlv 6 oid) ltac:(rewrite zlen_app; lia)) as T. rewrite zlen_app in T.
    pose proof (tlv_short 3 (0 :: pb) ltac:(rewrite zlen_cons; lia)) as T1. rewrite zlen_cons in T1.
    eapply Z.le_trans; [apply tlv_short|]; rewrite !zlen_app; lia. }
  unfold to_spki_der. rewrite EP. cbn [bind].
  rewrite (exact_encode_into _ _ _ exact_Spki); [|exact OK|fold (spki_doc oid (sec1 len x y)); fold doc; lia].
  fold (spki_doc oid (sec1 len x y)). fold doc. clearbody doc.
  destruct (Z.ltb_spec (zlen out) (zlen doc)); cbn [bind]; [reflexivity|]. pose proof (zlen_nonneg doc).
  unfold need. rewrite zlen_app, zlen_zdrop by lia. destruct (Z.ltb_spec (zlen doc + (zlen out - zlen doc)) (zlen doc)); [lia|reflexivity].
Qed.
End Keys.

Lemma list_pub_error c E oid (I : ec_impl c E) (L48 : ec_bytes E <= 48) d (D : 1 <= d < c_n c) pub
  (BP : bytes pub) (N : forall x y, pt_mul c d (Some (c_g c)) = Some (x, y) -> pub <> sec1 (ec_bytes E) x y)
  key params (K : bytes key) (V : be_val key = d) (P : params = None \/ params = Some oid)
  (PO : ok_EcPrivateKey (1, (key, (params, Some pub)))) (SZ : zlen (sec1_doc key params (Some pub)) <= 65539) (BD : bytes (sec1_doc key params (Some pub))) :
  from_sec1_der E oid (sec1_doc key params (Some pub)) = Err MismatchedSec1PublicKey.
Proof.
  unfold from_sec1_der. replace (from_bytes EcPrivateKey (sec1_doc key params (Some pub))) with (Ok (1, (key, (params, Some pub)))).
  2: { symmetry. apply (x_dec _ _ _ exact_EcPrivateKey); auto. }
  cbn [bind].
  assert (PE : (match params with Some x => if list_eqb x oid then Ok tt else Err MismatchedSec1Curve | None => Ok tt end) = Ok tt).
  { destruct P as [-> | ->]; [reflexivity|]. rewrite list_eqb_refl. reflexivity. }
  rewrite PE. cbn [bind]. destruct (private_key_decode c E I key K) as (K1 & _ & _).
  rewrite (proj2 (K1 d)) by (split; [congruence|lia]). cbn [bind].
  destruct (encode_public c E I L48 d D) as (x & y & M & EP & _). rewrite EP. cbn [bind].
  destruct (list_eqb (sec1 (ec_bytes E) x y) pub) eqn:LE; [apply list_eqb_eq in LE; destruct (N x y M); auto|]. reflexivity.
Qed.

Section Theorems.
Variable c : curve.
Variable E : ec.
Hypothesis I : ec_impl c E.
Hypothesis L48 : ec_bytes E <= 48.
Variable oid : list Z.
Hypothesis OI : is_oid oid.
Local Notation len := (ec_bytes E).

(** Reading a SEC 1 key succeeds exactly on an ECPrivateKey document (the whole
    input) whose number is in 1 .. n-1, which names no other curve, and whose
    public key, if given, is the uncompressed encoding of that multiple of the
    base point.  The key is then that number. *)
Theorem C49_sec1_import : forall b, bytes b ->
  (forall d, from_sec1_der E oid b = Ok d <->
     exists key params pub, b = sec1_doc key params pub /\ zlen b <= 65539 /\ ok_EcPrivateKey (1, (key, (params, pub))) /\
       d = be_val key /\ 1 <= d < c_n c /\ sec1_consistent c len oid d params pub) /\
  from_sec1_der E oid b <> Panic.
Proof. exact (sec1_import_ok c E I L48 oid). Qed.

(** The errors for a document of another curve, and for a public key that is
    not the private key's. *)
Theorem C49_sec1_rejections : forall key params pub,
  let b := sec1_doc key params pub in
  bytes b -> ok_EcPrivateKey (1, (key, (params, pub))) -> zlen b <= 65539 ->
  (forall o, params = Some o -> o <> oid -> from_sec1_der E oid b = Err MismatchedSec1Curve) /\
  (params = None \/ params = Some oid -> (be_val key = 0 \/ c_n c <= be_val key < 256 ^ len) -> from_sec1_der E oid b = Err OutOfRange) /\
  (params = None \/ params = Some oid -> 256 ^ len <= be_val key -> from_sec1_der E oid b = Err WrongLength) /\
  (forall q x y, params = None \/ params = Some oid -> 1 <= be_val key < c_n c -> pub = Some q ->
     pt_mul c (be_val key) (Some (c_g c)) = Some (x, y) -> q <> sec1 len x y -> from_sec1_der E oid b = Err MismatchedSec1PublicKey).
Proof.
  intros key params pub b B O L. pose proof O as (_ & OK & _ & OP).
  assert (D : from_bytes EcPrivateKey b = Ok (1, (key, (params, pub)))) by (apply (x_dec _ _ _ exact_EcPrivateKey); auto).
  assert (PE : params = None \/ params = Some oid -> (match params with Some x => if list_eqb x oid then Ok tt else Err MismatchedSec1Curve | None => Ok tt end) = Ok tt).
  { intros [-> | ->]; [reflexivity|]. rewrite list_eqb_refl. reflexivity. }
  destruct (private_key_decode c E I key OK) as (K1 & K2 & K3). split; [|split; [|split]].
  - intros o -> N. unfold from_sec1_der. rewrite D. cbn [bind]. destruct (list_eqb o oid) eqn:LE; [apply list_eqb_eq in LE; contradiction|]. reflexivity.
  - intros P V. unfold from_sec1_der. rewrite D. cbn [bind]. rewrite (PE P). cbn [bind]. rewrite (K2 V). reflexivity.
  - intros P V. unfold from_sec1_der. rewrite D. cbn [bind]. rewrite (PE P). cbn [bind]. rewrite (K3 V). reflexivity.
  - intros q x y P V -> M N. apply (list_pub_error c E oid I L48 (be_val key) V q OP); auto.
    intros x' y' M'. rewrite M in M'. injection M' as <- <-. exact N.
Qed.

(** Writing a key as SEC 1 gives the document with the full-length number, this
    curve's name and the public key, at the front of the buffer, or an error if
    the buffer is too short; reading what was written gives the key back. *)
Theorem C49_sec1_export : forall d, 1 <= d < c_n c -> exists x y,
  pt_mul c d (Some (c_g c)) = Some (x, y) /\
  let doc := sec1_doc (be_bytes (Z.to_nat len) d) (Some oid) (Some (sec1 len x y)) in
  from_sec1_der E oid doc = Ok d /\ zlen doc <= 200 /\
  forall out, to_sec1_der E oid d out = if zlen out <? zlen doc then Err UnexpectedEof else Ok (doc ++ zdrop (zlen doc) out, zlen doc).
Proof.
  intros d D. destruct (own_doc_ok c E I L48 oid OI d (Some oid) D ltac:(auto)) as (x & y & M & _ & L & F & T). exists x, y.
  split; [exact M|]. intros doc. split; [exact F|]. split; [exact L|exact T].
Qed.

(** Reading a PKCS#8 key succeeds exactly when the input starts with a PKCS#8
    document of algorithm id-ecPublicKey with this curve's name as parameter,
    whose private key is a SEC 1 document accepted as above. *)
Theorem C49_pkcs8_import : forall b, bytes b ->
  (forall d, from_pkcs8_der E oid b = Ok d <->
     exists inner pub rest, b = pkcs8_doc id_ecPublicKey (Some (AnyObjectId oid)) inner pub ++ rest /\
       pkcs8_fields id_ecPublicKey (Some (AnyObjectId oid)) inner pub /\
       zlen (pkcs8_doc id_ecPublicKey (Some (AnyObjectId oid)) inner pub) <= 65539 /\ from_sec1_der E oid inner = Ok d) /\
  from_pkcs8_der E oid b <> Panic.
Proof.
  intros b B. unfold from_pkcs8_der.
  destruct (pkcs8_decode b id_ecPublicKey (Some (AnyObjectId oid))) as [k|e|] eqn:D; [| |destruct (C06_total b _ _ B D)]; cbn [bind].
  - destruct (proj1 (C06_import b id_ecPublicKey (Some (AnyObjectId oid)) (pkcs8_private_key k) (pkcs8_public_key k) B)) as ((rest & E1) & F & L); [eauto|].
    split.
    + intros d. split.
      * intros Q. exists (pkcs8_private_key k), (pkcs8_public_key k), rest. auto.
      * intros (inner & pub & rest' & E2 & F' & L' & Q).
        destruct (proj2 (C06_import b id_ecPublicKey (Some (AnyObjectId oid)) inner pub B)) as (k' & D' & K' & _); [eauto|].
        rewrite D in D'. injection D' as <-. rewrite K'. exact Q.
    + refine (proj2 (sec1_import_ok c E I L48 oid _ _)). destruct F as (_ & _ & FB & _). exact FB.
  - split; [|discriminate]. intros d. split; [discriminate|]. intros (inner & pub & rest & E2 & F & L & _).
    destruct (proj2 (C06_import b id_ecPublicKey (Some (AnyObjectId oid)) inner pub B)) as (k & D' & _); [eauto|]. congruence.
Qed.

(** Writing a key as PKCS#8 gives the PKCS#8 document around the SEC 1 document
    without the curve's name; the internal buffer is always long enough, and
    reading what was written gives the key back. *)
Theorem C49_pkcs8_export : forall d, 1 <= d < c_n c -> exists x y,
  pt_mul c d (Some (c_g c)) = Some (x, y) /\
  let doc := pkcs8_doc id_ecPublicKey (Some (AnyObjectId oid))
               (sec1_doc (be_bytes (Z.to_nat len) d) None (Some (sec1 len x y))) None in
  from_pkcs8_der E oid doc = Ok d /\ zlen doc <= 250 /\
  forall out, to_pkcs8_der E oid d out = if zlen out <? zlen doc then Err UnexpectedEof else Ok (doc ++ zdrop (zlen doc) out, zlen doc).
Proof.
  intros d D. destruct (to_pkcs8_ok c E I L48 oid OI d D) as (x & y & M & B & L & T). exists x, y. split; [exact M|].
  intros doc. split; [|split; [exact L|exact T]].
  destruct (own_doc_ok c E I L48 oid OI d None D ltac:(auto)) as (x' & y' & M' & BO & LO & F & _). rewrite M in M'. injection M' as <- <-.
  apply C49_pkcs8_import; [exact B|]. exists (own_doc E d x y None), None, []. split; [rewrite app_nil_r; reflexivity|].
  split; [apply pkcs8_fields_ok; auto|]. split; [|exact F]. eapply Z.le_trans; [exact L|lia].
Qed.

(** Writing the public key gives the SubjectPublicKeyInfo document of RFC 5480
    around the uncompressed point. *)
Theorem C49_spki_export : forall d, 1 <= d < c_n c -> exists x y,
  pt_mul c d (Some (c_g c)) = Some (x, y) /\
  let doc := spki_doc oid (sec1 len x y) in
  forall out, to_spki_der E oid d out = if zlen out <? zlen doc then Err UnexpectedEof else Ok (doc ++ zdrop (zlen doc) out, zlen doc).
Proof. exact (to_spki_ok c E I L48 oid OI). Qed.

(** A wrong public key in the SEC 1 document is refused, but one beside it, in
    the PKCS#8 v2 document, is not looked at: any bytes will do. *)
Theorem C49_wrapper_public_key_refuted : forall d q, 1 <= d < c_n c -> bytes q -> zlen q <= 60000 -> exists inner,
  from_sec1_der E oid inner = Ok d /\
  from_pkcs8_der E oid (pkcs8_doc id_ecPublicKey (Some (AnyObjectId oid)) inner (Some q)) = Ok d.
Proof.
  intros d q D Q LQ. destruct (own_doc_ok c E I L48 oid OI d None D ltac:(auto)) as (x & y & _ & BO & LO & F & _).
  set (inner := own_doc E d x y None) in *. clearbody inner. exists inner. split; [exact F|].
  assert (PF : pkcs8_fields id_ecPublicKey (Some (AnyObjectId oid)) inner (Some q)).
  { split; [apply id_ec_ok|]. split; [intros a A; injection A as <-; exact OI|]. split; [exact BO|]. intros p A. injection A as <-. exact Q. }
  assert (SZ : zlen (pkcs8_doc id_ecPublicKey (Some (AnyObjectId oid)) inner (Some q)) <= 65539).
  { unfold pkcs8_doc. cbn [tree_OneAsymmetricKey tree_Alg any_tree der_enc SEQ map concat app].
    destruct OI as [_ LOI]. destruct id_ec_ok as [_ LI].
    set (ie := id_ecPublicKey) in *. clearbody ie. clear - LI LOI LO LQ. rewrite !app_nil_r.
    assert (zlen (der_enc (INT [1])) = 3) by reflexivity. unfold S_Pkix.OID, OCTETS. cbn [der_enc].
    pose proof (tlv_short 6 ie ltac:(lia)). pose proof (tlv_short 6 oid ltac:(lia)).
    pose proof (zlen_nonneg (tlv 6 ie)). pose proof (zlen_nonneg (tlv 6 oid)).
    pose proof (tlv_short 48 (tlv 6 ie ++ tlv 6 oid) ltac:(rewrite zlen_app; lia)) as T. rewrite zlen_app in T.
    pose proof (tlv_short 4 inner ltac:(lia)).
    pose proof (tlv_medium 129 (0 :: q) ltac:(rewrite zlen_cons; lia)) as T2. rewrite zlen_cons in T2.
    eapply Z.le_trans; [apply tlv_medium|]; rewrite !zlen_app; lia. }
  apply C49_pkcs8_import.
  - unfold pkcs8_doc. apply bytes_der_enc; [|exact SZ].
    assert (T : forall z, 0 <= z < 256 -> byte_ok z) by auto.
    assert (CB : forall z l, 0 <= z < 256 -> bytes l -> bytes (z :: l)) by (intros; apply bytes_cons; auto).
    assert (NB : bytes []) by constructor. destruct OI as [BOI _]. destruct id_ec_ok as [[BI _] _].
    set (ie := id_ecPublicKey) in *. clearbody ie. clear - T CB NB BOI BI BO Q.
    cbn -[bytes]; repeat split; try (apply T; lia); auto; try (apply CB; [lia|auto]).
  - exists inner, (Some q), []. rewrite app_nil_r. auto.
Qed.
End Theorems.
Print Assumptions C49_sec1_import.
Print Assumptions C49_sec1_rejections.
Print Assumptions C49_sec1_export.
Print Assumptions C49_pkcs8_import.
Print Assumptions C49_pkcs8_export.
Print Assumptions C49_spki_export.
Print Assumptions C49_wrapper_public_key_refuted.

(** The hypotheses hold for the small curve over the field of 43 elements, and
    each outcome occurs. *)
Example C49_some :
  (ec_impl tiny tiny_ec /\ ec_bytes tiny_ec <= 48 /\ is_oid id_prime256v1 /\ 1 <= 7 < c_n tiny) /\
  from_sec1_der tiny_ec id_prime256v1 (sec1_doc [7] None None) = Ok 7 /\
  from_sec1_der tiny_ec id_prime256v1 (sec1_doc [7] (Some id_secp384r1) None) = Err MismatchedSec1Curve /\
  from_sec1_der tiny_ec id_prime256v1 (sec1_doc [7] None (Some [4])) = Err MismatchedSec1PublicKey /\
  to_sec1_der tiny_ec id_prime256v1 7 (repeat 0 3) = Err UnexpectedEof.
Proof.
  split; [split; [exact tiny_impl|]; split; [vm_compute; discriminate|]; split; [|cbn; lia]; vm_compute; split; [repeat constructor; discriminate|discriminate]|].
  repeat split; vm_compute; reflexivity.
Qed.
