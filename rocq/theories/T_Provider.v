(** C45: loading private keys, and C53: the verification algorithms and signers offered to rustls. *)
Require Import Verif.Base Verif.L_Base Verif.M_Asn1 Verif.M_Pkix Verif.M_Pkcs8 Verif.M_Sha2 Verif.M_Hmac Verif.M_PosInt Verif.M_Rsa Verif.M_RsaKey Verif.M_Pkcs1.
Require Import Verif.M_Ec Verif.M_Ecdsa Verif.M_Ed25519 Verif.M_Sign Verif.M_Provider.
Require Import Verif.S_Curve Verif.S_Ec Verif.S_Ecdsa Verif.S_Ed Verif.S_EdLow Verif.S_Der Verif.S_Pkix Verif.S_Sha2 Verif.S_Pkcs1 Verif.S_Bignum.
Require Import Verif.L_PosInt Verif.L_Rsa Verif.L_Pkcs1 Verif.L_Asn1 Verif.L_Pkix Verif.L_Hmac Verif.T_Hash Verif.T_Pkcs8 Verif.T_RsaKey Verif.T_RsaSig Verif.T_Ec Verif.T_Ecdsa Verif.T_EcdsaKey Verif.T_Ed25519 Verif.T_EdKey.
Require Import ZifyNat.

(** everything below the provider meets its contract *)
Record lows_ok (c1 c2 : curve) (ce : edcurve) (W : lows) : Prop := {
  wo_bn : bignum_ok (lw_bn W);
  wo_p256 : ec_impl c1 (lw_p256 W); wo_l1 : ec_bytes (lw_p256 W) <= 48;
  wo_p384 : ec_impl c2 (lw_p384 W); wo_l2 : ec_bytes (lw_p384 W) <= 48;
  wo_ed : ed_ok ce; wo_edlow : ed_low_ok ce (lw_ed W) }.

Lemma decode_alg b o1 p1 o2 p2 k1 k2 : pkcs8_decode b o1 p1 = Ok k1 -> pkcs8_decode b o2 p2 = Ok k2 -> o1 = o2 /\ p1 = p2.
Proof.
  unfold pkcs8_decode. destruct (parse OneAsymmetricKey b) as [[[v [[al ps] [pr pu]]] r]| |]; cbn [bind]; try discriminate.
  destruct (match pu with Some _ => _ | None => _ end) as [[]| |]; cbn [bind]; try discriminate.
  destruct (list_eqb al o1) eqn:A1; cbn [negb]; try discriminate. destruct (opt_any_eqb ps p1) eqn:P1; cbn [negb]; try discriminate. intros _.
  destruct (list_eqb al o2) eqn:A2; cbn [negb]; try discriminate. destruct (opt_any_eqb ps p2) eqn:P2; cbn [negb]; try discriminate. intros _.
  apply list_eqb_eq in A1, A2. split; [congruence|].
  apply opt_any_eqb_eq in P1, P2. congruence.
Qed.

(** *** C45: what each document is *)
(** [b] begins with a PKCS#8 document for algorithm [oid] and these parameters, holding the key [inner] *)
Definition pkcs8_holds (oid : list Z) (params : option any) (inner : list Z) (pub : option (list Z)) (b : list Z) : Prop :=
  (exists rest, b = pkcs8_doc oid params inner pub ++ rest) /\ pkcs8_fields oid params inner pub /\ zlen (pkcs8_doc oid params inner pub) <= 65539.
(** [b] is an RSAPrivateKey document (RFC 8017 A.1.2) of acceptable numbers, giving key [k] *)
Definition rsa_document (bn : bignum) (b : list Z) (k : rsa_priv) : Prop :=
  exists nums, private_doc_unsigned nums b /\ private_ok nums /\ private_key_of bn nums k.
(** [b] is an ECPrivateKey document (RFC 5915) for private key [d] of curve [c]: it names that curve or none, and has
    the right public key or none *)
Definition ec_document (c : curve) (len : Z) (oid b : list Z) (d : Z) : Prop :=
  exists key params pub, b = sec1_doc key params pub /\ zlen b <= 65539 /\ ok_EcPrivateKey (1, (key, (params, pub))) /\
    d = be_val key /\ 1 <= d < c_n c /\ sec1_consistent c len oid d params pub.
(** [b] is an RFC 8410 document for the Ed25519 key with this seed, with the right public key or none *)
Definition ed_document (ce : edcurve) (b seed : list Z) : Prop :=
  exists pub rest, b = ed_pkcs8 seed pub ++ rest /\ bytes seed /\ zlen seed = 32 /\ (pub = None \/ pub = Some (rfc_public ce SHA512 seed)).

Section C45.
Variables (c1 c2 : curve) (ce : edcurve) (W : lows).
Hypothesis O : lows_ok c1 c2 ce W.

Lemma oid1 : is_oid id_prime256v1. Proof. vm_compute. split; [repeat constructor; discriminate|discriminate]. Qed.
Lemma oid2 : is_oid id_secp384r1. Proof. vm_compute. split; [repeat constructor; discriminate|discriminate]. Qed.

Lemma sec1_1 b : bytes b -> (forall d, from_sec1_der (lw_p256 W) id_prime256v1 b = Ok d <-> ec_document c1 (ec_bytes (lw_p256 W)) id_prime256v1 b d)
  /\ from_sec1_der (lw_p256 W) id_prime256v1 b <> Panic.
Proof. exact (C49_sec1_import c1 _ (wo_p256 _ _ _ _ O) (wo_l1 _ _ _ _ O) id_prime256v1 b). Qed.
Lemma sec1_2 b : bytes b -> (forall d, from_sec1_der (lw_p384 W) id_secp384r1 b = Ok d <-> ec_document c2 (ec_bytes (lw_p384 W)) id_secp384r1 b d)
  /\ from_sec1_der (lw_p384 W) id_secp384r1 b <> Panic.
Proof. exact (C49_sec1_import c2 _ (wo_p384 _ _ _ _ O) (wo_l2 _ _ _ _ O) id_secp384r1 b). Qed.

Lemma pkcs8_then {A} (f : list Z -> res A) oid ps b v : bytes b ->
  (let! k := pkcs8_decode b oid ps in f (pkcs8_private_key k)) = Ok v <-> exists inner pub, pkcs8_holds oid ps inner pub b /\ f inner = Ok v.
Proof.
  intros B. split.
  - destruct (pkcs8_decode b oid ps) as [k| |] eqn:D; cbn [bind]; try discriminate. intros F.
    exists (pkcs8_private_key k), (pkcs8_public_key k). split; [|exact F].
    refine (proj1 (C06_import b oid ps (pkcs8_private_key k) (pkcs8_public_key k) B) _). eauto.
  - intros (inner & pub & H & F). destruct (proj2 (C06_import b oid ps inner pub B) H) as (k & D & <- & _). rewrite D. exact F.
Qed.
Lemma pkcs8_then_total {A} (f : list Z -> res A) oid ps b : bytes b -> (forall inner, bytes inner -> f inner <> Panic) ->
  (let! k := pkcs8_decode b oid ps in f (pkcs8_private_key k)) <> Panic.
Proof.
  intros B T. destruct (pkcs8_decode b oid ps) as [k| |] eqn:D; cbn [bind]; [|discriminate|destruct (C06_total b _ _ B D)].
  apply T. assert (H : pkcs8_holds oid ps (pkcs8_private_key k) (pkcs8_public_key k) b) by (refine (proj1 (C06_import b oid ps _ _ B) _); eauto).
  destruct H as (_ & (_ & _ & F & _) & _). exact F.
Qed.

Lemma rsa_pkcs8 b k : bytes b -> sk_from_pkcs8_der (lw_bn W) b = Ok k <->
  exists inner pub, pkcs8_holds id_rsaEncryption (Some AnyNull) inner pub b /\ rsa_document (lw_bn W) inner k.
Proof.
  intros B. unfold sk_from_pkcs8_der. rewrite (pkcs8_then (sk_from_pkcs1_der (lw_bn W))) by exact B.
  split; intros (inner & pub & H & F); exists inner, pub; (split; [exact H|]); apply (C25_private_import (lw_bn W) inner k); try exact F; exact (proj1 (proj2 (proj2 (proj1 (proj2 H))))).
Qed.
Lemma ec_pkcs8_1 b d : bytes b -> from_pkcs8_der (lw_p256 W) id_prime256v1 b = Ok d <->
  exists inner pub, pkcs8_holds id_ecPublicKey (Some (AnyObjectId id_prime256v1)) inner pub b /\ ec_document c1 (ec_bytes (lw_p256 W)) id_prime256v1 inner d.
Proof.
  intros B. unfold from_pkcs8_der. rewrite (pkcs8_then (from_sec1_der (lw_p256 W) id_prime256v1)) by exact B.
  split; intros (inner & pub & H & F); exists inner, pub; (split; [exact H|]); apply sec1_1; try exact F; exact (proj1 (proj2 (proj2 (proj1 (proj2 H))))).
Qed.
Lemma ec_pkcs8_2 b d : bytes b -> from_pkcs8_der (lw_p384 W) id_secp384r1 b = Ok d <->
  exists inner pub, pkcs8_holds id_ecPublicKey (Some (AnyObjectId id_secp384r1)) inner pub b /\ ec_document c2 (ec_bytes (lw_p384 W)) id_secp384r1 inner d.
Proof.
  intros B. unfold from_pkcs8_der. rewrite (pkcs8_then (from_sec1_der (lw_p384 W) id_secp384r1)) by exact B.
  split; intros (inner & pub & H & F); exists inner, pub; (split; [exact H|]); apply sec1_2; try exact F; exact (proj1 (proj2 (proj2 (proj1 (proj2 H))))).
Qed.
Lemma ed_pkcs8_3 b k : bytes b -> ed_from_pkcs8_der (lw_ed W) b = Ok k <->
  exists seed, ed_document ce b seed /\ ed_from_bytes (lw_ed W) seed = Ok k.
Proof.
  intros B. rewrite (proj1 (C50_pkcs8_import ce (lw_ed W) (wo_ed _ _ _ _ O) (wo_edlow _ _ _ _ O) b B) k). unfold ed_document.
  split; [intros (seed & pub & rest & E & BS & L & P & F)|intros (seed & (pub & rest & E & BS & L & P) & F)]; [exists seed; split; [exists pub, rest|]|exists seed, pub, rest]; auto.
Qed.

(** which of the four algorithm identifiers a document carries *)
Lemma which b : bytes b ->
  (forall k, sk_from_pkcs8_der (lw_bn W) b = Ok k -> exists p, pkcs8_decode b id_rsaEncryption (Some AnyNull) = Ok p) /\
  (forall d, from_pkcs8_der (lw_p256 W) id_prime256v1 b = Ok d -> exists p, pkcs8_decode b id_ecPublicKey (Some (AnyObjectId id_prime256v1)) = Ok p) /\
  (forall d, from_pkcs8_der (lw_p384 W) id_secp384r1 b = Ok d -> exists p, pkcs8_decode b id_ecPublicKey (Some (AnyObjectId id_secp384r1)) = Ok p) /\
  (forall k, ed_from_pkcs8_der (lw_ed W) b = Ok k -> exists p, pkcs8_decode b id_ed25519 None = Ok p).
Proof.
  intros B. repeat split; intros v H.
  - unfold sk_from_pkcs8_der in H. destruct (pkcs8_decode b _ _) as [p| |]; try discriminate; eauto.
  - unfold from_pkcs8_der in H. destruct (pkcs8_decode b _ _) as [p| |]; try discriminate; eauto.
  - unfold from_pkcs8_der in H. destruct (pkcs8_decode b _ _) as [p| |]; try discriminate; eauto.
  - unfold ed_from_pkcs8_der in H. destruct (pkcs8_decode b _ _) as [p| |]; try discriminate; eauto.
Qed.

(** Loading a PKCS#8 document gives a key of the kind its algorithm identifier names, made from its contents, and
    otherwise the error; the order in which the code tries the kinds does not matter. *)
Theorem C45_pkcs8 : forall b, bytes b ->
  (forall k, load_pkcs8 W b = Ok (ARsa k) <->
     exists inner pub, pkcs8_holds id_rsaEncryption (Some AnyNull) inner pub b /\ rsa_document (lw_bn W) inner k) /\
  (forall d, load_pkcs8 W b = Ok (AP256 d) <->
     exists inner pub, pkcs8_holds id_ecPublicKey (Some (AnyObjectId id_prime256v1)) inner pub b /\ ec_document c1 (ec_bytes (lw_p256 W)) id_prime256v1 inner d) /\
  (forall d, load_pkcs8 W b = Ok (AP384 d) <->
     exists inner pub, pkcs8_holds id_ecPublicKey (Some (AnyObjectId id_secp384r1)) inner pub b /\ ec_document c2 (ec_bytes (lw_p384 W)) id_secp384r1 inner d) /\
  (forall k, load_pkcs8 W b = Ok (AEd25519 k) <->
     exists seed, ed_document ce b seed /\ ed_from_bytes (lw_ed W) seed = Ok k) /\
  (is_ok (load_pkcs8 W b) = false -> load_pkcs8 W b = Err GeneralError).
Proof.
  intros b B. destruct (which b B) as (W1 & W2 & W3 & W4).
  pose proof (fun k => rsa_pkcs8 b k B) as R1. pose proof (fun k => ec_pkcs8_1 b k B) as R2. pose proof (fun k => ec_pkcs8_2 b k B) as R3. pose proof (fun k => ed_pkcs8_3 b k B) as R4.
  assert (T1 : sk_from_pkcs8_der (lw_bn W) b <> Panic) by (apply (pkcs8_then_total (sk_from_pkcs1_der (lw_bn W))); [exact B|apply C25_private_total]).
  assert (T2 : from_pkcs8_der (lw_p256 W) id_prime256v1 b <> Panic) by (apply (pkcs8_then_total (from_sec1_der (lw_p256 W) id_prime256v1)); [exact B|intros i Bi; apply sec1_1, Bi]).
  assert (T3 : from_pkcs8_der (lw_p384 W) id_secp384r1 b <> Panic) by (apply (pkcs8_then_total (from_sec1_der (lw_p384 W) id_secp384r1)); [exact B|intros i Bi; apply sec1_2, Bi]).
  assert (T4 : ed_from_pkcs8_der (lw_ed W) b <> Panic) by (apply (C50_pkcs8_import ce (lw_ed W) (wo_ed _ _ _ _ O) (wo_edlow _ _ _ _ O) b B)).
  setoid_rewrite <- R1. setoid_rewrite <- R2. setoid_rewrite <- R3. setoid_rewrite <- R4. clear R1 R2 R3 R4.
  unfold load_pkcs8.
  destruct (sk_from_pkcs8_der (lw_bn W) b) as [k1|e1|] eqn:E1, (from_pkcs8_der (lw_p256 W) id_prime256v1 b) as [k2|e2|] eqn:E2,
    (from_pkcs8_der (lw_p384 W) id_secp384r1 b) as [k3|e3|] eqn:E3, (ed_from_pkcs8_der (lw_ed W) b) as [k4|e4|] eqn:E4; try congruence; cbn [if_ok is_ok];
  try (exfalso; match goal with
    | A : forall k, Ok ?x = Ok k -> exists p, pkcs8_decode _ ?o1 ?q1 = Ok p, A' : forall k, Ok ?y = Ok k -> exists p, pkcs8_decode _ ?o2 ?q2 = Ok p |- _ =>
        let p := fresh in let p' := fresh in let D := fresh in let D' := fresh in let Q := fresh in
        destruct (A x eq_refl) as (p & D); destruct (A' y eq_refl) as (p' & D'); pose proof (decode_alg _ _ _ _ _ _ _ D D') as Q; vm_compute in Q; destruct Q; discriminate end);
  repeat split; intros; congruence.
Qed.

(** Loading a PKCS#1 document: an RSA key or the error. *)
Theorem C45_pkcs1 : forall b, bytes b ->
  (forall k, load_pkcs1 W b = Ok k <-> exists r, k = ARsa r /\ rsa_document (lw_bn W) b r) /\
  (is_ok (load_pkcs1 W b) = false -> load_pkcs1 W b = Err GeneralError).
Proof.
  intros b B. pose proof (fun k => C25_private_import (lw_bn W) b k B) as R. pose proof (C25_private_total (lw_bn W) b B) as T. unfold rsa_document. setoid_rewrite <- R.
  unfold load_pkcs1. destruct (sk_from_pkcs1_der (lw_bn W) b) as [k|e|]; cbn [map_err bind is_ok]; [| |congruence].
  - split; [|discriminate]. intros k'. split; [intros H; injection H as <-; eauto|intros (r & -> & H); congruence].
  - split; [|reflexivity]. intros k'. split; [discriminate|intros (r & _ & H); discriminate H].
Qed.

(** Loading a SEC 1 document: a key of the curve it is for; P-256 where it could be either. *)
Theorem C45_sec1 : forall b, bytes b ->
  (forall k, load_sec1 W b = Ok k <->
     (exists d, k = AP256 d /\ ec_document c1 (ec_bytes (lw_p256 W)) id_prime256v1 b d) \/
     (exists d, k = AP384 d /\ ec_document c2 (ec_bytes (lw_p384 W)) id_secp384r1 b d /\ forall d', ~ ec_document c1 (ec_bytes (lw_p256 W)) id_prime256v1 b d')) /\
  (is_ok (load_sec1 W b) = false -> load_sec1 W b = Err GeneralError).
Proof.
  intros b B. destruct (sec1_1 b B) as [R1 T1]. destruct (sec1_2 b B) as [R2 T2]. setoid_rewrite <- R1. setoid_rewrite <- R2. unfold load_sec1.
  destruct (from_sec1_der (lw_p256 W) id_prime256v1 b) as [d1|e1|]; [| |congruence]; cbn [if_ok is_ok].
  - split; [|discriminate]. intros k. split.
    + intros H. injection H as <-. left. eauto.
    + intros [(d & -> & H)|(d & _ & _ & N)]; [congruence|]. destruct (N d1 eq_refl).
  - destruct (from_sec1_der (lw_p384 W) id_secp384r1 b) as [d2|e2|]; [| |congruence]; cbn [if_ok is_ok].
    + split; [|discriminate]. intros k. split.
      * intros H. injection H as <-. right. exists d2. split; [reflexivity|]. split; [reflexivity|]. discriminate.
      * intros [(d & _ & H)|(d & -> & H & _)]; congruence.
    + split; [|reflexivity]. intros k. split; [discriminate|]. intros [(d & _ & H)|(d & _ & H & _)]; discriminate H.
Qed.

(** So a document that names a curve is never taken for a key of the other. *)
Theorem C45_sec1_named : forall b key oid pub, bytes b -> b = sec1_doc key (Some oid) pub -> ok_EcPrivateKey (1, (key, (Some oid, pub))) ->
  (forall d, load_sec1 W b = Ok (AP256 d) -> oid = id_prime256v1) /\ (forall d, load_sec1 W b = Ok (AP384 d) -> oid = id_secp384r1).
Proof.
  intros b key oid pub B Eb OKd.
  assert (X : forall c len o d, ec_document c len o b d -> oid = o).
  { intros c len o d (key' & ps & pb & E & L & K & _ & _ & (P & _)). rewrite Eb in E. 
    assert (Q : (1, (key, (Some oid, pub))) = (1, (key', (ps, pb)))).
    { assert (A1 : from_bytes EcPrivateKey b = Ok (1, (key, (Some oid, pub)))) by (apply (x_dec _ _ _ exact_EcPrivateKey); auto).
      assert (A2 : from_bytes EcPrivateKey b = Ok (1, (key', (ps, pb)))) by (apply (x_dec _ _ _ exact_EcPrivateKey); [exact B|split; [exact K|split; [unfold sec1_doc in *; congruence|exact L]]]).
      congruence. }
    injection Q as <- <- <-. destruct P as [P|P]; [discriminate P|]. now injection P. }
  destruct (C45_sec1 b B) as [S _]. split; intros d H; apply S in H; destruct H as [(d' & Q & H)|(d' & Q & H & _)]; try discriminate Q; eapply X; exact H.
Qed.

(** One that names none can be: a P-384 key whose number is also in range for P-256 comes back as a P-256 key. *)
Theorem C45_sec1_unnamed_refuted : forall key d, ok_EcPrivateKey (1, (key, (None, None))) -> bytes (sec1_doc key None None) -> zlen (sec1_doc key None None) <= 65539 ->
  d = be_val key -> 1 <= d < c_n c1 -> 1 <= d < c_n c2 ->
  from_sec1_der (lw_p384 W) id_secp384r1 (sec1_doc key None None) = Ok d /\ load_sec1 W (sec1_doc key None None) = Ok (AP256 d).
Proof.
  intros key d K B L D R1 R2.
  assert (X : forall c len o, 1 <= d < c_n c -> ec_document c len o (sec1_doc key None None) d).
  { intros c len o R. exists key, None, None. split; [reflexivity|]. split; [exact L|]. split; [exact K|]. split; [exact D|]. split; [exact R|]. split; left; reflexivity. }
  split; [apply (sec1_2 _ B), X, R2|]. apply (C45_sec1 _ B). left. exists d. split; [reflexivity|]. apply X, R1.
Qed.
End C45.
Print Assumptions C45_pkcs8.
Print Assumptions C45_pkcs1.
Print Assumptions C45_sec1.
Print Assumptions C45_sec1_named.
Print Assumptions C45_sec1_unnamed_refuted.

(** *** C53: verification *)
(** an ECDSA signature in DER for this uncompressed public key (coordinates are reduced, see C28) *)
Definition ec_accepts (c : curve) (len : Z) (Hs : list Z -> list Z) (public_key message signature : list Z) : Prop :=
  exists xb yb r s, public_key = 4 :: xb ++ yb /\ zlen xb = len /\ zlen yb = len /\
    let Q := Some (be_val xb mod c_p c, be_val yb mod c_p c) in
    on_curve c Q /\ der_sig signature r s /\ ecdsa_valid c Q (ecdsa_e c len (Hs message)) r s.
(** an Ed25519 signature for this encoded point *)
Definition ed_accepts (c : edcurve) (public_key message signature : list Z) : Prop :=
  exists A, on_ed c A /\ public_key = ed_enc A /\ rfc_valid c SHA512 A message signature.
(** an RSA signature for this RSAPublicKey document (for the condition on the length see C22) *)
Definition rsa_accepts (valid : Z -> Z -> Prop) (public_key : list Z) : Prop :=
  exists n e, T_RsaKey.public_doc n e public_key /\ T_RsaKey.public_ok n e /\ valid n e.
Definition pkcs1_accepts (Hs : list Z -> list Z) (oid message signature : list Z) (n e : Z) : Prop :=
  let k := byte_length n in
  (8 | k) /\ be_val signature < n /\
  exists EM, EMSA_PKCS1 k (DigestInfo oid (Hs message)) = Some EM /\ be_val signature ^ e mod n = be_val EM.
Definition pss_accepts (Hs : list Z -> list Z) (hlen : Z) (message signature : list Z) (n e : Z) : Prop :=
  let emLen := 8 * word_length n in
  zlen signature <= byte_length n /\ be_val signature < n /\
  EMSA_PSS_VERIFY Hs hlen (Hs message) (be_bytes (Z.to_nat emLen) (be_val signature ^ e mod n)) (8 * emLen - 1) hlen.

(** what the two identifiers of an algorithm promise *)
Definition promised (c1 c2 : curve) (ce : edcurve) (len1 len2 : Z) (key sig : alg_id) (pk m s : list Z) : Prop :=
  match key, sig with
  | ID_ECDSA_P256, ID_ECDSA_SHA256 => ec_accepts c1 len1 SHA256 pk m s
  | ID_ECDSA_P256, ID_ECDSA_SHA384 => ec_accepts c1 len1 SHA384 pk m s
  | ID_ECDSA_P256, ID_ECDSA_SHA512 => ec_accepts c1 len1 SHA512 pk m s
  | ID_ECDSA_P384, ID_ECDSA_SHA256 => ec_accepts c2 len2 SHA256 pk m s
  | ID_ECDSA_P384, ID_ECDSA_SHA384 => ec_accepts c2 len2 SHA384 pk m s
  | ID_ECDSA_P384, ID_ECDSA_SHA512 => ec_accepts c2 len2 SHA512 pk m s
  | ID_ED25519, ID_ED25519 => ed_accepts ce pk m s
  | ID_RSA_ENCRYPTION, ID_RSA_PKCS1_SHA256 => rsa_accepts (pkcs1_accepts SHA256 id_sha256 m s) pk
  | ID_RSA_ENCRYPTION, ID_RSA_PKCS1_SHA384 => rsa_accepts (pkcs1_accepts SHA384 id_sha384 m s) pk
  | ID_RSA_ENCRYPTION, ID_RSA_PKCS1_SHA512 => rsa_accepts (pkcs1_accepts SHA512 id_sha512 m s) pk
  | ID_RSA_ENCRYPTION, ID_RSA_PSS_SHA256 => rsa_accepts (pss_accepts SHA256 32 m s) pk
  | ID_RSA_ENCRYPTION, ID_RSA_PSS_SHA384 => rsa_accepts (pss_accepts SHA384 48 m s) pk
  | ID_RSA_ENCRYPTION, ID_RSA_PSS_SHA512 => rsa_accepts (pss_accepts SHA512 64 m s) pk
  | _, _ => False
  end.
(** what a TLS signature scheme promises (RFC 8446 4.2.3): the key and the algorithm *)
Definition scheme_ids (s : scheme) : option (alg_id * alg_id) :=
  match s with
  | ECDSA_NISTP256_SHA256 => Some (ID_ECDSA_P256, ID_ECDSA_SHA256)
  | ECDSA_NISTP384_SHA384 => Some (ID_ECDSA_P384, ID_ECDSA_SHA384)
  | ED25519 => Some (ID_ED25519, ID_ED25519)
  | RSA_PSS_SHA256 => Some (ID_RSA_ENCRYPTION, ID_RSA_PSS_SHA256)
  | RSA_PSS_SHA384 => Some (ID_RSA_ENCRYPTION, ID_RSA_PSS_SHA384)
  | RSA_PSS_SHA512 => Some (ID_RSA_ENCRYPTION, ID_RSA_PSS_SHA512)
  | RSA_PKCS1_SHA256 => Some (ID_RSA_ENCRYPTION, ID_RSA_PKCS1_SHA256)
  | RSA_PKCS1_SHA384 => Some (ID_RSA_ENCRYPTION, ID_RSA_PKCS1_SHA384)
  | RSA_PKCS1_SHA512 => Some (ID_RSA_ENCRYPTION, ID_RSA_PKCS1_SHA512)
  | OtherScheme _ => None
  end.

Lemma trimmed_normal N x : wf N x -> trimmed x -> 0 < val x -> normal x /\ p_used x = word_length (val x).
Proof.
  intros Wx T P. assert (U := as_words_ok N x Wx).
  assert (W : p_used x = word_length (val x)).
  { rewrite T. unfold bn_digitsize, bn_bitsize, word_length. fold (val x). destruct (Z.eqb_spec (val x) 0) as [E|_]; [lia|].
    replace (Z.log2 (val x) + 1 + 63) with (Z.log2 (val x) + 1 * 64) by lia. now rewrite Z.div_add by lia. }
  split; [|exact W]. assert (0 < p_used x).
  { rewrite W. unfold word_length. destruct (Z.eqb_spec (val x) 0); [lia|]. pose proof (Z.div_pos (Z.log2 (val x)) 64 (Z.log2_nonneg _)). lia. }
  split; [assumption|]. destruct (Z.lt_ge_cases (val x) (2 ^ (64 * (p_used x - 1)))) as [L|G]; [|exact G].
  apply (digitsize_spec (as_words x)) in L; [|apply U|lia]. rewrite <- T in L. lia.
Qed.

(** membership at a given place; searching would compare the algorithms *)
Ltac offered n := apply nth_error_In with n; exact eq_refl.

Section C53.
Variables (c1 c2 : curve) (ce : edcurve) (W : lows).
Hypothesis O : lows_ok c1 c2 ce W.

Lemma ec_ok c E (I : ec_impl c E) (L48 : ec_bytes E <= 48) H Hs lim (HI : implements H Hs lim) kid sid pk m s : bytes pk -> bytes m -> bytes s -> zlen m < lim ->
  let a := ec_verify kid E sid H in
  (va_verify a pk m s = Ok tt <-> ec_accepts c (ec_bytes E) Hs pk m s) /\ (va_verify a pk m s = Ok tt \/ va_verify a pk m s = Err InvalidSignature).
Proof.
  intros BP BM BS LM a. cbn [a ec_verify va_verify]. destruct (C28_point_exact c E I pk BP) as [PX PT].
  assert (BM1 : Forall bytes [m]) by (repeat constructor; exact BM). assert (LM1 : zlen (concat [m]) < lim) by (cbn [concat]; rewrite app_nil_r; exact LM).
  destruct (pk_from_x962 E pk) as [k|e|] eqn:PK; [| |congruence]; cbn [bind].
  - destruct (proj1 PX (ex_intro _ k eq_refl)) as (xb & yb & EP & LX & LY & OC). subst pk.
    assert (BXY : bytes xb /\ bytes yb) by (apply bytes_cons in BP; destruct BP as [_ BP]; now apply bytes_app). destruct BXY as [BX BY].
    destruct (C32_asn1_exact c E I L48 H Hs lim HI _ k [m] s BP PK BM1 LM1 BS) as [_ T].
    pose proof (C32_asn1_valid c E I L48 H Hs lim HI xb yb k [m] s BX BY LX LY PK BM1 LM1 BS) as V. cbv zeta in V. cbn [concat] in V. rewrite app_nil_r in V.
    split; [|destruct T as [-> | ->]; auto]. split.
    + intros A. assert (A' : ecdsa_verify_asn1 E H k [m] s = Ok tt) by (destruct T as [T|T]; rewrite T in *; [reflexivity|discriminate A]).
      apply V in A'. destruct A' as (r & t & D & VV). exists xb, yb, r, t. repeat (split; [assumption||reflexivity|]). exact VV.
    + intros (xb' & yb' & r & t & EP & LX' & LY' & OC' & D & VV). injection EP as EP.
      assert (xb' = xb /\ yb' = yb) as [-> ->].
      { assert (length xb' = length xb) by (unfold zlen in *; lia). clear - EP H0. revert xb H0 EP. induction xb' as [|z xb' IH]; intros [|z' xb] L EP; try discriminate L; [auto|].
        cbn in EP. injection EP as -> EP. injection L as L. destruct (IH xb L EP) as [-> ->]. auto. }
      rewrite (proj2 V); [reflexivity|]. eauto.
  - split; [|now right]. split; [discriminate|]. intros (xb & yb & r & t & EP & LX & LY & OC & _). 
    destruct (proj2 PX) as [k K]; [exists xb, yb; auto|discriminate K].
Qed.

Lemma ed_verify_ok pk m s : bytes pk -> bytes m -> bytes s -> zlen m < 2 ^ 61 ->
  let a := V_ED25519 W in
  (va_verify a pk m s = Ok tt <-> ed_accepts ce pk m s) /\ (va_verify a pk m s = Ok tt \/ va_verify a pk m s = Err InvalidSignature).
Proof.
  intros BP BM BS LM a. cbn [a V_ED25519 va_verify]. pose proof (wo_ed _ _ _ _ O) as EO. pose proof (wo_edlow _ _ _ _ O) as EL.
  destruct (C34_key_decode ce (lw_ed W) EL pk BP) as (K1 & K2 & K3).
  assert (LM' : zlen m < 2 ^ 63) by (eapply Z.lt_trans; [exact LM|reflexivity]).
  destruct (vk_from_bytes (lw_ed W) pk) as [vk|e|] eqn:VK.
  - assert (PT : exists A, on_ed ce A /\ pk = ed_enc A).
    { unfold vk_from_bytes in VK. destruct (Z.eqb_spec (zlen pk) 32) as [Q|]; [|discriminate VK]. destruct (el_decode (lw_ed W) pk) as [w|] eqn:D; [|discriminate VK].
      exact (lo_decode_sound ce _ EL pk w BP Q D). }
    destruct PT as (A & OA & ->). cbn [bind].
    destruct (C34_verify_exact ce (lw_ed W) EO EL A vk m s OA VK BM LM' BS) as [V T].
    split; [|destruct T as [-> | ->]; auto]. split.
    + intros X. exists A. split; [exact OA|]. split; [reflexivity|]. apply V. destruct T as [T|T]; rewrite T in *; [reflexivity|discriminate X].
    + intros (A' & OA' & EA & R).
      assert (VK' := proj1 (C34_key_decode ce (lw_ed W) EL _ BP) A' OA' EA). rewrite EA in VK. 
      destruct (C34_verify_exact ce (lw_ed W) EO EL A' vk m s OA' VK BM LM' BS) as [V' _]. rewrite (proj2 V' R). reflexivity.
  - cbn [bind map_err]. split; [|now right]. split; [discriminate|]. intros (A & OA & EA & _). specialize (K1 A OA EA). discriminate K1.
  - unfold vk_from_bytes in VK. destruct (zlen pk =? 32); [|discriminate VK]. destruct (el_decode (lw_ed W) pk); discriminate VK.
Qed.

Lemma rsa_ok (verify : rsa_pub -> list Z -> list Z -> res unit) id pk m s (valid : Z -> Z -> Prop) : bytes pk -> bytes m -> bytes s ->
  (forall x n e key, wf 128 x -> val x = n -> p_used x = word_length n -> usable_pub (lw_bn W) x e key ->
     (verify key s m = Ok tt <-> valid n e) /\ (verify key s m = Ok tt \/ verify key s m = Err BadSignature)) ->
  let a := rsa_verify W id verify in
  (va_verify a pk m s = Ok tt <-> rsa_accepts valid pk) /\ (va_verify a pk m s = Ok tt \/ va_verify a pk m s = Err InvalidSignature).
Proof.
  intros BP BM BS V a. cbn [a rsa_verify va_verify]. pose proof (C25_public_total (lw_bn W) pk BP) as T.
  assert (US : forall n e key, T_RsaKey.public_ok n e -> T_RsaKey.public_key_of (lw_bn W) n e key -> (verify key s m = Ok tt <-> valid n e) /\ (verify key s m = Ok tt \/ verify key s m = Err BadSignature)).
  { intros n e key (On & Bn & Be) (x & (Wx & Vx) & Tx & K).
    assert (P : 0 < n) by (eapply Z.lt_le_trans; [|apply Bn]; apply Z.pow_pos_nonneg; lia).
    destruct (trimmed_normal 128 x Wx Tx ltac:(lia)) as [Nx Ux]. apply (V x n e key Wx Vx); [congruence|]. repeat split; try assumption; try apply Nx; try apply Wx; lia. }
  destruct (vk_from_pkcs1_der (lw_bn W) pk) as [key|e|] eqn:K; [| |congruence]; cbn [bind].
  - destruct (proj1 (C25_public_import (lw_bn W) pk key BP) K) as (n & e & D & OKk & PK).
    destruct (US n e key OKk PK) as [VV TT]. split; [|destruct TT as [-> | ->]; auto]. split.
    + intros X. exists n, e. split; [exact D|]. split; [exact OKk|]. apply VV. destruct TT as [TT|TT]; rewrite TT in *; [reflexivity|discriminate X].
    + intros (n' & e' & D' & OK' & VV').
      destruct (C25_public_exists (lw_bn W) n' e' OK') as (key' & PK'). assert (K' := proj2 (C25_public_import (lw_bn W) pk key' BP) (ex_intro _ n' (ex_intro _ e' (conj D' (conj OK' PK'))))).
      assert (key' = key) as -> by congruence. destruct (US n' e' key OK' PK') as [V2 _]. rewrite (proj2 V2 VV'). reflexivity.
  - split; [|now right]. split; [discriminate|]. intros (n' & e' & D' & OK' & _).
    destruct (C25_public_exists (lw_bn W) n' e' OK') as (key' & PK'). assert (K' := proj2 (C25_public_import (lw_bn W) pk key' BP) (ex_intro _ n' (ex_intro _ e' (conj D' (conj OK' PK'))))). congruence.
Qed.

(** Every algorithm offered accepts exactly the signatures its two identifiers
    promise, for every key, message and signature; anything else is
    [InvalidSignature], and nothing panics. *)
Theorem C53_verify : forall a, In a (all_algorithms W) -> forall pk m s, bytes pk -> bytes m -> bytes s -> zlen m < 2 ^ 61 ->
  (va_verify a pk m s = Ok tt <->
     promised c1 c2 ce (ec_bytes (lw_p256 W)) (ec_bytes (lw_p384 W)) (va_key a) (va_sig a) pk m s) /\
  (va_verify a pk m s = Ok tt \/ va_verify a pk m s = Err InvalidSignature).
Proof.
  intros a IN pk m s BP BM BS LM. pose proof (wo_bn _ _ _ _ O) as BN.
  assert (L64 : zlen m < 2 ^ 64) by (eapply Z.lt_trans; [exact LM|reflexivity]).
  assert (H1 : In (Sha256, SHA256, 2 ^ 61) hashes) by (left; reflexivity).
  assert (H2 : In (Sha384, SHA384, 2 ^ 64) hashes) by (right; left; reflexivity).
  assert (H3 : In (Sha512, SHA512, 2 ^ 64) hashes) by (right; right; left; reflexivity).
  assert (PK : forall verify sign Hs oid lim, In (verify, sign, Hs, oid, lim) (pkcs1_algs (lw_bn W)) -> zlen m < lim -> forall x n e key,
    wf 128 x -> val x = n -> p_used x = word_length n -> usable_pub (lw_bn W) x e key ->
    (verify key s m = Ok tt <-> pkcs1_accepts Hs oid m s n e) /\ (verify key s m = Ok tt \/ verify key s m = Err BadSignature)).
  { intros verify sign Hs oid lim HA LL x n e key _ <- _ U. exact (C22_verify _ BN _ _ _ _ _ HA x e key U s m BS BM LL). }
  assert (PS : forall H Hs lim, In (H, Hs, lim) hashes -> zlen m < lim -> forall x n e key,
    wf 128 x -> val x = n -> p_used x = word_length n -> usable_pub (lw_bn W) x e key ->
    (verify_pss (lw_bn W) H key s m = Ok tt <-> pss_accepts Hs (ha_out H) m s n e) /\
    (verify_pss (lw_bn W) H key s m = Ok tt \/ verify_pss (lw_bn W) H key s m = Err BadSignature)).
  { intros H Hs lim HA LL x n e key _ <- EU U. unfold pss_accepts. rewrite <- EU. exact (C23_verify_signature _ BN _ _ _ HA x e key U s m BS BM LL). }
  destruct IN as [<-|[<-|[<-|[<-|[<-|[<-|[<-|[<-|[<-|[<-|[<-|[<-|[<-|[]]]]]]]]]]]]]].
  - apply (ec_ok c1 _ (wo_p256 _ _ _ _ O) (wo_l1 _ _ _ _ O) _ _ _ (hashes_imp _ _ _ H3)); assumption.
  - apply (ec_ok c1 _ (wo_p256 _ _ _ _ O) (wo_l1 _ _ _ _ O) _ _ _ (hashes_imp _ _ _ H2)); assumption.
  - apply (ec_ok c1 _ (wo_p256 _ _ _ _ O) (wo_l1 _ _ _ _ O) _ _ _ (hashes_imp _ _ _ H1)); assumption.
  - apply (ec_ok c2 _ (wo_p384 _ _ _ _ O) (wo_l2 _ _ _ _ O) _ _ _ (hashes_imp _ _ _ H3)); assumption.
  - apply (ec_ok c2 _ (wo_p384 _ _ _ _ O) (wo_l2 _ _ _ _ O) _ _ _ (hashes_imp _ _ _ H2)); assumption.
  - apply (ec_ok c2 _ (wo_p384 _ _ _ _ O) (wo_l2 _ _ _ _ O) _ _ _ (hashes_imp _ _ _ H1)); assumption.
  - apply ed_verify_ok; assumption.
  - apply (rsa_ok _ ID_RSA_PSS_SHA512 pk m s (pss_accepts SHA512 64 m s) BP BM BS). apply (PS _ _ _ H3 L64).
  - apply (rsa_ok _ ID_RSA_PSS_SHA384 pk m s (pss_accepts SHA384 48 m s) BP BM BS). apply (PS _ _ _ H2 L64).
  - apply (rsa_ok _ ID_RSA_PSS_SHA256 pk m s (pss_accepts SHA256 32 m s) BP BM BS). apply (PS _ _ _ H1 LM).
  - apply (rsa_ok _ ID_RSA_PKCS1_SHA512 pk m s (pkcs1_accepts SHA512 id_sha512 m s) BP BM BS). apply (PK _ (sign_pkcs1_sha512 (lw_bn W)) _ _ (2 ^ 64)); [right; right; left; reflexivity|exact L64].
  - apply (rsa_ok _ ID_RSA_PKCS1_SHA384 pk m s (pkcs1_accepts SHA384 id_sha384 m s) BP BM BS). apply (PK _ (sign_pkcs1_sha384 (lw_bn W)) _ _ (2 ^ 64)); [right; left; reflexivity|exact L64].
  - apply (rsa_ok _ ID_RSA_PKCS1_SHA256 pk m s (pkcs1_accepts SHA256 id_sha256 m s) BP BM BS). apply (PK _ (sign_pkcs1_sha256 (lw_bn W)) _ _ (2 ^ 61)); [left; reflexivity|exact LM].
Qed.

(** The table from schemes to algorithms: a scheme that has a meaning is mapped
    exactly once, first to the algorithm with the scheme's key type and
    signature type, and all its algorithms are offered and have the scheme's
    signature type. *)
Theorem C53_mapping :
  NoDup (map fst (mapping W)) /\
  (forall s, In s (map fst (mapping W)) <-> scheme_ids s <> None) /\
  forall s l, In (s, l) (mapping W) -> exists key sig a rest, scheme_ids s = Some (key, sig) /\ l = a :: rest /\ va_key a = key /\
    forall b, In b l -> In b (all_algorithms W) /\ va_sig b = sig.
Proof.
  split; [|split].
  - cbn [mapping map fst]. repeat constructor; cbn [In]; intuition discriminate.
  - intros s. cbn [mapping map fst In]. destruct s; cbn [scheme_ids]; split; intros H; try discriminate; try tauto; intuition discriminate.
  - intros s l H. cbn [mapping In] in H.
    assert (ONE : forall v, In v (all_algorithms W) -> forall b, In b [v] -> In b (all_algorithms W) /\ va_sig b = va_sig v).
    { intros v I b [<-|[]]. auto. }
    assert (TWO : forall v w, In v (all_algorithms W) -> In w (all_algorithms W) -> va_sig w = va_sig v -> forall b, In b [v; w] -> In b (all_algorithms W) /\ va_sig b = va_sig v).
    { intros v w I J E b [<-|[<-|[]]]; auto. }
    destruct H as [H|[H|[H|[H|[H|[H|[H|[H|[H|[]]]]]]]]]]; injection H as <- <-; do 4 eexists; (split; [reflexivity|]); (split; [reflexivity|]); (split; [reflexivity|]).
    + apply TWO; [offered 2%nat|offered 5%nat|reflexivity].
    + apply TWO; [offered 4%nat|offered 1%nat|reflexivity].
    + apply ONE. offered 6%nat.
    + apply ONE. offered 7%nat.
    + apply ONE. offered 8%nat.
    + apply ONE. offered 9%nat.
    + apply ONE. offered 10%nat.
    + apply ONE. offered 11%nat.
    + apply ONE. offered 12%nat.
Qed.

(** the type of public key of a kind of signing key *)
Definition key_id (k : key_kind) : alg_id :=
  match k with KRsa => ID_RSA_ENCRYPTION | KP256 => ID_ECDSA_P256 | KP384 => ID_ECDSA_P384 | KEd25519 => ID_ED25519 end.
(** Whatever scheme a key chooses, the peer's list had it, and its meaning is a signature by that type of key. *)
Theorem C53_chosen : forall k offered s, choose_scheme k offered = Some s -> In s offered /\ exists sig, scheme_ids s = Some (key_id k, sig).
Proof.
  intros k offered s H. assert (C : forall x, contains offered x = true -> In x offered).
  { intros x X. unfold contains in X. apply existsb_exists in X. destruct X as (y & I & E). replace x with y; [exact I|].
    destruct x, y; try discriminate E; try reflexivity. cbn in E. apply Z.eqb_eq in E. now subst. }
  destruct k; cbn [choose_scheme] in H;
  repeat match type of H with context [contains ?l ?x] => let E := fresh "E" in destruct (contains l x) eqn:E end; try discriminate H; injection H as <-; (split; [apply C; assumption|]); eexists; reflexivity.
Qed.
End C53.
Print Assumptions C53_verify.
Print Assumptions C53_mapping.
Print Assumptions C53_chosen.

(** *** The hypotheses can be met *)
Require Verif.L_BignumRef Verif.L_EcRef Verif.L_CurveEx Verif.L_EdEx.
(** The four contracts, met at once: reference big-number functions, a small Weierstrass curve twice, and a small Edwards curve. *)
Definition tiny_lows : lows := {| lw_bn := L_BignumRef.ref_bignum; lw_p256 := L_EcRef.tiny_ec; lw_p384 := L_EcRef.tiny_ec; lw_ed := L_EdEx.tiny_low |}.
Lemma tiny_lows_ok : lows_ok L_CurveEx.tiny L_CurveEx.tiny L_EdEx.tiny_ed tiny_lows.
Proof.
  constructor; cbn [lw_bn lw_p256 lw_p384 lw_ed tiny_lows].
  - exact L_BignumRef.ref_bignum_ok. - exact L_EcRef.tiny_impl. - vm_compute; discriminate. - exact L_EcRef.tiny_impl. - vm_compute; discriminate.
  - exact L_EdEx.tiny_ed_ok. - exact L_EdEx.tiny_low_ok.
Qed.
(** Keys of both curves load as themselves when the document says which, and garbage is refused. *)
Example C45_some :
  load_private_key tiny_lows (Sec1 (sec1_doc [7] (Some id_prime256v1) None)) = Ok (AP256 7) /\
  load_private_key tiny_lows (Sec1 (sec1_doc [7] (Some id_secp384r1) None)) = Ok (AP384 7) /\
  load_private_key tiny_lows (Sec1 (sec1_doc [7] None None)) = Ok (AP256 7) /\
  load_private_key tiny_lows (Sec1 (sec1_doc [53] (Some id_prime256v1) None)) = Err GeneralError /\
  load_private_key tiny_lows (Pkcs8 (pkcs8_doc id_ecPublicKey (Some (AnyObjectId id_secp384r1)) (sec1_doc [7] None None) None)) = Ok (AP384 7) /\
  load_private_key tiny_lows (Pkcs1 [48; 0]) = Err GeneralError.
Proof. do 5 (split; [vm_compute; reflexivity|]). vm_compute. reflexivity. Qed.
(** A curve point and a signature that is not one: refused by every ECDSA algorithm without looking at the message; an Ed25519 key. *)
Example C53_some : map (fun a => va_verify a (sec1 8 26 32) [1] [48; 0]) (all_algorithms tiny_lows) = repeat (Err InvalidSignature) 13 /\
  va_verify (V_P256_SHA256 tiny_lows) [] [1] [] = Err InvalidSignature /\
  map fst (mapping tiny_lows) = [ECDSA_NISTP256_SHA256; ECDSA_NISTP384_SHA384; ED25519; RSA_PSS_SHA512; RSA_PSS_SHA384; RSA_PSS_SHA256; RSA_PKCS1_SHA512; RSA_PKCS1_SHA384; RSA_PKCS1_SHA256] /\
  choose_scheme KRsa [RSA_PKCS1_SHA256; RSA_PSS_SHA256] = Some RSA_PSS_SHA256.
Proof. do 3 (split; [vm_compute; reflexivity|]). vm_compute. reflexivity. Qed.
