(** C06: PKCS#8 import and export. *)
Require Import Verif.Base Verif.L_Base Verif.M_Asn1 Verif.M_Pkix Verif.S_Der Verif.S_Pkix
  Verif.L_Asn1 Verif.L_Pkix Verif.M_Pkcs8.

(** The document a PKCS#8 v1 (no public key) or v2 (with public key) file is, RFC 5208/5958:
    version 0 exactly when the public key is absent. *)
Definition pkcs8_doc (oid : list Z) (params : option any) (priv : list Z) (pub : option (list Z))
  : list Z :=
  der_enc (tree_OneAsymmetricKey any_tree
    (match pub with None => 0 | Some _ => 1 end, ((oid, params), (priv, pub)))).
(** its fields are legal *)
Definition pkcs8_fields (oid : list Z) (params : option any) (priv : list Z) (pub : option (list Z))
  : Prop :=
  is_oid oid /\ (forall a, params = Some a -> any_ok a) /\ bytes priv /\
  (forall p, pub = Some p -> bytes p).

Lemma any_eqb_eq a b : any_eqb a b = true <-> a = b.
Proof.
  destruct a, b; cbn; try rewrite list_eqb_eq; split; intro H; try discriminate; try congruence; auto.
Qed.
Lemma opt_any_eqb_eq a b : opt_any_eqb a b = true <-> a = b.
Proof.
  destruct a, b; cbn; try rewrite any_eqb_eq; split; intro H; try discriminate; try congruence; auto.
Qed.

Lemma fields_ok oid params priv pub : pkcs8_fields oid params priv pub <->
  ok_OneAsymmetricKey any_ok (match pub with None => 0 | Some _ => 1 end, ((oid, params), (priv, pub))).
Proof.
  unfold pkcs8_fields. cbn. unfold is_octets. split.
  - intros (A & B & C & D). repeat split; auto; [destruct pub; auto|apply A|apply A| |]; 
    [destruct params; auto|destruct pub; auto].
  - intros (_ & (A & B) & C & D). repeat split; try apply A; auto.
    + intros a ->. exact B.
    + intros p ->. exact D.
Qed.

(** Import succeeds exactly on a PKCS#8 document of the wanted algorithm and parameters, whose
    version is 0 if it has no public key and 1 if it has one -- possibly followed by other data
    (see the refutation below); the private and public key are that document's contents. *)
Theorem C06_import : forall b oid params priv pub, bytes b ->
  (exists k, pkcs8_decode b oid params = Ok k /\ pkcs8_private_key k = priv /\
     pkcs8_public_key k = pub) <->
  (exists rest, b = pkcs8_doc oid params priv pub ++ rest) /\
  pkcs8_fields oid params priv pub /\ zlen (pkcs8_doc oid params priv pub) <= 65539.
Proof.
  intros b oid params priv pub Hb. pose proof exact_OneAsymmetricKey as X. split.
  - intros (k & H & Ek & Ep). unfold pkcs8_decode in H.
    destruct (parse OneAsymmetricKey b) as [[oak rest]| |] eqn:P; cbn [bind] in H; try discriminate.
    apply (x_trail _ _ _ X) in P as (Hok & E & L); auto. cbn [fst snd] in *.
    destruct oak as (version & (alg & ps) & privateKey & publicKey).
    assert (version = match publicKey with None => 0 | Some _ => 1 end) as Hv.
    { destruct publicKey; destruct (Z.eqb_spec version 1), (Z.eqb_spec version 0);
        cbn [bind] in H; congruence. }
    assert (forall T (x : res T), (let! _ := match publicKey with
        | Some _ => if version =? 1 then Ok tt else Err UnsupportedPkcs8Version
        | None => if version =? 0 then Ok tt else Err UnsupportedPkcs8Version end in x) = x) as Hb'.
    { intros. rewrite Hv. now destruct publicKey. }
    rewrite Hb' in H.
    destruct (list_eqb alg oid) eqn:Ea; cbn [negb] in H; [|discriminate]. apply list_eqb_eq in Ea.
    destruct (opt_any_eqb ps params) eqn:Eq; cbn [negb] in H; [|discriminate]. apply opt_any_eqb_eq in Eq.
    injection H as <-. cbn in Ek, Ep. subst alg ps privateKey publicKey.
    rewrite Hv in E, Hok, L. split; [exists rest; exact E|]. split; [apply fields_ok, Hok|exact L].
  - intros ((rest & ->) & F & L). apply fields_ok in F.
    eexists. split; [|split; [|]].
    + unfold pkcs8_decode. unfold pkcs8_doc at 1. rewrite (x_prefix _ _ _ X) by auto. cbn [bind].
      replace (let! _ := match pub with
        | Some _ => if match pub with None => 0 | Some _ => 1 end =? 1 then Ok tt else Err UnsupportedPkcs8Version
        | None => if match pub with None => 0 | Some _ => 1 end =? 0 then Ok tt else Err UnsupportedPkcs8Version end in _)
       with (Ok (match pub with None => 0 | Some _ => 1 end, ((oid, params), (priv, pub)))); [reflexivity|].
      assert (opt_any_eqb params params = true) as E by now apply opt_any_eqb_eq.
      destruct pub; cbn [Z.eqb Pos.eqb bind]; rewrite list_eqb_refl, E; reflexivity.
    + reflexivity.
    + reflexivity.
Qed.
Print Assumptions C06_import.

(** Import never panics, whatever the bytes. *)
Theorem C06_total : forall b oid params, bytes b -> pkcs8_decode b oid params <> Panic.
Proof.
  intros b oid params Hb. unfold pkcs8_decode.
  pose proof (x_ptotal _ _ _ exact_OneAsymmetricKey b Hb) as P.
  destruct (parse OneAsymmetricKey b) as [[oak rest]| |]; cbn [bind]; try congruence.
  destruct oak as (version & (alg & ps) & privateKey & publicKey).
  destruct publicKey; destruct (Z.eqb_spec version 1), (Z.eqb_spec version 0); cbn [bind];
    try discriminate; destruct (list_eqb alg oid), (opt_any_eqb ps params); discriminate.
Qed.
Print Assumptions C06_total.

(** The reason reported for a well-formed document that is not what the caller wants: version and
    public key first, then algorithm, then parameters. *)
Theorem C06_rejections : forall ver alg ps priv pub rest oid params,
  ok_OneAsymmetricKey any_ok (ver, ((alg, ps), (priv, pub))) ->
  zlen (der_enc (tree_OneAsymmetricKey any_tree (ver, ((alg, ps), (priv, pub))))) <= 65539 ->
  let b := der_enc (tree_OneAsymmetricKey any_tree (ver, ((alg, ps), (priv, pub)))) ++ rest in
  (ver <> match pub with None => 0 | Some _ => 1 end ->
     pkcs8_decode b oid params = Err UnsupportedPkcs8Version) /\
  (ver = match pub with None => 0 | Some _ => 1 end -> alg <> oid ->
     pkcs8_decode b oid params = Err MismatchedPkcs8Algorithm) /\
  (ver = match pub with None => 0 | Some _ => 1 end -> alg = oid -> ps <> params ->
     pkcs8_decode b oid params = Err MismatchedPkcs8Parameters).
Proof.
  intros ver alg ps priv pub rest oid params Hok L b.
  unfold b, pkcs8_decode. rewrite (x_prefix _ _ _ exact_OneAsymmetricKey) by auto. cbn [bind].
  split; [|split].
  - intro Hv. destruct pub; destruct (Z.eqb_spec ver 1), (Z.eqb_spec ver 0); cbn [bind];
      first [reflexivity|lia].
  - intros -> Ha. destruct (list_eqb alg oid) eqn:E; [apply list_eqb_eq in E; contradiction|].
    destruct pub; reflexivity.
  - intros -> -> Hp. rewrite list_eqb_refl.
    destruct (opt_any_eqb ps params) eqn:E; [apply opt_any_eqb_eq in E; contradiction|].
    destruct pub; reflexivity.
Qed.
Print Assumptions C06_rejections.

(** Exporting writes exactly the document, to the front of the buffer, leaving the rest alone, or
    fails because the buffer is too short. *)
Theorem C06_export : forall oid params priv pub out,
  pkcs8_fields oid params priv pub -> zlen (pkcs8_doc oid params priv pub) <= 65539 ->
  let doc := pkcs8_doc oid params priv pub in
  pkcs8_encode (pkcs8_construct priv pub oid params) out =
    if zlen out <? zlen doc then Err UnexpectedEof else Ok (doc ++ zdrop (zlen doc) out, zlen doc).
Proof.
  intros oid params priv pub out F L doc. apply fields_ok in F. unfold pkcs8_encode.
  assert (pkcs8_construct priv pub oid params =
    (match pub with None => 0 | Some _ => 1 end, ((oid, params), (priv, pub)))) as -> by now destruct pub.
  rewrite (exact_encode_into _ _ _ exact_OneAsymmetricKey); auto.
  2:{ unfold pkcs8_doc in L. lia. }
  fold (pkcs8_doc oid params priv pub). fold doc.
  destruct (Z.ltb_spec (zlen out) (zlen doc)); [reflexivity|]. cbn [bind].
  pose proof (zlen_nonneg doc). zl. rewrite zlen_zdrop by lia.
  destruct (Z.ltb_spec (zlen doc + (zlen out - zlen doc)) (zlen doc)); [lia|reflexivity].
Qed.
Print Assumptions C06_export.

(** Export, then import: the same key. *)
Theorem C06_round_trip : forall oid params priv pub out out' n,
  pkcs8_fields oid params priv pub -> zlen (pkcs8_doc oid params priv pub) <= 65539 ->
  pkcs8_encode (pkcs8_construct priv pub oid params) out = Ok (out', n) ->
  exists k, pkcs8_decode (ztake n out') oid params = Ok k /\
    pkcs8_private_key k = priv /\ pkcs8_public_key k = pub /\ zlen out' = zlen out /\
    zdrop n out' = zdrop n out.
Proof.
  intros oid params priv pub out out' n F L H. rewrite C06_export in H by auto. cbv zeta in H.
  destruct (Z.ltb_spec (zlen out) (zlen (pkcs8_doc oid params priv pub))); [discriminate|].
  remember (pkcs8_doc oid params priv pub) as doc eqn:Edoc. injection H as <- <-. rewrite ztake_app.
  rewrite Edoc in *.
  assert (bytes (pkcs8_doc oid params priv pub)) as Hb.
  { unfold pkcs8_doc. apply bytes_der_enc; auto. apply fields_ok in F. revert F. cbn.
    destruct params as [[]|], pub; cbn; unfold is_oid, is_int, is_octets, bytes, byte_ok;
    intuition (auto; try lia; repeat constructor; auto; lia). }
  destruct (proj2 (C06_import _ oid params priv pub Hb)) as (k & Hk & Ek & Ep).
  { split; [exists []; now rewrite app_nil_r|auto]. }
  exists k. repeat split; auto.
  - pose proof (zlen_nonneg (pkcs8_doc oid params priv pub)). zl. rewrite zlen_zdrop by lia. lia.
  - apply zdrop_app.
Qed.
Print Assumptions C06_round_trip.

(** "Decodes the given slice as a whole OneAsymmetricKey" (pkcs8.rs:13) does not hold: anything may
    follow the document. *)
Theorem C06_whole_slice_refuted : forall oid params priv pub rest,
  pkcs8_fields oid params priv pub -> zlen (pkcs8_doc oid params priv pub) <= 65539 ->
  pkcs8_decode (pkcs8_doc oid params priv pub ++ rest) oid params =
  pkcs8_decode (pkcs8_doc oid params priv pub) oid params /\
  is_ok (pkcs8_decode (pkcs8_doc oid params priv pub ++ rest) oid params) = true.
Proof.
  intros oid params priv pub rest F L. apply fields_ok in F. unfold pkcs8_decode, pkcs8_doc.
  rewrite (x_prefix _ _ _ exact_OneAsymmetricKey) by auto.
  rewrite <- (app_nil_r (der_enc _)) at 1.
  rewrite (x_prefix _ _ _ exact_OneAsymmetricKey) by auto. split; [reflexivity|]. cbn [bind].
  assert (opt_any_eqb params params = true) as E by now apply opt_any_eqb_eq.
  destruct pub; cbn [Z.eqb Pos.eqb bind]; rewrite list_eqb_refl, E; reflexivity.
Qed.
Print Assumptions C06_whole_slice_refuted.

(** A concrete Ed25519 v2 document, its import, and the effect of changing the version. *)
Definition ex_priv := 4 :: 32 :: map (fun i => Z.of_nat i * 7 mod 256) (seq 0 32).
Definition ex_pub := map (fun i => Z.of_nat i * 11 mod 256) (seq 1 32).
Example C06_ex_fields : pkcs8_fields id_ed25519 None ex_priv (Some ex_pub) /\
  zlen (pkcs8_doc id_ed25519 None ex_priv (Some ex_pub)) = 83.
Proof.
  split; [|vm_compute; reflexivity].
  split; [|split; [discriminate|split]].
  - split; [bytes_tac|vm_compute; discriminate].
  - bytes_tac.
  - intros p H. injection H as <-. bytes_tac.
Qed.
Example C06_ex :
  match pkcs8_decode (pkcs8_doc id_ed25519 None ex_priv (Some ex_pub)) id_ed25519 None with
  | Ok k => list_eqb (pkcs8_private_key k) ex_priv
  | _ => false end = true.
Proof. vm_compute. reflexivity. Qed.
Example C06_ex_version :
  pkcs8_decode (upd (pkcs8_doc id_ed25519 None ex_priv (Some ex_pub)) 4 0) id_ed25519 None
  = Err UnsupportedPkcs8Version.
Proof. vm_compute. reflexivity. Qed.
