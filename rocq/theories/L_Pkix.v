(** The concrete structures meet their DER tree. *)
Require Import Verif.Base Verif.L_Base Verif.M_Asn1 Verif.M_Pkix Verif.S_Der Verif.S_Pkix Verif.L_Asn1 Verif.L_Asn1Int.
Require Import ZifyNat.

(** trees of the ANY variants *)
Definition any_tree (a : any) : der :=
  match a with
  | AnyNull => NULL | AnyInteger i => INT i | AnyOctetString o => OCTETS o
  | AnyBitString o => BITS o | AnyObjectId o => OID o
  end.
Definition any_ok (a : any) : Prop :=
  match a with
  | AnyNull => True | AnyInteger i => is_int i | AnyOctetString o => is_octets o
  | AnyBitString o => is_octets o | AnyObjectId o => is_oid o
  end.

(** What "exact" means: whole-input decode accepts precisely the DER encodings, and encode writes
    precisely the DER encoding. *)
Record exact {A} (c : codec A) (tree : A -> der) (ok : A -> Prop) : Prop := {
  x_dec : forall b v, bytes b -> from_bytes c b = Ok v <-> (ok v /\ b = der_enc (tree v) /\ zlen b <= 65539);
  x_total : forall b, bytes b -> from_bytes c b <> Panic;
  x_trail : forall b v, bytes b -> parse c b = Ok v -> ok (fst v) /\ b = der_enc (tree (fst v)) ++ snd v
     /\ zlen (der_enc (tree (fst v))) <= 65539;
  x_prefix : forall v rest, ok v -> zlen (der_enc (tree v)) <= 65539 -> parse c (der_enc (tree v) ++ rest) = Ok (v, rest);
  x_ptotal : forall b, bytes b -> parse c b <> Panic;
  x_enc : forall v e, ok v -> zlen (der_enc (tree v)) < 2^32 ->
     encode c v e = let! e := enc_app e (der_enc (tree v)) in Ok (e, e_written e);
  x_len : forall v, ok v -> zlen (der_enc (tree v)) < 2^32 -> c_len c v = Ok (zlen (der_enc (tree v))) }.

Lemma Struct_exact {A} (fs : fields A) sp wf fl tree ok : goodfs fs sp wf fl ->
  (forall v, ok v <-> wf v /\ fl v []) -> (forall v, ok v -> der_enc (tree v) = tlv 48 (sp v)) ->
  exact (Struct fs) tree ok.
Proof.
  intros G Hok Htree. pose proof (good_goodf _ _ _ _ (good_Struct _ _ _ _ G)) as GF.
  constructor.
  - intros b v Hb. rewrite (goodf_from_bytes _ _ _ _ b v GF Hb). change (c_tag (Struct fs)) with 48.
    rewrite Hok. split.
    + intros ([W F] & _ & E & L). rewrite Htree; auto. apply Hok; auto.
    + intros ([W F] & E & L). rewrite Htree in E by (apply Hok; auto). repeat split; auto.
  - intros b Hb. eapply from_bytes_total; eauto.
  - intros b [v r] Hb H. cbn [fst snd]. apply (gf_sound _ _ _ _ GF) in H as ([W F] & _ & -> & L); auto.
    rewrite Htree by (apply Hok; auto). split; [apply Hok; auto|]. auto.
  - intros v rest Hv L. rewrite Htree in * by auto. apply Hok in Hv. apply (gf_complete _ _ _ _ GF v rest); auto. exact I.
  - intros b Hb. apply (gf_total _ _ _ _ GF); auto.
  - intros v e Hv L. rewrite Htree in * by auto. apply Hok in Hv. eapply Struct_encode; eauto; tauto.
  - intros v Hv L. rewrite Htree in * by auto. apply Hok in Hv. apply (gf_len _ _ _ _ GF); auto.
Qed.

Lemma goodf_Integer : goodf Integer (tlv 2) wf_int nofollow.
Proof. exact (good_goodf _ _ _ _ good_Integer). Qed.
Lemma goodf_OctetString : goodf OctetString (tlv 4) bytes nofollow.
Proof. exact (good_goodf _ _ _ _ good_OctetString). Qed.
Lemma goodf_BitString : goodf BitString (fun b => tlv 3 (0::b)) bytes nofollow.
Proof. exact (good_goodf _ _ _ _ good_BitString). Qed.
Lemma goodf_ObjectId : goodf ObjectId (tlv 6) wf_oid nofollow.
Proof. exact (good_goodf _ _ _ _ good_ObjectId). Qed.
Lemma goodf_Enum vals : Forall (fun v => 0 <= v < 2^63) vals ->
  goodf (Enum vals) (fun v => tlv 2 (enum_body v)) (fun v => In v vals) nofollow.
Proof. intro H. exact (good_goodf _ _ _ _ (good_Enum vals H)). Qed.
Lemma goodf_Any : goodf Any sp_any wf_any nofollow.
Proof. exact (good_goodf _ _ _ _ good_Any). Qed.

Lemma enum_body_0 : enum_body 0 = [0]. Proof. reflexivity. Qed.
Lemma enum_body_1 : enum_body 1 = [1]. Proof. reflexivity. Qed.

Lemma exact_RSAPublicKey : exact RSAPublicKey tree_RSAPublicKey ok_RSAPublicKey.
Proof.
  eapply Struct_exact.
  - apply goodfs_cons; [apply goodf_Integer|apply goodfs_last, goodf_Integer].
  - intros [n e]. cbn. unfold is_int, wf_int, nofollow. tauto.
  - intros [n e] _. cbn. rewrite app_nil_r. reflexivity.
Qed.
Lemma exact_EcdsaSigValue : exact EcdsaSigValue tree_EcdsaSigValue ok_EcdsaSigValue.
Proof. exact exact_RSAPublicKey. Qed.

Lemma exact_RSAPrivateKey : exact RSAPrivateKey tree_RSAPrivateKey ok_RSAPrivateKey.
Proof.
  eapply Struct_exact.
  - apply goodfs_cons; [apply goodf_Enum; repeat constructor; lia|].
    repeat (apply goodfs_cons; [apply goodf_Integer|]). apply goodfs_last, goodf_Integer.
  - intros (ver & n & e & d & p & q & dp & dq & qi). cbn. unfold is_int, wf_int, nofollow. intuition auto.
  - intros (ver & n & e & d & p & q & dp & dq & qi) (Hv & _). cbn [tree_RSAPrivateKey].
    assert (enum_body ver = [ver]) as E by (destruct Hv; subst; reflexivity).
    cbn [SEQ der_enc map concat INT fst snd]. rewrite E, app_nil_r. reflexivity.
Qed.

Lemma sp_any_pos a : 0 < zlen (sp_any a).
Proof. destruct a; cbn [sp_any]; match goal with |- 0 < zlen (tlv ?t ?b) => pose proof (zlen_tlv_gt t b); pose proof (zlen_nonneg b); lia end. Qed.
Lemma sp_any_tree a : sp_any a = der_enc (any_tree a).
Proof. destruct a; reflexivity. Qed.

Definition sp_alg (v : list Z * option any) : list Z :=
  tlv 6 (fst v) ++ match snd v with None => [] | Some a => sp_any a end.
Lemma goodfs_alg : goodfs (f_cons ObjectId (f_last (Optional Any))) sp_alg
  (fun v => wf_oid (fst v) /\ match snd v with None => True | Some a => wf_any a end)
  (fun v rest => nofollow (fst v) (match snd v with None => [] | Some a => sp_any a end ++ rest) /\
     match snd v with None => rest = [] | Some a => True end).
Proof.
  exact (goodfs_cons _ _ _ _ _ _ _ _ goodf_ObjectId
    (goodfs_last _ _ _ _ (goodf_Optional _ _ _ _ goodf_Any sp_any_pos))).
Qed.

Lemma wf_any_ok a : wf_any a <-> any_ok a.
Proof. destruct a; cbn; unfold wf_int, is_int, wf_oid, is_oid, is_octets; tauto. Qed.

Lemma alg_ok_iff (v : list Z * option any) : ok_Alg any_ok v <->
  (wf_oid (fst v) /\ match snd v with None => True | Some a => wf_any a end) /\
  (nofollow (fst v) (match snd v with None => [] | Some a => sp_any a end ++ []) /\
     match snd v with None => @nil Z = [] | Some a => True end).
Proof.
  destruct v as [o [a|]]; cbn; unfold nofollow, is_oid, wf_oid; [rewrite wf_any_ok|]; tauto.
Qed.
Lemma alg_tree_eq v : der_enc (tree_Alg any_tree v) = tlv 48 (sp_alg v).
Proof.
  destruct v as [o [a|]]; unfold sp_alg; cbn [fst snd tree_Alg SEQ der_enc map concat OID].
  - rewrite app_nil_r, sp_any_tree. reflexivity.
  - reflexivity.
Qed.

Lemma exact_AlgorithmIdentifier : exact AlgorithmIdentifier (tree_Alg any_tree) (ok_Alg any_ok).
Proof.
  eapply Struct_exact; [exact goodfs_alg | apply alg_ok_iff | intros v _; apply alg_tree_eq].
Qed.

Lemma goodf_Alg : goodf AlgorithmIdentifier (fun v => der_enc (tree_Alg any_tree v)) (ok_Alg any_ok) nofollow.
Proof.
  pose proof (good_goodf _ _ _ _ (good_Struct _ _ _ _ goodfs_alg)) as [A B C D E].
  change (c_tag (Struct (f_cons ObjectId (f_last (Optional Any))))) with 48 in *.
  constructor.
  - intros p a rest Hb H. apply A in H as (W & _ & -> & L); auto.
    rewrite alg_tree_eq. split; [apply alg_ok_iff, W|]. split; [exact I|]. auto.
  - intros a rest W _ L. rewrite alg_tree_eq in *. apply B; auto; [|exact I]. apply alg_ok_iff; auto.
  - intros a e W L. rewrite alg_tree_eq in *. apply C; auto. apply alg_ok_iff; auto.
  - intros a W L. rewrite alg_tree_eq in *. apply D; auto. apply alg_ok_iff; auto.
  - exact E.
Qed.

Lemma exact_Spki : exact SubjectPublicKeyInfo (tree_Spki any_tree) (ok_Spki any_ok).
Proof.
  eapply Struct_exact.
  - apply goodfs_cons; [apply goodf_Alg|apply goodfs_last, goodf_BitString].
  - intros [a k]. cbn -[ok_Alg]. unfold nofollow, is_octets. tauto.
  - intros [a k] _. cbn [tree_Spki SEQ der_enc map concat fst snd BITS]. rewrite app_nil_r. reflexivity.
Qed.
Lemma exact_DigestInfo : exact DigestInfo (tree_DigestInfo any_tree) (ok_DigestInfo any_ok).
Proof.
  eapply Struct_exact.
  - apply goodfs_cons; [apply goodf_Alg|apply goodfs_last, goodf_OctetString].
  - intros [a k]. cbn -[ok_Alg]. unfold nofollow, is_octets. tauto.
  - intros [a k] _. cbn [tree_DigestInfo SEQ der_enc map concat fst snd OCTETS]. rewrite app_nil_r. reflexivity.
Qed.

Lemma exact_OneAsymmetricKey : exact OneAsymmetricKey (tree_OneAsymmetricKey any_tree) (ok_OneAsymmetricKey any_ok).
Proof.
  eapply Struct_exact.
  - apply goodfs_cons; [apply (goodf_Enum [0;1]); repeat constructor; lia|].
    apply goodfs_cons; [apply goodf_Alg|].
    apply goodfs_cons; [apply goodf_OctetString|].
    apply goodfs_last. apply (goodf_Context_implicit 1 BitString _ _ _ good_BitString); [reflexivity|].
    intro a. eexists. reflexivity.
  - intros (ver & a & k & pub). cbn [ok_OneAsymmetricKey fst snd]. unfold nofollow, is_octets.
    split.
    + intros (V & A & K & P). repeat split; auto.
      * destruct V; subst; cbn; auto.
      * destruct pub; auto. exact I. discriminate.
    + intros ((V & A & K & P) & _). repeat split; auto.
      cbn in V. destruct V as [|[|[]]]; auto.
  - intros (ver & a & k & pub) (Hv & _). cbn [tree_OneAsymmetricKey fst snd].
    assert (enum_body ver = [ver]) as E by (destruct Hv; subst; reflexivity). rewrite E.
    destruct pub; unfold SEQ, INT, OCTETS; cbn [app map concat der_enc]; rewrite ?app_nil_r; reflexivity.
Qed.

Lemma exact_EcPrivateKey : exact EcPrivateKey tree_EcPrivateKey ok_EcPrivateKey.
Proof.
  eapply Struct_exact.
  - apply goodfs_cons; [apply (goodf_Enum [1]); repeat constructor; lia|].
    apply goodfs_cons; [apply goodf_OctetString|].
    apply goodfs_cons; [apply (goodf_Context_explicit 0 ObjectId _ _ _ goodf_ObjectId); reflexivity|].
    apply goodfs_last. apply (goodf_Context_explicit 1 BitString _ _ _ goodf_BitString); reflexivity.
  - intros (ver & k & params & pub). cbn [ok_EcPrivateKey fst snd]. unfold nofollow, is_octets.
    split.
    + intros (V & K & P1 & P2). repeat split; auto.
      * subst; cbn; auto.
      * destruct params; auto; split; auto; exact I.
      * destruct pub; auto; split; auto; exact I.
      * destruct params; auto. destruct pub; cbn; discriminate.
      * destruct pub; auto. discriminate.
    + intros ((V & K & P1 & P2) & _). cbn in V. destruct V as [|[]]. repeat split; auto.
      * destruct params; tauto.
      * destruct pub; tauto.
  - intros (ver & k & params & pub) (Hv & _). cbn [tree_EcPrivateKey fst snd]. subst ver.
    rewrite enum_body_1.
    destruct params, pub; unfold SEQ, INT, OCTETS, OID, BITS; cbn [app map concat der_enc]; rewrite ?app_nil_r; reflexivity.
Qed.

Section Exact.
  Context {A} (c : codec A) (tree : A -> der) (ok : A -> Prop) (X : exact c tree ok).
  Notation enc v := (der_enc (tree v)).

  Lemma exact_encode_into v out : ok v -> zlen (enc v) < 2^32 ->
    encode_into c v out = if zlen out <? zlen (enc v) then Err UnexpectedEof
                          else Ok (enc v ++ zdrop (zlen (enc v)) out, zlen (enc v)).
  Proof.
    intros Hv L. unfold encode_into. rewrite (x_enc _ _ _ X) by auto. unfold enc_app, enc_new, adv. cbn [e_out e_done e_written].
    destruct (zlen out <? zlen (enc v)); reflexivity.
  Qed.

  Lemma exact_round_trip v out : ok v -> zlen (enc v) <= 65539 -> bytes (enc v) -> zlen (enc v) <= zlen out ->
    exists out' n, encode_into c v out = Ok (out', n) /\ from_bytes c (ztake n out') = Ok v /\
      zdrop n out' = zdrop n out /\ zlen out' = zlen out /\ n = zlen (enc v).
  Proof.
    intros Hv L Hb Ho. exists (enc v ++ zdrop (zlen (enc v)) out), (zlen (enc v)).
    rewrite exact_encode_into by (auto; lia).
    destruct (Z.ltb_spec (zlen out) (zlen (enc v))); [lia|]. split; auto.
    rewrite ztake_app. split; [apply (x_dec _ _ _ X); auto|]. rewrite zdrop_app. split; auto.
    pose proof (zlen_nonneg (enc v)). zl. rewrite zlen_zdrop by lia. split; auto; lia.
  Qed.

  Lemma exact_trailing b r v : bytes b -> bytes r -> from_bytes c b = Ok v -> r <> [] ->
    from_bytes c (b ++ r) = Err UnexpectedTrailingData.
  Proof.
    intros Hb Hr H Hne. apply (x_dec _ _ _ X) in H as (Hv & -> & L); auto.
    unfold from_bytes. rewrite (x_prefix _ _ _ X) by auto. cbn [bind]. unfold check_end.
    destruct (Z.eqb_spec (zlen r) 0); [apply zlen_0_nil in e; contradiction|reflexivity].
  Qed.
End Exact.

(** truncation of a TLV *)
Lemma take_len_trunc n b p q rest : 0 <= n <= 65535 -> der_length n ++ rest = p ++ q -> q <> [] -> zlen rest = n ->
  (let! (len, p) := take_len p in if zlen p <? len then Err UnexpectedEof else Ok b) = (Err UnexpectedEof : res (list Z)).
Proof.
  intros Hn E Hq HL.
  destruct (Z.leb_spec (zlen (der_length n)) (zlen p)).
  - (* the whole length is there *)
    assert (exists r1, p = der_length n ++ r1 /\ rest = r1 ++ q) as (r1 & -> & ->).
    { exists (zdrop (zlen (der_length n)) p).
      assert (ztake (zlen (der_length n)) (der_length n ++ rest) = ztake (zlen (der_length n)) (p ++ q)) as T by now rewrite E.
      rewrite ztake_app in T.
      assert (ztake (zlen (der_length n)) (p ++ q) = ztake (zlen (der_length n)) p) as T2.
      { unfold ztake. rewrite firstn_app. pose proof (zlen_nonneg (der_length n)). unfold zlen in *.
        replace (Z.to_nat (Z.of_nat (length (der_length n))) - length p)%nat with O by lia. cbn. apply app_nil_r. }
      rewrite T2 in T. assert (p = der_length n ++ zdrop (zlen (der_length n)) p) as P.
      { rewrite <- (ztake_zdrop (zlen (der_length n)) p) at 1. now rewrite <- T. }
      split; auto. rewrite P in E at 1. rewrite <- app_assoc in E. now apply app_inv_head in E. }
    rewrite take_len_ok by lia. cbn [bind]. zl. destruct q; [congruence|]. zl. pose proof (zlen_nonneg q).
    destruct (Z.ltb_spec (zlen r1) n); [reflexivity|lia].
  - (* truncated within the length octets *)
    assert (Hd: p = [] \/ (128 <= n /\ exists r, p = [0x81] /\ der_length n = 0x81 :: r) \/
                (128 <= n /\ (p = [0x82] \/ exists x, p = [0x82; x]))).
    { destruct p as [|x p]; [auto|right].
      destruct (Z.ltb_spec n 128). { rewrite der_length_small in H by lia. zl. pose proof (zlen_nonneg p). lia. }
      destruct (Z.ltb_spec n 256).
      - rewrite der_length_81 in * by lia. zl. left. split; [lia|]. injection E as <- E.
        destruct p as [|y p]; [eauto|]. zl. pose proof (zlen_nonneg p). lia.
      - rewrite der_length_82 in * by lia. zl. right. split; [lia|]. injection E as <- E.
        destruct p as [|y [|z p]]; eauto. zl. pose proof (zlen_nonneg p). lia. }
    destruct Hd as [->|[(_ & r & -> & _)|(_ & [->|(x & ->)])]]; reflexivity.
Qed.

Lemma take_trunc t body p q : zlen body <= 65535 -> tlv t body = p ++ q -> q <> [] -> take t p = Err UnexpectedEof.
Proof.
  intros L E Hq. unfold take. destruct p as [|x p]; [reflexivity|]. cbn [one_byte bind].
  unfold tlv in E. injection E as <- E. unfold tag_acceptable. rewrite Z.eqb_refl. cbn [negb].
  pose proof (zlen_nonneg body).
  pose proof (take_len_trunc (zlen body) [] p q body ltac:(lia) E Hq eq_refl) as H1.
  destruct (take_len p) as [[len p']| |]; cbn [bind] in *; [|injection H1 as ->; reflexivity|discriminate].
  destruct (zlen p' <? len); [reflexivity|discriminate].
Qed.

Lemma Struct_trunc {A} (fs : fields A) body p q : zlen body <= 65535 -> tlv 48 body = p ++ q -> q <> [] ->
  from_bytes (Struct fs) p = Err UnexpectedEof.
Proof.
  intros L E Hq. unfold from_bytes, parse. cbn [Struct c_parse c_tag]. unfold descend.
  rewrite (take_trunc T_SEQUENCE body p q) by auto. reflexivity.
Qed.

(** bytes of an encoding *)
Lemma bytes_der_length n : 0 <= n <= 65535 -> bytes (der_length n).
Proof.
  intro H. destruct (Z.ltb_spec n 128).
  - rewrite der_length_small by lia. repeat constructor; lia.
  - destruct (Z.ltb_spec n 256).
    + rewrite der_length_81 by lia. repeat constructor; lia.
    + rewrite der_length_82 by lia. pose proof (Z.mod_pos_bound n 256).
      assert (0 <= n/256 < 256). { split; [apply Z.div_le_lower_bound; lia|apply Z.div_lt_upper_bound; lia]. }
      repeat constructor; lia.
Qed.
Lemma bytes_tlv t b : byte_ok t -> bytes b -> zlen b <= 65535 -> bytes (tlv t b).
Proof.
  intros. unfold tlv. apply bytes_cons. split; auto. apply bytes_app. split; auto.
  apply bytes_der_length. pose proof (zlen_nonneg b). lia.
Qed.

(** tags and contents of a tree are bytes *)
Fixpoint der_bytes (d : der) : Prop :=
  match d with
  | Prim t b => byte_ok t /\ bytes b
  | Cons t l => byte_ok t /\ (fix all l := match l with [] => True | d :: r => der_bytes d /\ all r end) l
  end.
Lemma bytes_der_enc : forall d, der_bytes d -> zlen (der_enc d) <= 65539 -> bytes (der_enc d).
Proof.
  fix IH 1. intros [t b|t l]; cbn [der_bytes der_enc]; intros [Ht H] L; apply tlv_fits in L.
  - apply bytes_tlv; auto.
  - apply bytes_tlv; auto. clear Ht. revert H L. induction l as [|d l IHl]; intros H L.
    + constructor.
    + cbn [map concat] in *. destruct H as [H1 H2]. zl. 
      pose proof (zlen_nonneg (der_enc d)). pose proof (zlen_nonneg (concat (map der_enc l))).
      apply bytes_app. split; [apply IH; auto; lia|apply IHl; auto; lia].
Qed.

(** Ranging over the eight structures the library exchanges. *)
Definition every_structure (P : forall A, codec A -> (A -> der) -> (A -> Prop) -> Prop) : Prop :=
  P _ RSAPublicKey tree_RSAPublicKey ok_RSAPublicKey /\
  P _ RSAPrivateKey tree_RSAPrivateKey ok_RSAPrivateKey /\
  P _ AlgorithmIdentifier (tree_Alg any_tree) (ok_Alg any_ok) /\
  P _ OneAsymmetricKey (tree_OneAsymmetricKey any_tree) (ok_OneAsymmetricKey any_ok) /\
  P _ EcPrivateKey tree_EcPrivateKey ok_EcPrivateKey /\
  P _ SubjectPublicKeyInfo (tree_Spki any_tree) (ok_Spki any_ok) /\
  P _ DigestInfo (tree_DigestInfo any_tree) (ok_DigestInfo any_ok) /\
  P _ EcdsaSigValue tree_EcdsaSigValue ok_EcdsaSigValue.

Lemma every_exact (P : forall A, codec A -> (A -> der) -> (A -> Prop) -> Prop) :
  (forall A (fs : fields A) tree ok, exact (Struct fs) tree ok -> (forall v, ok v -> der_bytes (tree v)) ->
     (forall v, exists l, tree v = Cons 48 l) -> P A (Struct fs) tree ok) ->
  every_structure P.
Proof.
  intro H. unfold every_structure.
  assert (B: forall z, z = 0 \/ z = 1 -> byte_ok z) by (unfold byte_ok; lia).
  assert (T: forall z, 0 <= z < 256 -> byte_ok z) by auto.
  assert (CB: forall l, bytes l -> bytes (0 :: l)) by (intros; apply bytes_cons; split; auto; apply T; lia).
  assert (ANY: forall a, any_ok a -> der_bytes (any_tree a)).
  { intros a Ha. destruct a; cbn in *; unfold is_int, is_oid, is_octets in *; repeat split; auto; try tauto; try (apply T; lia).
    constructor. }
  assert (ALG: forall a, ok_Alg any_ok a -> der_bytes (tree_Alg any_tree a)).
  { intros [o [x|]] Ha; cbn -[any_tree] in *; unfold is_oid in *; repeat split; try tauto; try (apply T; lia).
    apply ANY; tauto. }
  repeat apply conj; apply H.
  - apply exact_RSAPublicKey.
  - intros [n e] [[A1 _] [A2 _]]. cbn. repeat split; auto; apply T; lia.
  - intros [n e]; eexists; reflexivity.
  - apply exact_RSAPrivateKey.
  - intros (ver & n & e & d & p & q & dp & dq & qi) (V & A1 & A2 & A3 & A4 & A5 & A6 & A7 & A8).
    unfold is_int in *. cbn. repeat split; auto; try tauto; try (apply T; lia). apply bytes_cons; split; auto. constructor.
  - intros (ver & n & e & d & p & q & dp & dq & qi); eexists; reflexivity.
  - apply exact_AlgorithmIdentifier.
  - exact ALG.
  - intros [o p]; eexists; reflexivity.
  - apply exact_OneAsymmetricKey.
  - intros (ver & a & k & pub) (V & A & K & U). cbn -[tree_Alg]. unfold is_octets in *.
    repeat split; auto; try tauto; try (apply T; lia). { apply bytes_cons; split; auto. constructor. }
    destruct pub; cbn; repeat split; auto. apply T; lia.
  - intros (ver & a & k & pub); eexists; reflexivity.
  - apply exact_EcPrivateKey.
  - intros (ver & k & params & pub) (V & K & P1 & P2). subst ver. cbn. unfold is_octets, is_oid in *.
    repeat split; auto; try tauto; try (apply T; lia). { apply bytes_cons; split; auto. constructor. }
    destruct params, pub; cbn; repeat split; auto; try tauto; apply T; lia.
  - intros (ver & k & params & pub); eexists; reflexivity.
  - apply exact_Spki.
  - intros [a k] [A K]. cbn -[tree_Alg]. repeat split; auto; apply T; lia.
  - intros [a k]; eexists; reflexivity.
  - apply exact_DigestInfo.
  - intros [a k] [A K]. cbn -[tree_Alg]. repeat split; auto; apply T; lia.
  - intros [a k]; eexists; reflexivity.
  - apply exact_EcdsaSigValue.
  - intros [n e] [[A1 _] [A2 _]]. cbn. repeat split; auto; apply T; lia.
  - intros [n e]; eexists; reflexivity.
Qed.
