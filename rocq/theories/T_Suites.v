(** C59: a negotiated cipher suite does what its name says. *)
Require Import Verif.Base Verif.L_Base Verif.L_Blocks Verif.M_Sha2 Verif.S_Sha2 Verif.M_Hmac Verif.S_Hmac Verif.L_Hash Verif.L_Hmac
  Verif.S_ChaCha Verif.S_Aes Verif.S_Gcm Verif.S_Tls Verif.M_Aes Verif.M_Aead Verif.M_ChaCha Verif.M_AesGcm Verif.M_TlsRecord Verif.L_TlsRecord
  Verif.M_Sign Verif.T_Hash Verif.T_Tls Verif.M_Suites Verif.S_Suites.
Require Import ZifyNat.
Local Opaque Sha256 Sha384 SHA256 SHA384 HMAC AES chacha20_encrypt aead_tag gcm_encrypt gcm_decrypt aead_encrypt aead_decrypt tls13_encrypter tls12_encrypter tls13_decrypter tls12_decrypter.

Lemma all_suites (P : suite -> Prop) : P TLS13_AES_128_GCM_SHA256 -> P TLS13_AES_256_GCM_SHA384 -> P TLS13_CHACHA20_POLY1305_SHA256 ->
  P TLS_ECDHE_ECDSA_WITH_AES_128_GCM_SHA256 -> P TLS_ECDHE_ECDSA_WITH_AES_256_GCM_SHA384 -> P TLS_ECDHE_ECDSA_WITH_CHACHA20_POLY1305_SHA256 ->
  P TLS_ECDHE_RSA_WITH_AES_128_GCM_SHA256 -> P TLS_ECDHE_RSA_WITH_AES_256_GCM_SHA384 -> P TLS_ECDHE_RSA_WITH_CHACHA20_POLY1305_SHA256 ->
  forall s, In s ALL_CIPHER_SUITES -> P s.
Proof. intros ? ? ? ? ? ? ? ? ? s I. cbn [ALL_CIPHER_SUITES In] in I. repeat destruct I as [<-|I]; try assumption. destruct I. Qed.
Ltac each I := cbn [ALL_CIPHER_SUITES In] in I; repeat (destruct I as [<-|I]); [..|destruct I].

(** Every suite has a registered name, no name comes twice, and protocol version,
    key length, nonce lengths and declared hash are those of the name. *)
Theorem C59_names : NoDup (map su_code ALL_CIPHER_SUITES) /\
  forall s, In s ALL_CIPHER_SUITES -> exists n, registry (su_code s) = Some n /\
    su_tls13 s = nm_tls13 n /\ ao_key_len (su_aead s) = cipher_key (nm_cipher n) /\
    ao_key_block_shape (su_aead s) = (cipher_key (nm_cipher n), cipher_salt (nm_cipher n), cipher_explicit (nm_cipher n)) /\
    ho_algorithm (su_hash s) = name_number (nm_hash n) /\ mo_tag_len (su_hmac s) = name_out (nm_hash n).
Proof.
  split.
  - cbn. repeat (apply NoDup_cons; [cbn; intuition discriminate|]). apply NoDup_nil.
  - apply all_suites; eexists; (split; [reflexivity|]); repeat split.
Qed.
Print Assumptions C59_names.

(** *** hash contexts *)
Section Contexts.
Context (H : hash_alg) (Hs : list Z -> list Z) (lim : Z) (I : implements H Hs lim).
(** (Proof only.) A context that has been given the bytes h. *)
Let holds (c : option (ha_ctx H)) (h : option (list Z)) : Prop :=
  match c, h with
  | Some c, Some h => exists ps, concat ps = h /\ bytes h /\ feed H (ha_new H) ps = Ok c
  | None, None => True | _, _ => False end.
Let small (b : Z) (h : option (list Z)) : Prop := match h with Some h => zlen h <= b | None => True end.
Lemma upd_forall2 {A B} (R : A -> B -> Prop) l l' i a b : Forall2 R l l' -> R a b -> Forall2 R (upd l i a) (upd l' i b).
Proof. intros F K. revert i. induction F as [|x y l l' Hxy F IH]; intros [|i]; cbn [upd]; constructor; auto. Qed.
Lemma nth_forall2 {A B} (R : A -> B -> Prop) l l' i : Forall2 R l l' ->
  (exists a b, nth_error l i = Some a /\ nth_error l' i = Some b /\ R a b) \/ (nth_error l i = None /\ nth_error l' i = None).
Proof. intros F. revert i. induction F as [|x y l l' Hxy F IH]; intros [|i]; cbn [nth_error]; eauto 6. Qed.
Lemma upd_forall {A} (P : A -> Prop) l i a : Forall P l -> P a -> Forall P (upd l i a).
Proof. intros F K. revert i. induction F as [|x l Hx F IH]; intros [|i]; cbn [upd]; constructor; auto. Qed.
Lemma nth_forall {A} (P : A -> Prop) l i a : Forall P l -> nth_error l i = Some a -> P a.
Proof. intros F E. rewrite Forall_forall in F. apply F. eapply nth_error_In, E. Qed.

Lemma run_ok ops : forall st ts b, Forall2 holds st ts -> Forall (small b) ts -> Forall (fun op => bytes (op_data op)) ops ->
  b + zlen (concat (map op_data ops)) < lim -> h_run H st ops = Ok (t_run Hs ts ops).
Proof using I.
  induction ops as [|op ops IH]; intros st ts b R S F B; [reflexivity|]. inversion F as [|? ? F1 F2]. cbn [map concat] in B. rewrite zlen_app in B.
  pose proof (zlen_nonneg (op_data op)). pose proof (zlen_nonneg (concat (map op_data ops))).
  assert (forall c h, holds (Some c) (Some h) -> zlen h <= b -> ha_finish H c = Ok (Hs h)) as Fin.
  { intros c h (ps & E & Bh & K) Lh. destruct (im_feed _ _ _ I ps) as (c' & K1 & K2); [now rewrite E|]. rewrite K in K1. injection K1 as <-. rewrite K2, E.
    destruct (Z.leb_spec lim (zlen h)); [lia|reflexivity]. }
  assert (forall ts', Forall (small b) ts' -> Forall (small (b + zlen (op_data op))) ts') as Mono.
  { intros ts' Q. eapply Forall_impl; [|exact Q]. intros [h|]; cbn; [lia|trivial]. }
  cbn [h_run t_run]. destruct op as [i d|i|i|i]; cbn [h_step t_step op_data] in *;
    destruct (nth_forall2 holds st ts i R) as [([c|] & [h|] & E1 & E2 & K)|[E1 E2]]; rewrite E1, E2;
    try (exfalso; exact K); cbn [bind fst snd app]; try (rewrite (IH st ts b) by (auto; lia); reflexivity).
  - destruct K as (ps & Eh & Bh & K). destruct (feed_one H Hs lim I ps c d) as (c' & U1 & U2); [now rewrite Eh|exact F1|exact K|]. rewrite U1. cbn [bind fst snd app].
    rewrite (IH (upd st i (Some c')) (upd ts i (Some (h ++ d))) (b + zlen d)).
    + destruct (t_run Hs (upd ts i (Some (h ++ d))) ops); reflexivity.
    + apply upd_forall2; [exact R|]. exists (ps ++ [d]). rewrite concat_app, Eh. cbn [concat]. rewrite app_nil_r. split; [reflexivity|]. split; [apply bytes_app; auto|exact U2].
    + apply upd_forall; [now apply Mono|]. cbn. rewrite zlen_app. pose proof (nth_forall _ _ _ _ S E2) as Q. cbn in Q. lia.
    + exact F2.
    + lia.
  - rewrite (IH (st ++ [Some c]) (ts ++ [Some h]) b); [reflexivity| | |exact F2|lia].
    + apply Forall2_app; [exact R|]. constructor; [exact K|constructor].
    + apply Forall_app. split; [exact S|]. constructor; [exact (nth_forall _ _ _ _ S E2)|constructor].
  - rewrite (Fin c h K (nth_forall _ _ _ _ S E2)). cbn [bind fst snd]. rewrite (IH st ts b) by (auto; lia). reflexivity.
  - rewrite (Fin c h K (nth_forall _ _ _ _ S E2)). cbn [bind fst snd]. rewrite (IH (upd st i None) (upd ts i None) b); [reflexivity| | |exact F2|lia].
    + apply upd_forall2; [exact R|]. exact Logic.I.
    + apply upd_forall; [exact S|]. exact Logic.I.
Qed.
End Contexts.

Lemma name_imp s n : In s ALL_CIPHER_SUITES -> registry (su_code s) = Some n ->
  implements (ho_alg (su_hash s)) (name_fn (nm_hash n)) (match nm_hash n with NSHA256 => 2 ^ 61 | NSHA384 => 2 ^ 64 end) /\
  implements (mo_alg (su_hmac s)) (name_fn (nm_hash n)) (match nm_hash n with NSHA256 => 2 ^ 61 | NSHA384 => 2 ^ 64 end) /\
  ha_block (mo_alg (su_hmac s)) = name_block (nm_hash n) /\ ha_out (ho_alg (su_hash s)) = name_out (nm_hash n).
Proof.
  intros I E. each I; injection E as <-; cbn [nm_hash name_fn ho_alg mo_alg su_hash su_hmac
    TLS13_AES_128_GCM_SHA256 TLS13_AES_256_GCM_SHA384 TLS13_CHACHA20_POLY1305_SHA256 TLS_ECDHE_ECDSA_WITH_AES_128_GCM_SHA256 TLS_ECDHE_ECDSA_WITH_AES_256_GCM_SHA384
    TLS_ECDHE_ECDSA_WITH_CHACHA20_POLY1305_SHA256 TLS_ECDHE_RSA_WITH_AES_128_GCM_SHA256 TLS_ECDHE_RSA_WITH_AES_256_GCM_SHA384 TLS_ECDHE_RSA_WITH_CHACHA20_POLY1305_SHA256];
    (split; [exact imp256 || exact imp384|]); (split; [exact imp256 || exact imp384|]); split; reflexivity.
Qed.

(** Transcript hashing: whatever calls rustls makes on a context and its forks,
    in whatever order, every digest returned is the hash of the suite's name of
    exactly the bytes given to that context and, before the fork, its origin. *)
Theorem C59_transcript_hash : forall s n ops, In s ALL_CIPHER_SUITES -> registry (su_code s) = Some n ->
  Forall (fun op => bytes (op_data op)) ops -> zlen (concat (map op_data ops)) < 2 ^ 61 ->
  ho_session (su_hash s) ops = Ok (t_run (name_fn (nm_hash n)) [Some []] ops) /\
  (forall m, bytes m -> zlen m < 2 ^ 61 -> ho_hash (su_hash s) m = Ok (name_fn (nm_hash n) m) /\ zlen (name_fn (nm_hash n) m) = ho_output_len (su_hash s)).
Proof.
  intros s n ops Is En F L. destruct (name_imp s n Is En) as (Ih & _ & _ & Eo). set (lim := match nm_hash n with NSHA256 => 2 ^ 61 | NSHA384 => 2 ^ 64 end) in *.
  assert (2 ^ 61 <= lim) by (subst lim; destruct (nm_hash n); lia). split.
  - unfold ho_session. apply (run_ok _ _ lim Ih ops [Some (ha_new (ho_alg (su_hash s)))] [Some []] 0); [| |exact F|lia].
    + constructor; [|constructor]. exists []. split; [reflexivity|]. split; [constructor|reflexivity].
    + constructor; [|constructor]. cbn. lia.
  - intros m Bm Lm. split; [|unfold ho_output_len; apply (im_len _ _ _ Ih)]. change (ho_hash (su_hash s) m) with (hash_oneshot (ho_alg (su_hash s)) m). rewrite (oneshot _ _ _ Ih) by exact Bm.
    destruct (Z.leb_spec lim (zlen m)); [lia|reflexivity].
Qed.
Print Assumptions C59_transcript_hash.

(** HMAC, under HKDF (TLS1.3) and the PRF (TLS1.2): RFC 2104 with the hash of the name. *)
Theorem C59_hmac : forall s n key first middle last, In s ALL_CIPHER_SUITES -> registry (su_code s) = Some n ->
  bytes key -> bytes first -> Forall bytes middle -> bytes last ->
  zlen key < 2 ^ 60 -> zlen (first ++ concat middle ++ last) < 2 ^ 60 ->
  mo_sign_concat (su_hmac s) key first middle last = Ok (HMAC (name_fn (nm_hash n)) (name_block (nm_hash n)) key (first ++ concat middle ++ last)).
Proof.
  intros s n key first middle last Is En Bk Bf Bm Bl Lk Lm. destruct (name_imp s n Is En) as (_ & Ih & Eb & _). set (lim := match nm_hash n with NSHA256 => 2 ^ 61 | NSHA384 => 2 ^ 64 end) in *.
  assert (2 ^ 61 <= lim) as Hlim by (subst lim; destruct (nm_hash n); lia).
  set (H := mo_alg (su_hmac s)) in *.
  assert (forall (m : hmac H) a b, hmac_updates m (a ++ b) = let! m := hmac_updates m a in hmac_updates m b) as UA.
  { intros m a b. revert m. induction a as [|x a IH]; intros m; cbn [app hmac_updates bind]; [reflexivity|]. destruct (hmac_update m x); cbn [bind]; auto. }
  assert (mo_sign_concat (su_hmac s) key first middle last = hmac_stream H key (first :: middle ++ [last])) as E.
  { unfold mo_sign_concat, hmac_stream. fold H. destruct (hmac_new H key) as [m| |]; cbn [bind hmac_updates]; try reflexivity.
    destruct (hmac_update m first) as [m1| |]; cbn [bind]; try reflexivity. rewrite UA. destruct (hmac_updates m1 middle) as [m2| |]; cbn [bind hmac_updates]; try reflexivity.
    destruct (hmac_update m2 last); reflexivity. }
  rewrite E, (hmac_stream_ok H _ lim Ih) by (auto; constructor; auto; apply Forall_app; auto).
  cbn [concat]. rewrite concat_app. cbn [concat]. rewrite app_nil_r, Eb.
  assert (name_block (nm_hash n) <= 128) by (destruct (nm_hash n); cbn; lia).
  destruct (Z.leb_spec lim (zlen key)); [lia|]. destruct (Z.leb_spec lim (name_block (nm_hash n) + zlen (first ++ concat middle ++ last))); [lia|]. reflexivity.
Qed.
Print Assumptions C59_hmac.

(** *** records *)
(** How ChaCha20 runs on the processor. *)
Definition streams : list stream := [chacha_portable; chacha_avx2].
Lemma suite_alg s n st h key : In s ALL_CIPHER_SUITES -> registry (su_code s) = Some n -> In st streams -> bytes key -> zlen key = ao_key_len (su_aead s) ->
  alg_ok (ao_alg st h (su_aead s)) key /\ spec_of (ao_alg st h (su_aead s)) key = cipher_aead (nm_cipher n) key.
Proof.
  intros I E S B L. each I; injection E as <-; cbn in L; (split; [|reflexivity]);
    (split; [exact B|]); cbn; auto; (split; [|exact L]); destruct S as [<-|[<-|[]]]; auto.
Qed.
(** TLS1.3: with a key of the length rustls is told, every record sent is the one
    RFC 8446 prescribes with the AEAD of the name, and the peer reads it. *)
Theorem C59_tls13_records : forall s n st st' h h' key iv m seq, In s ALL_CIPHER_SUITES -> registry (su_code s) = Some n -> su_tls13 s = true ->
  In st streams -> In st' streams -> bytes key -> zlen key = ao_key_len (su_aead s) -> bytes iv -> zlen iv = 12 -> 0 <= seq < 2 ^ 64 -> sendable m ->
  exists enc dec, tls13_encrypter (ao_alg st h (su_aead s)) key iv = Ok enc /\ tls13_decrypter (ao_alg st' h' (su_aead s)) key iv = Ok dec /\
    enc m seq = Ok (mkMsg 23 0x0303 (tls13_record (cipher_aead (nm_cipher n) key) iv seq (po_typ m) (content m))) /\
    dec (mkMsg 23 0x0303 (tls13_record (cipher_aead (nm_cipher n) key) iv seq (po_typ m) (content m))) seq = Ok (mkMsg (po_typ m) 0x0304 (content m)) /\
    ao_extract13 (su_aead s) key iv = Ok (cipher_secrets (nm_cipher n) key iv).
Proof.
  intros s n st st' h h' key iv m seq Is En V S S' Bk Lk Bi Li Hs Hm.
  destruct (suite_alg s n st h key Is En S Bk Lk) as [A Sp]. destruct (suite_alg s n st' h' key Is En S' Bk Lk) as [A' _].
  assert (peers (ao_alg st h (su_aead s)) (ao_alg st' h' (su_aead s))) as P by (destruct (su_aead s); exact Logic.I).
  destruct (C39_tls13_round_trip _ _ key iv m seq A A' P Bi Li Hs Hm) as (enc & dec & r & E1 & E2 & E3 & _ & E4).
  destruct (C39_tls13_record _ key iv m seq A Bi Li Hs Hm) as (enc' & E1' & E3'). rewrite E1 in E1'. injection E1' as <-. rewrite E3 in E3'. injection E3' as ->.
  rewrite Sp in *. exists enc, dec. split; [exact E1|]. split; [exact E2|]. split; [exact E3|]. split; [exact E4|].
  clear - Is En V. each Is; injection En as <-; first [reflexivity|discriminate V].
Qed.
Print Assumptions C59_tls13_records.
(** TLS1.2, likewise, with a key block of the shape rustls is told. *)
Theorem C59_tls12_records : forall s n st st' h h' key salt explicit m seq, In s ALL_CIPHER_SUITES -> registry (su_code s) = Some n -> su_tls13 s = false ->
  In st streams -> In st' streams -> bytes key -> bytes salt -> bytes explicit ->
  ao_key_block_shape (su_aead s) = (zlen key, zlen salt, zlen explicit) -> 0 <= seq < 2 ^ 64 -> sendable m ->
  exists enc dec r, tls12_encrypter (ao_alg st h (su_aead s)) key salt explicit = Ok enc /\ tls12_decrypter (ao_alg st' h' (su_aead s)) key salt = Ok dec /\
    r = match nm_cipher n with
        | CHACHA20_POLY1305 => tls12_chacha_record (s_chacha key) salt seq (po_typ m) (po_ver m) (content m)
        | _ => tls12_gcm_record (s_gcm key) salt (xor_bytes explicit (be_bytes 8 seq)) seq (po_typ m) (po_ver m) (content m) end /\
    enc m seq = Ok (mkMsg (po_typ m) (po_ver m) r) /\
    dec (mkMsg (po_typ m) (po_ver m) r) seq = Ok (mkMsg (po_typ m) (po_ver m) (content m)) /\
    ao_extract12 (su_aead s) key salt explicit = Ok (cipher_secrets (nm_cipher n) key (salt ++ explicit)).
Proof.
  intros s n st st' h h' key salt explicit m seq Is En V S S' Bk Bs Be Sh Hs Hm.
  assert (zlen key = ao_key_len (su_aead s)) as Lk by (destruct (su_aead s); cbn in Sh |- *; congruence).
  destruct (suite_alg s n st h key Is En S Bk Lk) as [A Sp]. destruct (suite_alg s n st' h' key Is En S' Bk Lk) as [A' _].
  assert ((su_aead s = Chacha20Poly1305 /\ nm_cipher n = CHACHA20_POLY1305) \/ (su_aead s = TlsAesGcm 16 /\ nm_cipher n = AES_128_GCM) \/ (su_aead s = TlsAesGcm 32 /\ nm_cipher n = AES_256_GCM)) as C.
  { clear - Is En. each Is; injection En as <-; auto. }
  assert (forall k, su_aead s = TlsAesGcm k -> zlen salt = 4 /\ zlen explicit = 8 /\ gcm_iv salt explicit = Ok (salt ++ explicit)) as G.
  { intros k E. rewrite E in Sh. cbn in Sh. injection Sh as _ L1 L2. split; [auto|]. split; [auto|]. unfold gcm_iv. rewrite <- L1, <- L2. reflexivity. }
  assert (sendable12 m) as Hm' by (destruct Hm as (? & ? & ? & ?); unfold sendable12; repeat split; auto; lia).
  destruct C as [[Ea Ec]|C].
  - rewrite Ea, Ec in *. cbn [ao_alg] in *. cbn in Sh. injection Sh as _ L1 L2.
    assert (explicit = []) as -> by (destruct explicit; [reflexivity|rewrite zlen_cons in L2; pose proof (zlen_nonneg explicit); lia]).
    destruct (C39_tls12_chacha_round_trip st st' key salt m seq A A' Bs (eq_sym L1) Hs Hm') as (enc & dec & r & E1 & E2 & E3 & -> & E4).
    eexists enc, dec, _. split; [exact E1|]. split; [exact E2|]. split; [reflexivity|]. split; [exact E3|]. split; [exact E4|]. cbn. rewrite <- L1, app_nil_r. reflexivity.
  - assert (exists k, su_aead s = TlsAesGcm k) as [k Ek] by (destruct C as [[C _]|[C _]]; eauto). destruct (G k Ek) as (L1 & L2 & L3).
    rewrite Ek in A, A' |- *. cbn [ao_alg] in *.
    destruct (C39_tls12_gcm_round_trip h h' key salt explicit m seq A A' Bs L1 Be L2 Hs Hm) as (enc & dec & r & E1 & E2 & E3 & -> & E4).
    eexists enc, dec, _. split; [exact E1|]. split; [exact E2|]. split; [reflexivity|]. 
    destruct C as [[C1 C2]|[C1 C2]]; rewrite C2; (split; [exact E3|]); (split; [exact E4|]); cbn [ao_extract12]; rewrite L3; rewrite Ek in C1; injection C1 as ->; reflexivity.
Qed.
Print Assumptions C59_tls12_records.

(** *** signatures *)
Lemma contains_cons y l x : contains (y :: l) x = scheme_eqb x y || contains l x.
Proof. reflexivity. Qed.
(** TLS1.2: whatever the peer offers, a key gets a scheme only if the peer offered
    it and the name of the suite asks for this type of key; an RSA, P-256 or P-384
    key under such a suite gets one as soon as the peer offers one it can use. *)
Theorem C59_signature_schemes : forall s n k offered, In s ALL_CIPHER_SUITES -> registry (su_code s) = Some n -> su_tls13 s = false ->
  (forall sch, choose_scheme k (resolve_sig_schemes s offered) = Some sch -> In sch offered /\ auth_key (nm_auth n) k) /\
  (auth_key (nm_auth n) k -> k <> KEd25519 -> choose_scheme k (resolve_sig_schemes s offered) = choose_scheme k offered).
Proof.
  intros s n k offered Is En V.
  assert (forall x, contains offered x = true -> In x offered) as CI.
  { intros x C. unfold contains in C. apply existsb_exists in C as (y & Iy & Ey). destruct x, y; try discriminate Ey; try exact Iy. cbn in Ey. apply Z.eqb_eq in Ey. now subst. }
  assert (forall x, contains (resolve_sig_schemes s offered) x = contains (su_sign s) x && contains offered x) as CR.
  { intros x. unfold resolve_sig_schemes. generalize (su_sign s). intros l. induction l as [|y l IH]; [reflexivity|]. cbn [filter].
    assert (scheme_eqb x y = true -> contains offered y = contains offered x) as EQ.
    { intros E. assert (x = y) as ->; [|reflexivity]. destruct x, y; try discriminate E; try reflexivity. cbn in E. apply Z.eqb_eq in E. now subst. }
    rewrite (contains_cons y l). destruct (contains offered y) eqn:Cy.
    - rewrite contains_cons, IH. destruct (scheme_eqb x y); [|reflexivity]. rewrite <- EQ by reflexivity. reflexivity.
    - rewrite IH. destruct (scheme_eqb x y); [|reflexivity]. rewrite <- EQ by reflexivity. cbn. apply andb_false_r. }
  assert ((nm_auth n = EcdsaAuth /\ su_sign s = TLS12_ECDSA_SCHEMES) \/ (nm_auth n = RsaAuth /\ su_sign s = TLS12_RSA_SCHEMES)) as C.
  { clear - Is En V. each Is; injection En as <-; first [discriminate V|auto]. }
  unfold choose_scheme. rewrite !CR. destruct C as [[-> ->]|[-> ->]]; cbn [auth_key]; destruct k; cbn [contains existsb scheme_eqb TLS12_ECDSA_SCHEMES TLS12_RSA_SCHEMES ECDSA_NISTP521_SHA512 orb andb];
    (split; [intros sch Q|intros A B; try congruence; try reflexivity]); try discriminate Q;
    repeat match type of Q with context [contains offered ?x] => destruct (contains offered x) eqn:?; cbn [andb] in Q end;
    try discriminate Q; injection Q as <-; (split; [apply CI; assumption|first [reflexivity|discriminate]]).
Qed.
Print Assumptions C59_signature_schemes.
(** For Ed25519 keys the second half is false: the name of an ECDSA suite covers
    them (RFC 8422 5.10), the crate loads them, but none can sign in TLS1.2. *)
Theorem C59_ed25519_tls12_refuted : forall s offered, In s ALL_CIPHER_SUITES -> su_tls13 s = false ->
  choose_scheme KEd25519 (resolve_sig_schemes s offered) = None.
Proof.
  intros s offered Is V. unfold choose_scheme. assert (contains (resolve_sig_schemes s offered) ED25519 = false) as ->; [|reflexivity].
  assert (contains (su_sign s) ED25519 = false) as N. { clear - Is V. each Is; first [discriminate V|reflexivity]. }
  unfold resolve_sig_schemes. revert N. generalize (su_sign s). intros l. induction l as [|y l IH]; [reflexivity|]. rewrite contains_cons. cbn [filter]. intros N.
  apply orb_false_iff in N as [N1 N2]. destruct (contains offered y); [|apply IH, N2]. rewrite contains_cons, N1. apply IH, N2.
Qed.
Print Assumptions C59_ed25519_tls12_refuted.

(** Records under one AES-GCM key stay below the 2^24.5 of RFC 8446 5.5; without
    bound for ChaCha20-Poly1305, where the sequence number ends first. *)
Theorem C59_confidentiality_limits : forall s n, In s ALL_CIPHER_SUITES -> registry (su_code s) = Some n ->
  match nm_cipher n with CHACHA20_POLY1305 => su_limit s = 2 ^ 64 - 1 | _ => su_limit s ^ 2 <= 2 ^ 49 end.
Proof. intros s n Is E. each Is; injection E as <-; cbn [nm_cipher]; first [reflexivity|cbn; lia]. Qed.
Print Assumptions C59_confidentiality_limits.

(** A fork sees what came before it and not what came after; the digests are of "a", "ab", "ac", "a". *)
Example C59_example_transcript : ho_session (su_hash TLS13_AES_128_GCM_SHA256) [HUpdate 0 [97]; HFork 0; HForkFinish 0; HUpdate 1 [98]; HFinish 1; HFork 0; HUpdate 0 [99]; HFinish 0; HFinish 2] =
  Ok [SHA256 [97]; SHA256 [97; 98]; SHA256 [97; 99]; SHA256 [97]].
Proof.
  refine (eq_trans (proj1 (C59_transcript_hash TLS13_AES_128_GCM_SHA256 _ _ (or_introl eq_refl) eq_refl _ _)) _); [|reflexivity|reflexivity].
  repeat (apply Forall_cons; [cbn; repeat (apply Forall_cons; [unfold byte_ok; lia|]); apply Forall_nil|]). apply Forall_nil.
Qed.
(** A key block for TLS_ECDHE_RSA_WITH_AES_128_GCM_SHA256 as C59_tls12_records wants it. *)
Example C59_example_shape : In TLS_ECDHE_RSA_WITH_AES_128_GCM_SHA256 ALL_CIPHER_SUITES /\
  ao_key_block_shape (su_aead TLS_ECDHE_RSA_WITH_AES_128_GCM_SHA256) = (zlen (repeat 7 16), zlen [1; 2; 3; 4], zlen (repeat 5 8)) /\
  sendable (mkPlainOut 23 0x0303 [[104; 105]]).
Proof.
  split; [cbn; tauto|]. split; [reflexivity|]. unfold sendable. cbn [po_chunks po_typ po_ver]. split; [|repeat split; cbn; try lia; discriminate].
  apply Forall_cons; [|apply Forall_nil]. repeat (apply Forall_cons; [unfold byte_ok; lia|]). apply Forall_nil.
Qed.
(** The peer's offer decides: an RSA key under an RSA suite; nothing for it under an ECDSA suite. *)
Example C59_example_schemes :
  choose_scheme KRsa (resolve_sig_schemes TLS_ECDHE_RSA_WITH_AES_128_GCM_SHA256 [ECDSA_NISTP256_SHA256; RSA_PKCS1_SHA256; RSA_PSS_SHA256]) = Some RSA_PSS_SHA256 /\
  choose_scheme KRsa (resolve_sig_schemes TLS_ECDHE_ECDSA_WITH_AES_128_GCM_SHA256 [ECDSA_NISTP256_SHA256; RSA_PKCS1_SHA256; RSA_PSS_SHA256]) = None /\
  choose_scheme KEd25519 (resolve_sig_schemes TLS_ECDHE_ECDSA_WITH_AES_128_GCM_SHA256 [ED25519]) = None.
Proof. repeat split. Qed.
