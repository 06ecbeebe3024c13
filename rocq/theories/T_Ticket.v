(** C41 (session tickets). *)
Require Import Verif.Base Verif.L_Base Verif.L_Blocks Verif.L_Hmac Verif.S_ChaCha Verif.M_Aead Verif.L_Aead Verif.T_Aead Verif.T_MlKem Verif.M_Ticketer.
Require Import ZifyNat.
Local Opaque chacha20_encrypt aead_tag aead_encrypt aead_decrypt.

(** either implementation of XChaCha20-Poly1305 *)
Definition xchacha (s : stream) : Prop := s = xchacha_portable \/ s = xchacha_avx2.
(** a ticketer in any state it can be in *)
Definition tk_ok (t : ticketer) : Prop := bytes (tk_key t) /\ zlen (tk_key t) = 32 /\ bytes (tk_key_name t) /\ zlen (tk_key_name t) = 16 /\ 0 <= tk_max t.
(** the random source returns as many bytes as asked, or fails *)
Definition rng_ok (n : Z) (r : res (list Z)) : Prop := match r with Ok b => bytes b /\ zlen b = n | Err _ => True | Panic => False end.
Definition op_ok (o : op) : Prop := match o with OpEncrypt n m => rng_ok 24 n /\ bytes m | OpDecrypt c => bytes c end.

(** A ticket: key name, nonce, ciphertext, tag, as the wire format comment (ticketer.rs:72-78) says. *)
Definition ticket (key name nonce message : list Z) : list Z :=
  let ct := chacha20_encrypt (xkey key nonce) 1 (xnonce nonce) message in
  name ++ nonce ++ ct ++ aead_tag (xkey key nonce) (xnonce nonce) name ct.

Lemma xstream s : xchacha s -> stream_ok s 24 xkey xnonce.
Proof. intros [-> | ->]; auto using xchacha_portable_ok, xchacha_avx2_ok. Qed.
Lemma x_facts s key nonce p : xchacha s -> bytes key -> zlen key = 32 -> bytes nonce -> zlen nonce = 24 -> bytes p ->
  zlen (chacha20_encrypt (xkey key nonce) 1 (xnonce nonce) p) = zlen p /\ bytes (chacha20_encrypt (xkey key nonce) 1 (xnonce nonce) p) /\
  chacha20_encrypt (xkey key nonce) 1 (xnonce nonce) (chacha20_encrypt (xkey key nonce) 1 (xnonce nonce) p) = p.
Proof.
  intros Hs Bk Lk Bn Ln Bp. destruct (xstream s Hs key nonce Bk Lk Bn Ln) as (_ & _ & _ & Bo & Lo & Tw & _). sp; auto.
Qed.
Lemma encrypt_spec s t nonce m : xchacha s -> tk_ok t -> bytes nonce -> zlen nonce = 24 -> bytes m ->
  tk_encrypt s t (Ok nonce) m = Ok (Some (ticket (tk_key t) (tk_key_name t) nonce m), mkTicketer (tk_key t) (tk_key_name t) (Z.max (tk_max t) (zlen m + 56))).
Proof.
  intros Hs (Bk & Lk & Bn & Ln & Hm) Bo Lo Bm. unfold tk_encrypt. rewrite C14_xchacha20poly1305_encrypts_per_draft by auto. cbv zeta. cbn [bind fst snd]. unfold ticket. cbv zeta.
  rewrite !zlen_app. destruct (x_facts s (tk_key t) nonce m Hs Bk Lk Bo Lo Bm) as (-> & _).
  destruct (aead_tag_facts (xkey (tk_key t) nonce) (xnonce nonce) (tk_key_name t) (chacha20_encrypt (xkey (tk_key t) nonce) 1 (xnonce nonce) m)) as [_ ->].
  rewrite Ln, Lo. do 3 f_equal. lia.
Qed.

(** Decryption, exactly: a message comes out iff the input is a well-formed, authentic ticket for a
    non-empty message under this ticketer's key and name and no longer than any ticket it has issued;
    everything else gives None, and nothing panics. *)
Theorem C41_decrypt_exact : forall s t c, xchacha s -> tk_ok t -> bytes c ->
  exists r, tk_decrypt s t c = Ok r /\
  forall m, r = Some m <-> zlen c <= tk_max t /\ m <> [] /\ bytes m /\ exists nonce, bytes nonce /\ zlen nonce = 24 /\ c = ticket (tk_key t) (tk_key_name t) nonce m.
Proof.
  intros s t c Hs (Bk & Lk & Bn & Ln & Hm) Bc. unfold tk_decrypt. rewrite Ln. pose proof (zlen_nonneg c) as NN.
  assert (TL : forall nonce m, zlen nonce = 24 -> bytes nonce -> bytes m -> zlen (ticket (tk_key t) (tk_key_name t) nonce m) = 56 + zlen m).
  { intros nonce m L1 B1 B2. unfold ticket. cbv zeta. rewrite !zlen_app. destruct (x_facts s (tk_key t) nonce m Hs Bk Lk B1 L1 B2) as (-> & _).
    destruct (aead_tag_facts (xkey (tk_key t) nonce) (xnonce nonce) (tk_key_name t) (chacha20_encrypt (xkey (tk_key t) nonce) 1 (xnonce nonce) m)) as [_ ->]. lia. }
  destruct (Z.ltb_spec (tk_max t) (zlen c)) as [H1|H1]; [exists None; split; auto; intros m; split; [discriminate|lia]|].
  destruct (Z.eqb_spec (Z.max 0 (zlen c - (16 + 24 + 16))) 0) as [H2|H2].
  { exists None. split; auto. intros m. split; [discriminate|]. intros (_ & Hne & Bm & nonce & B1 & L1 & ->). rewrite TL in H2 by auto. destruct m; [congruence|]. rewrite zlen_cons in H2. pose proof (zlen_nonneg m). lia. }
  replace (Z.max 0 (zlen c - (16 + 24 + 16))) with (zlen c - 56) by lia.
  rewrite (proj2 (Z.ltb_ge (zlen c) 16)) by lia.
  destruct (list_eqb (ztake 16 c) (tk_key_name t)) eqn:EN; cbn [negb].
  2: { exists None. split; auto. intros m. split; [discriminate|]. intros (_ & _ & _ & nonce & B1 & L1 & ->). apply list_eqb_neq in EN. destruct EN. unfold ticket. cbv zeta. apply ztake_app_eq. auto. }
  apply list_eqb_eq in EN. rewrite (proj2 (Z.ltb_ge (zlen (zdrop 16 c)) 24)) by (rewrite zlen_zdrop; lia). rewrite (proj2 (Z.ltb_ge (zlen (zdrop 24 (zdrop 16 c))) _)) by (rewrite !zlen_zdrop; rewrite ?zlen_zdrop; lia).
  set (nonce := ztake 24 (zdrop 16 c)). set (rest := zdrop 24 (zdrop 16 c)). set (n := zlen c - 56).
  assert (Bo : bytes nonce) by (apply bytes_ztake, bytes_zdrop; auto). assert (Lo : zlen nonce = 24) by (unfold nonce; rewrite zlen_ztake; rewrite ?zlen_zdrop; lia).
  assert (Br : bytes rest) by (apply bytes_zdrop, bytes_zdrop; auto). assert (Lr : zlen rest = n + 16) by (unfold rest, n; rewrite !zlen_zdrop; rewrite ?zlen_zdrop; lia).
  assert (EC : c = tk_key_name t ++ nonce ++ ztake n rest ++ zdrop n rest) by (rewrite (ztake_zdrop n rest); unfold nonce, rest; rewrite ztake_zdrop, <- EN, ztake_zdrop; auto).
  rewrite EN. destruct (C15_xchacha20poly1305_rejects s (tk_key t) nonce (tk_key_name t) (ztake n rest) (zdrop n rest) Hs Bk Lk Bo Lo Bn (bytes_ztake n rest Br) (bytes_zdrop n rest Br)) as [R1 R2].
  destruct (x_facts s (tk_key t) nonce (ztake n rest) Hs Bk Lk Bo Lo (bytes_ztake n rest Br)) as (X1 & X2 & X3).
  assert (LN : zlen (ztake n rest) = n) by (rewrite zlen_ztake; unfold n in *; lia).
  destruct (list_eqb (zdrop n rest) (aead_tag (xkey (tk_key t) nonce) (xnonce nonce) (tk_key_name t) (ztake n rest))) eqn:ET.
  - apply list_eqb_eq in ET. rewrite (R1 ET). cbn [bind fst snd]. eexists. split; [reflexivity|]. intros m. split.
    + intros E. injection E as <-. set (m := chacha20_encrypt _ _ _ _) in *. sp; auto.
      * intros E. rewrite E in X1. change (zlen (@nil Z)) with 0 in X1. unfold n in *. lia.
      * exists nonce. sp; auto. unfold ticket. cbv zeta. rewrite X3. rewrite <- ET. exact EC.
    + intros (_ & _ & Bm & nonce' & B1 & L1 & E). rewrite EC in E. unfold ticket in E. cbv zeta in E.
      apply app_eq_app_zlen in E as [_ E]; auto. apply app_eq_app_zlen in E as [E1 E]; [|lia]. subst nonce'.
      destruct (x_facts s (tk_key t) nonce m Hs Bk Lk Bo Lo Bm) as (Y1 & Y2 & Y3).
      apply app_eq_app_zlen in E as [E1 E].
      * rewrite E1, Y3. reflexivity.
      * apply (f_equal zlen) in E. rewrite !zlen_app in E. destruct (aead_tag_facts (xkey (tk_key t) nonce) (xnonce nonce) (tk_key_name t) (chacha20_encrypt (xkey (tk_key t) nonce) 1 (xnonce nonce) m)) as [_ LT]. rewrite LT in E. rewrite zlen_zdrop in E by (unfold n in *; lia). lia.
  - apply list_eqb_neq in ET. rewrite (R2 ET). cbn [bind fst snd]. exists None. split; auto. intros m. split; [discriminate|].
    intros (_ & _ & Bm & nonce' & B1 & L1 & E). exfalso. rewrite EC in E. unfold ticket in E. cbv zeta in E.
    apply app_eq_app_zlen in E as [_ E]; auto. apply app_eq_app_zlen in E as [E1 E]; [|lia]. subst nonce'.
    apply app_eq_app_zlen in E as [E1 E].
    + rewrite <- E1 in E. auto.
    + apply (f_equal zlen) in E. rewrite !zlen_app in E. destruct (aead_tag_facts (xkey (tk_key t) nonce) (xnonce nonce) (tk_key_name t) (chacha20_encrypt (xkey (tk_key t) nonce) 1 (xnonce nonce) m)) as [_ LT]. rewrite LT in E. rewrite zlen_zdrop in E by (unfold n in *; lia). lia.
Qed.
Print Assumptions C41_decrypt_exact.

(** Any sequence of calls, with any inputs and random-source failures, completes without a panic, keeps
    the key and name, and never lowers the length bound. *)
Theorem C41_no_panic : forall s ops t, xchacha s -> tk_ok t -> Forall op_ok ops ->
  exists out t', tk_run s t ops = Ok (out, t') /\ length out = length ops /\ tk_ok t' /\
    tk_key t' = tk_key t /\ tk_key_name t' = tk_key_name t /\ tk_max t <= tk_max t'.
Proof.
  intros s ops. induction ops as [|o ops IH]; intros t Hs Ht Ho; cbn [tk_run]; [exists [], t; auto 10 with zarith|].
  inversion_clear Ho as [|? ? Hop Hops]. destruct o as [nonce m|c].
  - destruct Hop as [Hn Bm]. destruct nonce as [nonce|e|]; [| |destruct Hn].
    + destruct Hn as [Bo Lo]. rewrite encrypt_spec by auto. cbn [bind fst snd]. set (t1 := mkTicketer _ _ _).
      assert (H1 : tk_ok t1) by (destruct Ht as (? & ? & ? & ? & ?); unfold tk_ok; cbn; sp; auto; lia).
      destruct (IH t1 Hs H1 Hops) as (out & t' & -> & L & O & K1 & K2 & K3). cbn [bind fst snd]. exists (Some (ticket (tk_key t) (tk_key_name t) nonce m) :: out), t'. cbn [length]. cbn in K1, K2, K3. sp; auto; lia.
    + cbn [tk_encrypt bind fst snd]. destruct (IH t Hs Ht Hops) as (out & t' & -> & L & O & K1 & K2 & K3). cbn [bind fst snd]. exists (None :: out), t'. cbn [length]. sp; auto.
  - destruct (C41_decrypt_exact s t c Hs Ht Hop) as (r & -> & _). cbn [bind]. destruct (IH t Hs Ht Hops) as (out & t' & -> & L & O & K1 & K2 & K3). cbn [bind fst snd]. exists (r :: out), t'. cbn [length]. sp; auto.
Qed.
Print Assumptions C41_no_panic.

(** Whatever calls come before and after, a ticket for a non-empty message decrypts to that message. *)
Theorem C41_ticket_round_trip : forall s t0 before nonce m after, xchacha s -> tk_ok t0 -> Forall op_ok before -> Forall op_ok after ->
  bytes nonce -> zlen nonce = 24 -> bytes m -> m <> [] ->
  exists o1 t1 c t2 o2 t3, tk_run s t0 before = Ok (o1, t1) /\ tk_encrypt s t1 (Ok nonce) m = Ok (Some c, t2) /\
    tk_run s t2 after = Ok (o2, t3) /\ tk_decrypt s t3 c = Ok (Some m).
Proof.
  intros s t0 before nonce m after Hs H0 Hb Ha Bo Lo Bm Hne.
  destruct (C41_no_panic s before t0 Hs H0 Hb) as (o1 & t1 & R1 & _ & H1 & _). pose proof (encrypt_spec s t1 nonce m Hs H1 Bo Lo Bm) as E.
  set (t2 := mkTicketer _ _ _) in E. assert (H2 : tk_ok t2) by (destruct H1 as (? & ? & ? & ? & ?); unfold tk_ok; cbn; sp; auto; lia).
  destruct (C41_no_panic s after t2 Hs H2 Ha) as (o2 & t3 & R3 & _ & H3 & K1 & K2 & K3). cbn in K1, K2, K3.
  eexists o1, t1, _, t2, o2, t3. split; [exact R1|]. split; [exact E|]. split; [exact R3|].
  destruct H1 as (Bk & Lk & Bn & Ln & Hm). set (c := ticket _ _ _ _).
  assert (BC : bytes c /\ zlen c = zlen m + 56).
  { unfold c, ticket. cbv zeta. destruct (x_facts s (tk_key t1) nonce m Hs Bk Lk Bo Lo Bm) as (X1 & X2 & _).
    destruct (aead_tag_facts (xkey (tk_key t1) nonce) (xnonce nonce) (tk_key_name t1) (chacha20_encrypt (xkey (tk_key t1) nonce) 1 (xnonce nonce) m)) as [Y1 Y2].
    split; [apply Forall_app; split; auto; apply Forall_app; split; auto; apply Forall_app; split; auto|]. rewrite !zlen_app. lia. }
  destruct (C41_decrypt_exact s t3 c Hs H3 (proj1 BC)) as (r & -> & X). f_equal. apply X. sp; auto; [lia|]. exists nonce. sp; auto. rewrite K1, K2. reflexivity.
Qed.
Print Assumptions C41_ticket_round_trip.

(** Creation: the ticketer is usable, or the random source failed and the error says so. *)
Theorem C41_new : forall fill, (forall i n, rng_ok n (fill i n)) ->
  (exists t, ticketer_new fill = Ok t /\ tk_ok t) \/ (ticketer_new fill = Err GetRandomFailed /\ ((exists e, fill 0%nat 32 = Err e) \/ exists e, fill 1%nat 16 = Err e)).
Proof.
  intros fill H. unfold ticketer_new. pose proof (H 0%nat 32) as H0. pose proof (H 1%nat 16) as H1. destruct (fill 0%nat 32) as [k|e|]; [|right; eauto|destruct H0].
  destruct (fill 1%nat 16) as [nm|e|]; [|right; eauto|destruct H1]. left. cbn. eexists. split; [reflexivity|]. destruct H0, H1. unfold tk_ok. cbn. sp; auto. lia.
Qed.
Print Assumptions C41_new.
(** Finding: a ticket for the empty message is issued but never decrypts. *)
Theorem C41_empty_message_refuted : forall s t nonce, xchacha s -> tk_ok t -> bytes nonce -> zlen nonce = 24 ->
  exists c t', tk_encrypt s t (Ok nonce) [] = Ok (Some c, t') /\ tk_decrypt s t' c = Ok None.
Proof.
  intros s t nonce Hs Ht Bo Lo. assert (Bm : bytes []) by constructor. pose proof (encrypt_spec s t nonce [] Hs Ht Bo Lo Bm) as E. set (t2 := mkTicketer _ _ _) in E. eexists _, t2. split; [exact E|].
  destruct Ht as (Bk & Lk & Bn & Ln & Hm). unfold tk_decrypt.
  assert (LC : zlen (ticket (tk_key t) (tk_key_name t) nonce []) = 56).
  { unfold ticket. cbv zeta. rewrite !zlen_app. destruct (x_facts s (tk_key t) nonce [] Hs Bk Lk Bo Lo Bm) as (-> & _).
    destruct (aead_tag_facts (xkey (tk_key t) nonce) (xnonce nonce) (tk_key_name t) (chacha20_encrypt (xkey (tk_key t) nonce) 1 (xnonce nonce) [])) as [_ ->]. change (zlen (@nil Z)) with 0. lia. }
  rewrite LC. destruct (_ <? 56); auto. cbn [tk_key_name t2]. rewrite Ln. reflexivity.
Qed.
Print Assumptions C41_empty_message_refuted.
(** A random-source failure gives None and changes nothing. *)
Theorem C41_rng_failure : forall s t e m, tk_encrypt s t (Err e) m = Ok (None, t).
Proof. reflexivity. Qed.
Print Assumptions C41_rng_failure.

Example C41_ex : xchacha xchacha_avx2 /\ tk_ok (mkTicketer (repeat 1 32) (repeat 2 16) 0) /\
  Forall op_ok [OpEncrypt (Ok (repeat 3 24)) [1; 2; 3]; OpDecrypt [7]; OpEncrypt (Err RngFailed) [1]].
Proof.
  split; [right; reflexivity|]. split; [unfold tk_ok; cbn [tk_key tk_key_name tk_max]; sp; try bytes_tac; try reflexivity; lia|].
  repeat (apply Forall_cons || apply Forall_nil); cbn [op_ok rng_ok]; sp; first [exact I | bytes_tac | reflexivity | unfold byte_ok; lia].
Qed.
