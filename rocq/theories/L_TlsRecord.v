(** The AEADs behind the TLS record layer, in terms of the specification. *)
Require Import Verif.Base Verif.L_Base Verif.L_Blocks Verif.L_Bits Verif.L_Hmac Verif.S_ChaCha Verif.S_Aes Verif.S_Gcm Verif.S_Tls Verif.M_Aes Verif.M_Aead Verif.M_AesGcm Verif.M_TlsRecord Verif.L_Aead Verif.L_Gcm Verif.T_Aead Verif.T_Gcm.
Require Import ZifyNat.
Local Opaque AES chacha20_encrypt aead_tag GCTR gcm_tag gcm_encrypt gcm_decrypt aead_encrypt aead_decrypt.

Definition spec_of (alg : aead_alg) (key : list Z) : saead := match alg with AlgChaCha _ => s_chacha key | AlgGcm _ => s_gcm key end.
Definition alg_ok (alg : aead_alg) (key : list Z) : Prop :=
  bytes key /\ match alg with AlgChaCha s => (s = chacha_portable \/ s = chacha_avx2) /\ zlen key = 32 | AlgGcm _ => zlen key = 16 \/ zlen key = 32 end.
Definition okin (n a p : list Z) : Prop := bytes n /\ zlen n = 12 /\ bytes a /\ zlen a < 2 ^ 61 /\ bytes p /\ zlen p <= 2 ^ 36 - 32.
Record good (A : tls_aead) (S : saead) : Prop := {
  g_enc : forall n a p, okin n a p -> ta_enc A n a p = Ok (seal S n a p);
  g_dec : forall n a c t, okin n a c -> bytes t ->
    ta_dec A n a c t = match unseal S n a c t with Some p => Ok (Ok tt, p) | None => Ok (Err DecryptFailed, repeat 0 (length c)) end;
  g_rt : forall n a p c t, okin n a p -> seal S n a p = (c, t) -> zlen c = zlen p /\ zlen t = 16 /\ bytes c /\ bytes t /\ unseal S n a c t = Some p;
  g_len : forall n a c t p, okin n a c -> unseal S n a c t = Some p -> zlen p = zlen c /\ bytes p
}.
Lemma chacha_facts s key n p : s = chacha_portable \/ s = chacha_avx2 -> bytes key -> zlen key = 32 -> bytes n -> zlen n = 12 -> bytes p ->
  zlen (chacha20_encrypt key 1 n p) = zlen p /\ bytes (chacha20_encrypt key 1 n p).
Proof.
  intros Hs Bk Lk Bn Ln Bp. assert (So : stream_ok s 12 (fun k _ => k) (fun n => n)) by (destruct Hs as [-> | ->]; auto using chacha_portable_ok, chacha_avx2_ok).
  destruct (So key n Bk Lk Bn Ln) as (_ & _ & _ & Bo & Lo & _). split; auto.
Qed.
Lemma alg_good alg key : alg_ok alg key -> exists A, aead_new alg key = Ok A /\ good A (spec_of alg key).
Proof.
  intros [Bk H]. destruct alg as [s|b]; unfold aead_new, spec_of.
  - destruct H as [Hs Lk]. rewrite (proj2 (Z.eqb_eq _ _) Lk). eexists. split; [reflexivity|].
    constructor; cbn [ta_enc ta_dec seal unseal s_chacha].
    + intros n a p (Bn & Ln & Ba & La & Bp & Lp). rewrite C14_chacha20poly1305_encrypts_per_rfc by auto. reflexivity.
    + intros n a c t (Bn & Ln & Ba & La & Bp & Lp) Bt. destruct (C15_chacha20poly1305_rejects s key n a c t Hs Bk Lk Bn Ln Ba Bp Bt) as [R1 R2].
      destruct (list_eqb t (aead_tag key n a c)) eqn:E; [apply list_eqb_eq in E; auto|apply list_eqb_neq in E; auto].
    + intros n a p c t (Bn & Ln & Ba & La & Bp & Lp) E. injection E as E1 E2.
      destruct (chacha_facts s key n p Hs Bk Lk Bn Ln Bp) as [L1 B1]. rewrite E1 in *. destruct (aead_tag_facts key n a c) as [BT LT]. rewrite E2 in *.
      sp; auto. rewrite list_eqb_refl.
      destruct (C14_chacha_round_trip s 12 key n a p) as (c' & t' & E3 & _ & _ & E4); auto; [left; auto|].
      rewrite C14_chacha20poly1305_encrypts_per_rfc in E3 by auto. cbv zeta in E3. rewrite E1, E2 in E3. injection E3 as <- <-.
      destruct (C15_chacha20poly1305_rejects s key n a c t Hs Bk Lk Bn Ln Ba B1 BT) as [R1 _]. rewrite (R1 (eq_sym E2)) in E4. congruence.
    + intros n a c t p (Bn & Ln & Ba & La & Bp & Lp) E. destruct (list_eqb _ _); [|discriminate]. injection E as <-. apply (chacha_facts s); auto.
  - destruct (gcm_new_ok b key Bk H) as (w & En & HE & HA). set (g0 := mkGcm _ _) in En. clearbody g0. rewrite En. cbn [bind]. eexists. split; [reflexivity|].
    assert (CT : forall n p, zlen n = 12 -> bytes p -> zlen (GCTR (AES key) (inc32 (n ++ [0; 0; 0; 1])) p) = zlen p /\ bytes (GCTR (AES key) (inc32 (n ++ [0; 0; 0; 1])) p)).
    { intros n p Ln Bp. rewrite <- (gctr_same (encrypt_block w) (AES key)) by auto using zlen_inc. split; [apply GCTR_len|apply GCTR_bytes]; auto. }
    constructor; cbn [ta_enc ta_dec seal unseal s_gcm].
    + intros n a p (Bn & Ln & Ba & La & Bp & Lp). destruct (C16_encrypt_is_gcm b key n a p Bk H Bn Ln Ba Bp La Lp) as (g & E1 & E2). rewrite En in E1. injection E1 as <-. rewrite E2. reflexivity.
    + intros n a c t (Bn & Ln & Ba & La & Bp & Lp) Bt. destruct (C16_decrypt_is_gcm b key n a c t Bk H Bn Ln Ba Bp Bt La Lp) as (g & E1 & E2). rewrite En in E1. injection E1 as <-. rewrite E2.
      destruct (GCM_AD _ _ _ _ _); reflexivity.
    + intros n a p c t (Bn & Ln & Ba & La & Bp & Lp) E.
      destruct (C14_aes_gcm_round_trip b b key n a p Bk H Bn Ln Ba Bp La Lp) as (g & g' & c' & t' & E1 & E2 & E3 & L1 & L2 & E4).
      destruct (C16_encrypt_is_gcm b key n a p Bk H Bn Ln Ba Bp La Lp) as (g9 & E5 & E6). rewrite E1 in E5. injection E5 as <-. rewrite E6, E in E3. injection E3 as <- <-.
      unfold GCM_AE in E. cbv zeta in E. injection E as E7 E8. destruct (CT n p Ln Bp) as [_ BC]. rewrite E7 in BC.
      assert (BT : bytes t) by (rewrite <- E8, <- (tag_same (encrypt_block w) (AES key)) by auto; apply tag_facts; auto).
      sp; auto. destruct (C16_decrypt_is_gcm b key n a c t Bk H Bn Ln Ba BC BT La ltac:(unfold gcm_max_bytes; lia)) as (g1 & E9 & E10). rewrite E2 in E9. injection E9 as <-.
      rewrite E4 in E10. destruct (GCM_AD _ _ _ _ _); congruence.
    + intros n a c t p (Bn & Ln & Ba & La & Bp & Lp) E. unfold GCM_AD in E. cbv zeta in E. destruct (list_eqb _ _); [|discriminate]. injection E as <-. auto.
Qed.

(** nonce and additional data *)
Lemma xor_map a b : map (fun '(x, y) => Z.lxor x y) (combine a b) = xor_bytes a b.
Proof. revert b. induction a as [|x a IH]; intros [|y b]; cbn; auto. f_equal. auto. Qed.
Lemma be12 seq : 0 <= seq < 2 ^ 64 -> be_bytes 12 seq = repeat 0 4 ++ be_bytes 8 seq.
Proof.
  intros H. change 12%nat with (4 + 8)%nat. rewrite L_Asn1.be_bytes_app. f_equal. change (256 ^ Z.of_nat 8) with (2 ^ 64). rewrite Z.div_small by lia. reflexivity.
Qed.
Lemma nonce_ok iv seq : bytes iv -> zlen iv = 12 -> 0 <= seq < 2 ^ 64 -> nonce_new iv seq = record_nonce iv seq /\ bytes (nonce_new iv seq) /\ zlen (nonce_new iv seq) = 12.
Proof.
  intros B L H. unfold nonce_new, record_nonce. rewrite <- be12 by auto. rewrite xor_map. split; auto.
  assert (LB : length (be_bytes 12 seq) = 12%nat) by (rewrite be_bytes_length; reflexivity).
  assert (BB : bytes (be_bytes 12 seq)) by apply be_bytes_bytes. generalize dependent (be_bytes 12 seq). intros b LB BB. clear H.
  assert (forall x y, bytes x -> bytes y -> length x = length y -> bytes (xor_bytes x y) /\ length (xor_bytes x y) = length x).
  { clear. induction x as [|s x IH]; intros [|t y] Bx By Ll; try discriminate; cbn [xor_bytes length]; [split; auto; constructor|].
    inversion_clear Bx. inversion_clear By. destruct (IH y) as [I1 I2]; auto. split; [constructor; auto; apply lxor_byte; auto|lia]. }
  destruct (H iv b) as [H1 H2]; auto; [unfold zlen in L; lia|]. split; auto. unfold zlen in *. lia.
Qed.
Lemma ad13_ok len : 0 <= len < 2 ^ 16 -> make_tls13_aad len = ad13 len.
Proof.
  intros H. unfold make_tls13_aad, ad13, be_bytes. cbn [le_bytes rev app]. reflexivity.
Qed.
Lemma ad12_ok seq typ ver len : 0 <= len < 2 ^ 16 -> make_tls12_aad seq typ ver len = ad12 seq typ ver len.
Proof. intros H. unfold make_tls12_aad, ad12. rewrite Z.mod_small by auto. reflexivity. Qed.
Lemma aad13_facts len : 0 <= len -> bytes (make_tls13_aad len) /\ zlen (make_tls13_aad len) < 2 ^ 61.
Proof.
  intros H. split; [|unfold zlen; cbn; lia]. unfold make_tls13_aad, ApplicationData.
  repeat (apply Forall_cons; [unfold byte_ok; try lia; apply Z.mod_pos_bound; lia|]). constructor.
Qed.
Lemma aad12_facts seq typ ver len : byte_ok typ -> bytes (make_tls12_aad seq typ ver len) /\ zlen (make_tls12_aad seq typ ver len) < 2 ^ 61.
Proof.
  intros H. unfold make_tls12_aad. split.
  - apply Forall_app; split; [apply be_bytes_bytes|]. apply Forall_app; split; [apply Forall_cons; [exact H|constructor]|]. apply Forall_app; split; apply be_bytes_bytes.
  - rewrite !zlen_app, !zlen_be_bytes. change (zlen [typ]) with 1. lia.
Qed.
(** unpadding *)
Lemma unpad_spec p : match unpad (rev p) with
  | Some (typ, content) => inner_plaintext p content typ
  | None => forall content typ, ~ inner_plaintext p content typ end.
Proof.
  induction p as [|x p IH] using rev_ind.
  - cbn. intros c t (_ & n & E). destruct c; discriminate.
  - rewrite rev_app_distr. cbn [rev app unpad]. destruct (x =? 0) eqn:E.
    + apply Z.eqb_eq in E. subst x. destruct (unpad (rev p)) as [[t c]|].
      * destruct IH as (H & n & ->). split; auto. exists (S n). change (S n) with (1 + n)%nat. rewrite Nat.add_comm, repeat_app. rewrite <- !app_assoc. reflexivity.
      * intros c t (Ht & n & E). destruct n as [|n].
        -- apply app_inj_tail in E as [_ E]. congruence.
        -- apply (IH c t). split; auto. exists n. change (S n) with (1 + n)%nat in E. rewrite Nat.add_comm, repeat_app in E. rewrite !app_assoc in E. cbn [repeat] in E. apply app_inj_tail in E as [-> _]. rewrite <- !app_assoc. reflexivity.
    + rewrite rev_involutive. split; [lia|]. exists 0%nat. rewrite app_nil_r. reflexivity.
Qed.
Lemma zeros_snoc n : repeat 0 (S n) = repeat 0 n ++ [0]. Proof. cbn [repeat]. apply repeat_cons. Qed.
Lemma inner_unique p c t c' t' : inner_plaintext p c t -> inner_plaintext p c' t' -> c = c' /\ t = t'.
Proof.
  intros (H & n & E) (H' & n' & E'). subst p. revert n' E'. induction n as [|n IH]; intros [|n'] E.
  - cbn [repeat] in E. rewrite !app_nil_r in E. apply app_inj_tail in E as [-> ->]; auto.
  - exfalso. rewrite zeros_snoc, !app_assoc in E. cbn [repeat] in E. rewrite app_nil_r in E. apply app_inj_tail in E as [_ E]. congruence.
  - exfalso. rewrite zeros_snoc, !app_assoc in E. cbn [repeat] in E. rewrite app_nil_r in E. apply app_inj_tail in E as [_ E]. congruence.
  - apply (IH n'). rewrite !zeros_snoc, !app_assoc in E. apply app_inj_tail in E as [E _]. rewrite <- !app_assoc in E. exact E.
Qed.
Lemma inner_len p c t : inner_plaintext p c t -> zlen c + 1 <= zlen p.
Proof. intros (_ & n & ->). rewrite !zlen_app. change (zlen [t]) with 1. unfold zlen. lia. Qed.
