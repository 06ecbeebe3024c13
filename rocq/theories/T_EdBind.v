(** C64: which messages one Ed25519 signature is accepted for. *)
Require Import ZArith Znumtheory.
Require Import Verif.Base Verif.L_Base Verif.M_Util Verif.L_Util Verif.M_Sha2 Verif.S_Sha2 Verif.L_Hmac Verif.T_Hash.
Require Import Verif.S_Curve Verif.S_Ed Verif.L_Ed Verif.M_Ed25519 Verif.S_EdLow Verif.L_EdEx Verif.T_Ed25519.
Require Verif.L_E25519.
Require Import ZifyNat.

Section Bind.
Variable c : edcurve.
Variable L : ed_low.
Hypothesis ok : ed_ok c.
Hypothesis low : ed_low_ok c L.

(** Multiples below l of a point of order l differ. *)
Lemma point_inj A a b : on_ed c A -> A <> ed_zero -> ed_mul c (ed_l c) A = ed_zero -> 0 <= a < ed_l c -> 0 <= b < ed_l c ->
  ed_mul c a A = ed_mul c b A -> a = b.
Proof.
  intros OA N0 LA Ha Hb E.
  assert (ok' : ed_ok (EdCurve (ed_p c) (ed_d c) (ed_l c) A)).
  { destruct ok. constructor; assumption. }
  exact (base_inj _ ok' a b Ha Hb E).
Qed.

(** A key of order l ties a signature to the challenge: if one signature is accepted for two messages, SHA-512 of its first half,
    the key and the message is the same modulo l for both. *)
Theorem C64_binding A vk sig m1 m2 : on_ed c A -> A <> ed_zero -> ed_mul c (ed_l c) A = ed_zero -> vk_from_bytes L (ed_enc A) = Ok vk ->
  bytes sig -> bytes m1 -> zlen m1 < 2 ^ 63 -> bytes m2 -> zlen m2 < 2 ^ 63 ->
  ed25519_verify L vk sig m1 = Ok tt -> ed25519_verify L vk sig m2 = Ok tt ->
  le_val (SHA512 (ztake 32 sig ++ ed_enc A ++ m1)) mod ed_l c = le_val (SHA512 (ztake 32 sig ++ ed_enc A ++ m2)) mod ed_l c.
Proof.
  intros OA N0 LA DK BS B1 L1 B2 L2 V1 V2. pose proof (l_pos c ok) as LP.
  apply (C34_verify_exact c L ok low A vk m1 sig OA DK B1 L1 BS) in V1. apply (C34_verify_exact c L ok low A vk m2 sig OA DK B2 L2 BS) in V2.
  destruct V1 as (_ & R & OR & T & _ & E1). destruct V2 as (_ & R' & OR' & T' & _ & E2).
  assert (R' = R) by (apply (enc_inj c ok); [assumption|assumption|congruence]). subst R'. rewrite T.
  cbv zeta in E1, E2. unfold rfc_k, rfc_challenge in E1, E2.
  set (k1 := le_val (SHA512 (ed_enc R ++ ed_enc A ++ m1)) mod ed_l c) in *. set (k2 := le_val (SHA512 (ed_enc R ++ ed_enc A ++ m2)) mod ed_l c) in *.
  assert (K1 : 0 <= k1 < ed_l c) by (apply Z.mod_pos_bound; lia). assert (K2 : 0 <= k2 < ed_l c) by (apply Z.mod_pos_bound; lia).
  apply (point_inj A); try assumption. apply (add_cancel_r c ok) with (R := R); [apply mul_closed; (assumption || lia)|apply mul_closed; (assumption || lia)|assumption|].
  rewrite (add_comm c (ed_mul c k1 A)), (add_comm c (ed_mul c k2 A)). congruence.
Qed.

(** Without that premise it fails for every message: the neutral point is accepted as a key, and under it signatures anyone can
    write down are accepted for all messages. *)
Theorem C64_neutral_key_refuted : exists vk, vk_from_bytes L (ed_enc ed_zero) = Ok vk /\
  forall S m, 0 <= S < ed_l c -> bytes m -> zlen m < 2 ^ 63 ->
  ed25519_verify L vk (ed_enc (ed_mul c S (ed_b c)) ++ le_bytes 32 S) m = Ok tt.
Proof.
  pose proof (zero_on c ok) as OZ. pose proof (l_pos c ok) as LP. pose proof (eo_l256 c ok) as L256.
  assert (DK : vk_from_bytes L (ed_enc ed_zero) = Ok (ed_enc ed_zero, ed_words ed_zero)).
  { exact (proj1 (C34_key_decode _ L low _ (enc_bytes _)) _ OZ eq_refl). }
  exists (ed_enc ed_zero, ed_words ed_zero). split; [exact DK|]. intros S m HS BM LM. set (R := ed_mul c S (ed_b c)).
  assert (OR : on_ed c R) by (apply mul_closed; [assumption|lia|apply (eo_b c ok)]).
  assert (BS : bytes (ed_enc R ++ le_bytes 32 S)) by (apply bytes_app; split; [apply enc_bytes|apply le_bytes_bytes]).
  apply (C34_verify_exact c L ok low ed_zero _ m _ OZ DK BM LM BS).
  split; [rewrite zlen_app, enc_len, zlen_le_bytes; reflexivity|]. exists R. split; [assumption|].
  split; [apply ztake_app_eq; now rewrite enc_len|]. cbv zeta.
  rewrite zdrop_app_eq by (now rewrite enc_len). rewrite le_val_le_bytes. change (256 ^ Z.of_nat 32) with (2 ^ 256). rewrite Z.mod_small by lia.
  split; [lia|]. rewrite (mul_zero c ok) by (unfold rfc_k; apply Z.mod_pos_bound; lia). now rewrite (add_0_r c ok).
Qed.
End Bind.

(** Every key the library makes from a seed has order l. *)
Theorem C64_seed_keys seed : bytes seed -> zlen seed = 32 -> let A := ed_mul edwards25519 (rfc_scalar SHA512 seed) (ed_b edwards25519) in
  on_ed edwards25519 A /\ A <> ed_zero /\ ed_mul edwards25519 (ed_l edwards25519) A = ed_zero.
Proof.
  intros B Q A. pose proof L_E25519.edwards25519_ok as ok. pose proof (l_pos _ ok) as LP. unfold A, rfc_scalar.
  set (x := le_val (ztake 32 (SHA512 seed)) mod 2 ^ 254). assert (X : 0 <= x < 2 ^ 254) by (apply Z.mod_pos_bound; reflexivity).
  assert (Y : 0 <= x / 8 < 2 ^ 251) by (split; [apply Z.div_pos; lia|apply Z.div_lt_upper_bound; lia]).
  set (y := x / 8) in *. set (s := 2 ^ 254 + 8 * y). assert (Hs : 0 <= s) by lia.
  split; [apply mul_closed; [assumption|lia|apply (eo_b _ ok)]|]. split.
  - intros E. rewrite <- (base_mod _ ok) in E by assumption. apply (base_order _ ok) in E; [|apply Z.mod_pos_bound; lia].
    apply Z.mod_divide in E; [|lia]. replace s with (8 * (2 ^ 251 + y)) in E by (unfold s; lia).
    apply Gauss in E.
    + apply Z.divide_pos_le in E; [|lia]. change (ed_l edwards25519) with (2 ^ 252 + 27742317777372353535851937790883648493) in E. lia.
    + apply Zgcd_1_rel_prime. reflexivity.
  - rewrite <- (mul_mul _ ok), Z.mul_comm, (mul_mul _ ok), (eo_lb _ ok) by (try lia; apply (eo_b _ ok)). now apply (mul_zero _ ok).
Qed.

(** So a signature accepted for two messages under the public key of a seed has one challenge. *)
Corollary C64_seed_binding L seed k vk sig m1 m2 : ed_low_ok edwards25519 L -> bytes seed -> zlen seed = 32 ->
  ed_from_bytes L seed = Ok k -> vk_from_bytes L (fst (sg_vk k)) = Ok vk ->
  bytes sig -> bytes m1 -> zlen m1 < 2 ^ 63 -> bytes m2 -> zlen m2 < 2 ^ 63 ->
  ed25519_verify L vk sig m1 = Ok tt -> ed25519_verify L vk sig m2 = Ok tt ->
  le_val (SHA512 (ztake 32 sig ++ fst (sg_vk k) ++ m1)) mod ed_l edwards25519 = le_val (SHA512 (ztake 32 sig ++ fst (sg_vk k) ++ m2)) mod ed_l edwards25519.
Proof.
  intros low B Q K V. pose proof L_E25519.edwards25519_ok as ok. destruct (C34_public_key edwards25519 L ok low seed B Q) as (k' & E & P).
  assert (k' = k) by congruence. subst k'. destruct (C64_seed_keys seed B Q) as (OA & N0 & LA).
  assert (F : fst (sg_vk k) = ed_enc (ed_mul edwards25519 (rfc_scalar SHA512 seed) (ed_b edwards25519))) by (rewrite P; reflexivity).
  rewrite F in *. now apply (C64_binding edwards25519 L ok low).
Qed.

(** Met by the small curve: its base point is a key of order l, accepted together with a signature. *)
Example C64_some : exists vk sig, vk_from_bytes tiny_low (ed_enc (ed_b tiny_ed)) = Ok vk /\ bytes sig /\ ed25519_verify tiny_low vk sig [1; 2; 3] = Ok tt /\
  on_ed tiny_ed (ed_b tiny_ed) /\ ed_b tiny_ed <> ed_zero /\ ed_mul tiny_ed (ed_l tiny_ed) (ed_b tiny_ed) = ed_zero.
Proof.
  pose proof tiny_ed_ok as ok. set (k := rfc_k tiny_ed SHA512 (ed_enc ed_zero) (ed_enc (ed_b tiny_ed)) [1; 2; 3]).
  assert (K : 0 <= k < ed_l tiny_ed) by (apply Z.mod_pos_bound; reflexivity).
  assert (DK : vk_from_bytes tiny_low (ed_enc (ed_b tiny_ed)) = Ok (ed_enc (ed_b tiny_ed), ed_words (ed_b tiny_ed))).
  { exact (proj1 (C34_key_decode _ tiny_low tiny_low_ok _ (enc_bytes _)) _ (eo_b _ ok) eq_refl). }
  assert (BM : bytes [1; 2; 3]) by (repeat constructor; discriminate).
  assert (BS : bytes (ed_enc ed_zero ++ le_bytes 32 k)) by (apply bytes_app; split; [apply enc_bytes|apply le_bytes_bytes]).
  exists (ed_enc (ed_b tiny_ed), ed_words (ed_b tiny_ed)), (ed_enc ed_zero ++ le_bytes 32 k). split; [exact DK|]. split; [exact BS|].
  split; [|split; [apply (eo_b _ ok)|split; [apply (eo_b0 _ ok)|apply (eo_lb _ ok)]]].
  apply (C34_verify_exact tiny_ed tiny_low ok tiny_low_ok _ _ _ _ (eo_b _ ok) DK BM eq_refl BS).
  pose proof (eo_l256 _ ok) as L256.
  split; [rewrite zlen_app, enc_len, zlen_le_bytes; reflexivity|]. exists ed_zero. split; [apply (zero_on _ ok)|].
  split; [apply ztake_app_eq; now rewrite enc_len|]. cbv zeta.
  rewrite zdrop_app_eq by (now rewrite enc_len). rewrite le_val_le_bytes. change (256 ^ Z.of_nat 32) with (2 ^ 256). rewrite Z.mod_small by lia.
  split; [lia|]. fold k. rewrite (add_0_l _ ok); [reflexivity|]. apply mul_closed; [assumption|lia|apply (eo_b _ ok)].
Qed.

Print Assumptions C64_binding.
Print Assumptions C64_neutral_key_refuted.
Print Assumptions C64_seed_keys.
Print Assumptions C64_seed_binding.
