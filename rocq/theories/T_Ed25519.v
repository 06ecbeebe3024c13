(** Property C34: Ed25519 signing and verification. *)
Require Import ZArith Znumtheory.
Require Import Verif.Base Verif.L_Base Verif.M_Util Verif.L_Util Verif.T_Util Verif.M_Sha2 Verif.S_Sha2 Verif.L_Hash Verif.L_Hmac Verif.T_Hash.
Require Import Verif.L_Blocks Verif.L_Bits Verif.S_Curve Verif.L_Fp Verif.S_Ed Verif.L_Ed Verif.M_Ed25519 Verif.S_EdLow Verif.L_EdEx.
Require Verif.L_E25519.
Require Import ZifyNat.

Lemma sha512_imp : implements Sha512 SHA512 (2 ^ 64).
Proof. apply hashes_imp. right. right. left. reflexivity. Qed.
Lemma sha512_len m : zlen (SHA512 m) = 64.
Proof. exact (im_len _ _ _ sha512_imp m). Qed.
Lemma sha512_bytes m : bytes (SHA512 m).
Proof. exact (im_bytes _ _ _ sha512_imp m). Qed.

Lemma digest_ok x1 x2 x3 : bytes x1 -> bytes x2 -> bytes x3 -> zlen x1 + zlen x2 + zlen x3 < 2 ^ 64 ->
  ed25519_digest x1 x2 x3 = Ok (SHA512 (x1 ++ x2 ++ x3)).
Proof.
  intros B1 B2 B3 Q. destruct (im_feed _ _ _ sha512_imp [x1; x2; x3]) as (ctx & F & G).
  { cbn [concat]. rewrite app_nil_r. rewrite !bytes_app. auto. }
  unfold ed25519_digest. cbn [feed] in F. destruct (ha_update Sha512 (ha_new Sha512) x1); cbn [bind] in *; try discriminate F.
  destruct (ha_update Sha512 a x2); cbn [bind] in *; try discriminate F.
  destruct (ha_update Sha512 a0 x3); cbn [bind] in *; try discriminate F. injection F as ->. rewrite G.
  cbn [concat]. rewrite app_nil_r, !zlen_app. destruct (Z.leb_spec (2 ^ 64) (zlen x1 + (zlen x2 + zlen x3))) as [K|K]; [|reflexivity].
  exfalso. rewrite Z.add_assoc in K. apply (Z.lt_irrefl (2 ^ 64)). eapply Z.le_lt_trans; eassumption.
Qed.

Lemma seed_ok seed : bytes seed -> zlen seed = 32 ->
  (let! ctx := ha_update Sha512 (ha_new Sha512) seed in ha_finish Sha512 ctx) = Ok (SHA512 seed).
Proof.
  intros B Q. destruct (im_feed _ _ _ sha512_imp [seed]) as (ctx & F & G). { cbn [concat]. rewrite app_nil_r. exact B. }
  cbn [feed] in F. destruct (ha_update Sha512 (ha_new Sha512) seed); cbn [bind] in *; try discriminate F. injection F as ->. rewrite G.
  cbn [concat]. rewrite app_nil_r, Q. reflexivity.
Qed.

(** *** words *)
Lemma words4_ok v : 0 <= v < 2 ^ 256 -> limbs_val (words4 v) = v /\ is_words 4 (words4 v).
Proof.
  intros V. destruct (C48_le_value 4 (le_bytes 32 v)) as (A & B & C); [lia|now rewrite zlen_le_bytes|apply le_bytes_bytes|].
  unfold words4, is_words. rewrite A, le_val_le_bytes. change (256 ^ Z.of_nat 32) with (2 ^ 256). rewrite Z.mod_small by exact V. auto.
Qed.
Lemma words4_le v : u64s_to_le (words4 v) = le_bytes 32 v.
Proof. apply (C48_le_round_trip_bytes 4); [lia|now rewrite zlen_le_bytes|apply le_bytes_bytes]. Qed.

Lemma four_words (v : list Z) : zlen v = 4 -> exists a b c d, v = [a; b; c; d].
Proof. unfold zlen. destruct v as [|a [|b [|c [|d [|]]]]]; cbn [length]; intros; try lia. eauto. Qed.

Lemma le_of_words v : Forall u64 v -> u64s_to_le v = le_bytes (8 * length v) (limbs_val v).
Proof.
  intros W. assert (LN : length (u64s_to_le v) = (8 * length v)%nat).
  { clear. unfold u64s_to_le. induction v as [|x v IH]; [reflexivity|]. cbn [flat_map]. rewrite app_length, le_bytes_length, IH. cbn [length]. lia. }
  assert (BB : bytes (u64s_to_le v)).
  { clear. unfold u64s_to_le. induction v as [|x v IH]; [constructor|]. cbn [flat_map]. apply bytes_app. split; [apply le_bytes_bytes|exact IH]. }
  destruct (C48_le_value (zlen v) (u64s_to_le v)) as (A & _ & _); [apply zlen_nonneg|unfold zlen; lia|exact BB|].
  rewrite C48_le_round_trip_words in A by exact W. rewrite A, <- LN. symmetry. apply le_bytes_le_val, BB.
Qed.

Lemma top_word a b : 0 <= b < 2 ^ 63 -> Z.lor (Z.land b 0x7fffffffffffffff) (Z.shiftl a 63 mod 2 ^ 64) = b + 2 ^ 63 * (a mod 2).
Proof.
  intros B. change 0x7fffffffffffffff with (Z.ones 63). rewrite Z.land_ones by lia. rewrite (Z.mod_small b) by exact B.
  rewrite Z.shiftl_mul_pow2 by lia. change (2 ^ 64) with (2 * 2 ^ 63). rewrite Zmult_mod_distr_r.
  rewrite <- Z.shiftl_mul_pow2 by lia. rewrite Z.lor_comm. rewrite lor_add; [lia|lia|exact B].
Qed.

Lemma high_word q h b0 b1 b2 b3 : 0 < q -> 0 <= b0 -> 0 <= b1 -> 0 <= b2 -> b0 + q * (b1 + q * (b2 + q * (b3 + q * 0))) < h * (q * (q * q)) -> b3 < h.
Proof.
  intros Q B0 B1 B2 H. assert (P : 0 < q * (q * q)) by (repeat apply Z.mul_pos_pos; assumption).
  apply (Z.mul_lt_mono_pos_r _ _ _ P). eapply Z.le_lt_trans; [|exact H]. clear H.
  assert (0 <= q * b1) by (apply Z.mul_nonneg_nonneg; lia). assert (0 <= q * (q * b2)) by (repeat apply Z.mul_nonneg_nonneg; lia).
  replace (b0 + q * (b1 + q * (b2 + q * (b3 + q * 0)))) with (b0 + q * b1 + q * (q * b2) + b3 * (q * (q * q))) by ring. lia.
Qed.

Lemma compress_words x y : 0 <= x < 2 ^ 256 -> 0 <= y < 2 ^ 255 -> ed_compress (ed_words (x, y)) = ed_enc (x, y).
Proof.
  intros X Y. destruct (words4_ok x X) as (VX & LX & WX).
  destruct (words4_ok y) as (VY & LY & WY). { split; [apply Y|]. eapply Z.lt_trans; [apply Y|]. reflexivity. }
  unfold ed_words. cbn [fst snd].
  destruct (four_words _ LX) as (a0 & a1 & a2 & a3 & EX). destruct (four_words _ LY) as (b0 & b1 & b2 & b3 & EY). rewrite EX, EY in *.
  inversion WY as [|? ? W0 WY1]; subst. inversion WY1 as [|? ? W1 WY2]; subst. inversion WY2 as [|? ? W2 WY3]; subst. inversion WY3 as [|? ? W3 _]; subst.
  assert (B3 : 0 <= b3 < 2 ^ 63).
  { split; [apply W3|]. apply (high_word (2 ^ 64) _ b0 b1 b2); [reflexivity|apply W0|apply W1|apply W2|]. exact (proj2 Y). }
  unfold ed_compress, znth. cbn [app nth]. rewrite top_word by exact B3.
  transitivity (u64s_to_le [b0; b1; b2; b3 + 2 ^ 63 * (a0 mod 2)]); [unfold u64s_to_le; cbn [flat_map]; rewrite app_nil_r; reflexivity|].
  assert (A01 : a0 mod 2 = 0 \/ a0 mod 2 = 1) by (pose proof (Z.mod_pos_bound a0 2 ltac:(lia)); lia).
  rewrite le_of_words.
  - unfold ed_enc. cbn [length Nat.mul Nat.add]. f_equal.
    assert (PX : limbs_val [a0; a1; a2; a3] mod 2 = a0 mod 2).
    { cbn [limbs_val]. change (2 ^ 64) with (2 * 2 ^ 63). rewrite <- Z.mul_assoc, (Z.mul_comm 2), Z_mod_plus_full. reflexivity. }
    rewrite PX. cbn [limbs_val]. change (2 ^ 255) with (2 ^ 64 * (2 ^ 64 * (2 ^ 64 * 2 ^ 63))). ring.
  - repeat (constructor; [assumption|]). constructor; [|constructor]. unfold u64. change (2 ^ 64) with (2 ^ 63 + 2 ^ 63).
    destruct A01 as [-> | ->]; lia.
Qed.

(** *** clamping *)
Lemma byte_cases (P : Z -> bool) : forallb P (map Z.of_nat (seq 0 256)) = true -> forall b, byte_ok b -> P b = true.
Proof.
  intros H b B. rewrite forallb_forall in H. apply H. apply in_map_iff. exists (Z.to_nat b). unfold byte_ok in B. split; [lia|]. apply in_seq. lia.
Qed.
Lemma clamp_low b : byte_ok b -> Z.land b 0xf8 = 8 * (b / 8).
Proof. intros B. apply Z.eqb_eq. revert b B. apply (byte_cases (fun b => Z.land b 0xf8 =? 8 * (b / 8))). vm_compute. reflexivity. Qed.
Lemma clamp_high b : byte_ok b -> Z.lor (Z.land b 0x7f) 0x40 = 64 + b mod 64.
Proof. intros B. apply Z.eqb_eq. revert b B. apply (byte_cases (fun b => Z.lor (Z.land b 0x7f) 0x40 =? 64 + b mod 64)). vm_compute. reflexivity. Qed.

Lemma clamp_value b0 m b31 Q : byte_ok b0 -> byte_ok b31 -> 0 <= m -> 0 < Q -> Q mod 256 = 0 -> b0 + 256 * m < Q ->
  8 * (b0 / 8) + 256 * m + Q * (64 + b31 mod 64) = 64 * Q + 8 * (((b0 + 256 * m + Q * b31) mod (64 * Q)) / 8).
Proof.
  unfold byte_ok. intros B0 B31 M P D LT.
  assert (MD : (b0 + 256 * m + Q * b31) mod (64 * Q) = b0 + 256 * m + Q * (b31 mod 64)).
  { pose proof (Z.mod_pos_bound b31 64 ltac:(lia)). symmetry. apply Z.mod_unique_pos with (q := b31 / 64); [nia|].
    rewrite (Z.div_mod b31 64) at 1 by lia. ring. }
  rewrite MD. apply Z.mod_divide in D; [|lia]. destruct D as [q ->].
  replace (b0 + 256 * m + q * 256 * (b31 mod 64)) with (b0 + (32 * m + 32 * q * (b31 mod 64)) * 8) by ring.
  rewrite Z.div_add by lia. ring.
Qed.

Lemma clamp_ok h : bytes h -> zlen h = 32 ->
  is_words 4 (clamp_from_le_bytes h) /\ limbs_val (clamp_from_le_bytes h) = 2 ^ 254 + 8 * ((le_val h mod 2 ^ 254) / 8).
Proof.
  intros B LH. unfold zlen in LH. destruct h as [|b0 h]; [cbn in LH; lia|].
  destruct (exists_last (l := h)) as (mid & b31 & ->). { intros ->. cbn in LH. lia. }
  cbn [length] in LH. rewrite app_length in LH. cbn [length] in LH. assert (LM : length mid = 30%nat) by lia. clear LH.
  apply bytes_cons in B. destruct B as [B0 B]. apply bytes_app in B. destruct B as [BM B31]. inversion B31 as [|? ? B31' _]; subst. clear B31. rename B31' into B31.
  assert (U : forall v w, upd (w :: mid ++ [b31]) 31 v = w :: mid ++ [v]).
  { intros v w. destruct mid as [|m0 mid]; [discriminate LM|]. do 30 (destruct mid as [|? mid]; [try discriminate LM; reflexivity|]). discriminate LM. }
  assert (N : forall w v, znth (w :: mid ++ [v]) 31 = v).
  { intros w v. unfold znth. cbn [nth]. rewrite app_nth2 by lia. rewrite LM. reflexivity. }
  assert (U2 : forall v w u, upd (w :: mid ++ [u]) 31 v = w :: mid ++ [v]).
  { intros v w u. destruct mid as [|m0 mid]; [discriminate LM|]. do 30 (destruct mid as [|? mid]; [try discriminate LM; reflexivity|]). discriminate LM. }
  unfold clamp_from_le_bytes. cbv zeta. change (znth (b0 :: mid ++ [b31]) 0) with b0.
  change (upd (b0 :: mid ++ [b31]) 0 (Z.land b0 248)) with (Z.land b0 248 :: mid ++ [b31]).
  rewrite N, U2, N, U2. rewrite clamp_low, clamp_high by assumption.
  assert (BB : bytes (8 * (b0 / 8) :: mid ++ [64 + b31 mod 64])).
  { clear - B0 B31 BM. unfold byte_ok in *. apply bytes_cons. split; [unfold byte_ok; Z.div_mod_to_equations; lia|]. apply bytes_app. split; [exact BM|].
    constructor; [unfold byte_ok; Z.div_mod_to_equations; lia|constructor]. }
  assert (LL : zlen (8 * (b0 / 8) :: mid ++ [64 + b31 mod 64]) = 8 * 4).
  { rewrite zlen_cons, zlen_app. unfold zlen. rewrite LM. reflexivity. }
  destruct (C48_le_value 4 _ ltac:(lia) LL BB) as (V & W & LW). split; [split; assumption|]. rewrite V. clear V W LW BB LL U U2 N.
  cbn [le_val]. rewrite !le_val_app. cbn [le_val]. replace (zlen mid) with 30 by (unfold zlen; rewrite LM; reflexivity).
  pose proof (le_val_bound mid BM) as BD. replace (zlen mid) with 30 in BD by (unfold zlen; rewrite LM; reflexivity).
  replace (8 * (b0 / 8) + 256 * (le_val mid + 256 ^ 30 * (64 + b31 mod 64 + 256 * 0))) with (8 * (b0 / 8) + 256 * le_val mid + 2 ^ 248 * (64 + b31 mod 64)) by (change (2 ^ 248) with (256 * 256 ^ 30); ring).
  replace (b0 + 256 * (le_val mid + 256 ^ 30 * (b31 + 256 * 0))) with (b0 + 256 * le_val mid + 2 ^ 248 * b31) by (change (2 ^ 248) with (256 * 256 ^ 30); ring).
  change (2 ^ 254) with (64 * 2 ^ 248). apply clamp_value; auto; [apply BD|reflexivity|].
  change (2 ^ 248) with (256 * 256 ^ 30). unfold byte_ok in B0. revert BD. generalize (256 ^ 30). intros q BD. lia.
Qed.

(** *** the theorems *)
Section Main.
Variable c : edcurve.
Variable L : ed_low.
Hypothesis ok : ed_ok c.
Hypothesis low : ed_low_ok c L.

Lemma p_256 : ed_p c < 2 ^ 256.
Proof. eapply Z.lt_trans; [exact (eo_255 c ok)|reflexivity]. Qed.
Lemma enc_words P : on_ed c P -> ed_compress (ed_words P) = ed_enc P.
Proof.
  destruct P as [x y]. intros (X & Y & _). pose proof p_256 as P1. pose proof (eo_255 c ok) as P2. apply compress_words.
  - split; [apply X|]. eapply Z.lt_trans; [apply X|exact P1].
  - split; [apply Y|]. eapply Z.lt_trans; [apply Y|exact P2].
Qed.
Lemma b_on : on_ed c (ed_b c). Proof. exact (eo_b c ok). Qed.

Lemma hash_words m : is_words 8 (le_to_u64s (SHA512 m)) /\ limbs_val (le_to_u64s (SHA512 m)) = le_val (SHA512 m).
Proof. destruct (C48_le_value 8 (SHA512 m)) as (A & B & C); [lia|apply sha512_len|apply sha512_bytes|]. unfold is_words. auto. Qed.

Lemma reduced_words v : let r := v mod ed_l c in limbs_val (words4 r) = r /\ is_words 4 (words4 r) /\ 0 <= r < ed_l c.
Proof.
  cbv zeta. pose proof (l_pos c ok) as LP. assert (R : 0 <= v mod ed_l c < ed_l c) by (apply Z.mod_pos_bound; lia).
  destruct (words4_ok (v mod ed_l c)); [|auto]. split; [apply R|]. eapply Z.lt_trans; [apply R|exact (eo_l256 c ok)].
Qed.
Lemma reduce_from_ok m : scalar_reduce_from L (SHA512 m) = words4 (le_val (SHA512 m) mod ed_l c).
Proof. unfold scalar_reduce_from. destruct (hash_words m) as [W V]. rewrite (lo_mod_n c L low) by exact W. now rewrite V. Qed.
Lemma mulbase_ok s : is_words 4 s -> ed_compress (el_mulbase L s) = ed_enc (ed_mul c (limbs_val s) (ed_b c)).
Proof.
  intros W. rewrite (lo_mulbase c L low) by exact W. apply enc_words, mul_closed; [exact ok| |exact b_on].
  apply limbs_val_bound. exact (proj2 W).
Qed.
Lemma enc_bytes P : bytes (ed_enc P).
Proof. destruct P. apply le_bytes_bytes. Qed.

Lemma scalar_nonneg seed : 0 <= rfc_scalar SHA512 seed.
Proof.
  unfold rfc_scalar. apply Z.add_nonneg_nonneg; [apply Z.pow_nonneg; lia|]. apply Z.mul_nonneg_nonneg; [lia|].
  apply Z.div_pos; [|lia]. apply Z.mod_pos_bound. reflexivity.
Qed.

Lemma half_ok seed : bytes (ztake 32 (SHA512 seed)) /\ zlen (ztake 32 (SHA512 seed)) = 32 /\ bytes (zdrop 32 (SHA512 seed)) /\ zlen (zdrop 32 (SHA512 seed)) = 32.
Proof.
  pose proof (sha512_len seed) as Q. pose proof (sha512_bytes seed) as B.
  rewrite zlen_ztake, zlen_zdrop by lia. rewrite Q. auto using bytes_ztake, bytes_zdrop.
Qed.

Lemma from_seed_ok seed : bytes seed -> zlen seed = 32 -> exists k, from_seed L seed = Ok k /\
  sg_seed k = seed /\ is_words 4 (sg_s k) /\ limbs_val (sg_s k) = rfc_scalar SHA512 seed /\
  sg_prefix k = rfc_prefix SHA512 seed /\
  sg_vk k = (rfc_public c SHA512 seed, ed_words (ed_mul c (rfc_scalar SHA512 seed) (ed_b c))).
Proof.
  intros B Q. unfold from_seed. pose proof (seed_ok seed B Q) as SK.
  destruct (ha_update Sha512 (ha_new Sha512) seed); cbn [bind] in *; try discriminate SK. rewrite SK. cbn [bind].
  destruct (half_ok seed) as (TB & TL & _). destruct (clamp_ok _ TB TL) as [W V].
  eexists. split; [reflexivity|]. cbn [sg_seed sg_s sg_prefix sg_vk]. split; [reflexivity|]. split; [exact W|]. split; [exact V|]. split; [reflexivity|].
  rewrite mulbase_ok by exact W. rewrite (lo_mulbase c L low) by exact W. rewrite V. reflexivity.
Qed.

(** A signing key made from any 32-byte seed carries the RFC's public key. *)
Theorem C34_public_key seed : bytes seed -> zlen seed = 32 ->
  exists k, ed_from_bytes L seed = Ok k /\ fst (sg_vk k) = rfc_public c SHA512 seed.
Proof.
  intros B Q. unfold ed_from_bytes. rewrite Q. cbn [Z.eqb Pos.eqb]. destruct (from_seed_ok seed B Q) as (k & E & _ & _ & _ & _ & V).
  exists k. split; [exact E|]. now rewrite V.
Qed.

(** ... and any other length is refused. *)
Theorem C34_seed_length seed : zlen seed <> 32 -> ed_from_bytes L seed = Err WrongLength.
Proof. intros Q. unfold ed_from_bytes. apply Z.eqb_neq in Q. now rewrite Q. Qed.

(** Signatures are exactly the RFC's, for every seed and message (SHA-512's
    length counter holds any message that fits in memory). *)
Theorem C34_sign_exact seed k m : bytes seed -> zlen seed = 32 -> bytes m -> zlen m < 2 ^ 63 ->
  ed_from_bytes L seed = Ok k -> sk_sign L k m = Ok (rfc_sign c SHA512 seed m).
Proof.
  intros B Q BM LM E. unfold ed_from_bytes in E. rewrite Q in E. cbn [Z.eqb Pos.eqb] in E.
  destruct (from_seed_ok seed B Q) as (k' & E' & _ & W & V & PF & VK). rewrite E in E'. injection E' as <-.
  assert (M64 : forall n, n <= 64 -> n + zlen m < 2 ^ 64).
  { intros n N. apply Z.lt_le_trans with (64 + 2 ^ 63); [lia|]. change (2 ^ 64) with (2 ^ 63 + 2 ^ 63). apply Z.add_le_mono_r. discriminate. }
  destruct (half_ok seed) as (_ & _ & PB & PL).
  unfold sk_sign. rewrite PF. unfold rfc_prefix.
  rewrite digest_ok; [|exact PB|exact BM|constructor|rewrite PL; change (zlen (@nil Z)) with 0; rewrite Z.add_0_r; apply M64; lia].
  cbn [bind]. rewrite app_nil_r, reduce_from_ok.
  destruct (reduced_words (le_val (SHA512 (zdrop 32 (SHA512 seed) ++ m)))) as (RV & RW & RR).
  rewrite mulbase_ok by exact RW. rewrite RV. rewrite VK. cbn [fst]. unfold rfc_sign. cbv zeta. fold (rfc_prefix SHA512 seed) in *.
  set (r := le_val (SHA512 (rfc_prefix SHA512 seed ++ m)) mod ed_l c) in *. set (R := ed_enc (ed_mul c r (ed_b c))).
  rewrite digest_ok; [|apply enc_bytes|apply enc_bytes|exact BM|unfold R, rfc_public; rewrite !enc_len; apply (M64 64); lia].
  cbn [bind]. rewrite reduce_from_ok. fold (rfc_challenge SHA512 R (rfc_public c SHA512 seed) m). set (h := rfc_challenge SHA512 R (rfc_public c SHA512 seed) m).
  destruct (reduced_words h) as (HV & HW & HR).
  rewrite (lo_madd_n c L low) by assumption. rewrite HV, RV, V, words4_le. do 3 f_equal.
  pose proof (l_pos c ok) as LP. rewrite Z.add_comm, <- Z.add_mod_idemp_r, Z.mul_mod_idemp_l, Z.add_mod_idemp_r by lia. reflexivity.
Qed.

(** Decoding a public key: the encodings of curve points and nothing else. *)
Theorem C34_key_decode b : bytes b ->
  (forall A, on_ed c A -> b = ed_enc A -> vk_from_bytes L b = Ok (b, ed_words A)) /\
  (zlen b <> 32 -> vk_from_bytes L b = Err WrongLength) /\
  (zlen b = 32 -> (forall A, on_ed c A -> b <> ed_enc A) -> vk_from_bytes L b = Err NotOnCurve).
Proof.
  intros B. unfold vk_from_bytes. split; [|split].
  - intros A O ->. rewrite enc_len. cbn [Z.eqb Pos.eqb]. now rewrite (lo_decode c L low) by exact O.
  - intros N. apply Z.eqb_neq in N. now rewrite N.
  - intros N NO. rewrite N. cbn [Z.eqb Pos.eqb]. destruct (el_decode L b) as [w|] eqn:D; [|reflexivity].
    destruct (lo_decode_sound c L low b w B N D) as (A & OA & E). destruct (NO A OA E).
Qed.

Lemma negate_ok P : on_ed c P -> ed_negate L (ed_words P) = ed_words (ed_neg c P).
Proof.
  destruct P as [x y]. intros (X & Y & _). unfold ed_negate, ed_words, ed_neg. cbn [fst snd].
  assert (L4 : 4 = zlen (words4 x)). { pose proof p_256. destruct (words4_ok x) as (_ & Q & _); [lia|]. now rewrite Q. }
  rewrite ztake_app_eq, zdrop_app_eq by exact L4. now rewrite (lo_neg c L low) by exact X.
Qed.

Lemma neg_add P Q : on_ed c P -> on_ed c Q -> ed_neg c (ed_add c P Q) = ed_add c (ed_neg c P) (ed_neg c Q).
Proof.
  intros OP OQ. pose proof (neg_on c ok _ OP) as NP. pose proof (neg_on c ok _ OQ) as NQ. pose proof (add_closed c ok _ _ OP OQ) as OPQ.
  apply (add_cancel_r c ok) with (R := ed_add c P Q); [apply neg_on; assumption|apply add_closed; assumption|exact OPQ|].
  rewrite (add_comm c _ (ed_add c P Q)), add_neg by assumption.
  rewrite (add_comm c P Q). rewrite <- (add_assoc c ok (ed_neg c P)) by (try assumption; apply add_closed; assumption).
  rewrite (add_assoc c ok (ed_neg c Q)) by assumption. rewrite (add_comm c (ed_neg c Q) Q), add_neg, add_0_l by assumption.
  now rewrite (add_comm c _ P), add_neg by assumption.
Qed.
Lemma mul_neg k P : 0 <= k -> on_ed c P -> ed_mul c k (ed_neg c P) = ed_neg c (ed_mul c k P).
Proof.
  intros K O. revert k K. apply natlike_ind.
  - rewrite !mul_0. unfold ed_zero, ed_neg. f_equal.
  - intros k K IH. rewrite !mul_succ, IH by exact K. symmetry. apply neg_add; [exact O|apply mul_closed; assumption].
Qed.

Lemma equation S R T : on_ed c S -> on_ed c R -> on_ed c T -> (ed_add c (ed_neg c T) S = R <-> S = ed_add c R T).
Proof.
  intros OS OR OT. pose proof (neg_on c ok _ OT) as NT. split.
  - intros <-. rewrite (add_comm c (ed_neg c T)), <- (add_assoc c ok) by assumption.
    rewrite (add_comm c (ed_neg c T) T), add_neg by assumption. now rewrite add_0_r.
  - intros ->. rewrite (add_comm c (ed_neg c T)), <- (add_assoc c ok) by assumption. rewrite add_neg by assumption. now rewrite add_0_r.
Qed.

Lemma try_from_ok b : bytes b -> zlen b = 32 ->
  scalar_try_from L b = (if le_val b <? ed_l c then Some (le_to_u64s b) else None) /\ is_words 4 (le_to_u64s b) /\ limbs_val (le_to_u64s b) = le_val b.
Proof.
  intros B Q. destruct (C48_le_value 4 b) as (A & W & N); [lia|lia|exact B|]. unfold scalar_try_from, words_lt. cbv zeta.
  rewrite A, (proj2 (lo_order c L low)). unfold is_words. auto.
Qed.

Lemma list_eqb_dec a b : {a = b /\ list_eqb a b = true} + {a <> b /\ list_eqb a b = false}.
Proof. destruct (list_eqb a b) eqn:E; [left; apply list_eqb_eq in E; auto|right; split; [|reflexivity]; intros ->; rewrite (proj2 (list_eqb_eq b b)) in E; [discriminate|reflexivity]]. Qed.

Lemma verify_cases A vk m sig : on_ed c A -> vk_from_bytes L (ed_enc A) = Ok vk -> bytes m -> zlen m < 2 ^ 63 -> bytes sig ->
  (ed25519_verify L vk sig m = Ok tt /\ rfc_valid c SHA512 A m sig) \/ (ed25519_verify L vk sig m = Err BadSignature /\ ~ rfc_valid c SHA512 A m sig).
Proof.
  intros OA DK BM LM BS.
  assert (EVK : vk = (ed_enc A, ed_words A)).
  { destruct (C34_key_decode (ed_enc A) (enc_bytes A)) as (F & _). rewrite (F A OA eq_refl) in DK. now injection DK. }
  subst vk. unfold ed25519_verify.
  destruct (Z.eqb_spec (zlen sig) 64) as [Q|Q].
  2:{ right. split; [reflexivity|intros (? & _); contradiction]. }
  unfold vk_verify. cbv zeta. cbn [fst snd].
  assert (TB : bytes (ztake 32 sig)) by (apply bytes_ztake, BS). assert (DB : bytes (zdrop 32 sig)) by (apply bytes_zdrop, BS).
  assert (TL : zlen (ztake 32 sig) = 32) by (rewrite zlen_ztake; lia). assert (DL : zlen (zdrop 32 sig) = 32) by (rewrite zlen_zdrop; lia).
  destruct (try_from_ok _ DB DL) as (TF & SW & SV). rewrite TF. unfold rfc_valid. cbv zeta.
  destruct (Z.ltb_spec (le_val (zdrop 32 sig)) (ed_l c)) as [SL|SL].
  2:{ right. split; [reflexivity|]. intros (_ & R & _ & _ & K & _). lia. }
  rewrite digest_ok; [|exact TB|apply enc_bytes|exact BM|].
  2:{ rewrite TL, enc_len. apply Z.lt_le_trans with (64 + 2 ^ 63); [lia|]. change (2 ^ 64) with (2 ^ 63 + 2 ^ 63). apply Z.add_le_mono_r. discriminate. }
  cbn [bind]. rewrite reduce_from_ok. set (h := le_val (SHA512 (ztake 32 sig ++ ed_enc A ++ m))).
  destruct (reduced_words h) as (HV & HW & HR). pose proof (neg_on c ok _ OA) as NA.
  rewrite negate_ok by exact OA. rewrite (lo_muldouble c L low); [|exact HW|rewrite HV; apply HR|exact NA|exact SW|rewrite SV; exact SL].
  rewrite HV, SV, mul_neg by (try apply HR; exact OA).
  assert (S0 : 0 <= le_val (zdrop 32 sig)) by (apply le_val_bound, DB).
  pose proof (mul_closed c ok _ _ S0 b_on) as OSB. pose proof (mul_closed c ok _ _ (proj1 HR) OA) as OKA. pose proof (neg_on c ok _ OKA) as ONKA.
  rewrite enc_words by (apply add_closed; assumption).
  match goal with |- ((if list_eqb ?a ?b then _ else _) = _ /\ _) \/ _ => destruct (list_eqb_dec a b) as [[E1 ->]|[N1 ->]] end.
  - left. split; [reflexivity|]. split; [exact Q|]. eexists. split; [|split; [exact E1|split; [exact SL|]]]; [apply add_closed; assumption|].
    unfold rfc_k, rfc_challenge. rewrite <- E1. fold h. apply equation; [assumption|apply add_closed; assumption|assumption|]. reflexivity.
  - right. split; [reflexivity|]. intros (_ & R & OR & ER & _ & EQ). unfold rfc_k, rfc_challenge in EQ. rewrite <- ER in EQ. fold h in EQ.
    apply equation in EQ; [|assumption..]. apply N1. rewrite EQ, ER. reflexivity.
Qed.

(** Verification accepts exactly the valid signatures and otherwise reports
    BadSignature; it never panics. *)
Theorem C34_verify_exact A vk m sig : on_ed c A -> vk_from_bytes L (ed_enc A) = Ok vk -> bytes m -> zlen m < 2 ^ 63 -> bytes sig ->
  (ed25519_verify L vk sig m = Ok tt <-> rfc_valid c SHA512 A m sig) /\
  (ed25519_verify L vk sig m = Ok tt \/ ed25519_verify L vk sig m = Err BadSignature).
Proof.
  intros OA DK BM LM BS. destruct (verify_cases A vk m sig OA DK BM LM BS) as [[V R]|[V N]]; rewrite V; (split; [|auto]); (split; [|]); intros H; try assumption; try reflexivity; [discriminate H|contradiction].
Qed.

Lemma valid_sign seed m : bytes seed -> zlen seed = 32 ->
  rfc_valid c SHA512 (ed_mul c (rfc_scalar SHA512 seed) (ed_b c)) m (rfc_sign c SHA512 seed m).
Proof.
  intros B Q. unfold rfc_sign. cbv zeta. pose proof (l_pos c ok) as LP.
  set (r := le_val (SHA512 (rfc_prefix SHA512 seed ++ m)) mod ed_l c). set (R := ed_mul c r (ed_b c)).
  assert (r0 : 0 <= r < ed_l c) by (apply Z.mod_pos_bound; lia). assert (OR : on_ed c R) by (apply mul_closed; [exact ok|apply r0|exact b_on]).
  unfold rfc_public. set (a := rfc_scalar SHA512 seed). set (A := ed_mul c a (ed_b c)).
  assert (a0 : 0 <= a) by apply scalar_nonneg. assert (OA : on_ed c A) by (apply mul_closed; [exact ok|exact a0|exact b_on]).
  set (k := rfc_challenge SHA512 (ed_enc R) (ed_enc A) m). set (s := (r + k * a) mod ed_l c).
  assert (k0 : 0 <= k) by (apply le_val_bound, sha512_bytes). assert (s0 : 0 <= s < ed_l c) by (apply Z.mod_pos_bound; lia).
  unfold rfc_valid. rewrite zlen_app, enc_len, zlen_le_bytes. split; [reflexivity|]. exists R.
  rewrite ztake_app_eq, zdrop_app_eq by (rewrite enc_len; reflexivity). split; [exact OR|]. split; [reflexivity|].
  cbv zeta. rewrite le_val_le_bytes. change (256 ^ Z.of_nat 32) with (2 ^ 256).
  rewrite Z.mod_small by (split; [apply s0|]; eapply Z.lt_trans; [apply s0|exact (eo_l256 c ok)]). split; [apply s0|].
  unfold rfc_k. fold k. unfold A at 1. assert (km : 0 <= k mod ed_l c) by (apply Z.mod_pos_bound; lia).
  rewrite <- (mul_mul c ok) by (try exact b_on; assumption). unfold R. rewrite <- (mul_add c ok) by (try exact b_on; try apply r0; apply Z.mul_nonneg_nonneg; assumption).
  rewrite <- (base_mod c ok (r + k mod ed_l c * a)) by (apply Z.add_nonneg_nonneg; [apply r0|apply Z.mul_nonneg_nonneg; assumption]).
  unfold s. f_equal. rewrite <- (Z.add_mod_idemp_r r (k mod ed_l c * a)), Z.mul_mod_idemp_l, Z.add_mod_idemp_r by lia. reflexivity.
Qed.

(** What a key signs, the decoded public key accepts. *)
Theorem C34_sign_verifies seed k m sig vk : bytes seed -> zlen seed = 32 -> bytes m -> zlen m < 2 ^ 63 ->
  ed_from_bytes L seed = Ok k -> sk_sign L k m = Ok sig ->
  vk_from_bytes L (fst (sg_vk k)) = Ok vk -> ed25519_verify L vk sig m = Ok tt.
Proof.
  intros B Q BM LM E S V. rewrite (C34_sign_exact seed k m B Q BM LM E) in S. injection S as <-.
  destruct (C34_public_key seed B Q) as (k' & E' & PK). rewrite E in E'. injection E' as <-. rewrite PK in V.
  pose proof (mul_closed c ok _ _ (scalar_nonneg seed) b_on) as OA.
  refine (proj2 (proj1 (C34_verify_exact _ vk m _ OA V BM LM _)) _); [|now apply valid_sign].
  unfold rfc_sign. apply bytes_app. split; [apply enc_bytes|apply le_bytes_bytes].
Qed.

(** ... and the key itself, without a decoding step, behaves as the decoded one. *)
Theorem C34_public_key_decodes seed k : bytes seed -> zlen seed = 32 -> ed_from_bytes L seed = Ok k ->
  vk_from_bytes L (fst (sg_vk k)) = Ok (sg_vk k).
Proof.
  intros B Q E. unfold ed_from_bytes in E. rewrite Q in E. cbn [Z.eqb Pos.eqb] in E.
  destruct (from_seed_ok seed B Q) as (k' & E' & _ & _ & _ & _ & VK). rewrite E in E'. injection E' as <-. rewrite VK. cbn [fst].
  refine (proj1 (C34_key_decode _ (enc_bytes _)) _ _ eq_refl). apply mul_closed; [exact ok|apply scalar_nonneg|exact b_on].
Qed.

(** A second signature for the same key and message is never made by changing
    S alone: two accepted signatures that share their first half are equal. *)
Theorem C34_no_malleability A vk m s1 s2 : on_ed c A -> vk_from_bytes L (ed_enc A) = Ok vk -> bytes m -> zlen m < 2 ^ 63 ->
  bytes s1 -> bytes s2 -> ztake 32 s1 = ztake 32 s2 ->
  ed25519_verify L vk s1 m = Ok tt -> ed25519_verify L vk s2 m = Ok tt -> s1 = s2.
Proof.
  intros OA DK BM LM B1 B2 T V1 V2.
  assert (D : forall s, bytes s -> ed25519_verify L vk s m = Ok tt -> ~ ~ rfc_valid c SHA512 A m s).
  { intros s BS V N. apply N, (C34_verify_exact A vk m s OA DK BM LM BS), V. }
  assert (EQ : {s1 = s2} + {s1 <> s2}) by (apply list_eq_dec, Z.eq_dec). destruct EQ as [EQ|NE]; [exact EQ|].
  exfalso. apply (D s1 B1 V1). intros (L1 & R1 & O1 & T1 & S1 & E1). apply (D s2 B2 V2). intros (L2 & R2 & O2 & T2 & S2 & E2). apply NE.
  assert (R1 = R2) by (apply (enc_inj c ok); [exact O1|exact O2|congruence]). subst R2.
  assert (BI : le_val (zdrop 32 s1) = le_val (zdrop 32 s2)).
  { apply (base_inj c ok); [split; [apply le_val_bound, bytes_zdrop, B1|exact S1]|split; [apply le_val_bound, bytes_zdrop, B2|exact S2]|congruence]. }
  rewrite <- (ztake_zdrop 32 s1), <- (ztake_zdrop 32 s2). f_equal; [exact T|].
  rewrite <- (le_bytes_le_val (zdrop 32 s1)), <- (le_bytes_le_val (zdrop 32 s2)) by (apply bytes_zdrop; assumption).
  rewrite BI. f_equal. assert (zlen (zdrop 32 s1) = zlen (zdrop 32 s2)) by (rewrite !zlen_zdrop; lia). unfold zlen in *. lia.
Qed.

(** A signature of the wrong length, or whose second half is l or more, is
    refused whatever the key and message. *)
Theorem C34_rejections vk m sig : bytes sig ->
  zlen sig <> 64 \/ ed_l c <= le_val (zdrop 32 sig) -> ed25519_verify L vk sig m = Err BadSignature.
Proof.
  intros B H. unfold ed25519_verify. destruct (Z.eqb_spec (zlen sig) 64) as [Q|Q]; [|reflexivity]. destruct H as [H|H]; [contradiction|].
  unfold vk_verify. cbv zeta. destruct (try_from_ok (zdrop 32 sig)) as (TF & _); [apply bytes_zdrop, B|rewrite zlen_zdrop; lia|].
  rewrite TF. destruct (Z.ltb_spec (le_val (zdrop 32 sig)) (ed_l c)); [lia|reflexivity].
Qed.

(** For a public key in the subgroup of the base point it makes no difference
    that the challenge is reduced modulo l: acceptance is RFC 8032's equation
    with the unreduced challenge. *)
Theorem C34_reduction_harmless A m sig : on_ed c A -> ed_mul c (ed_l c) A = ed_zero ->
  (rfc_valid c SHA512 A m sig <-> rfc_valid_unreduced c SHA512 A m sig).
Proof.
  intros OA Z0. unfold rfc_valid, rfc_valid_unreduced, rfc_k. pose proof (l_pos c ok) as LP.
  assert (M : forall R, ed_mul c (rfc_challenge SHA512 (ed_enc R) (ed_enc A) m mod ed_l c) A = ed_mul c (rfc_challenge SHA512 (ed_enc R) (ed_enc A) m) A).
  { intros R. apply (mul_mod_order c ok); [lia|apply le_val_bound, sha512_bytes|exact OA|exact Z0]. }
  split; intros (Q & R & H); split; try exact Q; exists R; rewrite M in *; exact H.
Qed.
End Main.

(** The constant in the code is the order of RFC 8032. *)
Theorem C34_order : limbs_val ORDER = ed_l edwards25519 /\ is_words 4 ORDER.
Proof. split; [reflexivity|]. split; [reflexivity|]. repeat constructor; intro; discriminate. Qed.

(** *** the reduced challenge *)
Lemma odd_mul c A k : ed_ok c -> on_ed c A -> ed_neg c A = A -> 0 <= k -> ed_mul c k A = if Z.odd k then A else ed_zero.
Proof.
  intros ok O N K. assert (M2 : ed_mul c 2 A = ed_zero).
  { change 2 with (Z.succ 1). rewrite mul_succ, mul_1 by (lia || assumption). rewrite <- N at 2. apply add_neg; assumption. }
  rewrite <- (mul_mod_order c ok k A 2) by (lia || assumption). rewrite Zmod_odd. destruct (Z.odd k); [apply mul_1; assumption|apply mul_0].
Qed.

(** the point of order two.  Spec only. *)
Definition order2 : Z * Z := (0, 2 ^ 255 - 20).
Lemma challenge_parity :
  let k := rfc_challenge SHA512 (ed_enc ed_zero) (ed_enc order2) [254] in Z.odd k = true /\ Z.odd (k mod ed_l edwards25519) = false.
Proof. vm_compute. split; reflexivity. Qed.

(** For other keys it does: on edwards25519 there are a key (of order two), a
    message and a signature that are accepted although the equation with the
    challenge as RFC 8032 section 5.1.7 has it, unreduced, fails.  Other
    implementations that follow the text literally would refuse it. *)
Theorem C34_unreduced_challenge_refuted L : ed_low_ok edwards25519 L ->
  exists A vk m sig, on_ed edwards25519 A /\ bytes m /\ bytes sig /\ vk_from_bytes L (ed_enc A) = Ok vk /\
    ed25519_verify L vk sig m = Ok tt /\ ~ rfc_valid_unreduced edwards25519 SHA512 A m sig.
Proof.
  intros low. pose proof L_E25519.edwards25519_ok as ok. exists order2.
  assert (OA : on_ed edwards25519 order2). { unfold on_ed, order2. split; [split; [discriminate|reflexivity]|]. split; [split; [discriminate|reflexivity]|]. vm_compute. reflexivity. }
  assert (NA : ed_neg edwards25519 order2 = order2) by reflexivity.
  pose proof (zero_on edwards25519 ok) as OZ.
  exists (ed_enc order2, ed_words order2), [254], (ed_enc ed_zero ++ repeat 0 32).
  assert (BM : bytes [254]). { constructor; [split; [discriminate|reflexivity]|constructor]. }
  assert (BS : bytes (ed_enc ed_zero ++ repeat 0 32)).
  { apply bytes_app. split; [apply enc_bytes|]. repeat (constructor; [split; [discriminate|reflexivity]|]). constructor. }
  assert (DK : vk_from_bytes L (ed_enc order2) = Ok (ed_enc order2, ed_words order2)).
  { exact (proj1 (C34_key_decode _ L low _ (enc_bytes _)) _ OA eq_refl). }
  assert (T : ztake 32 (ed_enc ed_zero ++ repeat 0 32) = ed_enc ed_zero) by (apply ztake_app_eq; rewrite enc_len; reflexivity).
  assert (D : le_val (zdrop 32 (ed_enc ed_zero ++ repeat 0 32)) = 0) by (rewrite zdrop_app_eq by (rewrite enc_len; reflexivity); reflexivity).
  pose proof challenge_parity as K. cbv zeta in K.
  assert (K0 : 0 <= rfc_challenge SHA512 (ed_enc ed_zero) (ed_enc order2) [254]) by (apply le_val_bound, sha512_bytes).
  remember (rfc_challenge SHA512 (ed_enc ed_zero) (ed_enc order2) [254]) as k eqn:EK in K, K0. destruct K as [K1 K2].
  assert (M1 : ed_mul edwards25519 k order2 = order2) by (rewrite (odd_mul edwards25519 order2 k ok OA NA K0), K1; reflexivity).
  assert (M2 : ed_mul edwards25519 (k mod ed_l edwards25519) order2 = ed_zero).
  { rewrite (odd_mul edwards25519 order2 (k mod ed_l edwards25519) ok OA NA), K2; [reflexivity|]. apply Z.mod_pos_bound. reflexivity. }
  split; [exact OA|]. split; [exact BM|]. split; [exact BS|]. split; [exact DK|]. split.
  - refine (proj2 (proj1 (C34_verify_exact _ L ok low order2 _ [254] _ OA DK BM eq_refl BS)) _).
    split; [rewrite zlen_app, enc_len; reflexivity|]. exists ed_zero. split; [exact OZ|]. split; [exact T|]. cbv zeta. rewrite D. split; [reflexivity|].
    unfold rfc_k. rewrite <- EK, M2, (add_0_l edwards25519 ok ed_zero OZ). apply mul_0.
  - intros (_ & R & OR & TR & _ & E). rewrite T in TR. apply (enc_inj edwards25519 ok) in TR; [|exact OZ|exact OR]. subst R.
    cbv zeta in E. rewrite <- EK, D, mul_0, M1, (add_0_l edwards25519 ok order2 OA) in E.
    unfold ed_zero, order2 in E. injection E as E. discriminate E.
Qed.

(** *** a concrete case: the small curve, a seed and a message *)
Example C34_some : exists k sig vk, ed_from_bytes tiny_low (repeat 7 32) = Ok k /\
  sk_sign tiny_low k [1; 2; 3] = Ok sig /\ vk_from_bytes tiny_low (fst (sg_vk k)) = Ok vk /\ ed25519_verify tiny_low vk sig [1; 2; 3] = Ok tt.
Proof.
  assert (B : bytes (repeat 7 32)) by (repeat constructor; discriminate). assert (BM : bytes [1; 2; 3]) by (repeat constructor; discriminate).
  destruct (C34_public_key tiny_ed tiny_low tiny_ed_ok tiny_low_ok (repeat 7 32) B eq_refl) as (k & E & _).
  pose proof (C34_sign_exact tiny_ed tiny_low tiny_ed_ok tiny_low_ok _ k [1; 2; 3] B eq_refl BM eq_refl E) as S.
  pose proof (C34_public_key_decodes tiny_ed tiny_low tiny_ed_ok tiny_low_ok _ k B eq_refl E) as V.
  do 3 eexists. split; [exact E|]. split; [exact S|]. split; [exact V|].
  exact (C34_sign_verifies tiny_ed tiny_low tiny_ed_ok tiny_low_ok _ k _ _ _ B eq_refl BM eq_refl E S V).
Qed.
(** 3 is not the y-coordinate of a point modulo 13, and 14 is out of range *)
Example C34_refused : vk_from_bytes tiny_low (le_bytes 32 3) = Err NotOnCurve /\ vk_from_bytes tiny_low (le_bytes 32 14) = Err NotOnCurve /\
  vk_from_bytes tiny_low (le_bytes 31 1) = Err WrongLength /\ exists w, vk_from_bytes tiny_low (le_bytes 32 1) = Ok (le_bytes 32 1, w).
Proof. repeat split; try (vm_compute; reflexivity). eexists. vm_compute. reflexivity. Qed.
Example C34_s_too_large : ed25519_verify tiny_low (le_bytes 32 1, ed_words (0, 1)) (le_bytes 32 1 ++ le_bytes 32 5) [1] = Err BadSignature.
Proof. vm_compute. reflexivity. Qed.

Print Assumptions C34_public_key.
Print Assumptions C34_seed_length.
Print Assumptions C34_sign_exact.
Print Assumptions C34_key_decode.
Print Assumptions C34_verify_exact.
Print Assumptions C34_sign_verifies.
Print Assumptions C34_public_key_decodes.
Print Assumptions C34_no_malleability.
Print Assumptions C34_rejections.
Print Assumptions C34_reduction_harmless.
Print Assumptions C34_order.
Print Assumptions C34_unreduced_challenge_refuted.
