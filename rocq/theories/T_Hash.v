(** Properties C07-C10, C17: hashing, HMAC, HMAC_DRBG, constant-time comparison. *)
Require Import Verif.Base Verif.L_Base Verif.M_Blockwise Verif.L_Blocks Verif.M_Sha2 Verif.S_Sha2 Verif.M_Ct
  Verif.M_Hmac Verif.S_Hmac Verif.L_Hash Verif.L_Hmac.
Require Import ZifyNat.

(** The public hash algorithms with the standard function each must compute, and the message length
    (in bytes) from which the implementation panics. *)
Definition hashes : list (hash_alg * (list Z -> list Z) * Z) :=
  [ (Sha256, SHA256, 2 ^ 61); (Sha384, SHA384, 2 ^ 64); (Sha512, SHA512, 2 ^ 64) ].

Lemma hashes_imp H Hs lim : In (H, Hs, lim) hashes -> implements H Hs lim.
Proof.
  intros [E|[E|[E|[]]]]; apply pair_equal_spec in E; destruct E as [E <-]; apply pair_equal_spec in E; destruct E as [<- <-].
  - exact imp256. - exact imp384. - exact imp512.
Qed.

(** ** C07: any splitting gives the one-shot result; update never panics. *)
Theorem C07_splitting_irrelevant : forall H, In H [Sha256; Sha384; Sha512] ->
  forall pieces : list (list Z), hash_stream H pieces = hash_oneshot H (concat pieces).
Proof.
  intros H HH pieces.
  assert (G : hash_stream H pieces = hash_stream H [concat pieces]).
  { unfold hash_stream. destruct HH as [<-|[<-|[<-|[]]]].
    - destruct (feed256 pieces) as (c & -> & E1), (feed256 [concat pieces]) as (c' & -> & E2).
      cbn [bind]. rewrite E1, E2. cbn [concat]. rewrite app_nil_r. reflexivity.
    - destruct (feed384 pieces) as (c & -> & E1), (feed384 [concat pieces]) as (c' & -> & E2).
      cbn [bind]. rewrite E1, E2. cbn [concat]. rewrite app_nil_r. reflexivity.
    - destruct (feed512 pieces) as (c & -> & E1), (feed512 [concat pieces]) as (c' & -> & E2).
      cbn [bind]. rewrite E1, E2. cbn [concat]. rewrite app_nil_r. reflexivity. }
  rewrite G. unfold hash_stream, hash_oneshot. cbn [feed].
  destruct (ha_update H (ha_new H) (concat pieces)); reflexivity.
Qed.
Print Assumptions C07_splitting_irrelevant.

Theorem C07_update_never_fails : forall H, In H [Sha256; Sha384; Sha512] ->
  forall pieces, exists c, feed H (ha_new H) pieces = Ok c.
Proof.
  intros H [<-|[<-|[<-|[]]]] pieces.
  - destruct (feed256 pieces) as (c & E & _); eauto.
  - destruct (feed384 pieces) as (c & E & _); eauto.
  - destruct (feed512 pieces) as (c & E & _); eauto.
Qed.
Print Assumptions C07_update_never_fails.

(** A cloned context continues independently: after a common prefix fed in any pieces, each
    continuation yields the digest of prefix ++ continuation. *)
Theorem C07_clone : forall H, In H [Sha256; Sha384; Sha512] ->
  forall prefix c, feed H (ha_new H) prefix = Ok c ->
  forall rest, (let! c := feed H c rest in ha_finish H c) = hash_oneshot H (concat prefix ++ concat rest).
Proof.
  intros H HH prefix c Hc rest. rewrite <- concat_app, <- (C07_splitting_irrelevant H HH).
  unfold hash_stream. rewrite feed_app, Hc. reflexivity.
Qed.
Print Assumptions C07_clone.

(** ** C08: the FIPS 180-4 functions, with the exact length at which the code gives up. *)
Theorem C08_sha256 : forall m, bytes m ->
  hash_oneshot Sha256 m = if zlen m <? 2 ^ 61 then Ok (SHA256 m) else Panic.
Proof.
  intros m Hm. rewrite (oneshot _ _ _ imp256) by exact Hm.
  destruct (2 ^ 61 <=? zlen m) eqn:E1, (zlen m <? 2 ^ 61) eqn:E2; auto; lia.
Qed.
Print Assumptions C08_sha256.
Theorem C08_sha384 : forall m, bytes m ->
  hash_oneshot Sha384 m = if zlen m <? 2 ^ 64 then Ok (SHA384 m) else Panic.
Proof.
  intros m Hm. rewrite (oneshot _ _ _ imp384) by exact Hm.
  destruct (2 ^ 64 <=? zlen m) eqn:E1, (zlen m <? 2 ^ 64) eqn:E2; auto; lia.
Qed.
Print Assumptions C08_sha384.
Theorem C08_sha512 : forall m, bytes m ->
  hash_oneshot Sha512 m = if zlen m <? 2 ^ 64 then Ok (SHA512 m) else Panic.
Proof.
  intros m Hm. rewrite (oneshot _ _ _ imp512) by exact Hm.
  destruct (2 ^ 64 <=? zlen m) eqn:E1, (zlen m <? 2 ^ 64) eqn:E2; auto; lia.
Qed.
Print Assumptions C08_sha512.

(** Together with C07: every streaming use within the limit returns the standard digest. *)
Theorem C08_streaming : forall H Hs lim, In (H, Hs, lim) hashes ->
  forall pieces, Forall bytes pieces -> zlen (concat pieces) < lim ->
  hash_stream H pieces = Ok (Hs (concat pieces)) /\ zlen (Hs (concat pieces)) = ha_out H.
Proof.
  intros H Hs lim HI pieces Hp Hl. pose proof (hashes_imp _ _ _ HI) as I.
  destruct (im_feed _ _ _ I pieces) as (c & E1 & E2). { apply bytes_concat, Hp. }
  split; [|apply (im_len _ _ _ I)]. unfold hash_stream. rewrite E1. cbn [bind]. rewrite E2.
  destruct (lim <=? zlen (concat pieces)) eqn:E; [lia|reflexivity].
Qed.
Print Assumptions C08_streaming.

(** ** C09: HMAC *)
Theorem C09_hmac : forall H Hs lim, In (H, Hs, lim) hashes ->
  forall key pieces, bytes key -> Forall bytes pieces ->
  hmac_stream H key pieces =
    if (zlen key <? lim) && (ha_block H + zlen (concat pieces) <? lim)
    then Ok (HMAC Hs (ha_block H) key (concat pieces)) else Panic.
Proof.
  intros H Hs lim HI key pieces Hk Hp.
  rewrite (hmac_stream_ok H Hs lim (hashes_imp _ _ _ HI)) by auto.
  destruct (lim <=? zlen key) eqn:E1, (zlen key <? lim) eqn:E2; try lia; cbn [orb andb]; auto.
  destruct (lim <=? ha_block H + zlen (concat pieces)) eqn:E3, (ha_block H + zlen (concat pieces) <? lim) eqn:E4; auto; lia.
Qed.
Print Assumptions C09_hmac.

(** verify: accepts exactly the full correct tag, and reports BadSignature for everything else *)
Theorem C09_verify : forall H Hs lim, In (H, Hs, lim) hashes ->
  forall key pieces tag, bytes key -> Forall bytes pieces -> bytes tag ->
  zlen key < lim -> ha_block H + zlen (concat pieces) < lim ->
  let result := (let! h := hmac_new H key in let! h := hmac_updates h pieces in hmac_verify h tag) in
  (result = Ok tt <-> tag = HMAC Hs (ha_block H) key (concat pieces)) /\
  (result = Err BadSignature <-> tag <> HMAC Hs (ha_block H) key (concat pieces)).
Proof.
  intros H Hs lim HI key pieces tag Hk Hp Ht L1 L2 result.
  pose proof (hashes_imp _ _ _ HI) as I.
  assert (E : result = if ct_equal (HMAC Hs (ha_block H) key (concat pieces)) tag then Ok tt else Err BadSignature).
  { unfold result, hmac_verify.
    apply (mac_short H Hs lim I key pieces (fun got => if ct_equal got tag then Ok tt else Err BadSignature)); auto. }
  pose proof (ct_equal_spec (HMAC Hs (ha_block H) key (concat pieces)) tag (bytes_HMAC H Hs lim I key (concat pieces)) Ht) as CE.
  rewrite E. destruct (ct_equal (HMAC Hs (ha_block H) key (concat pieces)) tag).
  - destruct CE as [CE _]. specialize (CE eq_refl). split; split; intros; auto; try discriminate. congruence.
  - split; split; intros X; try discriminate; auto.
    + exfalso. subst tag. destruct CE as [_ CE]. discriminate (CE eq_refl).
    + intros ->. destruct CE as [_ CE]. discriminate (CE eq_refl).
Qed.
Print Assumptions C09_verify.

(** ** C10: the nonce generator is SP 800-90A HMAC_DRBG for any seed parts and any request sequence *)
Theorem C10_hmac_drbg : forall H Hs lim, In (H, Hs, lim) hashes ->
  forall entropy nonce pers requests,
  bytes entropy -> bytes nonce -> bytes pers ->
  entropy ++ nonce ++ pers <> [] -> zlen (entropy ++ nonce ++ pers) < 2 ^ 60 ->
  zlen requests < 2 ^ 48 ->
  (let! d := drbg_new H entropy nonce pers in drbg_fills H d requests)
    = Ok (Generates Hs (ha_block H) (map (@zlen Z) requests)
            (Instantiate Hs (ha_block H) (ha_out H) entropy nonce pers)).
Proof.
  intros H Hs lim HI e n p rs He Hn Hp Hne Hl Hr. pose proof (hashes_imp _ _ _ HI) as I.
  assert (2 ^ 61 <= lim).
  { destruct HI as [E|[E|[E|[]]]]; apply pair_equal_spec in E; destruct E as [_ <-]; lia. }
  destruct (drbg_new_ok H Hs lim I e n p) as (d & E1 & E2 & E3 & E4); auto. { lia. }
  rewrite E1. cbn [bind]. rewrite (fills_ok H Hs lim I) by (auto; lia). rewrite E4. reflexivity.
Qed.
Print Assumptions C10_hmac_drbg.

(** The seed hypothesis is needed: with all three seed parts empty the implementation performs the
    second half of HMAC_DRBG_Update although the concatenated provided_data is empty (Null), so the
    same claim without it fails. The witness is a toy hash (a one-byte checksum, cheap to evaluate in the
    kernel) plugged into the same generic code. *)
Definition toy_hash (m : list Z) : list Z := [fold_left (fun a b => (3 * a + b + 1) mod 256) m 7].
Definition Toy : hash_alg := {|
  ha_ctx := list Z; ha_new := []; ha_update := fun c b => Ok (c ++ b);
  ha_finish := fun c => if 2 ^ 32 <=? zlen c then Panic else Ok (toy_hash c);
  ha_block := 2; ha_out := 1 |}.
Lemma toy_imp : implements Toy toy_hash (2 ^ 32).
Proof.
  constructor.
  - intros cs _. exists (concat cs). split; [|reflexivity].
    assert (G : forall c, feed Toy c cs = Ok (c ++ concat cs)).
    { induction cs; intros c; cbn [feed concat]; [rewrite app_nil_r; reflexivity|].
      change (ha_update Toy c a) with (@Ok (list Z) (c ++ a)). cbn [bind]. rewrite IHcs, app_assoc. reflexivity. }
    apply (G []).
  - reflexivity.
  - intros m. unfold toy_hash. constructor; [|constructor].
    unfold byte_ok. assert (G : forall m a, 0 <= a < 256 -> 0 <= fold_left (fun a b => (3 * a + b + 1) mod 256) m a < 256).
    { induction m0; intros; cbn [fold_left]; auto. apply IHm0. apply Z.mod_pos_bound. lia. }
    apply G. lia.
  - cbn [ha_out ha_block Toy]. lia.
Qed.
Theorem C10_empty_seed_refuted : exists H Hs lim, implements H Hs lim /\
  (let! d := drbg_new H [] [] [] in drbg_fills H d [[0]])
    <> Ok (Generates Hs (ha_block H) [1] (Instantiate Hs (ha_block H) (ha_out H) [] [] [])).
Proof. exists Toy, toy_hash, (2 ^ 32). split; [exact toy_imp|]. vm_compute. discriminate. Qed.
Print Assumptions C10_empty_seed_refuted.

(** ** C17: constant-time comparison, conditional copy and select are exact *)
Theorem C17_ct_equal : forall a b, bytes a -> bytes b -> (ct_equal a b = true <-> a = b).
Proof. exact ct_equal_spec. Qed.
Print Assumptions C17_ct_equal.

Theorem C17_ct_copy : forall cond output if_false, length output = length if_false ->
  bytes output -> bytes if_false ->
  ct_copy cond output if_false = if cond then output else if_false.
Proof.
  intros cond. induction output as [|o out IH]; intros [|f ff] L Ho Hf; cbn in L; try lia.
  - destruct cond; reflexivity.
  - apply bytes_cons in Ho, Hf. destruct Ho as [Ho1 Ho2], Hf as [Hf1 Hf2].
    specialize (IH ff ltac:(lia) Ho2 Hf2). unfold ct_copy in *. cbn [combine map].
    destruct cond; rewrite IH; f_equal.
    + change (Z.shiftr (- (1)) 8 mod 256) with 255. change 255 with (Z.ones 8).
      rewrite Z.land_comm, Z.land_ones by lia. rewrite Z.mod_small by (apply lxor_byte; assumption).
      rewrite (Z.lxor_comm o), <- Z.lxor_assoc, Z.lxor_nilpotent. apply Z.lxor_0_l.
    + change (Z.shiftr (- 0) 8 mod 256) with 0. rewrite Z.land_0_l. apply Z.lxor_0_r.
Qed.
Print Assumptions C17_ct_copy.

Lemma signed_roundtrip x : - 2 ^ 15 <= x < 2 ^ 15 -> to_signed 16 (x mod 2 ^ 16) = x.
Proof.
  intros. unfold to_signed. rewrite Z.mod_mod by lia.
  pose proof (Z.mod_pos_bound x (2 ^ 16) ltac:(lia)). pose proof (Z.div_mod x (2 ^ 16) ltac:(lia)).
  cbn [Z.sub] in *. change (2 ^ (16 - 1)) with (2 ^ 15).
  destruct (x mod 2 ^ 16 <? 2 ^ 15) eqn:E; lia.
Qed.

Theorem C17_ct_select : forall bit if_set if_unset, 0 <= bit < 256 ->
  - 2 ^ 15 <= if_set < 2 ^ 15 -> - 2 ^ 15 <= if_unset < 2 ^ 15 ->
  ct_select_i16 bit if_set if_unset = if bit =? 0 then if_unset else if_set.
Proof.
  intros bit s u Hb Hs Hu. unfold ct_select_i16. destruct (bit =? 0) eqn:E.
  - replace bit with 0 by lia. change (Z.shiftr (- 0) 16 mod 2 ^ 16) with 0.
    rewrite Z.land_0_l, Z.lxor_0_r. apply signed_roundtrip, Hu.
  - replace (Z.shiftr (- bit) 16 mod 2 ^ 16) with (Z.ones 16).
    2:{ rewrite Z.shiftr_div_pow2 by lia. replace (- bit / 2 ^ 16) with (-1); [reflexivity|].
        apply Z.div_unique_pos with (2 ^ 16 - bit); lia. }
    rewrite Z.land_comm, Z.land_ones by lia.
    rewrite (Z.mod_small (Z.lxor _ _)).
    + rewrite (Z.lxor_comm (s mod _)), <- Z.lxor_assoc, Z.lxor_nilpotent, Z.lxor_0_l.
      apply signed_roundtrip, Hs.
    + pose proof (Z.mod_pos_bound s (2 ^ 16) ltac:(lia)). pose proof (Z.mod_pos_bound u (2 ^ 16) ltac:(lia)).
      set (a := s mod 2 ^ 16) in *. set (b := u mod 2 ^ 16) in *.
      assert (0 <= Z.lxor a b) by (apply Z.lxor_nonneg; lia).
      split; auto. destruct (Z.eq_dec (Z.lxor a b) 0) as [->|]; [lia|].
      apply Z.log2_lt_pow2; [lia|]. pose proof (Z.log2_lxor a b ltac:(lia) ltac:(lia)).
      assert (G : forall z, 0 <= z < 2 ^ 16 -> Z.log2 z < 16).
      { intros z Hz. destruct (Z.eq_dec z 0) as [->|]; [cbn; lia|]. apply Z.log2_lt_pow2; lia. }
      pose proof (G a ltac:(lia)). pose proof (G b ltac:(lia)). lia.
Qed.
Print Assumptions C17_ct_select.

(** Digest comparison through the public HashOutput API *)
Theorem C17_hash_output_equal : forall h other, bytes (ho_bytes h) -> bytes other ->
  (ho_ct_equal h other = true <-> other = ho_bytes h).
Proof. intros. unfold ho_ct_equal. rewrite ct_equal_spec by auto. split; auto. Qed.
Print Assumptions C17_hash_output_equal.

Theorem C17_hash_output_truncated : forall L h other, bytes (ho_bytes h) -> bytes other ->
  0 < L <= zlen (ho_bytes h) ->
  exists b, ho_truncated_ct_equal L h other = Ok b /\
    (b = true <-> zlen other = L /\ exists rest, ho_bytes h = other ++ rest).
Proof.
  intros L h other Hb Ho HL. unfold ho_truncated_ct_equal.
  replace (L =? 0) with false by lia. replace (L <=? zlen (ho_bytes h)) with true by lia. cbn [negb].
  eexists. split; [reflexivity|]. rewrite ct_equal_spec by auto using bytes_ztake. split.
  - intros <-. split. + apply zlen_ztake; lia. + exists (zdrop L (ho_bytes h)). symmetry. apply ztake_zdrop.
  - intros [<- [rest ->]]. apply ztake_app.
Qed.
Print Assumptions C17_hash_output_truncated.

(** [==] on digests: equal exactly when same algorithm and same bytes *)
Theorem C17_hash_output_eq : forall a b, bytes (ho_bytes a) -> bytes (ho_bytes b) -> (ho_eq a b = true <-> a = b).
Proof.
  intros [a|a|a] [b|b|b] Ha Hb; cbn [ho_eq ho_bytes] in *; try (split; congruence);
    rewrite ct_equal_spec by auto; split; congruence.
Qed.
Print Assumptions C17_hash_output_eq.

(** ** Non-vacuity *)
Example sha256_split_example :
  hash_stream Sha256 [repeat 1 63; []; repeat 2 2] = Ok (SHA256 (repeat 1 63 ++ [2; 2])).
Proof. vm_compute. reflexivity. Qed.
Example hmac_rfc4231_1 :
  hmac_stream Sha256 (repeat 0x0b 20) [[0x48; 0x69]; [0x20; 0x54]; [0x68; 0x65; 0x72; 0x65]] =
  Ok [0xb0;0x34;0x4c;0x61;0xd8;0xdb;0x38;0x53;0x5c;0xa8;0xaf;0xce;0xaf;0x0b;0xf1;0x2b;
      0x88;0x1d;0xc2;0x00;0xc9;0x83;0x3d;0xa7;0x26;0xe9;0x37;0x6c;0x2e;0x32;0xcf;0xf7].
Proof. vm_compute. reflexivity. Qed.
Example hashes_nonempty : In (Sha256, SHA256, 2 ^ 61) hashes.
Proof. left. reflexivity. Qed.
Example drbg_example : exists o, (let! d := drbg_new Sha256 [1] [2] [3] in drbg_fills Sha256 d [repeat 0 40; [0]]) = Ok o.
Proof.
  eexists. apply (C10_hmac_drbg Sha256 SHA256 (2 ^ 61) hashes_nonempty); try bytes_tac; try discriminate; cbn; lia.
Qed.
Example ct_example : ct_equal [1; 2; 3] [1; 2; 3] = true /\ ct_equal [1; 2; 3] [1; 2; 131] = false
  /\ ct_equal [1; 2] [1; 2; 0] = false /\ ct_select_i16 255 (-5) 7 = -5 /\ ct_copy false [1; 2] [255; 0] = [255; 0].
Proof. repeat split; reflexivity. Qed.
