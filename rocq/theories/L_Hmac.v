(** HMAC and HMAC_DRBG refine their specifications. *)
Require Import Verif.Base Verif.L_Base Verif.M_Blockwise Verif.L_Blocks Verif.M_Sha2 Verif.S_Sha2 Verif.M_Ct
  Verif.M_Hmac Verif.S_Hmac Verif.L_Hash.
Require Import ZifyNat.

(** ** constant-time comparison *)
Lemma lor_zero a b : Z.lor a b = 0 <-> a = 0 /\ b = 0.
Proof. apply Z.lor_eq_0_iff. Qed.

Lemma lxor_byte x y : byte_ok x -> byte_ok y -> byte_ok (Z.lxor x y).
Proof.
  unfold byte_ok. intros. split.
  - apply Z.lxor_nonneg. lia.
  - destruct (Z.eq_dec (Z.lxor x y) 0) as [->|]; [lia|].
    change 256 with (2 ^ 8). apply Z.log2_lt_pow2. { assert (0 <= Z.lxor x y) by (apply Z.lxor_nonneg; lia). lia. }
    pose proof (Z.log2_lxor x y ltac:(lia) ltac:(lia)).
    assert (forall z, 0 <= z < 256 -> Z.log2 z < 8).
    { intros z Hz. destruct (Z.eq_dec z 0) as [->|]; [cbn; lia|]. apply Z.log2_lt_pow2; cbn; lia. }
    pose proof (H2 x H). pose proof (H2 y H0). lia.
Qed.
Lemma lor_byte x y : byte_ok x -> byte_ok y -> byte_ok (Z.lor x y).
Proof.
  unfold byte_ok. intros. split.
  - apply Z.lor_nonneg. lia.
  - destruct (Z.eq_dec (Z.lor x y) 0) as [->|]; [lia|].
    change 256 with (2 ^ 8). apply Z.log2_lt_pow2. { assert (0 <= Z.lor x y) by (apply Z.lor_nonneg; lia). lia. }
    rewrite Z.log2_lor by lia.
    assert (forall z, 0 <= z < 256 -> Z.log2 z < 8).
    { intros z Hz. destruct (Z.eq_dec z 0) as [->|]; [cbn; lia|]. apply Z.log2_lt_pow2; cbn; lia. }
    pose proof (H1 x H). pose proof (H1 y H0). lia.
Qed.

Lemma ct_compare_loop_zero a : forall b acc, bytes a -> bytes b -> byte_ok acc -> length a = length b ->
  (ct_compare_loop acc a b = 0 <-> acc = 0 /\ a = b).
Proof.
  induction a as [|x a IH]; intros [|y b] acc Ha Hb Hacc L; cbn in L; try lia.
  - cbn. intuition.
  - apply bytes_cons in Ha, Hb. cbn [ct_compare_loop].
    assert (Hx : byte_ok (Z.lxor x y)) by (apply lxor_byte; tauto).
    assert (Hl : byte_ok (Z.lor acc (Z.lxor x y))) by (apply lor_byte; assumption).
    rewrite Z.mod_small by exact Hl. rewrite IH by (tauto || lia).
    rewrite lor_zero, Z.lxor_eq_0_iff. split.
    + intros [[-> ->] ->]. auto.
    + intros [-> E]. inversion E. auto.
Qed.

Lemma ct_equal_spec a b : bytes a -> bytes b -> ct_equal a b = true <-> a = b.
Proof.
  intros Ha Hb. unfold ct_equal.
  destruct (zlen a =? zlen b) eqn:E; cbn [negb].
  - rewrite Z.eqb_eq. unfold ct_compare_bytes. rewrite ct_compare_loop_zero; auto.
    + intuition. + unfold byte_ok; lia. + unfold zlen in E. lia.
  - split; [discriminate|]. intros ->. lia.
Qed.

(** ** What the HMAC proofs need of a hash *)
Record implements (H : hash_alg) (Hs : list Z -> list Z) (lim : Z) : Prop := {
  im_feed : forall cs, bytes (concat cs) -> exists c, feed H (ha_new H) cs = Ok c /\
     ha_finish H c = if lim <=? zlen (concat cs) then Panic else Ok (Hs (concat cs));
  im_len : forall m, zlen (Hs m) = ha_out H;
  im_bytes : forall m, bytes (Hs m);
  im_sizes : 0 < ha_out H <= ha_block H /\ ha_block H + ha_block H <= lim /\ ha_block H <= 2 ^ 16 /\ 2 ^ 32 <= lim }.

Lemma feed_app H cs ds : forall c, feed H c (cs ++ ds) = let! c := feed H c cs in feed H c ds.
Proof.
  induction cs as [|a cs IH]; intros c; cbn [feed app]; [reflexivity|].
  destruct (ha_update H c a); cbn [bind]; auto.
Qed.

Lemma bytes_concat (l : list (list Z)) : Forall bytes l -> bytes (concat l).
Proof. induction 1; cbn; [constructor|apply bytes_app; auto]. Qed.

Ltac sp := repeat match goal with |- _ /\ _ => split end.

Section Hmac.
  Context (H : hash_alg) (Hs : list Z -> list Z) (lim : Z) (I : implements H Hs lim).

  Lemma feed_one cs c b : bytes (concat cs) -> bytes b -> feed H (ha_new H) cs = Ok c ->
    exists c', ha_update H c b = Ok c' /\ feed H (ha_new H) (cs ++ [b]) = Ok c'.
  Proof using I.
    intros Hcs Hb Hc. destruct (im_feed _ _ _ I (cs ++ [b])) as (c' & H1 & _).
    { rewrite concat_app. apply bytes_app. cbn. rewrite app_nil_r. auto. }
    exists c'. split; auto. rewrite feed_app, Hc in H1. cbn [bind feed] in H1.
    destruct (ha_update H c b); cbn in H1; congruence.
  Qed.

  Lemma oneshot m : bytes m -> hash_oneshot H m = if lim <=? zlen m then Panic else Ok (Hs m).
  Proof using I.
    intros Hm. destruct (im_feed _ _ _ I [m]) as (c & H1 & H2).
    { cbn. rewrite app_nil_r. exact Hm. }
    unfold hash_oneshot. cbn [feed concat] in *. rewrite app_nil_r in H2.
    destruct (ha_update H (ha_new H) m) eqn:E; cbn [bind] in *; congruence.
  Qed.

  (** the HMAC state after absorbing [m] under [key] *)
  Definition hm_state (key m : list Z) (h : hmac H) : Prop :=
    (exists cs, concat cs = xor_pad 0x36 (K0 Hs (ha_block H) key) ++ m /\ feed H (ha_new H) cs = Ok (hm_inner h)) /\
    feed H (ha_new H) [xor_pad 0x5c (K0 Hs (ha_block H) key)] = Ok (hm_outer h).

  Lemma bytes_K0 key : bytes key -> bytes (K0 Hs (ha_block H) key).
  Proof using I.
    intros. unfold K0. apply bytes_app. split.
    - destruct (zlen key <=? ha_block H); auto. apply (im_bytes _ _ _ I).
    - apply bytes_repeat. unfold byte_ok; lia.
  Qed.
  Lemma zlen_K0 key : zlen (K0 Hs (ha_block H) key) = ha_block H.
  Proof using I.
    pose proof (im_sizes _ _ _ I). unfold K0. zl.
    destruct (zlen key <=? ha_block H) eqn:E. { lia. } rewrite (im_len _ _ _ I). lia.
  Qed.
  Lemma bytes_xor_pad c k : byte_ok c -> bytes k -> bytes (xor_pad c k).
  Proof. intros Hc Hk. unfold xor_pad. apply Forall_map. eapply Forall_impl; [|exact Hk]. intros. apply lxor_byte; auto. Qed.

  Lemma splice_K0 x : zlen x <= ha_block H ->
    splice (repeat 0 (Z.to_nat (ha_block H))) 0 x = x ++ repeat 0 (Z.to_nat (ha_block H - zlen x)).
  Proof using I.
    intros Hx. unfold splice. rewrite ztake_0. cbn [app]. f_equal. unfold zdrop.
    pose proof (zlen_nonneg x).
    assert (F : forall a m, (a <= m)%nat -> skipn a (repeat 0 m) = repeat 0 (m - a)).
    { induction a; intros [|m]; cbn; intros; auto; try lia. apply IHa. lia. }
    rewrite F by lia. f_equal. lia.
  Qed.

  Lemma hmac_new_ok key : bytes key ->
    (zlen key < lim -> exists h, hmac_new H key = Ok h /\ hm_state key [] h) /\
    (lim <= zlen key -> hmac_new H key = Panic).
  Proof using I.
    intros Hk. pose proof (im_sizes _ _ _ I) as Hsz. unfold hmac_new.
    rewrite zlen_repeat, Z2Nat.id by lia.
    assert (Hbl : forall kb, kb = K0 Hs (ha_block H) key -> exists h,
       (let! inner := ha_update H (ha_new H) (map (fun byte => Z.lxor byte 54) kb) in
        let! outer := ha_update H (ha_new H)
             (map (fun byte => Z.lxor byte (Z.lxor 92 54)) (map (fun byte => Z.lxor byte 54) kb)) in
        Ok {| hm_inner := inner; hm_outer := outer |}) = Ok h /\ hm_state key [] h).
    { intros kb ->. set (k0 := K0 Hs (ha_block H) key).
      change (map (fun byte => Z.lxor byte 54) k0) with (xor_pad 0x36 k0).
      replace (map (fun byte => Z.lxor byte (Z.lxor 92 54)) (xor_pad 0x36 k0)) with (xor_pad 0x5c k0).
      2:{ unfold xor_pad. rewrite map_map. apply map_ext. intros b.
          change (Z.lxor 92 54) with 106. rewrite Z.lxor_assoc. reflexivity. }
      assert (B0 : bytes k0) by (apply bytes_K0; exact Hk).
      destruct (im_feed _ _ _ I [xor_pad 0x36 k0]) as (ci & Hi & _).
      { cbn. rewrite app_nil_r. apply bytes_xor_pad; auto. unfold byte_ok; lia. }
      destruct (im_feed _ _ _ I [xor_pad 0x5c k0]) as (co & Ho & _).
      { cbn. rewrite app_nil_r. apply bytes_xor_pad; auto. unfold byte_ok; lia. }
      pose proof Hi as Hi'. pose proof Ho as Ho'. cbn [feed] in Hi, Ho.
      destruct (ha_update H (ha_new H) (xor_pad 54 k0)) eqn:Ei; cbn [bind] in *; try congruence.
      destruct (ha_update H (ha_new H) (xor_pad 92 k0)) eqn:Eo; cbn [bind] in *; try congruence.
      eexists. split; [reflexivity|]. split.
      - exists [xor_pad 54 k0]. split; [reflexivity|]. cbn [hm_inner]. congruence.
      - cbn [hm_outer]. fold k0. congruence. }
    destruct (ha_block H <? zlen key) eqn:E.
    - rewrite oneshot by exact Hk. destruct (lim <=? zlen key) eqn:E2; cbn [bind].
      + split; intros; [lia|reflexivity].
      + split; intros; [|lia]. apply Hbl. rewrite splice_K0 by (rewrite (im_len _ _ _ I); lia).
        unfold K0. destruct (zlen key <=? ha_block H) eqn:E3; [lia|reflexivity].
    - cbn [bind]. split; intros; [|lia]. apply Hbl. rewrite splice_K0 by lia.
      unfold K0. destruct (zlen key <=? ha_block H) eqn:E3; [reflexivity|lia].
  Qed.

  Lemma hmac_update_ok key m h b : bytes key -> bytes m -> bytes b -> hm_state key m h ->
    exists h', hmac_update h b = Ok h' /\ hm_state key (m ++ b) h'.
  Proof using I.
    intros Hk Hm Hb [(cs & Hcs & Hf) Ho]. unfold hmac_update.
    destruct (feed_one cs (hm_inner h) b) as (c' & Hu & Hf'); auto.
    { rewrite Hcs. apply bytes_app. split; auto. apply bytes_xor_pad, bytes_K0; auto. unfold byte_ok; lia. }
    rewrite Hu. cbn [bind]. eexists. split; [reflexivity|]. split; auto.
    exists (cs ++ [b]). rewrite concat_app, Hcs. cbn. rewrite app_nil_r, app_assoc. auto.
  Qed.

  Lemma hmac_updates_ok key items : forall m h, bytes key -> bytes m -> Forall bytes items -> hm_state key m h ->
    exists h', hmac_updates h items = Ok h' /\ hm_state key (m ++ concat items) h'.
  Proof using I.
    induction items as [|i items IH]; intros m h Hk Hm Hi Hh; cbn [hmac_updates concat].
    - rewrite app_nil_r. eauto.
    - inversion Hi; subst.
      destruct (hmac_update_ok key m h i) as (h1 & -> & Hh1); auto. cbn [bind].
      rewrite app_assoc. apply IH; auto. apply bytes_app; auto.
  Qed.

  Lemma hmac_finish_ok key m h : bytes key -> bytes m -> hm_state key m h ->
    hmac_finish h = if lim <=? ha_block H + zlen m then Panic else Ok (HMAC Hs (ha_block H) key m).
  Proof using I.
    intros Hk Hm [(cs & Hcs & Hf) Ho]. unfold hmac_finish.
    pose proof (im_sizes _ _ _ I) as Hsz.
    assert (Bk : bytes (xor_pad 0x36 (K0 Hs (ha_block H) key))) by (apply bytes_xor_pad, bytes_K0; auto; unfold byte_ok; lia).
    assert (Bo : bytes (xor_pad 0x5c (K0 Hs (ha_block H) key))) by (apply bytes_xor_pad, bytes_K0; auto; unfold byte_ok; lia).
    destruct (im_feed _ _ _ I cs) as (c & Hc & Hfin). { rewrite Hcs. apply bytes_app; auto. }
    assert (c = hm_inner h) by congruence. subst c. rewrite Hfin, Hcs. zl.
    assert (Hx : forall p, zlen (xor_pad p (K0 Hs (ha_block H) key)) = ha_block H).
    { intros. unfold xor_pad. rewrite zlen_map. apply zlen_K0. }
    rewrite Hx. destruct (lim <=? ha_block H + zlen m) eqn:E; [reflexivity|]. cbn [bind].
    set (inner := Hs _).
    destruct (feed_one [xor_pad 0x5c (K0 Hs (ha_block H) key)] (hm_outer h) inner) as (c2 & Hu & Hf2); auto.
    { cbn. rewrite app_nil_r. exact Bo. } { apply (im_bytes _ _ _ I). }
    rewrite Hu. cbn [bind].
    destruct (im_feed _ _ _ I ([xor_pad 0x5c (K0 Hs (ha_block H) key)] ++ [inner])) as (c3 & Hc3 & Hfin3).
    { cbn. rewrite app_nil_r. apply bytes_app; split; [exact Bo|]. apply (im_bytes _ _ _ I). }
    assert (c3 = c2) by congruence. subst c3. rewrite Hfin3. cbn [app concat]. rewrite app_nil_r.
    zl. rewrite Hx. unfold inner. rewrite (im_len _ _ _ I).
    destruct (lim <=? ha_block H + ha_out H) eqn:E4; [|reflexivity].
    exfalso. lia.
  Qed.

  (** one whole computation: new, any number of updates, finish *)
  Definition hmac_stream (key : list Z) (items : list (list Z)) : res (list Z) :=
    let! h := hmac_new H key in let! h := hmac_updates h items in hmac_finish h.

  Lemma hmac_stream_ok key items : bytes key -> Forall bytes items ->
    hmac_stream key items =
      if (lim <=? zlen key) || (lim <=? ha_block H + zlen (concat items)) then Panic
      else Ok (HMAC Hs (ha_block H) key (concat items)).
  Proof using I.
    intros Hk Hi. unfold hmac_stream. destruct (hmac_new_ok key Hk) as [H1 H2].
    destruct (lim <=? zlen key) eqn:E.
    - rewrite H2 by lia. reflexivity.
    - destruct H1 as (h & -> & Hh); [lia|]. cbn [bind orb].
      destruct (hmac_updates_ok key items [] h) as (h' & -> & Hh'); auto. { constructor. }
      cbn [bind]. apply hmac_finish_ok; auto. apply bytes_concat, Hi.
  Qed.

  (** ** DRBG *)
  Definition d_ok (d : drbg) : Prop := bytes (d_k d) /\ bytes (d_v d) /\ zlen (d_k d) = ha_out H /\ zlen (d_v d) = ha_out H.

  (** new; update*; finish as it appears in the DRBG *)
  Lemma mac_short {A} key items (k : list Z -> res A) : bytes key -> Forall bytes items -> zlen key < lim ->
    ha_block H + zlen (concat items) < lim ->
    (let! h := hmac_new H key in let! h := hmac_updates h items in let! o := hmac_finish h in k o)
      = k (HMAC Hs (ha_block H) key (concat items)).
  Proof using I.
    intros Hk Hi L1 L2. pose proof (hmac_stream_ok key items Hk Hi) as X. unfold hmac_stream in X.
    replace ((lim <=? zlen key) || (lim <=? ha_block H + zlen (concat items))) with false in X by lia.
    destruct (hmac_new H key); cbn [bind] in *; try congruence.
    destruct (hmac_updates a items); cbn [bind] in *; try congruence.
    rewrite X. reflexivity.
  Qed.

  Lemma zlen_HMAC k m : zlen (HMAC Hs (ha_block H) k m) = ha_out H.
  Proof using I. apply (im_len _ _ _ I). Qed.
  Lemma bytes_HMAC k m : bytes (HMAC Hs (ha_block H) k m).
  Proof using I. apply (im_bytes _ _ _ I). Qed.

  (** list-of-updates normal form *)
  Lemma upd2 (h : hmac H) a b rest {A} (k : hmac H -> res A) :
    (let! h := hmac_update h a in let! h := hmac_update h b in let! h := hmac_updates h rest in k h)
    = (let! h := hmac_updates h (a :: b :: rest) in k h).
  Proof.
    cbn [hmac_updates]. destruct (hmac_update h a); cbn [bind]; auto.
    destruct (hmac_update a0 b); cbn [bind]; auto.
  Qed.
  Lemma upd1 (h : hmac H) a {A} (k : hmac H -> res A) :
    (let! h := hmac_update h a in k h) = (let! h := hmac_updates h [a] in k h).
  Proof. cbn [hmac_updates]. destruct (hmac_update h a); cbn [bind]; auto. Qed.

  Lemma bind_ext {A B} (x : res A) (f g : A -> res B) : (forall a, f a = g a) -> bind x f = bind x g.
  Proof. intros E. destruct x; cbn; auto. Qed.

  Lemma mac3 {A} key a b rest (k : list Z -> res A) : bytes key -> bytes a -> bytes b -> Forall bytes rest ->
    zlen key < lim -> ha_block H + zlen a + zlen b + zlen (concat rest) < lim ->
    (let! h := hmac_new H key in let! h := hmac_update h a in let! h := hmac_update h b in
     let! h := hmac_updates h rest in let! o := hmac_finish h in k o)
      = k (HMAC Hs (ha_block H) key (a ++ b ++ concat rest)).
  Proof using I.
    intros. change (a ++ b ++ concat rest) with (concat (a :: b :: rest)).
    rewrite <- (mac_short key (a :: b :: rest) k); auto.
    - apply bind_ext. intros h. apply (upd2 h a b rest (fun h => let! o := hmac_finish h in k o)).
    - cbn [concat]. zl. lia.
  Qed.
  Lemma mac1 {A} key a (k : list Z -> res A) : bytes key -> bytes a ->
    zlen key < lim -> ha_block H + zlen a < lim ->
    (let! h := hmac_new H key in let! h := hmac_update h a in let! o := hmac_finish h in k o)
      = k (HMAC Hs (ha_block H) key a).
  Proof using I.
    intros. transitivity (k (HMAC Hs (ha_block H) key (concat [a]))).
    - rewrite <- (mac_short key [a] k); auto.
      + apply bind_ext. intros h. apply (upd1 h a (fun h => let! o := hmac_finish h in k o)).
      + cbn [concat]. rewrite app_nil_r. lia.
    - cbn [concat]. rewrite app_nil_r. reflexivity.
  Qed.

  Lemma drbg_update_ok d ins : d_ok d -> Forall bytes ins ->
    zlen (concat ins) + 2 ^ 24 < lim -> (ins = [] \/ concat ins <> []) ->
    exists d', drbg_update H d ins = Ok d' /\ d_ok d' /\
      (d_k d', d_v d') = Update Hs (ha_block H) (concat ins) (d_k d, d_v d) /\
      d_reseed_counter d' = d_reseed_counter d + 1.
  Proof using I.
    intros (Bk & Bv & Lk & Lv) Hi Hlen Hne. pose proof (im_sizes _ _ _ I) as Hsz. unfold drbg_update.
    pose proof (zlen_nonneg (concat ins)).
    assert (B0 : bytes [0]) by (constructor; [unfold byte_ok; lia|constructor]).
    assert (B1 : bytes [1]) by (constructor; [unfold byte_ok; lia|constructor]).
    rewrite mac3 by (auto; change (zlen [0]) with 1; lia).
    set (k1 := HMAC Hs (ha_block H) (d_k d) (d_v d ++ [0] ++ concat ins)).
    assert (Bk1 : bytes k1) by apply bytes_HMAC. assert (Lk1 : zlen k1 = ha_out H) by apply zlen_HMAC.
    rewrite mac1 by (auto; lia).
    set (v1 := HMAC Hs (ha_block H) k1 (d_v d)).
    assert (Bv1 : bytes v1) by apply bytes_HMAC. assert (Lv1 : zlen v1 = ha_out H) by apply zlen_HMAC.
    cbv zeta. destruct ins as [|i ins].
    - eexists. split; [reflexivity|]. unfold d_ok; cbn [d_k d_v d_reseed_counter]. repeat split; auto.
    - rewrite mac3 by (auto; change (zlen [1]) with 1; lia).
      set (k2 := HMAC Hs (ha_block H) k1 (v1 ++ [1] ++ concat (i :: ins))).
      assert (Bk2 : bytes k2) by apply bytes_HMAC. assert (Lk2 : zlen k2 = ha_out H) by apply zlen_HMAC.
      rewrite mac1 by (auto; lia).
      eexists. split; [reflexivity|]. unfold d_ok; cbn [d_k d_v d_reseed_counter].
      repeat split; auto using bytes_HMAC, zlen_HMAC.
      unfold Update. fold k1. fold v1. fold k2.
      destruct (concat (i :: ins)) eqn:E; [destruct Hne; congruence|reflexivity].
  Qed.

  Lemma drbg_new_ok e n p : bytes e -> bytes n -> bytes p -> zlen (e ++ n ++ p) + 2 ^ 24 < lim ->
    e ++ n ++ p <> [] ->
    exists d, drbg_new H e n p = Ok d /\ d_ok d /\ d_reseed_counter d = 1 /\
      (d_k d, d_v d) = Instantiate Hs (ha_block H) (ha_out H) e n p.
  Proof using I.
    intros. pose proof (im_sizes _ _ _ I) as Hsz. unfold drbg_new.
    edestruct (drbg_update_ok {| d_k := repeat 0 (Z.to_nat (ha_out H)); d_v := repeat 1 (Z.to_nat (ha_out H)); d_reseed_counter := 0 |} [e; n; p])
      as (d & J1 & J2 & J3 & J4).
    - unfold d_ok; cbn [d_k d_v]. rewrite !zlen_repeat. repeat split; try lia; apply bytes_repeat; unfold byte_ok; lia.
    - repeat constructor; auto.
    - cbn [concat]. rewrite app_nil_r. auto.
    - right. cbn [concat]. rewrite app_nil_r. auto.
    - exists d. cbn [concat d_k d_v d_reseed_counter] in *. rewrite app_nil_r in J3. auto.
  Qed.

  Lemma generate_block_ok d : d_ok d -> exists d', drbg_generate_block H d = Ok d' /\ d_ok d' /\
    d_k d' = d_k d /\ d_v d' = HMAC Hs (ha_block H) (d_k d) (d_v d) /\ d_reseed_counter d' = d_reseed_counter d.
  Proof using I.
    intros (Bk & Bv & Lk & Lv). pose proof (im_sizes _ _ _ I) as Hsz. unfold drbg_generate_block.
    rewrite mac1 by (auto; lia). eexists. split; [reflexivity|].
    unfold d_ok; cbn [d_k d_v d_reseed_counter]. repeat split; auto using bytes_HMAC, zlen_HMAC.
  Qed.

  (** gen_loop in accumulating form equals the chunk loop *)
  Lemma fill_chunks_ok : forall fuel out d temp, d_ok d -> (length out <= fuel)%nat ->
    exists d' w, drbg_fill_chunks H d (chunks (ha_out H) out) = Ok (d', w) /\ d_ok d' /\
      d_k d' = d_k d /\ d_reseed_counter d' = d_reseed_counter d /\
      exists t, gen_loop Hs (ha_block H) fuel (zlen temp + zlen out) (d_k d) (d_v d) temp = (d_v d', temp ++ t)
        /\ ztake (zlen out) t = w.
  Proof using I.
    pose proof (im_sizes _ _ _ I) as Hsz. set (hl := ha_out H) in *.
    induction fuel as [|fuel IH]; intros out d temp Hd Hf.
    - destruct out; [|cbn in Hf; lia]. exists d, []. unfold chunks.
      change (zlen (@nil Z)) with 0. rewrite Z.div_0_l by lia. cbn.
      sp; auto. exists []. rewrite app_nil_r. auto.
    - destruct out as [|o0 out'].
      { exists d, []. unfold chunks. change (zlen (@nil Z)) with 0. rewrite Z.div_0_l by lia. cbn [chunks_exact chunks_fuel length app].
        change (0 =? 0 * hl) with true. cbn. replace (zlen temp <? zlen temp + 0) with false by lia.
        sp; auto. exists []. rewrite app_nil_r. auto. }
      set (out := o0 :: out') in *. assert (Hpos : 0 < zlen out) by (unfold out, zlen; cbn; lia).
      assert (Hch : chunks hl out = ztake hl out :: chunks hl (zdrop hl out)).
      { unfold chunks at 1. destruct (Z_lt_ge_dec (zlen out) hl).
        - rewrite chunks_exact_short by lia. rewrite Z.div_small by lia. cbn [app].
          replace (zlen out =? 0 * hl) with false by lia. rewrite zdrop_0.
          rewrite ztake_all, zdrop_all by lia. unfold chunks. change (zlen (@nil Z)) with 0.
          rewrite Z.div_0_l by lia. reflexivity.
        - rewrite chunks_exact_cons by lia. cbn [app]. f_equal. unfold chunks.
          rewrite zlen_zdrop by lia.
          assert (0 <= (zlen out - hl) / hl) by (apply Z.div_pos; lia).
          assert (Eq : zlen out / hl = (zlen out - hl) / hl + 1).
          { rewrite <- Z.div_add by lia. f_equal. lia. }
          rewrite Eq.
          replace (zlen out =? ((zlen out - hl) / hl + 1) * hl)
            with (zlen out - hl =? (zlen out - hl) / hl * hl) by lia.
          destruct (zlen out - hl =? (zlen out - hl) / hl * hl); [reflexivity|].
          f_equal. f_equal. rewrite zdrop_zdrop by nia. f_equal. lia. }
      rewrite Hch. cbn [drbg_fill_chunks].
      destruct (generate_block_ok d Hd) as (d1 & -> & Hd1 & Ek & Ev & Er). cbn [bind].
      assert (Lv1 : zlen (d_v d1) = hl) by apply Hd1.
      cbn [gen_loop]. replace (zlen temp <? zlen temp + zlen out) with true by lia.
      rewrite <- Ev, <- Ek.
      destruct (Z_lt_ge_dec (zlen out) hl) as [Hs1|Hs1].
      + (* last short chunk *)
        rewrite (zdrop_all hl out) by lia. rewrite (ztake_all hl out) by lia.
        unfold chunks. change (zlen (@nil Z)) with 0. rewrite Z.div_0_l by lia. change (0 =? 0 * hl) with true.
        cbn [chunks_exact chunks_fuel length app drbg_fill_chunks bind].
        exists d1, (ztake (zlen out) (d_v d1) ++ []). split; [reflexivity|]. rewrite app_nil_r.
        sp; auto. exists (d_v d1). split; [|reflexivity].
        destruct fuel; [reflexivity|]. cbn [gen_loop]. zl. rewrite Lv1.
        replace (zlen temp + hl <? zlen temp + zlen out) with false by lia. reflexivity.
      + destruct (IH (zdrop hl out) d1 (temp ++ d_v d1)) as (d2 & w & Hw & Hd2 & E1 & E2 & t & Ht & Htw); auto.
        { pose proof (zlen_zdrop hl out ltac:(lia)) as Z1. unfold zlen in Z1. unfold out in *. cbn [length] in *. lia. }
        rewrite Hw. cbn [bind].
        exists d2, (ztake hl (d_v d1) ++ w). rewrite zlen_ztake by lia. split; [reflexivity|].
        sp; auto; try congruence.
        exists (d_v d1 ++ t). rewrite zlen_zdrop in * by lia. zl. rewrite Lv1 in Ht.
        replace (zlen temp + hl + (zlen out - hl)) with (zlen temp + zlen out) in Ht by lia.
        rewrite Ht. rewrite app_assoc. split; [reflexivity|].
        rewrite ztake_app_ge by lia. rewrite Lv1, Htw. rewrite (ztake_all hl (d_v d1)) by lia. reflexivity.
  Qed.

  Lemma fill_ok d out : d_ok d -> d_reseed_counter d < 2 ^ 48 ->
    exists d' w, drbg_fill H d out = Ok (d', w) /\ d_ok d' /\ d_reseed_counter d' = d_reseed_counter d + 1 /\
      Generate Hs (ha_block H) (zlen out) (d_k d, d_v d) = (w, (d_k d', d_v d')).
  Proof using I.
    intros Hd Hr. pose proof (im_sizes _ _ _ I) as Hsz. unfold drbg_fill.
    replace (d_reseed_counter d <? 281474976710656) with true by lia. cbn [negb].
    destruct Hd as (Bk & Bv & Lk & Lv) eqn:Ed. clear Ed. rewrite Lv.
    destruct (fill_chunks_ok (Z.to_nat (zlen out)) out d []) as (d1 & w & Hw & Hd1 & E1 & E2 & t & Ht & Htw).
    { sp; auto. } { unfold zlen. lia. }
    rewrite Hw. cbn [bind].
    destruct (drbg_update_ok d1 []) as (d2 & Hu & Hd2 & E3 & E4); auto. { cbn. change (zlen (@nil Z)) with 0. lia. }
    rewrite Hu. cbn [bind]. exists d2, w. sp; try reflexivity; try apply Hd2; try lia.
    unfold Generate. change (zlen (@nil Z)) with 0 in Ht. cbn [app] in Ht. rewrite Z.add_0_l in Ht.
    rewrite Ht. rewrite Htw. cbn [concat] in E3. rewrite E1 in E3. rewrite E3. reflexivity.
  Qed.

  Lemma fills_ok : forall outs d, d_ok d -> d_reseed_counter d + zlen outs <= 2 ^ 48 ->
    drbg_fills H d outs = Ok (Generates Hs (ha_block H) (map (@zlen Z) outs) (d_k d, d_v d)).
  Proof using I.
    induction outs as [|o outs IH]; intros d Hd Hr; [reflexivity|].
    rewrite zlen_cons in Hr. pose proof (zlen_nonneg outs).
    cbn [drbg_fills map Generates].
    destruct (fill_ok d o Hd) as (d' & w & -> & Hd' & E1 & E2); [lia|]. cbn [bind].
    rewrite E2. rewrite IH by (auto; lia). reflexivity.
  Qed.
End Hmac.

(** ** the three hashes *)
Lemma flat_map_len wb l : zlen (flat_map (be_bytes wb) l) = zlen l * Z.of_nat wb.
Proof. induction l; cbn [flat_map]; [reflexivity|]. rewrite zlen_app, zlen_cons, zlen_be_bytes, IHl. lia. Qed.
Lemma flat_map_bytes wb l : bytes (flat_map (be_bytes wb) l).
Proof. induction l; cbn [flat_map]; [constructor|]. apply bytes_app. split; [apply be_bytes_bytes|exact IHl]. Qed.
Lemma fips_round_len F s kw : length (fips_round F s kw) = length s.
Proof. unfold fips_round. do 9 (destruct s as [|? s]; [reflexivity|]). reflexivity. Qed.
Lemma fips_block_len F s b : length (fips_block F s b) = length s.
Proof.
  unfold fips_block. rewrite map_length, combine_length.
  assert (E : forall l s, length (fold_left (fips_round F) l s) = length s).
  { induction l; intros; cbn [fold_left]; [reflexivity|]. rewrite IHl. apply fips_round_len. }
  rewrite E. lia.
Qed.
Lemma fips_blocks_len F bs n : forall s b, length (fips_blocks F bs n s b) = length s.
Proof. induction n; intros; cbn [fips_blocks]; [reflexivity|]. rewrite IHn. apply fips_block_len. Qed.
Lemma fips_hash_len F H0 m : length H0 = 8%nat -> 0 <= f_w F / 8 -> zlen (fips_hash F H0 m) = 8 * (f_w F / 8).
Proof.
  intros L Hw. unfold fips_hash. rewrite flat_map_len. unfold zlen at 1. rewrite fips_blocks_len, L. lia.
Qed.
Lemma SHA256_len m : zlen (SHA256 m) = 32. Proof. unfold SHA256. rewrite fips_hash_len; [reflexivity|vm_compute; reflexivity|cbn; lia]. Qed.
Lemma SHA512_len m : zlen (SHA512 m) = 64. Proof. unfold SHA512. rewrite fips_hash_len; [reflexivity|vm_compute; reflexivity|cbn; lia]. Qed.
Lemma SHA384_len m : zlen (SHA384 m) = 48.
Proof.
  unfold SHA384. change (firstn 48) with (@ztake Z 48). apply zlen_ztake.
  rewrite fips_hash_len; [cbn; lia|vm_compute; reflexivity|cbn; lia].
Qed.

Lemma imp256 : implements Sha256 SHA256 (2 ^ 61).
Proof.
  constructor.
  - intros cs Hcs. destruct (feed256 cs) as (c & H1 & H2). exists c. split; auto. rewrite H2.
    rewrite raw256_spec by exact Hcs. reflexivity.
  - exact SHA256_len.
  - intros. apply flat_map_bytes.
  - cbn [ha_out ha_block Sha256]. lia.
Qed.
Lemma imp384 : implements Sha384 SHA384 (2 ^ 64).
Proof.
  constructor.
  - intros cs Hcs. destruct (feed384 cs) as (c & H1 & H2). exists c. split; auto. rewrite H2.
    rewrite raw384_spec by exact Hcs. reflexivity.
  - exact SHA384_len.
  - intros. apply bytes_firstn, flat_map_bytes.
  - cbn [ha_out ha_block Sha384]. lia.
Qed.
Lemma imp512 : implements Sha512 SHA512 (2 ^ 64).
Proof.
  constructor.
  - intros cs Hcs. destruct (feed512 cs) as (c & H1 & H2). exists c. split; auto. rewrite H2.
    rewrite raw512_spec by exact Hcs. reflexivity.
  - exact SHA512_len.
  - intros. apply flat_map_bytes.
  - cbn [ha_out ha_block Sha512]. lia.
Qed.
