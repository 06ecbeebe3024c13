(** Poly1305 limb arithmetic is exact and never overflows. *)
Require Import Verif.Base Verif.L_Base Verif.L_Blocks Verif.L_Bits Verif.M_Blockwise Verif.M_Poly1305 Verif.S_ChaCha.
Require Import ZifyNat.
Ltac sp := repeat match goal with |- _ /\ _ => split end.

Definition val5 (h : f5) : Z :=
  let '(h0, h1, h2, h3, h4) := h in h0 + 2 ^ 26 * (h1 + 2 ^ 26 * (h2 + 2 ^ 26 * (h3 + 2 ^ 26 * h4))).
Definition M26 : Z := 2 ^ 26.
Lemma M26_eq : M26 = 67108864. Proof. reflexivity. Qed.

Definition r_ok (r : f5) (s : Z * Z * Z * Z) : Prop :=
  let '(r0, r1, r2, r3, r4) := r in let '(s0, s1, s2, s3) := s in
  0 <= r0 < M26 /\ 0 <= r1 < M26 /\ 0 <= r2 < M26 /\ 0 <= r3 < M26 /\ 0 <= r4 < M26 /\
  s0 = 5 * r1 /\ s1 = 5 * r2 /\ s2 = 5 * r3 /\ s3 = 5 * r4.
(** accumulator invariant between blocks *)
Definition h_ok (h : f5) : Prop :=
  let '(h0, h1, h2, h3, h4) := h in
  0 <= h0 < M26 /\ 0 <= h1 < M26 + 64 /\ 0 <= h2 < M26 /\ 0 <= h3 < M26 /\ 0 <= h4 < M26.
Definition blk_ok (h : f5) : Prop :=
  let '(h0, h1, h2, h3, h4) := h in
  0 <= h0 < M26 /\ 0 <= h1 < M26 /\ 0 <= h2 < M26 /\ 0 <= h3 < M26 /\ 0 <= h4 < M26.

Lemma and26 x : Z.land x 0x3ffffff = x mod M26.
Proof. change 0x3ffffff with (2 ^ 26 - 1). apply land_ones_mod. lia. Qed.
Lemma shr26 x : Z.shiftr x 26 = x / M26.
Proof. apply Z.shiftr_div_pow2. lia. Qed.
Lemma split26 x : 0 <= x -> exists q m, x / M26 = q /\ x mod M26 = m /\ x = M26 * q + m /\ 0 <= m < M26 /\ 0 <= q.
Proof.
  intros. exists (x / M26), (x mod M26). rewrite M26_eq.
  pose proof (Z.div_mod x 67108864). pose proof (Z.mod_pos_bound x 67108864). pose proof (Z.div_pos x 67108864). lia.
Qed.
Lemma chk_ok w x : 0 <= x < 2 ^ w -> chk w x = Ok x.
Proof. intros. unfold chk. destruct ((0 <=? x) && (x <? 2 ^ w)) eqn:E; [reflexivity|lia]. Qed.
Lemma pb a b A B : 0 <= a < A -> 0 <= b < B -> 0 <= a * b <= (A - 1) * (B - 1).
Proof. intros. nia. Qed.

Lemma poly_add_ok h x : h_ok h -> blk_ok x ->
  val5 (poly_add h x) = val5 h + val5 x /\
  let '(h0, h1, h2, h3, h4) := poly_add h x in
  0 <= h0 < 2 * M26 /\ 0 <= h1 < 2 * M26 + 64 /\ 0 <= h2 < 2 * M26 /\ 0 <= h3 < 2 * M26 /\ 0 <= h4 < 2 * M26.
Proof.
  destruct h as [[[[h0 h1] h2] h3] h4], x as [[[[x0 x1] x2] x3] x4]. unfold h_ok, blk_ok, poly_add, wadd.
  rewrite M26_eq. intros. rewrite !Z.mod_small by lia. split; [cbn [val5]; lia|lia].
Qed.

Lemma sum64_4 B a b c d e : 5 * B < 2 ^ 64 -> 0 <= a <= B -> 0 <= b <= B -> 0 <= c <= B -> 0 <= d <= B -> 0 <= e <= B ->
  sum64 a [b; c; d; e] = Ok (a + b + c + d + e) /\ 0 <= a + b + c + d + e <= 5 * B.
Proof. intros. cbn [sum64]. rewrite !chk_ok by lia. cbn [bind]. rewrite !chk_ok by lia. cbn [bind].
  rewrite !chk_ok by lia. cbn [bind]. rewrite !chk_ok by lia. cbn [bind]. split; [reflexivity|lia]. Qed.
Lemma pB h r : 0 <= h < 2 * M26 + 64 -> 0 <= r < M26 -> 0 <= h * r <= 134217791 * 67108863.
Proof. rewrite M26_eq. intros. pose proof (pb _ _ _ _ H H0). lia. Qed.
Lemma pB5 h r : 0 <= h < 2 * M26 + 64 -> 0 <= r < M26 -> 0 <= h * (5 * r) <= 5 * (134217791 * 67108863).
Proof. intros. pose proof (pB _ _ H H0). lia. Qed.
Lemma pBw h r : 0 <= h < 2 * M26 + 64 -> 0 <= r < M26 -> 0 <= h * r <= 5 * (134217791 * 67108863).
Proof. intros. pose proof (pB _ _ H H0). lia. Qed.

Lemma poly_mul_ok h r s : r_ok r s ->
  (let '(h0, h1, h2, h3, h4) := h in
   0 <= h0 < 2 * M26 /\ 0 <= h1 < 2 * M26 + 64 /\ 0 <= h2 < 2 * M26 /\ 0 <= h3 < 2 * M26 /\ 0 <= h4 < 2 * M26) ->
  exists h', poly_mul h r s = Ok h' /\ h_ok h' /\ exists k, val5 h * val5 r = val5 h' + P1305 * k.
Proof.
  destruct h as [[[[h0 h1] h2] h3] h4], r as [[[[r0 r1] r2] r3] r4], s as [[[s0 s1] s2] s3].
  intros (R0 & R1 & R2 & R3 & R4 & -> & -> & -> & ->) (H0 & H1 & H2 & H3 & H4).
  unfold poly_mul.
  assert (H0' : 0 <= h0 < 2 * M26 + 64) by lia. assert (H2' : 0 <= h2 < 2 * M26 + 64) by lia.
  assert (H3' : 0 <= h3 < 2 * M26 + 64) by lia. assert (H4' : 0 <= h4 < 2 * M26 + 64) by lia.
  destruct (sum64_4 (5 * (134217791 * 67108863)) (h0 * r0) (h1 * (5 * r4)) (h2 * (5 * r3)) (h3 * (5 * r2)) (h4 * (5 * r1)))
    as [-> D0]; [reflexivity|apply pBw; assumption|apply pB5; assumption ..|].
  destruct (sum64_4 (5 * (134217791 * 67108863)) (h0 * r1) (h1 * r0) (h2 * (5 * r4)) (h3 * (5 * r3)) (h4 * (5 * r2)))
    as [-> D1]; [reflexivity|first [apply pB5; assumption|apply pBw; assumption] ..|].
  destruct (sum64_4 (5 * (134217791 * 67108863)) (h0 * r2) (h1 * r1) (h2 * r0) (h3 * (5 * r4)) (h4 * (5 * r3)))
    as [-> D2]; [reflexivity|first [apply pB5; assumption|apply pBw; assumption] ..|].
  destruct (sum64_4 (5 * (134217791 * 67108863)) (h0 * r3) (h1 * r2) (h2 * r1) (h3 * r0) (h4 * (5 * r4)))
    as [-> D3]; [reflexivity|first [apply pB5; assumption|apply pBw; assumption] ..|].
  destruct (sum64_4 (134217791 * 67108863) (h0 * r4) (h1 * r3) (h2 * r2) (h3 * r1) (h4 * r0))
    as [-> D4]; [reflexivity|apply pB; assumption ..|].
  cbn [bind].
  set (d0 := h0 * r0 + h1 * (5 * r4) + h2 * (5 * r3) + h3 * (5 * r2) + h4 * (5 * r1)) in *.
  set (d1 := h0 * r1 + h1 * r0 + h2 * (5 * r4) + h3 * (5 * r3) + h4 * (5 * r2)) in *.
  set (d2 := h0 * r2 + h1 * r1 + h2 * r0 + h3 * (5 * r4) + h4 * (5 * r3)) in *.
  set (d3 := h0 * r3 + h1 * r2 + h2 * r1 + h3 * r0 + h4 * (5 * r4)) in *.
  set (d4 := h0 * r4 + h1 * r3 + h2 * r2 + h3 * r1 + h4 * r0) in *.
  assert (V : (h0 + 2^26 * (h1 + 2^26 * (h2 + 2^26 * (h3 + 2^26 * h4)))) * (r0 + 2^26 * (r1 + 2^26 * (r2 + 2^26 * (r3 + 2^26 * r4))))
     = d0 + 2^26 * (d1 + 2^26 * (d2 + 2^26 * (d3 + 2^26 * d4))) +
       P1305 * ((h1 * r4 + h2 * r3 + h3 * r2 + h4 * r1) + 2^26 * (h2 * r4 + h3 * r3 + h4 * r2)
                + 2^52 * (h3 * r4 + h4 * r3) + 2^78 * (h4 * r4))).
  { unfold d0, d1, d2, d3, d4, P1305. ring. }
  cbn [val5]. rewrite V. clear V.
  set (K := (h1 * r4 + h2 * r3 + h3 * r2 + h4 * r1) + 2^26 * (h2 * r4 + h3 * r3 + h4 * r2)
                + 2^52 * (h3 * r4 + h4 * r3) + 2^78 * (h4 * r4)).
  clearbody d0 d1 d2 d3 d4 K. clear - D0 D1 D2 D3 D4.
  rewrite ?and26, ?shr26.
  destruct (split26 d0 ltac:(lia)) as (c0 & m0 & -> & -> & E0 & B0 & C0).
  rewrite chk_ok by (rewrite M26_eq in *; lia). cbn [bind]. rewrite ?and26, ?shr26.
  destruct (split26 (d1 + c0) ltac:(lia)) as (c1 & m1 & -> & -> & E1 & B1 & C1).
  rewrite chk_ok by (rewrite M26_eq in *; lia). cbn [bind]. rewrite ?and26, ?shr26.
  destruct (split26 (d2 + c1) ltac:(lia)) as (c2 & m2 & -> & -> & E2 & B2 & C2).
  rewrite chk_ok by (rewrite M26_eq in *; lia). cbn [bind]. rewrite ?and26, ?shr26.
  destruct (split26 (d3 + c2) ltac:(lia)) as (c3 & m3 & -> & -> & E3 & B3 & C3).
  rewrite chk_ok by (rewrite M26_eq in *; lia). cbn [bind]. rewrite ?and26, ?shr26.
  destruct (split26 (d4 + c3) ltac:(lia)) as (c4 & m4 & -> & -> & E4 & B4 & C4).
  rewrite M26_eq in *. rewrite (Z.mod_small c4) by lia.
  rewrite chk_ok by lia. cbn [bind]. rewrite chk_ok by lia. cbn [bind].
  rewrite ?and26, ?shr26.
  destruct (split26 (m0 + c4 * 5) ltac:(lia)) as (c5 & m5 & -> & -> & E5 & B5 & C5). rewrite M26_eq in *.
  rewrite chk_ok by lia. cbn [bind].
  eexists; split; [reflexivity|]. cbn [h_ok val5]. rewrite M26_eq. split; [lia|].
  exists (c4 + K). unfold P1305. change (2 ^ 26) with 67108864 in *.
  change (2 ^ 130 - 5) with (67108864 * 67108864 * 67108864 * 67108864 * 67108864 - 5). lia.
Qed.

Lemma land_mod_small x k m : 0 <= k -> 0 <= m < 2 ^ k -> Z.land (x mod 2 ^ k) m = Z.land x m.
Proof.
  intros Hk Hm. rewrite <- (Z.land_ones x k) by auto. rewrite <- Z.land_assoc. f_equal.
  rewrite Z.land_comm, Z.land_ones by auto. apply Z.mod_small; auto.
Qed.
Lemma limb b i m : bytes b -> 0 <= i <= 4 -> 3 * i + 4 <= zlen b -> 0 <= m < 2 ^ (32 - 2 * i) ->
  Z.land (Z.shiftr (read32 b (3 * i)) (2 * i)) m = Z.land (le_val b / 2 ^ (26 * i)) m.
Proof.
  intros Hb Hi Hl Hm. unfold read32. rewrite le_val_slice by (auto; lia). change (8 * 4) with 32.
  rewrite Z.shiftr_div_pow2 by lia. rewrite mod_div_pow by lia. rewrite land_mod_small by lia.
  rewrite Z.div_div by (apply Z.pow_nonzero || apply Z.pow_pos_nonneg; lia). rewrite <- Z.pow_add_r by lia. do 3 f_equal. lia.
Qed.
Lemma limb0 b m : bytes b -> 4 <= zlen b -> 0 <= m < 2 ^ 32 -> Z.land (read32 b 0) m = Z.land (le_val b) m.
Proof. intros. pose proof (limb b 0 m) as L. rewrite Z.shiftr_0_r, Z.mul_0_r, Z.pow_0_r, Z.div_1_r in L. apply L; auto; lia. Qed.

Definition limbs_of (b : list Z) (m0 m1 m2 m3 m4 : Z) : f5 :=
  (Z.land (read32 b 0) m0, Z.land (Z.shiftr (read32 b 3) 2) m1, Z.land (Z.shiftr (read32 b 6) 4) m2,
   Z.land (Z.shiftr (read32 b 9) 6) m3, Z.land (Z.shiftr (read32 b 12) 8) m4).
Lemma limbs_val5 b m0 m1 m2 m3 m4 : bytes b -> 16 <= zlen b ->
  0 <= m0 < M26 -> 0 <= m1 < M26 -> 0 <= m2 < M26 -> 0 <= m3 < M26 -> 0 <= m4 < 2 ^ 24 ->
  val5 (limbs_of b m0 m1 m2 m3 m4) = Z.land (le_val b) (val5 (m0, m1, m2, m3, m4)) /\
  blk_ok (limbs_of b m0 m1 m2 m3 m4).
Proof.
  intros Hb Hl H0 H1 H2 H3 H4. unfold limbs_of.
  assert (HM : M26 = 2 ^ 26) by reflexivity.
  rewrite limb0 by (auto; rewrite ?HM in *; lia).
  rewrite (limb b 1), (limb b 2), (limb b 3), (limb b 4) by (rewrite ?HM in *; auto; lia).
  split.
  - cbn [val5]. rewrite !land_split by (rewrite ?HM in *; lia). rewrite !Z.div_div by lia.
    rewrite <- !Z.pow_add_r by lia. reflexivity.
  - cbn [blk_ok]. rewrite HM in *. repeat match goal with |- _ <= _ < _ => fail 1 | |- _ /\ _ => split end; try (apply land_range_r; lia).
    all: try (pose proof (land_range_r 24 (le_val b / 2 ^ (26 * 4)) m4 H4); lia).
    all: match goal with |- context [Z.land ?x ?m] => pose proof (land_range_r 26 x m ltac:(lia)); lia end.
Qed.

(** clamped key *)
Lemma land_clamp16 b : bytes b -> 16 <= zlen b ->
  Z.land (le_val b) 0x0ffffffc0ffffffc0ffffffc0fffffff = clamp (le_val (ztake 16 b)).
Proof.
  intros Hb Hl. unfold clamp. rewrite <- (zdrop_0 b) at 2. rewrite le_val_slice by (auto; lia).
  rewrite Z.mul_0_r, Z.pow_0_r, Z.div_1_r. symmetry. apply land_mod_small; lia.
Qed.
Lemma r_limbs key : bytes key -> zlen key = 32 ->
  let r := limbs_of key 0x3ffffff 0x3ffff03 0x3ffc0ff 0x3f03fff 0x00fffff in
  val5 r = clamp (le_val (ztake 16 key)) /\ blk_ok r.
Proof.
  intros Hb Hl r. destruct (limbs_val5 key 0x3ffffff 0x3ffff03 0x3ffc0ff 0x3f03fff 0x00fffff) as [V B]; auto;
    try (rewrite M26_eq); try lia.
  split; auto. unfold r. rewrite V, <- land_clamp16 by (auto; lia). reflexivity.
Qed.

(** message blocks *)
Lemma whole_block b : bytes b -> zlen b = 16 ->
  let x := (Z.land (read32 b 0) 0x3ffffff, Z.land (Z.shiftr (read32 b 3) 2) 0x3ffffff, Z.land (Z.shiftr (read32 b 6) 4) 0x3ffffff,
     Z.land (Z.shiftr (read32 b 9) 6) 0x3ffffff, Z.lor (Z.shiftr (read32 b 12) 8) (2 ^ 24)) in
  val5 x = le_val (b ++ [1]) /\ blk_ok x.
Proof.
  intros Hb Hl x. destruct (limbs_val5 b 0x3ffffff 0x3ffffff 0x3ffffff 0x3ffffff (2 ^ 24 - 1)) as [V B]; auto;
    try (rewrite M26_eq); try lia.
  assert (L : Z.land (Z.shiftr (read32 b 12) 8) (2 ^ 24 - 1) = Z.shiftr (read32 b 12) 8 /\ 0 <= Z.shiftr (read32 b 12) 8 < 2 ^ 24).
  { rewrite land_ones_mod by lia. unfold read32. rewrite le_val_slice by (auto; lia).
    rewrite Z.shiftr_div_pow2 by lia. change (8 * 4) with 32. rewrite mod_div_pow by lia. change (32 - 8) with 24.
    rewrite Z.mod_mod by lia. split; auto. apply Z.mod_pos_bound. lia. }
  unfold limbs_of in *. destruct L as [L1 L2]. rewrite L1 in *.
  assert (E : Z.lor (Z.shiftr (read32 b 12) 8) (2 ^ 24) = Z.shiftr (read32 b 12) 8 + 2 ^ 24).
  { rewrite Z.lor_comm. change (2 ^ 24) with (Z.shiftl 1 24) at 1. rewrite lor_add by lia. lia. }
  unfold x. rewrite E. split.
  - rewrite le_val_app, Hl. cbn [le_val]. cbn [val5] in *.
    assert (F : Z.land (le_val b) (val5 (67108863, 67108863, 67108863, 67108863, 2 ^ 24 - 1)) = le_val b).
    { change (val5 (67108863, 67108863, 67108863, 67108863, 2 ^ 24 - 1)) with (2 ^ 128 - 1). rewrite land_ones_mod by lia.
      apply Z.mod_small. pose proof (le_val_bound b Hb) as X. rewrite Hl in X. exact X. }
    cbn [val5] in F. rewrite F in V. rewrite <- V. change (256 ^ 16) with (2 ^ 128). lia.
  - cbn [blk_ok] in *. rewrite M26_eq in *. lia.
Qed.
Lemma last_block inp : bytes inp -> zlen inp < 16 ->
  let b := splice (splice (repeat 0 16) 0 inp) (zlen inp) [1] in
  let x := (Z.land (read32 b 0) 0x3ffffff, Z.land (Z.shiftr (read32 b 3) 2) 0x3ffffff, Z.land (Z.shiftr (read32 b 6) 4) 0x3ffffff,
     Z.land (Z.shiftr (read32 b 9) 6) 0x3ffffff, Z.shiftr (read32 b 12) 8) in
  val5 x = le_val (inp ++ [1]) /\ blk_ok x.
Proof.
  intros Hb Hl b x.
  assert (Eb : exists z, b = inp ++ [1] ++ repeat 0 z).
  { exists (15 - length inp)%nat. unfold b, splice. change (ztake 0 (repeat 0 16)) with (@nil Z). cbn [app].
    rewrite ztake_app. f_equal. f_equal. rewrite Z.add_0_l.
    unfold zdrop, zlen. rewrite skipn_app. rewrite skipn_all2 by (cbn [length]; lia). cbn [app].
    assert (G : forall n m (v : Z), skipn n (repeat v m) = repeat v (m - n)).
    { induction n; intros [|m] v; auto. cbn [repeat skipn]. rewrite IHn. reflexivity. }
    cbn [length] in *. unfold zlen in Hl. rewrite !G. f_equal. lia. }
  assert (Lb : zlen b = 16).
  { unfold b. rewrite !zlen_splice; rewrite ?zlen_repeat; try reflexivity; rewrite ?zlen_cons; change (zlen (@nil Z)) with 0; try lia;
    pose proof (zlen_nonneg inp); try lia; rewrite ?zlen_splice; rewrite ?zlen_repeat; lia. }
  assert (Bb : bytes b).
  { apply bytes_splice. apply bytes_splice; auto. apply bytes_repeat; unfold byte_ok; lia. repeat constructor; lia. }
  destruct (limbs_val5 b 0x3ffffff 0x3ffffff 0x3ffffff 0x3ffffff (2 ^ 24 - 1)) as [V B]; auto;
    try (rewrite M26_eq); try lia.
  assert (L : Z.land (Z.shiftr (read32 b 12) 8) (2 ^ 24 - 1) = Z.shiftr (read32 b 12) 8).
  { rewrite land_ones_mod by lia. unfold read32. rewrite le_val_slice by (auto; lia).
    rewrite Z.shiftr_div_pow2 by lia. change (8 * 4) with 32. rewrite mod_div_pow by lia. change (32 - 8) with 24.
    rewrite Z.mod_mod by lia. reflexivity. }
  unfold limbs_of in *. rewrite L in *. split; [|exact B]. unfold x. rewrite V.
  change (val5 (67108863, 67108863, 67108863, 67108863, 2 ^ 24 - 1)) with (2 ^ 128 - 1). rewrite land_ones_mod by lia.
  rewrite Z.mod_small by (pose proof (le_val_bound b Bb) as X; rewrite Lb in X; exact X).
  destruct Eb as [z ->]. rewrite app_assoc, le_val_app.
  assert (Z0 : le_val (repeat 0 z) = 0) by (clear; induction z; cbn [repeat le_val]; lia). rewrite Z0. lia.
Qed.

(** ** final reduction *)
Lemma min_reduce_ok h : h_ok h -> blk_ok (min_reduce h) /\ exists k, val5 h = val5 (min_reduce h) + P1305 * k.
Proof.
  destruct h as [[[[h0 h1] h2] h3] h4]. intros (H0 & H1 & H2 & H3 & H4). unfold min_reduce, wadd.
  rewrite ?and26, ?shr26.
  destruct (split26 h1 ltac:(lia)) as (c1 & m1 & -> & -> & E1 & B1 & C1). rewrite M26_eq in * |-.
  rewrite (Z.mod_small (h2 + c1)) by lia. rewrite ?and26, ?shr26.
  destruct (split26 (h2 + c1) ltac:(lia)) as (c2 & m2 & -> & -> & E2 & B2 & C2). rewrite M26_eq in * |-.
  rewrite (Z.mod_small (h3 + c2)) by lia. rewrite ?and26, ?shr26.
  destruct (split26 (h3 + c2) ltac:(lia)) as (c3 & m3 & -> & -> & E3 & B3 & C3). rewrite M26_eq in * |-.
  rewrite (Z.mod_small (h4 + c3)) by lia. rewrite ?and26, ?shr26.
  destruct (split26 (h4 + c3) ltac:(lia)) as (c4 & m4 & -> & -> & E4 & B4 & C4). rewrite M26_eq in * |-.
  rewrite (Z.mod_small (c4 * 5)) by lia. rewrite (Z.mod_small (h0 + c4 * 5)) by lia. rewrite ?and26, ?shr26.
  destruct (split26 (h0 + c4 * 5) ltac:(lia)) as (c5 & m5 & -> & -> & E5 & B5 & C5). rewrite M26_eq in * |-.
  rewrite (Z.mod_small (m1 + c5)) by lia. split.
  - cbn [blk_ok]. rewrite M26_eq. lia.
  - exists c4. cbn [val5]. unfold P1305. change (2 ^ 26) with 67108864.
    change (2 ^ 130 - 5) with (67108864 * 67108864 * 67108864 * 67108864 * 67108864 - 5). lia.
Qed.

Lemma mask_neg g : 2 ^ 31 <= g < 2 ^ 32 -> equal_mask (Z.land g 0x80000000) 0x80000000 = 2 ^ 32 - 1.
Proof.
  intros H. replace (Z.land g 0x80000000) with 0x80000000; [reflexivity|].
  change 0x80000000 with (0 + 2 ^ 31 * 1). rewrite land_split by lia. rewrite Z.land_0_r.
  replace (g / 2 ^ 31) with 1; [reflexivity|]. apply (Z.div_unique _ _ _ (g - 2 ^ 31)); lia.
Qed.
Lemma mask_pos g : 0 <= g < 2 ^ 31 -> equal_mask (Z.land g 0x80000000) 0x80000000 = 0.
Proof.
  intros H. replace (Z.land g 0x80000000) with 0; [reflexivity|].
  change 0x80000000 with (0 + 2 ^ 31 * 1). rewrite land_split by lia. rewrite Z.land_0_r.
  rewrite Z.div_small by lia. reflexivity.
Qed.
Lemma land_all x : u32 x -> Z.land x (2 ^ 32 - 1) = x.
Proof. intros. rewrite land_ones_mod by lia. apply Z.mod_small, H. Qed.

Lemma val5_bound h : blk_ok h -> 0 <= val5 h < 2 ^ 130.
Proof. destruct h as [[[[h0 h1] h2] h3] h4]. cbn [blk_ok val5]. rewrite M26_eq. change (2 ^ 26) with 67108864.
  change (2 ^ 130) with (67108864 * 67108864 * 67108864 * 67108864 * 67108864). lia. Qed.

Lemma maybe_sub_ok h : blk_ok h -> blk_ok (maybe_sub_130_5 h) /\ val5 (maybe_sub_130_5 h) = val5 h mod P1305.
Proof.
  intros Hh. pose proof (val5_bound h Hh) as VB.
  destruct h as [[[[h0 h1] h2] h3] h4]. destruct Hh as (H0 & H1 & H2 & H3 & H4). unfold maybe_sub_130_5, wadd.
  rewrite M26_eq in * |-.
  rewrite (Z.mod_small (h0 + 5)) by lia. rewrite ?and26, ?shr26.
  destruct (split26 (h0 + 5) ltac:(lia)) as (c0 & m0 & -> & -> & E0 & B0 & C0). rewrite M26_eq in * |-.
  rewrite (Z.mod_small (h1 + c0)) by lia. rewrite ?and26, ?shr26.
  destruct (split26 (h1 + c0) ltac:(lia)) as (c1 & m1 & -> & -> & E1 & B1 & C1). rewrite M26_eq in * |-.
  rewrite (Z.mod_small (h2 + c1)) by lia. rewrite ?and26, ?shr26.
  destruct (split26 (h2 + c1) ltac:(lia)) as (c2 & m2 & -> & -> & E2 & B2 & C2). rewrite M26_eq in * |-.
  rewrite (Z.mod_small (h3 + c2)) by lia. rewrite ?and26, ?shr26.
  destruct (split26 (h3 + c2) ltac:(lia)) as (c3 & m3 & -> & -> & E3 & B3 & C3). rewrite M26_eq in * |-.
  rewrite (Z.mod_small (h4 + c3)) by lia.
  assert (C : c3 = 0 \/ c3 = 1) by lia.
  assert (U : forall x, 0 <= x < 67108864 -> u32 x) by (unfold u32; intros; lia).
  cbn [val5] in *. unfold wsub. change (2 ^ 26) with 67108864 in *.
  change (2 ^ 130) with (67108864 * 67108864 * 67108864 * 67108864 * 67108864) in *.
  destruct (Z.lt_ge_cases (h4 + c3) 67108864) as [L|L].
  - assert (Eg : (h4 + c3 - 67108864) mod 2 ^ 32 = h4 + c3 - 67108864 + 2 ^ 32).
    { symmetry. apply (Z.mod_unique _ _ (-1)); lia. }
    rewrite Eg, mask_neg by lia. change (wnot 32 (2 ^ 32 - 1)) with 0.
    rewrite !land_all by (apply U; lia). rewrite !Z.land_0_r, !Z.lor_0_r.
    split; [cbn [blk_ok]; rewrite M26_eq; lia|]. unfold P1305.
    change (2 ^ 130 - 5) with (67108864 * 67108864 * 67108864 * 67108864 * 67108864 - 5).
    symmetry. apply Z.mod_small. lia.
  - assert (Eg : (h4 + c3 - 67108864) mod 2 ^ 32 = 0) by (replace (h4 + c3 - 67108864) with 0 by lia; reflexivity).
    rewrite Eg, mask_pos by lia. change (wnot 32 0) with (2 ^ 32 - 1).
    rewrite !land_all by (apply U; lia). rewrite !Z.land_0_r, !Z.lor_0_l.
    split; [cbn [blk_ok]; rewrite M26_eq; lia|]. unfold P1305.
    change (2 ^ 130 - 5) with (67108864 * 67108864 * 67108864 * 67108864 * 67108864 - 5).
    apply (Z.mod_unique _ _ 1); lia.
Qed.
Lemma full_reduce_ok h : h_ok h -> blk_ok (full_reduce h) /\ val5 (full_reduce h) = val5 h mod P1305.
Proof.
  intros H. unfold full_reduce. destruct (min_reduce_ok h H) as [B [k E]]. destruct (maybe_sub_ok _ B) as [B2 E2].
  split; auto. rewrite E2, E, Z.mul_comm, Z.mod_add by (unfold P1305; lia). reflexivity.
Qed.

(** repacking into 32-bit words *)
Lemma le_bytes_app a : forall b x, le_bytes (a + b) x = le_bytes a x ++ le_bytes b (x / 256 ^ Z.of_nat a).
Proof.
  induction a as [|a IH]; intros b x. - cbn [plus le_bytes app]. rewrite Z.pow_0_r, Z.div_1_r. reflexivity.
  - cbn [plus le_bytes app]. f_equal. rewrite IH. f_equal. f_equal.
    rewrite Z.div_div by lia. f_equal. rewrite Nat2Z.inj_succ, Z.pow_succ_r by lia. reflexivity.
Qed.
Lemma le_bytes_modw n x : le_bytes n (x mod 256 ^ Z.of_nat n) = le_bytes n x.
Proof. apply le_bytes_mod. lia. Qed.
Lemma words_bytes w0 w1 w2 w3 : u32 w0 -> u32 w1 -> u32 w2 -> u32 w3 ->
  le_bytes 4 w0 ++ le_bytes 4 w1 ++ le_bytes 4 w2 ++ le_bytes 4 w3 = le_bytes 16 (w0 + 2 ^ 32 * (w1 + 2 ^ 32 * (w2 + 2 ^ 32 * w3))).
Proof.
  unfold u32. intros. change 16%nat with (4 + (4 + (4 + 4)))%nat. rewrite !le_bytes_app.
  change (256 ^ Z.of_nat 4) with (2 ^ 32).
  assert (D : forall a b, 0 <= a < 2 ^ 32 -> (a + 2 ^ 32 * b) / 2 ^ 32 = b).
  { intros. rewrite Z.mul_comm, Z.div_add, Z.div_small by lia. lia. }
  assert (M : forall a b, 0 <= a < 2 ^ 32 -> le_bytes 4 (a + 2 ^ 32 * b) = le_bytes 4 a).
  { intros. rewrite <- (le_bytes_modw 4 (a + _)). change (256 ^ Z.of_nat 4) with (2 ^ 32).
    rewrite Z.mul_comm, Z.mod_add, Z.mod_small by lia. reflexivity. }
  rewrite !D by lia. rewrite !M by lia. reflexivity.
Qed.
Lemma repack a b n : 0 <= n <= 32 -> 0 <= a < 2 ^ n -> 0 <= b ->
  Z.lor a (Z.shiftl b n mod 2 ^ 32) = a + 2 ^ n * (b mod 2 ^ (32 - n)).
Proof.
  intros Hn Ha Hb. rewrite Z.shiftl_mul_pow2 by lia.
  replace (2 ^ 32) with (2 ^ (32 - n) * 2 ^ n) by (rewrite <- Z.pow_add_r by lia; f_equal; lia).
  rewrite Zmult_mod_distr_r by (apply Z.pow_nonzero; lia). rewrite <- Z.shiftl_mul_pow2 by lia.
  rewrite Z.lor_comm, lor_add by lia. lia.
Qed.
Lemma split_pow x k : 0 <= k -> 0 <= x -> exists q m, x / 2 ^ k = q /\ x mod 2 ^ k = m /\ x = 2 ^ k * q + m /\ 0 <= m < 2 ^ k /\ 0 <= q.
Proof.
  intros. assert (0 < 2 ^ k) by (apply Z.pow_pos_nonneg; lia). exists (x / 2 ^ k), (x mod 2 ^ k).
  pose proof (Z.div_mod x (2 ^ k)). pose proof (Z.mod_pos_bound x (2 ^ k)). pose proof (Z.div_pos x (2 ^ k)). lia.
Qed.

(** ** streaming *)
Definition bw_holds (N : Z) (r : list Z) (bw : blockwise) : Prop :=
  zlen r < N /\ bw_used bw = zlen r /\ zlen (bw_buffer bw) = N /\ ztake (zlen r) (bw_buffer bw) = r.
Lemma bw_holds_new N : 0 < N -> bw_holds N [] (bw_new N).
Proof. intros. unfold bw_holds, bw_new. cbn [bw_used bw_buffer]. rewrite zlen_repeat. change (zlen (@nil Z)) with 0. sp; auto; lia. Qed.

Lemma bw_stream N r bw b : 0 < N -> bw_holds N r bw ->
  exists bw1 rest blk bw2 bw3 a2 r2 q,
    bw_add_leading N bw b = (bw1, rest) /\ bw_take N bw1 = (blk, bw2) /\
    bw_add_trailing N bw2 (zdrop (zlen rest / N * N) rest) = Ok bw3 /\
    r ++ b = a2 ++ r2 /\ 0 <= q /\ zlen a2 = q * N /\ bw_holds N r2 bw3 /\
    chunks_exact N a2 = match blk with Some x => x :: chunks_exact N rest | None => chunks_exact N rest end.
Proof.
  intros HN (Hr & Hu & Hbuf & Htk). pose proof (zlen_nonneg r). pose proof (zlen_nonneg b).
  assert (CE : forall rest : list Z, chunks_exact N (ztake (zlen rest / N * N) rest) = chunks_exact N rest).
  { intros rest. pose proof (zlen_nonneg rest). pose proof (Z.div_mod (zlen rest) N ltac:(lia)). pose proof (Z.mod_pos_bound (zlen rest) N ltac:(lia)).
    assert (0 <= zlen rest / N) by (apply Z.div_pos; lia).
    rewrite <- (ztake_zdrop (zlen rest / N * N) rest) at 3.
    rewrite (chunks_exact_app N (zlen rest / N)); auto; [|rewrite zlen_ztake; lia].
    rewrite (chunks_exact_short N (zdrop _ _)), app_nil_r; auto. rewrite zlen_zdrop; lia. }
  assert (TR : forall rest bw, bw_used bw = 0 -> zlen (bw_buffer bw) = N ->
     exists bw3, bw_add_trailing N bw (zdrop (zlen rest / N * N) rest) = Ok bw3 /\ bw_holds N (zdrop (zlen rest / N * N) rest) bw3).
  { intros rest bw0 U0 B0. pose proof (zlen_nonneg rest). pose proof (Z.div_mod (zlen rest) N ltac:(lia)). pose proof (Z.mod_pos_bound (zlen rest) N ltac:(lia)).
    assert (0 <= zlen rest / N) by (apply Z.div_pos; lia).
    unfold bw_add_trailing, bw_holds. rewrite zlen_zdrop by lia.
    destruct (N <? _) eqn:E; [lia|]. eexists; split; [reflexivity|]. cbn [bw_used bw_buffer]. sp; try lia.
    - rewrite zlen_splice; auto; try lia. rewrite zlen_zdrop; lia.
    - pose proof (ztake_splice (bw_buffer bw0) 0 (zdrop (zlen rest / N * N) rest)) as X. rewrite zlen_zdrop in X by lia. apply X; lia. }
  unfold bw_add_leading. rewrite Hu. destruct (zlen r =? 0) eqn:E0.
  - assert (r = []) by (apply zlen_0_nil; lia). subst r. change (zlen (@nil Z)) with 0 in *.
    pose proof (Z.div_mod (zlen b) N ltac:(lia)). pose proof (Z.mod_pos_bound (zlen b) N ltac:(lia)).
    assert (0 <= zlen b / N) by (apply Z.div_pos; lia).
    destruct (TR b bw Hu Hbuf) as (bw3 & T1 & T2).
    exists bw, b, None, bw, bw3, (ztake (zlen b / N * N) b), (zdrop (zlen b / N * N) b), (zlen b / N).
    unfold bw_take. rewrite Hu. destruct (0 =? N) eqn:E1; [lia|].
    sp; auto. { cbn [app]. rewrite ztake_zdrop. reflexivity. } { rewrite zlen_ztake; lia. }
  - set (tk := Z.min (zlen b) (N - zlen r)).
    unfold bw_take. cbn [bw_used bw_buffer].
    set (buf1 := splice (bw_buffer bw) (zlen r) (ztake tk b)).
    assert (Hb1 : zlen buf1 = N).
    { unfold buf1. rewrite zlen_splice; auto; try lia. rewrite zlen_ztake; lia. }
    assert (Hb2 : ztake (zlen r + tk) buf1 = r ++ ztake tk b).
    { pose proof (ztake_splice (bw_buffer bw) (zlen r) (ztake tk b)) as X.
      rewrite zlen_ztake in X by lia. fold buf1 in X. rewrite X by lia. rewrite Htk. reflexivity. }
    destruct (zlen r + tk =? N) eqn:E1.
    + assert (Hblk : buf1 = r ++ ztake tk b) by (rewrite <- Hb2; symmetry; apply ztake_all; lia).
      set (rest := zdrop tk b). destruct (TR rest {| bw_buffer := buf1; bw_used := 0 |} eq_refl Hb1) as (bw3 & T1 & T2).
      pose proof (zlen_nonneg rest). pose proof (Z.div_mod (zlen rest) N ltac:(lia)). pose proof (Z.mod_pos_bound (zlen rest) N ltac:(lia)).
      assert (0 <= zlen rest / N) by (apply Z.div_pos; lia).
      eexists _, rest, (Some buf1), _, bw3, (buf1 ++ ztake (zlen rest / N * N) rest), (zdrop (zlen rest / N * N) rest), (1 + zlen rest / N).
      split; [reflexivity|]. cbn [bw_used bw_buffer]. rewrite E1. sp; eauto; try lia.
      * rewrite <- app_assoc, ztake_zdrop. rewrite Hblk, <- app_assoc. unfold rest. rewrite ztake_zdrop. reflexivity.
      * zl. rewrite zlen_ztake; lia.
      * rewrite (chunks_exact_app N 1), CE; auto; try lia.
        rewrite chunks_exact_cons, ztake_all, zdrop_all, chunks_exact_short by (auto; try lia; change (zlen (@nil Z)) with 0; lia). reflexivity.
    + assert (Htb : tk = zlen b) by lia.
      eexists _, [], None, _, {| bw_buffer := buf1; bw_used := zlen r + tk |}, [], (r ++ b), 0.
      split; [rewrite (zdrop_all tk b) by lia; reflexivity|]. cbn [bw_used bw_buffer]. rewrite E1. sp; eauto; try lia.
      * unfold bw_add_trailing. rewrite zdrop_all by (change (zlen (@nil Z)) with 0; rewrite Z.div_0_l; lia). change (zlen (@nil Z)) with 0.
        destruct (N <? 0) eqn:E2; [lia|]. cbn [bw_buffer bw_used]. rewrite Z.add_0_r. do 2 f_equal.

      * unfold bw_holds. cbn [bw_used bw_buffer]. zl. rewrite (ztake_all tk b) in Hb2 by lia. rewrite <- Htb. sp; auto; lia.
Qed.

Definition pacc (r : Z) (a : Z) (bs : list (list Z)) : Z := fold_left (fun a b => ((a + le_val (b ++ [1])) * r) mod P1305) bs a.

Record p_wf (key : list Z) (p : poly1305) : Prop := {
  pw_r : r_ok (p_r p) (p_r5 p);
  pw_v : val5 (p_r p) = clamp (le_val (ztake 16 key));
  pw_s : p_s p = (read32 key 16, read32 key 20, read32 key 24, read32 key 28);
  pw_h : h_ok (p_h p) }.

Lemma process_block_ok key p x v : p_wf key p -> blk_ok x -> val5 x = v ->
  exists p', process_block p x = Ok p' /\ p_wf key p' /\ p_bw p' = p_bw p /\
    val5 (p_h p') mod P1305 = ((val5 (p_h p) mod P1305 + v) * clamp (le_val (ztake 16 key))) mod P1305.
Proof.
  intros [R V S H] B E. unfold process_block. destruct (poly_add_ok _ _ H B) as [A1 A2].
  destruct (poly_mul_ok (poly_add (p_h p) x) (p_r p) (p_r5 p) R A2) as (h' & Eh & Hh & k & Ek).
  rewrite Eh. cbn [bind]. eexists; split; [reflexivity|]. split; [|split; [reflexivity|]].
  - constructor; auto.
  - cbn [p_h]. rewrite <- V. rewrite A1, E in Ek.
    assert (P0 : P1305 <> 0) by (unfold P1305; lia).
    transitivity ((val5 h' + k * P1305) mod P1305); [symmetry; apply Z.mod_add; auto|].
    replace (val5 h' + k * P1305) with ((val5 (p_h p) + v) * val5 (p_r p)) by lia.
    rewrite <- (Z.mul_mod_idemp_l (_ mod _ + _)), <- (Z.mul_mod_idemp_l (val5 (p_h p) + v)) by auto.
    f_equal. f_equal. symmetry. rewrite Z.add_mod_idemp_l by auto. reflexivity.
Qed.
Lemma process_whole_ok key p b : p_wf key p -> bytes b -> zlen b = 16 ->
  exists p', process_whole_block p b = Ok p' /\ p_wf key p' /\ p_bw p' = p_bw p /\
    val5 (p_h p') mod P1305 = ((val5 (p_h p) mod P1305 + le_val (b ++ [1])) * clamp (le_val (ztake 16 key))) mod P1305.
Proof. intros W Hb Hl. destruct (whole_block b Hb Hl) as [V B]. apply process_block_ok; auto. Qed.
Lemma process_last_ok key p b : p_wf key p -> bytes b -> zlen b < 16 ->
  exists p', process_last_block p b = Ok p' /\ p_wf key p' /\ p_bw p' = p_bw p /\
    val5 (p_h p') mod P1305 = ((val5 (p_h p) mod P1305 + le_val (b ++ [1])) * clamp (le_val (ztake 16 key))) mod P1305.
Proof. intros W Hb Hl. destruct (last_block b Hb Hl) as [V B]. unfold process_last_block.
  destruct (16 <=? zlen b) eqn:E; [lia|]. apply process_block_ok; auto. Qed.
Lemma process_blocks_ok key bs : forall p, p_wf key p -> Forall bytes bs -> Forall (fun c => zlen c = 16) bs ->
  exists p', process_blocks p bs = Ok p' /\ p_wf key p' /\ p_bw p' = p_bw p /\
    val5 (p_h p') mod P1305 = pacc (clamp (le_val (ztake 16 key))) (val5 (p_h p) mod P1305) bs.
Proof.
  induction bs as [|b bs IH]; intros p W Hb Hl; cbn [process_blocks].
  - eauto.
  - inversion_clear Hb. inversion_clear Hl.
    destruct (process_whole_ok key p b) as (p1 & -> & W1 & B1 & V1); auto. cbn [bind].
    destruct (IH p1) as (p2 & -> & W2 & B2 & V2); auto. eexists; split; [reflexivity|]. split; auto. split; [congruence|].
    rewrite V2, V1. reflexivity.
Qed.

Definition PInv (key m : list Z) (p : poly1305) : Prop :=
  p_wf key p /\ exists a r q, m = a ++ r /\ 0 <= q /\ zlen a = q * 16 /\ bw_holds 16 r (p_bw p) /\
    val5 (p_h p) mod P1305 = pacc (clamp (le_val (ztake 16 key))) 0 (chunks_exact 16 a).

Lemma PInv_new key : bytes key -> zlen key = 32 -> exists p, poly_new key = Ok p /\ PInv key [] p.
Proof.
  intros Hb Hl. destruct (r_limbs key Hb Hl) as [V B]. unfold poly_new.
  unfold limbs_of in *.
  destruct B as (B0 & B1 & B2 & B3 & B4). rewrite M26_eq in B0, B1, B2, B3, B4.
  rewrite !chk_ok by lia. cbn [bind].
  eexists; split; [reflexivity|]. split.
  - constructor; cbn [p_r p_r5 p_s p_h]; auto. { unfold r_ok. rewrite M26_eq. lia. } { unfold h_ok. rewrite M26_eq. lia. }
  - exists [], [], 0. cbn [p_bw p_h]. split; [reflexivity|]. split; [lia|]. split; [reflexivity|]. split; [apply bw_holds_new; lia|reflexivity].
Qed.
Lemma with_bw_wf key p bw : p_wf key p -> p_wf key (p_with_bw p bw).
Proof. intros [R V S H]. constructor; auto. Qed.

Lemma bw_take_some_len N bw b bw' : bw_take N bw = (Some b, bw') -> b = bw_buffer bw.
Proof. unfold bw_take. destruct (_ =? _); congruence. Qed.

Lemma pacc_app r a x y : pacc r a (x ++ y) = pacc r (pacc r a x) y.
Proof. apply fold_left_app. Qed.

Lemma PInv_add key m p b : PInv key m p -> bytes m -> bytes b -> exists p', poly_add_bytes p b = Ok p' /\ PInv key (m ++ b) p'.
Proof.
  intros [W (a & r & q & -> & Hq & Ha & Hbw & Hv)] Hm Hb. apply bytes_app in Hm as [Hba Hbr].
  destruct (bw_stream 16 r (p_bw p) b ltac:(lia) Hbw) as (bw1 & rest & blk & bw2 & bw3 & a2 & r2 & q2 & E1 & E2 & E3 & E4 & Hq2 & Ha2 & H3 & E5).
  assert (Hb2 : bytes (a2 ++ r2)) by (rewrite <- E4; apply bytes_app; auto). apply bytes_app in Hb2 as [Hba2 Hbr2].
  pose proof (chunks_exact_bytes 16 a2 ltac:(lia) Hba2) as CB. pose proof (chunks_exact_len 16 a2 ltac:(lia)) as CL.
  unfold poly_add_bytes. rewrite E1, E2.
  assert (X : exists p', bind (match blk with Some block => process_whole_block (p_with_bw p bw2) block | None => Ok (p_with_bw p bw2) end)
             (fun p => process_blocks p (chunks_exact 16 rest)) = Ok p' /\ p_wf key p' /\ p_bw p' = bw2 /\
      val5 (p_h p') mod P1305 = pacc (clamp (le_val (ztake 16 key))) (val5 (p_h p) mod P1305) (chunks_exact 16 a2)).
  { pose proof (process_blocks_ok key (chunks_exact 16 a2) (p_with_bw p bw2) (with_bw_wf _ _ _ W) CB CL) as (p' & P1 & P2 & P3 & P4).
    rewrite E5 in *. destruct blk; exists p'; auto. }
  destruct X as (p' & X1 & X2 & X3 & X4).
  destruct (match blk with Some block => process_whole_block (p_with_bw p bw2) block | None => Ok (p_with_bw p bw2) end) as [p1| |]; cbn [bind] in *; try discriminate.
  rewrite X1. cbn [bind]. rewrite X3, E3. cbn [bind]. eexists; split; [reflexivity|]. split; [apply with_bw_wf; auto|].
  exists (a ++ a2), r2, (q + q2). split; [rewrite <- !app_assoc, E4; reflexivity|]. split; [lia|]. split; [zl; lia|]. split; [exact H3|].
  cbn [p_with_bw p_h]. rewrite X4, Hv, <- pacc_app, (chunks_exact_app 16 q); auto; lia.
Qed.
Lemma PInv_adds key ms : forall m p, PInv key m p -> bytes m -> Forall bytes ms -> exists p', poly_adds p ms = Ok p' /\ PInv key (m ++ concat ms) p'.
Proof.
  induction ms as [|x ms IH]; intros m p I Hm Hms; cbn [poly_adds concat].
  - rewrite app_nil_r. eauto.
  - inversion_clear Hms. destruct (PInv_add key m p x I Hm H) as (p1 & -> & I1). cbn [bind]. rewrite app_assoc.
    apply IH; auto. apply bytes_app; auto.
Qed.

Lemma chunks_split n q (a b : list Z) : 0 < n -> 0 <= q -> zlen a = q * n -> chunks n (a ++ b) = chunks_exact n a ++ chunks n b.
Proof.
  intros Hn Hq. revert a. pattern q. apply natlike_ind; auto; clear q Hq.
  - intros a Ha. assert (a = []) by (apply zlen_0_nil; lia). subst. rewrite chunks_exact_short; auto.
  - intros q Hq IH a Ha. rewrite (chunks_exact_cons n a) by lia.
    rewrite <- (ztake_zdrop n a) at 1. rewrite <- app_assoc, chunks_app; auto; [|rewrite zlen_ztake; lia].
    cbn [app]. f_equal. apply IH. rewrite zlen_zdrop; lia.
Qed.

Lemma s_val key : bytes key -> zlen key = 32 ->
  u32 (read32 key 16) /\ u32 (read32 key 20) /\ u32 (read32 key 24) /\ u32 (read32 key 28) /\
  read32 key 16 + 2 ^ 32 * (read32 key 20 + 2 ^ 32 * (read32 key 24 + 2 ^ 32 * read32 key 28)) = le_val (zdrop 16 key).
Proof.
  intros Hb Hl. unfold read32.
  assert (U : forall i, 0 <= i <= 28 -> u32 (le_val (ztake 4 (zdrop i key)))).
  { intros. apply le_val_u32. apply bytes_ztake, bytes_zdrop; auto. rewrite zlen_ztake; auto. rewrite zlen_zdrop; lia. }
  sp; try (apply U; lia).
  assert (D : forall i, 0 <= i <= 28 -> le_val (zdrop i key) = le_val (ztake 4 (zdrop i key)) + 2 ^ 32 * le_val (zdrop (i + 4) key)).
  { intros. rewrite <- (ztake_zdrop 4 (zdrop i key)) at 1. rewrite le_val_app, zdrop_zdrop, zlen_ztake by (rewrite ?zlen_zdrop; lia).
    rewrite (Z.add_comm 4 i). reflexivity. }
  rewrite (D 16), (D (16+4)), (D (16+4+4)), (D (16+4+4+4)) by lia.
  rewrite (zdrop_all (16 + 4 + 4 + 4 + 4)) by lia. cbn [le_val].
  change (16 + 4) with 20. change (20 + 4) with 24. change (24 + 4) with 28. rewrite Z.mul_0_r, Z.add_0_r. reflexivity.
Qed.

Lemma add4 h0 h1 h2 h3 s0 s1 s2 s3 : u32 h0 -> u32 h1 -> u32 h2 -> u32 h3 -> u32 s0 -> u32 s1 -> u32 s2 -> u32 s3 ->
  (let! f := chk 64 (h0 + s0) in
  let h0 := f mod 2 ^ 32 in
  let! f := chk 64 (h1 + s1 + Z.shiftr f 32) in
  let h1 := f mod 2 ^ 32 in
  let! f := chk 64 (h2 + s2 + Z.shiftr f 32) in
  let h2 := f mod 2 ^ 32 in
  let! f := chk 64 (h3 + s3 + Z.shiftr f 32) in
  let h3 := f mod 2 ^ 32 in
  Ok (le_bytes 4 h0 ++ le_bytes 4 h1 ++ le_bytes 4 h2 ++ le_bytes 4 h3)) =
  Ok (le_bytes 16 (h0 + 2 ^ 32 * (h1 + 2 ^ 32 * (h2 + 2 ^ 32 * h3)) + (s0 + 2 ^ 32 * (s1 + 2 ^ 32 * (s2 + 2 ^ 32 * s3))))).
Proof.
  unfold u32. intros. rewrite !chk_ok by lia. cbn [bind]. rewrite !Z.shiftr_div_pow2 by lia.
  destruct (split_pow (h0 + s0) 32) as (c0 & w0 & -> & -> & E0 & B0 & C0); try lia.
  rewrite !chk_ok by lia. cbn [bind]. rewrite !Z.shiftr_div_pow2 by lia.
  destruct (split_pow (h1 + s1 + c0) 32) as (c1 & w1 & -> & -> & E1 & B1 & C1); try lia.
  rewrite !chk_ok by lia. cbn [bind]. rewrite !Z.shiftr_div_pow2 by lia.
  destruct (split_pow (h2 + s2 + c1) 32) as (c2 & w2 & -> & -> & E2 & B2 & C2); try lia.
  rewrite !chk_ok by lia. cbn [bind].
  destruct (split_pow (h3 + s3 + c2) 32) as (c3 & w3 & _ & -> & E3 & B3 & C3); try lia.
  f_equal. rewrite words_bytes by (unfold u32; lia).
  rewrite <- (le_bytes_modw 16 (h0 + _ + _)). f_equal. change (256 ^ Z.of_nat 16) with (2 ^ 32 * 2 ^ 32 * 2 ^ 32 * 2 ^ 32).
  apply (Z.mod_unique _ _ c3); lia.
Qed.
Lemma repack_words h : blk_ok h ->
  let '(h0, h1, h2, h3, h4) := h in
  let shl x n := Z.shiftl x n mod 2 ^ 32 in
  let w0 := Z.lor h0 (shl h1 26) in
  let w1 := Z.lor (Z.shiftr h1 6) (shl h2 20) in
  let w2 := Z.lor (Z.shiftr h2 12) (shl h3 14) in
  let w3 := Z.lor (Z.shiftr h3 18) (shl h4 8) in
  u32 w0 /\ u32 w1 /\ u32 w2 /\ u32 w3 /\
  exists t, val5 h = w0 + 2 ^ 32 * (w1 + 2 ^ 32 * (w2 + 2 ^ 32 * w3)) + 2 ^ 128 * t.
Proof.
  destruct h as [[[[h0 h1] h2] h3] h4]. intros (H0 & H1 & H2 & H3 & H4). rewrite M26_eq in *. cbv zeta.
  rewrite !Z.shiftr_div_pow2 by lia.
  assert (Q : forall x k, 0 <= x < 2 ^ 26 -> 0 <= k <= 26 -> 0 <= x / 2 ^ k < 2 ^ (26 - k)).
  { intros. assert (0 < 2 ^ k) by (apply Z.pow_pos_nonneg; lia). split; [apply Z.div_pos; lia|]. apply Z.div_lt_upper_bound; auto.
    rewrite <- Z.pow_add_r by lia. replace (k + (26 - k)) with 26 by lia. lia. }
  pose proof (Q h1 6 ltac:(lia) ltac:(lia)). pose proof (Q h2 12 ltac:(lia) ltac:(lia)). pose proof (Q h3 18 ltac:(lia) ltac:(lia)).
  rewrite (repack h0 h1 26), (repack (h1 / 2 ^ 6) h2 20), (repack (h2 / 2 ^ 12) h3 14), (repack (h3 / 2 ^ 18) h4 8) by lia.
  change (32 - 26) with 6. change (32 - 20) with 12. change (32 - 14) with 18. change (32 - 8) with 24.
  destruct (split_pow h1 6) as (c1 & w1 & E1 & F1 & G1 & B1 & C1); try lia.
  destruct (split_pow h2 12) as (c2 & w2 & E2 & F2 & G2 & B2 & C2); try lia.
  destruct (split_pow h3 18) as (c3 & w3 & E3 & F3 & G3 & B3 & C3); try lia.
  destruct (split_pow h4 24) as (c4 & w4 & E4 & F4 & G4 & B4 & C4); try lia.
  rewrite E1, E2, E3, F1, F2, F3, F4 in *. clear Q. unfold u32. sp; try lia. exists c4. cbn [val5].
  change (2 ^ 128) with (2 ^ 26 * 2 ^ 26 * 2 ^ 26 * 2 ^ 26 * 2 ^ 24). lia.
Qed.

Lemma PInv_finish key m p : bytes key -> zlen key = 32 -> bytes m -> PInv key m p -> poly_finish p = Ok (poly1305_mac key m).
Proof.
  intros Hb Hl Hm [W (a & r & q & -> & Hq & Ha & (R1 & R2 & R3 & R4) & Hv)]. apply bytes_app in Hm as [Hba Hbr].
  unfold poly_finish.
  assert (X : exists p', match bw_peek_remaining (p_bw p) with Some block => process_last_block p block | None => Ok p end = Ok p' /\
    p_wf key p' /\ val5 (p_h p') mod P1305 = poly1305_acc (clamp (le_val (ztake 16 key))) (chunks 16 (a ++ r))).
  { unfold bw_peek_remaining. rewrite R2, R4. rewrite (chunks_split 16 q) by (auto; lia).
    change poly1305_acc with (fun r bs => pacc r 0 bs). cbv beta. rewrite pacc_app, <- Hv.
    destruct (0 <? zlen r) eqn:E.
    - destruct (process_last_ok key p r W Hbr R1) as (p' & -> & W' & _ & V'). exists p'. split; auto. split; auto.
      rewrite V', chunks_short by lia. reflexivity.
    - assert (r = []) by (apply zlen_0_nil; pose proof (zlen_nonneg r); lia). subst r. exists p. split; auto. }
  destruct X as (p' & -> & W' & V'). cbn [bind].
  destruct (full_reduce_ok (p_h p') (pw_h _ _ W')) as [F1 F2]. pose proof (repack_words _ F1) as RW.
  rewrite (pw_s _ _ W'). destruct (s_val key Hb Hl) as (S0 & S1 & S2 & S3 & SV).
  destruct (full_reduce (p_h p')) as [[[[h0 h1] h2] h3] h4]. cbv zeta in RW. destruct RW as (U0 & U1 & U2 & U3 & t & Et).
  rewrite add4 by assumption. rewrite SV. unfold poly1305_mac. f_equal.
  rewrite <- V', <- F2, Et. rewrite <- (le_bytes_modw 16 (_ + _ * t + _)). rewrite <- (le_bytes_modw 16 (_ + le_val (zdrop 16 key))).
  f_equal. change (256 ^ Z.of_nat 16) with (2 ^ 128). set (w := _ + 2 ^ 32 * _).
  replace (w + 2 ^ 128 * t + le_val (zdrop 16 key)) with (w + le_val (zdrop 16 key) + t * 2 ^ 128) by lia.
  symmetry. apply Z.mod_add. lia.
Qed.
