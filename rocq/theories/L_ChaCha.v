(** ChaCha20: the model (portable and AVX2) equals RFC 8439. *)
Require Import Verif.Base Verif.L_Base Verif.L_Blocks Verif.L_Bits Verif.M_ChaCha Verif.S_ChaCha.
Require Import ZifyNat.

Definition w4 (a : q4) : Prop := let '(a0, a1, a2, a3) := a in u32 a0 /\ u32 a1 /\ u32 a2 /\ u32 a3.
Definition wrows (z : rows) : Prop := let '(a, b, c, d) := z in w4 a /\ w4 b /\ w4 c /\ w4 d.
Definition l4 (a : q4) : list Z := let '(a0, a1, a2, a3) := a in [a0; a1; a2; a3].
Definition lrows (z : rows) : list Z := let '(a, b, c, d) := z in l4 a ++ l4 b ++ l4 c ++ l4 d.

Lemma add32_u32 x y : u32 (add32 x y).
Proof. unfold u32, add32, wadd. apply Z.mod_pos_bound. reflexivity. Qed.
Lemma lxor_u32 x y : u32 x -> u32 y -> u32 (Z.lxor x y).
Proof. apply lxor_range. Qed.
Lemma rol32_roll x n : 0 <= n <= 32 -> u32 x -> rol32 x n = roll x n.
Proof.
  intros Hn Hx. unfold rol32, rotl, roll, u32, W32 in *.
  assert (E : 2 ^ 32 = 2 ^ (32 - n) * 2 ^ n) by (rewrite <- Z.pow_add_r by lia; f_equal; lia).
  assert (0 < 2 ^ n) by (apply Z.pow_pos_nonneg; lia).
  assert (0 < 2 ^ (32 - n)) by (apply Z.pow_pos_nonneg; lia).
  rewrite Z.shiftr_div_pow2, Z.shiftl_mul_pow2 by lia.
  rewrite E, Zmult_mod_distr_r, <- Z.shiftl_mul_pow2, lor_add; try lia.
  - rewrite Z.shiftl_mul_pow2 by lia. reflexivity.
  - split. + apply Z.div_pos; lia. + apply Z.div_lt_upper_bound; lia.
Qed.
Lemma rol32_u32 x n : 0 <= n <= 32 -> u32 x -> u32 (rol32 x n).
Proof.
  intros Hn Hx. unfold rol32, rotl, u32 in *. apply lor_range.
  - apply Z.mod_pos_bound. reflexivity.
  - rewrite Z.shiftr_div_pow2 by lia. assert (0 < 2 ^ (32 - n)) by (apply Z.pow_pos_nonneg; lia). split.
    + apply Z.div_pos; lia.
    + apply Z.div_lt_upper_bound; nia.
Qed.

Definition squarter (a b c d : Z) : Z * Z * Z * Z :=
  let a := plus32 a b in
  let d := roll (Z.lxor d a) 16 in
  let c := plus32 c d in
  let b := roll (Z.lxor b c) 12 in
  let a := plus32 a b in
  let d := roll (Z.lxor d a) 8 in
  let c := plus32 c d in
  let b := roll (Z.lxor b c) 7 in
  (a, b, c, d).
Lemma quarter_spec a b c d : u32 a -> u32 b -> u32 c -> u32 d ->
  quarter a b c d = squarter a b c d /\ w4 (quarter a b c d).
Proof.
  intros Ha Hb Hc Hd. unfold quarter, squarter. change plus32 with add32.
  pose proof (add32_u32 a b) as H1. set (a1 := add32 a b) in *.
  pose proof (lxor_u32 _ _ Hd H1) as X1. rewrite <- (rol32_roll _ 16) by (auto; lia).
  pose proof (rol32_u32 _ 16 ltac:(lia) X1) as H2. set (d1 := rol32 _ 16) in *.
  pose proof (add32_u32 c d1) as H3. set (c1 := add32 c d1) in *.
  pose proof (lxor_u32 _ _ Hb H3) as X2. rewrite <- (rol32_roll _ 12) by (auto; lia).
  pose proof (rol32_u32 _ 12 ltac:(lia) X2) as H4. set (b1 := rol32 _ 12) in *.
  pose proof (add32_u32 a1 b1) as H5. set (a2 := add32 a1 b1) in *.
  pose proof (lxor_u32 _ _ H2 H5) as X3. rewrite <- (rol32_roll _ 8) by (auto; lia).
  pose proof (rol32_u32 _ 8 ltac:(lia) X3) as H6. set (d2 := rol32 _ 8) in *.
  pose proof (add32_u32 c1 d2) as H7. set (c2 := add32 c1 d2) in *.
  pose proof (lxor_u32 _ _ H4 H7) as X4. rewrite <- (rol32_roll _ 7) by (auto; lia).
  pose proof (rol32_u32 _ 7 ltac:(lia) X4) as H8.
  split; [reflexivity|]. unfold w4. auto.
Qed.

Ltac qr :=
  match goal with
  | |- context [quarter ?a ?b ?c ?d] =>
      let E := fresh "E" in let W := fresh "W" in
      destruct (quarter_spec a b c d) as [E W]; try assumption; try rewrite E in W; try rewrite E; clear E;
      destruct (squarter a b c d) as [[[? ?] ?] ?]; destruct W as (? & ? & ? & ?)
  end.

Lemma QR_0 x0 x1 x2 x3 x4 x5 x6 x7 x8 x9 xa xb xc xd xe xf : QUARTERROUND [x0;x1;x2;x3;x4;x5;x6;x7;x8;x9;xa;xb;xc;xd;xe;xf] 0 4 8 12 =
  let '(ra, rb, rc, rd) := squarter x0 x4 x8 xc in [ra;x1;x2;x3;rb;x5;x6;x7;rc;x9;xa;xb;rd;xd;xe;xf].
Proof. reflexivity. Qed.
Lemma QR_1 x0 x1 x2 x3 x4 x5 x6 x7 x8 x9 xa xb xc xd xe xf : QUARTERROUND [x0;x1;x2;x3;x4;x5;x6;x7;x8;x9;xa;xb;xc;xd;xe;xf] 1 5 9 13 =
  let '(ra, rb, rc, rd) := squarter x1 x5 x9 xd in [x0;ra;x2;x3;x4;rb;x6;x7;x8;rc;xa;xb;xc;rd;xe;xf].
Proof. reflexivity. Qed.
Lemma QR_2 x0 x1 x2 x3 x4 x5 x6 x7 x8 x9 xa xb xc xd xe xf : QUARTERROUND [x0;x1;x2;x3;x4;x5;x6;x7;x8;x9;xa;xb;xc;xd;xe;xf] 2 6 10 14 =
  let '(ra, rb, rc, rd) := squarter x2 x6 xa xe in [x0;x1;ra;x3;x4;x5;rb;x7;x8;x9;rc;xb;xc;xd;rd;xf].
Proof. reflexivity. Qed.
Lemma QR_3 x0 x1 x2 x3 x4 x5 x6 x7 x8 x9 xa xb xc xd xe xf : QUARTERROUND [x0;x1;x2;x3;x4;x5;x6;x7;x8;x9;xa;xb;xc;xd;xe;xf] 3 7 11 15 =
  let '(ra, rb, rc, rd) := squarter x3 x7 xb xf in [x0;x1;x2;ra;x4;x5;x6;rb;x8;x9;xa;rc;xc;xd;xe;rd].
Proof. reflexivity. Qed.
Lemma QR_4 x0 x1 x2 x3 x4 x5 x6 x7 x8 x9 xa xb xc xd xe xf : QUARTERROUND [x0;x1;x2;x3;x4;x5;x6;x7;x8;x9;xa;xb;xc;xd;xe;xf] 0 5 10 15 =
  let '(ra, rb, rc, rd) := squarter x0 x5 xa xf in [ra;x1;x2;x3;x4;rb;x6;x7;x8;x9;rc;xb;xc;xd;xe;rd].
Proof. reflexivity. Qed.
Lemma QR_5 x0 x1 x2 x3 x4 x5 x6 x7 x8 x9 xa xb xc xd xe xf : QUARTERROUND [x0;x1;x2;x3;x4;x5;x6;x7;x8;x9;xa;xb;xc;xd;xe;xf] 1 6 11 12 =
  let '(ra, rb, rc, rd) := squarter x1 x6 xb xc in [x0;ra;x2;x3;x4;x5;rb;x7;x8;x9;xa;rc;rd;xd;xe;xf].
Proof. reflexivity. Qed.
Lemma QR_6 x0 x1 x2 x3 x4 x5 x6 x7 x8 x9 xa xb xc xd xe xf : QUARTERROUND [x0;x1;x2;x3;x4;x5;x6;x7;x8;x9;xa;xb;xc;xd;xe;xf] 2 7 8 13 =
  let '(ra, rb, rc, rd) := squarter x2 x7 x8 xd in [x0;x1;ra;x3;x4;x5;x6;rb;rc;x9;xa;xb;xc;rd;xe;xf].
Proof. reflexivity. Qed.
Lemma QR_7 x0 x1 x2 x3 x4 x5 x6 x7 x8 x9 xa xb xc xd xe xf : QUARTERROUND [x0;x1;x2;x3;x4;x5;x6;x7;x8;x9;xa;xb;xc;xd;xe;xf] 3 4 9 14 =
  let '(ra, rb, rc, rd) := squarter x3 x4 x9 xe in [x0;x1;x2;ra;rb;x5;x6;x7;x8;rc;xa;xb;xc;xd;rd;xf].
Proof. reflexivity. Qed.

Local Opaque QUARTERROUND quarter squarter.
Lemma double_round_spec z : wrows z -> inner_block (lrows z) = lrows (double_round z) /\ wrows (double_round z).
Proof.
  destruct z as [[[[[[z0 z1] z2] z3] [[[z4 z5] z6] z7]] [[[z8 z9] za] zb]] [[[zc zd] ze] zf]].
  intros ((? & ? & ? & ?) & (? & ? & ? & ?) & (? & ? & ? & ?) & (? & ? & ? & ?)).
  unfold double_round, inner_block. cbn [lrows l4 app].
  rewrite QR_0. qr. cbv beta iota zeta.
  rewrite QR_1. qr. cbv beta iota zeta.
  rewrite QR_2. qr. cbv beta iota zeta.
  rewrite QR_3. qr. cbv beta iota zeta.
  rewrite QR_4. qr. cbv beta iota zeta.
  rewrite QR_5. qr. cbv beta iota zeta.
  rewrite QR_6. qr. cbv beta iota zeta.
  rewrite QR_7. qr. cbv beta iota zeta.
  split; [reflexivity|]. cbn [wrows w4]. repeat match goal with |- _ /\ _ => split end; assumption.
Qed.

Lemma iter_S {A} n (f : A -> A) x : iter (S n) f x = iter n f (f x). Proof. reflexivity. Qed.
Lemma times_S n f x : times (S n) f x = times n f (f x). Proof. reflexivity. Qed.
Lemma iter_spec n : forall z, wrows z -> times n inner_block (lrows z) = lrows (iter n double_round z) /\
  wrows (iter n double_round z).
Proof.
  induction n as [|n IH]; intros z Hz; [split; [reflexivity|exact Hz]|]. rewrite iter_S, times_S.
  destruct (double_round_spec z Hz) as [E W]. rewrite E. exact (IH _ W).
Qed.

Lemma SIGMA_w4 : w4 SIGMA. Proof. cbn. unfold u32. lia. Qed.
Lemma l4_SIGMA : l4 SIGMA = constants. Proof. reflexivity. Qed.

Lemma q4_bytes_l4 a : q4_bytes a = serialize (l4 a).
Proof. destruct a as [[[a0 a1] a2] a3]. unfold serialize. cbn [l4 flat_map q4_bytes]. rewrite app_nil_r. reflexivity. Qed.
Lemma add4_l4 a b : l4 (add4 a b) = add_states (l4 a) (l4 b).
Proof. destruct a as [[[a0 a1] a2] a3], b as [[[b0 b1] b2] b3]. reflexivity. Qed.
Lemma add_states_app a b c d : length a = length c -> add_states (a ++ b) (c ++ d) = add_states a c ++ add_states b d.
Proof. revert c. induction a as [|x a IH]; destruct c; cbn; intros H; try discriminate; auto. f_equal. apply IH. lia. Qed.
Lemma serialize_app a b : serialize (a ++ b) = serialize a ++ serialize b.
Proof. unfold serialize. apply flat_map_app. Qed.
Lemma l4_length a : length (l4 a) = 4%nat. Proof. destruct a as [[[a0 a1] a2] a3]. reflexivity. Qed.

Lemma core_spec k0 k1 n : w4 k0 -> w4 k1 -> w4 n ->
  core k0 k1 n = block_of_state (constants ++ l4 k0 ++ l4 k1 ++ l4 n).
Proof.
  intros H0 H1 H2. unfold core, block_of_state. rewrite <- l4_SIGMA.
  change (l4 SIGMA ++ l4 k0 ++ l4 k1 ++ l4 n) with (lrows (SIGMA, k0, k1, n)).
  destruct (iter_spec 10 (SIGMA, k0, k1, n)) as [E _]. { cbn [wrows]. auto using SIGMA_w4. }
  rewrite E. destruct (iter 10 double_round (SIGMA, k0, k1, n)) as [[[r0 r1] r2] r3].
  cbn [lrows]. rewrite !add_states_app, !serialize_app, !q4_bytes_l4, !add4_l4 by (rewrite !l4_length; reflexivity).
  reflexivity.
Qed.

Ltac dl l n :=
  match n with
  | O => destruct l as [|? ?]; [|exfalso; cbn in *; lia]
  | S ?m => let x := fresh "x" in destruct l as [|x l]; [exfalso; cbn in *; lia|]; dl l m
  end.
Lemma four_words b : zlen b = 16 -> l4 (four b) = words32 b.
Proof.
  unfold zlen. intros H. assert (L : length b = 16%nat) by lia. clear H.
  dl b 16%nat.
  cbv [four l4 words32 le32_at ztake zdrop Z.to_nat Pos.to_nat Pos.iter_op Nat.add firstn skipn le_val].
  assert (E : forall (a b : Z) l m, a = b -> l = m -> a :: l = b :: m) by congruence.
  repeat (apply E; [lia|]). reflexivity.
Qed.
Lemma words32_app a b : zlen a = 16 -> words32 (a ++ b) = words32 a ++ words32 b.
Proof.
  unfold zlen. intros H. assert (L : length a = 16%nat) by lia. clear H. dl a 16%nat. reflexivity.
Qed.
Lemma four_w4 b : bytes b -> zlen b = 16 -> w4 (four b).
Proof.
  intros Hb Hl. unfold four, le32_at, w4. repeat match goal with |- _ /\ _ => split end;
  (apply le_val_u32; [apply bytes_ztake, bytes_zdrop, Hb | rewrite zlen_ztake; [reflexivity| rewrite zlen_zdrop; lia]]).
Qed.

(** ** states *)
Definition wc (c : chacha) : Prop := w4 (cc_key0 c) /\ w4 (cc_key1 c) /\ w4 (cc_nonce c).
Definition cblock (c : chacha) : list Z := core (cc_key0 c) (cc_key1 c) (cc_nonce c).
Definition kstream (c : chacha) (n : nat) : list Z := flat_map (fun j => cblock (bump c (Z.of_nat j))) (seq 0 n).

Lemma wc_bump c n : wc c -> wc (bump c n).
Proof.
  intros (A & B & C). unfold wc, bump. destruct (cc_nonce c) as [[[n0 n1] n2] n3]. cbn in *.
  repeat match goal with |- _ /\ _ => split end; try tauto. apply add32_u32.
Qed.
Lemma bump_bump c a b : bump (bump c a) b = bump c (a + b).
Proof.
  unfold bump. destruct (cc_nonce c) as [[[n0 n1] n2] n3]. cbn. f_equal. do 3 f_equal.
  unfold add32, wadd. rewrite Zplus_mod_idemp_l. f_equal. lia.
Qed.
Lemma bump_0 c : wc c -> bump c 0 = c.
Proof.
  intros (A & B & C). unfold bump. destruct c as [k0 k1 [[[n0 n1] n2] n3]]. cbn in *. f_equal. do 3 f_equal.
  unfold add32, wadd, u32 in *. rewrite Z.mod_small; lia.
Qed.
Lemma q4_bytes_len a : zlen (q4_bytes a) = 16.
Proof. destruct a as [[[a0 a1] a2] a3]. unfold q4_bytes. zl. rewrite !zlen_le_bytes. reflexivity. Qed.
Lemma cblock_len c : zlen (cblock c) = 64.
Proof. unfold cblock, core. destruct (iter 10 _ _) as [[[r0 r1] r2] r3]. zl. rewrite !q4_bytes_len. reflexivity. Qed.
Lemma q4_bytes_bytes a : bytes (q4_bytes a).
Proof. destruct a as [[[a0 a1] a2] a3]. unfold q4_bytes. rewrite !bytes_app. auto using le_bytes_bytes. Qed.
Lemma cblock_bytes c : bytes (cblock c).
Proof. unfold cblock, core. destruct (iter 10 _ _) as [[[r0 r1] r2] r3]. rewrite !bytes_app. auto using q4_bytes_bytes. Qed.
Lemma flat_map_seq_shift {A} (f : nat -> list A) n s : flat_map f (seq (S s) n) = flat_map (fun j => f (S j)) (seq s n).
Proof. revert s. induction n; intros; cbn; auto. f_equal. apply IHn. Qed.
Lemma flat_map_seq_shiftn {A} (f : nat -> list A) n s : flat_map f (seq s n) = flat_map (fun j => f (s + j)%nat) (seq 0 n).
Proof.
  revert f. induction s; intros f; auto. rewrite flat_map_seq_shift, IHs. reflexivity.
Qed.
Lemma kstream_app c a b : kstream c (a + b) = kstream c a ++ kstream (bump c (Z.of_nat a)) b.
Proof.
  unfold kstream. rewrite seq_app, flat_map_app. f_equal. cbn [plus].
  rewrite flat_map_seq_shiftn. apply flat_map_ext. intros j. rewrite bump_bump. do 2 f_equal. lia.
Qed.
Lemma kstream_1 c : wc c -> kstream c 1 = cblock c.
Proof. intros. unfold kstream. cbn [seq flat_map]. rewrite app_nil_r, bump_0 by auto. reflexivity. Qed.
Lemma kstream_len c n : zlen (kstream c n) = 64 * Z.of_nat n.
Proof.
  revert c. induction n; intros c; [reflexivity|].
  replace (S n) with (1 + n)%nat by lia. rewrite kstream_app. zl. rewrite IHn.
  unfold kstream. cbn [seq flat_map]. rewrite app_nil_r, cblock_len. lia.
Qed.

Lemma xor_zip_length a k : zlen (xor_zip a k) = zlen a.
Proof. revert k. induction a; intros [|y k]; cbn [xor_zip]; auto. rewrite !zlen_cons, IHa. reflexivity. Qed.
Lemma xor_zip_app a b k l : zlen a = zlen k -> xor_zip (a ++ b) (k ++ l) = xor_zip a k ++ xor_zip b l.
Proof.
  revert k. induction a as [|x a IH]; intros [|y k]; rewrite ?zlen_cons; change (zlen (@nil Z)) with 0; intros H; auto.
  - pose proof (zlen_nonneg k); lia. - pose proof (zlen_nonneg a); lia.
  - cbn [app xor_zip]. f_equal. apply IH. lia.
Qed.
Lemma xor_zip_long a k l : zlen a <= zlen k -> xor_zip a (k ++ l) = xor_zip a k.
Proof.
  revert k. induction a as [|x a IH]; intros [|y k]; rewrite ?zlen_cons; change (zlen (@nil Z)) with 0; intros H; auto.
  - pose proof (zlen_nonneg a); lia.
  - cbn [app xor_zip]. f_equal. apply IH. lia.
Qed.
Lemma xor_zip_spec a k : zlen a <= zlen k -> xor_zip a k = xor_bytes a k.
Proof.
  unfold xor_bytes. revert k. induction a as [|x a IH]; intros [|y k]; rewrite ?zlen_cons; change (zlen (@nil Z)) with 0; intros H; auto.
  - pose proof (zlen_nonneg a); lia.
  - cbn [combine map xor_zip fst snd]. f_equal. apply IH. lia.
Qed.
Lemma xor_zip_bytes a k : bytes a -> bytes k -> bytes (xor_zip a k).
Proof.
  revert k. induction a as [|x a IH]; intros [|y k] Ha Hk; auto. apply bytes_cons in Ha, Hk. cbn [xor_zip].
  apply bytes_cons. destruct Ha, Hk. split; [|apply IH; auto]. apply (lxor_range 8); auto.
Qed.
Lemma xor_zip_twice a k : xor_zip (xor_zip a k) k = a.
Proof.
  revert k. induction a as [|x a IH]; intros [|y k]; auto. cbn [xor_zip]. rewrite IH. f_equal.
  rewrite Z.lxor_assoc, Z.lxor_nilpotent, Z.lxor_0_r. reflexivity.
Qed.

(** number of 64-byte blocks needed *)
Definition nblk (n : Z) : Z := (n + 63) / 64.
Lemma nblk_0 : nblk 0 = 0. Proof. reflexivity. Qed.
Lemma nblk_nonneg n : 0 <= n -> 0 <= nblk n. Proof. intros. apply Z.div_pos; lia. Qed.
Lemma nblk_ge n : n <= 64 * nblk n.
Proof. unfold nblk. pose proof (Z.div_mod (n + 63) 64). pose proof (Z.mod_pos_bound (n + 63) 64). lia. Qed.
Lemma nblk_add q n : nblk (64 * q + n) = q + nblk n.
Proof. unfold nblk. replace (64 * q + n + 63) with (n + 63 + q * 64) by lia. rewrite Z.div_add by lia. lia. Qed.
Lemma nblk_1 n : 0 < n <= 64 -> nblk n = 1.
Proof. intros. unfold nblk. symmetry. apply (Z.div_unique _ _ _ (n - 1)); lia. Qed.

Definition ks_xor (c : chacha) (b : list Z) : list Z := xor_zip b (kstream c (Z.to_nat (nblk (zlen b)))).
Lemma ks_xor_any c b n : zlen b <= 64 * Z.of_nat n -> xor_zip b (kstream c n) = ks_xor c b.
Proof.
  intros H. unfold ks_xor. pose proof (zlen_nonneg b). pose proof (nblk_nonneg (zlen b) ltac:(lia)).
  assert (Z.to_nat (nblk (zlen b)) <= n)%nat.
  { assert (nblk (zlen b) <= Z.of_nat n); [|lia]. unfold nblk.
    assert ((zlen b + 63) / 64 < Z.of_nat n + 1); [|lia]. apply Z.div_lt_upper_bound; lia. }
  replace n with (Z.to_nat (nblk (zlen b)) + (n - Z.to_nat (nblk (zlen b))))%nat by lia.
  rewrite kstream_app. apply xor_zip_long. rewrite kstream_len. pose proof (nblk_ge (zlen b)). lia.
Qed.
Lemma ks_xor_app c a b q : 0 <= q -> zlen a = 64 * q -> ks_xor c (a ++ b) = ks_xor c a ++ ks_xor (bump c q) b.
Proof.
  intros Hq Ha. unfold ks_xor at 1. zl. rewrite Ha, nblk_add.
  pose proof (nblk_nonneg (zlen b) (zlen_nonneg _)). rewrite Z2Nat.inj_add by lia. rewrite kstream_app.
  rewrite Z2Nat.id by lia. rewrite xor_zip_app by (rewrite kstream_len; lia). f_equal.
  apply ks_xor_any. lia.
Qed.

(** ** portable implementation *)
Lemma cipher_generic_spec b : forall c, wc c -> cipher_generic c b = (ks_xor c b, bump c (nblk (zlen b))).
Proof.
  unfold cipher_generic. apply (chunk_ind 64 (fun b => forall c, wc c ->
     cipher_chunks c (chunks 64 b) = (ks_xor c b, bump c (nblk (zlen b))))); [lia| | |].
  - intros c Hc. rewrite chunks_nil by lia. change (zlen (@nil Z)) with 0. rewrite nblk_0, bump_0 by auto. reflexivity.
  - intros l Hl c Hc. rewrite chunks_short by lia. cbn [cipher_chunks]. rewrite app_nil_r, nblk_1 by lia. f_equal.
    rewrite <- (ks_xor_any c l 1) by lia. rewrite kstream_1 by auto. reflexivity.
  - intros a r Ha IH c Hc. rewrite chunks_app by (auto; lia). cbn [cipher_chunks].
    rewrite IH by (apply wc_bump; auto). rewrite bump_bump. rewrite (ks_xor_app c a r 1) by lia.
    zl. rewrite Ha. change 64 with (64 * 1) at 1. rewrite nblk_add. f_equal.
    f_equal. rewrite <- (ks_xor_any c a 1) by lia. rewrite kstream_1 by auto. reflexivity.
Qed.

(** ** AVX2 implementation *)
Lemma rot8_ok x : u32 x -> le_val [nth 3 (le_bytes 4 x) 0; nth 0 (le_bytes 4 x) 0; nth 1 (le_bytes 4 x) 0; nth 2 (le_bytes 4 x) 0]
  = rol32 x 8.
Proof.
  intros Hx. rewrite rol32_roll by (auto; lia). unfold roll, W32, u32 in *. cbn [le_bytes nth le_val].
  change (2 ^ 8) with 256 in *. change (2 ^ (32 - 8)) with 16777216. change (2 ^ 32) with 4294967296 in *.
  pose proof (Z.div_mod x 256 ltac:(lia)). pose proof (Z.mod_pos_bound x 256 ltac:(lia)).
  set (a := x mod 256) in *. set (y := x / 256) in *.
  pose proof (Z.div_mod y 256 ltac:(lia)). pose proof (Z.mod_pos_bound y 256 ltac:(lia)).
  set (b := y mod 256) in *. set (z := y / 256) in *.
  pose proof (Z.div_mod z 256 ltac:(lia)). pose proof (Z.mod_pos_bound z 256 ltac:(lia)).
  set (c := z mod 256) in *. set (w := z / 256) in *.
  assert (0 <= w < 256) by lia. rewrite (Z.mod_small w) by lia.
  assert (E1 : x / 16777216 = w). { symmetry. apply (Z.div_unique _ _ _ (a + 256 * b + 65536 * c)); lia. }
  assert (E2 : x * 256 mod 4294967296 = 256 * (a + 256 * b + 65536 * c)).
  { symmetry. apply (Z.mod_unique _ _ w); lia. }
  rewrite E1, E2. lia.
Qed.
Lemma rot16_ok x : u32 x -> le_val [nth 2 (le_bytes 4 x) 0; nth 3 (le_bytes 4 x) 0; nth 0 (le_bytes 4 x) 0; nth 1 (le_bytes 4 x) 0]
  = rol32 x 16.
Proof.
  intros Hx. rewrite rol32_roll by (auto; lia). unfold roll, W32, u32 in *. cbn [le_bytes nth le_val].
  change (2 ^ 16) with 65536 in *. change (2 ^ (32 - 16)) with 65536. change (2 ^ 32) with 4294967296 in *.
  pose proof (Z.div_mod x 256 ltac:(lia)). pose proof (Z.mod_pos_bound x 256 ltac:(lia)).
  set (a := x mod 256) in *. set (y := x / 256) in *.
  pose proof (Z.div_mod y 256 ltac:(lia)). pose proof (Z.mod_pos_bound y 256 ltac:(lia)).
  set (b := y mod 256) in *. set (z := y / 256) in *.
  pose proof (Z.div_mod z 256 ltac:(lia)). pose proof (Z.mod_pos_bound z 256 ltac:(lia)).
  set (c := z mod 256) in *. set (w := z / 256) in *.
  assert (0 <= w < 256) by lia. rewrite (Z.mod_small w) by lia.
  assert (E1 : x / 65536 = c + 256 * w). { symmetry. apply (Z.div_unique _ _ _ (a + 256 * b)); lia. }
  assert (E2 : x * 65536 mod 4294967296 = 65536 * (a + 256 * b)).
  { symmetry. apply (Z.mod_unique _ _ (c + 256 * w)); lia. }
  rewrite E1, E2. lia.
Qed.
Lemma le_bytes4 x : le_bytes 4 x = [nth 0 (le_bytes 4 x) 0; nth 1 (le_bytes 4 x) 0; nth 2 (le_bytes 4 x) 0; nth 3 (le_bytes 4 x) 0].
Proof. reflexivity. Qed.
Local Opaque le_bytes le_val.
Lemma rotate_left_128_ok a n : w4 a -> (n = 7 \/ n = 8 \/ n = 12 \/ n = 16) ->
  rotate_left_128 a n = map4 (fun x => rol32 x n) a.
Proof.
  destruct a as [[[a0 a1] a2] a3]. intros (H0 & H1 & H2 & H3) [-> | [-> | [-> | ->]]]; try reflexivity.
  - cbv [rotate_left_128 map4]. change (8 =? 8) with true. cbv iota.
    rewrite <- !rot8_ok by auto. unfold shuffle_epi8, q4_bytes.
    rewrite (le_bytes4 a0), (le_bytes4 a1), (le_bytes4 a2), (le_bytes4 a3). reflexivity.
  - cbv [rotate_left_128 map4]. change (16 =? 8) with false. change (16 =? 16) with true. cbv iota.
    rewrite <- !rot16_ok by auto. unfold shuffle_epi8, q4_bytes.
    rewrite (le_bytes4 a0), (le_bytes4 a1), (le_bytes4 a2), (le_bytes4 a3). reflexivity.
Qed.
Lemma add4_w4 a b : w4 (add4 a b).
Proof. destruct a as [[[? ?] ?] ?], b as [[[? ?] ?] ?]. cbn. auto using add32_u32. Qed.
Lemma xor4_w4 a b : w4 a -> w4 b -> w4 (xor4 a b).
Proof. destruct a as [[[? ?] ?] ?], b as [[[? ?] ?] ?]. cbn. intros (?&?&?&?) (?&?&?&?). auto using lxor_u32. Qed.
Lemma rot4_w4 a n : 0 <= n <= 32 -> w4 a -> w4 (map4 (fun x => rol32 x n) a).
Proof. destruct a as [[[? ?] ?] ?]. cbn. intros Hn (?&?&?&?). auto using rol32_u32. Qed.

(** hquarter is the quarter round applied to each of the four columns *)
Definition cquarter (z : rows) : rows :=
  let '((z0, z1, z2, z3), (z4, z5, z6, z7), (z8, z9, za, zb), (zc, zd, ze, zf)) := z in
  let '(z0, z4, z8, zc) := quarter z0 z4 z8 zc in
  let '(z1, z5, z9, zd) := quarter z1 z5 z9 zd in
  let '(z2, z6, za, ze) := quarter z2 z6 za ze in
  let '(z3, z7, zb, zf) := quarter z3 z7 zb zf in
  ((z0, z1, z2, z3), (z4, z5, z6, z7), (z8, z9, za, zb), (zc, zd, ze, zf)).
Lemma hquarter_ok z : wrows z -> hquarter z = cquarter z /\ wrows (hquarter z).
Proof.
  destruct z as [[[a b] c] d]. intros (Ha & Hb & Hc & Hd). unfold hquarter.
  pose proof (add4_w4 a b) as A1. set (a1 := add4 a b) in *.
  pose proof (xor4_w4 _ _ Hd A1) as X1. rewrite (rotate_left_128_ok _ 16) by auto.
  pose proof (rot4_w4 _ 16 ltac:(lia) X1) as D1. set (d1 := map4 _ (xor4 d a1)) in *.
  pose proof (add4_w4 c d1) as C1. set (c1 := add4 c d1) in *.
  pose proof (xor4_w4 _ _ Hb C1) as X2. rewrite (rotate_left_128_ok _ 12) by auto.
  pose proof (rot4_w4 _ 12 ltac:(lia) X2) as B1. set (b1 := map4 _ (xor4 b c1)) in *.
  pose proof (add4_w4 a1 b1) as A2. set (a2 := add4 a1 b1) in *.
  pose proof (xor4_w4 _ _ D1 A2) as X3. rewrite (rotate_left_128_ok _ 8) by auto.
  pose proof (rot4_w4 _ 8 ltac:(lia) X3) as D2. set (d2 := map4 _ (xor4 d1 a2)) in *.
  pose proof (add4_w4 c1 d2) as C2. set (c2 := add4 c1 d2) in *.
  pose proof (xor4_w4 _ _ B1 C2) as X4. rewrite (rotate_left_128_ok _ 7) by auto.
  pose proof (rot4_w4 _ 7 ltac:(lia) X4) as B2.
  split; [|cbn [wrows]; auto].
  unfold c2, d2, a2, b1, c1, d1, a1.
  destruct a as [[[? ?] ?] ?], b as [[[? ?] ?] ?], c as [[[? ?] ?] ?], d as [[[? ?] ?] ?].
  Local Transparent quarter. reflexivity. Local Opaque quarter.
Qed.
Lemma shuffle_w4 a imm : w4 a -> w4 (shuffle_epi32 a imm).
Proof.
  destruct a as [[[a0 a1] a2] a3]. intros (?&?&?&?). unfold shuffle_epi32, sel4, w4.
  repeat match goal with |- context [if ?b then _ else _] => destruct b end; auto.
Qed.
Lemma shuf57 a b c d : shuffle_epi32 (a, b, c, d) 57 = (b, c, d, a). Proof. reflexivity. Qed.
Lemma shuf78 a b c d : shuffle_epi32 (a, b, c, d) 78 = (c, d, a, b). Proof. reflexivity. Qed.
Lemma shuf147 a b c d : shuffle_epi32 (a, b, c, d) 147 = (d, a, b, c). Proof. reflexivity. Qed.
Lemma hdouble_ok z : wrows z -> hdouble z = double_round z /\ wrows (hdouble z).
Proof.
  intros Hz. unfold hdouble. destruct (hquarter_ok z Hz) as [E W].
  destruct (hquarter z) as [[[a b] c] d]. destruct W as (Wa & Wb & Wc & Wd).
  destruct (hquarter_ok (a, shuffle_epi32 b 57, shuffle_epi32 c 78, shuffle_epi32 d 147)) as [E2 W2].
  { cbn [wrows]. auto using shuffle_w4. }
  destruct (hquarter (a, shuffle_epi32 b 57, shuffle_epi32 c 78, shuffle_epi32 d 147)) as [[[a' b'] c'] d'].
  destruct W2 as (Wa' & Wb' & Wc' & Wd'). split; [|cbn [wrows]; auto using shuffle_w4].
  destruct z as [[[[[[z0 z1] z2] z3] [[[z4 z5] z6] z7]] [[[z8 z9] za] zb]] [[[zc zd] ze] zf]].
  unfold cquarter in E. unfold double_round.
  destruct (quarter z0 z4 z8 zc) as [[[? ?] ?] ?]. destruct (quarter z1 z5 z9 zd) as [[[? ?] ?] ?].
  destruct (quarter z2 z6 za ze) as [[[? ?] ?] ?]. destruct (quarter z3 z7 zb zf) as [[[? ?] ?] ?].
  injection E as -> -> -> ->.
  rewrite shuf57, shuf78, shuf147 in E2.
  unfold cquarter in E2.
  repeat match goal with |- context [quarter ?a ?b ?c ?d] => destruct (quarter a b c d) as [[[? ?] ?] ?] end.
  injection E2 as -> -> -> ->. rewrite shuf57, shuf78, shuf147. reflexivity.
Qed.
(** a vector of rows is two independent states *)
Definition hrows (z : m256 * m256 * m256 * m256) : rows := let '(a, b, c, d) := z in (hi a, hi b, hi c, hi d).
Definition lorows (z : m256 * m256 * m256 * m256) : rows := let '(a, b, c, d) := z in (lo a, lo b, lo c, lo d).
Definition vpair (h l : rows) : m256 * m256 * m256 * m256 :=
  let '(a, b, c, d) := h in let '(a', b', c', d') := l in ((a, a'), (b, b'), (c, c'), (d, d')).
Lemma vquarter_pair h l : vquarter (vpair h l) = vpair (hquarter h) (hquarter l).
Proof.
  destruct h as [[[a b] c] d], l as [[[a' b'] c'] d']. cbn [vpair vquarter hquarter].
  unfold mm256_add, mm256_xor, rotate_left. cbn [hi lo fst snd]. reflexivity.
Qed.
Lemma vdouble_pair h l : vdouble (vpair h l) = vpair (hdouble h) (hdouble l).
Proof.
  unfold vdouble, hdouble. rewrite vquarter_pair.
  destruct (hquarter h) as [[[a b] c] d], (hquarter l) as [[[a' b'] c'] d']. cbn [vpair].
  unfold mm256_shuffle_epi32. cbn [hi lo fst snd].
  match goal with |- context [vquarter (((?a, ?a'), (?b, ?b'), (?c, ?c'), (?d, ?d')))] =>
    change (vquarter ((a, a'), (b, b'), (c, c'), (d, d'))) with (vquarter (vpair (a, b, c, d) (a', b', c', d'))) end.
  rewrite vquarter_pair.
  destruct (hquarter (a, _, _, _)) as [[[a2 b2] c2] d2], (hquarter (a', _, _, _)) as [[[a2' b2'] c2'] d2']. reflexivity.
Qed.
Lemma iter_vdouble n : forall h l, wrows h -> wrows l ->
  iter n vdouble (vpair h l) = vpair (iter n double_round h) (iter n double_round l).
Proof.
  induction n as [|n IH]; intros h l Hh Hl; [reflexivity|]. rewrite !iter_S, vdouble_pair.
  destruct (hdouble_ok h Hh) as [E1 W1], (hdouble_ok l Hl) as [E2 W2]. rewrite E1 in *. rewrite E2 in *. exact (IH _ _ W1 W2).
Qed.

(** an AVX2 context and the portable context it stands for *)
Definition of_x86 (c : chacha_x86) : chacha := {| cc_key0 := lo (z07 c); cc_key1 := hi (z8f c); cc_nonce := lo (z8f c) |}.
Definition x86_ok (c : chacha_x86) : Prop := hi (z07 c) = SIGMA /\ wc (of_x86 c).
Definition mkx (k0 k1 n : q4) : chacha_x86 := {| z07 := (SIGMA, k0); z8f := (k1, n) |}.

Lemma add32_0 x : u32 x -> add32 x 0 = x.
Proof. unfold add32, wadd, u32. intros. rewrite Z.add_0_r. apply Z.mod_small; lia. Qed.
Lemma add32_assoc x y z : add32 (add32 x y) z = add32 x (add32 y z).
Proof. unfold add32, wadd. rewrite Zplus_mod_idemp_l, Zplus_mod_idemp_r. f_equal. lia. Qed.
Lemma add4_assoc a b c : add4 (add4 a b) c = add4 a (add4 b c).
Proof.
  destruct a as [[[? ?] ?] ?], b as [[[? ?] ?] ?], c as [[[? ?] ?] ?]. cbn [add4]. rewrite !add32_assoc. reflexivity.
Qed.
Lemma add4_comm a b : add4 a b = add4 b a.
Proof.
  destruct a as [[[? ?] ?] ?], b as [[[? ?] ?] ?]. cbn [add4]. unfold add32, wadd.
  rewrite !(Z.add_comm z2), !(Z.add_comm z1), !(Z.add_comm z0), !(Z.add_comm z). reflexivity.
Qed.
Definition ctr4 (n : q4) (j : Z) : q4 := let '(n0, n1, n2, n3) := n in (add32 n0 j, n1, n2, n3).
Lemma add4_ctr n j : w4 n -> add4 n (j, 0, 0, 0) = ctr4 n j.
Proof. destruct n as [[[? ?] ?] ?]. intros (?&?&?&?). cbn. rewrite !add32_0 by auto. reflexivity. Qed.
Lemma ctr4_w4 n j : w4 n -> w4 (ctr4 n j).
Proof. destruct n as [[[? ?] ?] ?]. intros (?&?&?&?). cbn. auto using add32_u32. Qed.
Lemma cblock_ctr k0 k1 n j : cblock (bump {| cc_key0 := k0; cc_key1 := k1; cc_nonce := n |} j) = core k0 k1 (ctr4 n j).
Proof. destruct n as [[[? ?] ?] ?]. reflexivity. Qed.

Local Opaque iter double_round.
Lemma core_8x_lane_ok k0 k1 n jh jl : w4 k0 -> w4 k1 -> w4 n ->
  core_8x_lane (SIGMA, k0) (k1, n) (set_epi32 0 0 0 jh 0 0 0 jl) = (core k0 k1 (ctr4 n jh), core k0 k1 (ctr4 n jl)).
Proof.
  intros H0 H1 H2. unfold core_8x_lane, bcast_extract, set_epi32. cbn [Z.eqb hi lo fst snd Pos.eqb].
  change (((SIGMA, SIGMA), (k0, k0), (k1, k1), mm256_add (n, n) ((jh, 0, 0, 0), (jl, 0, 0, 0))))
    with (vpair (SIGMA, k0, k1, add4 n (jh, 0, 0, 0)) (SIGMA, k0, k1, add4 n (jl, 0, 0, 0))).
  rewrite !add4_ctr by auto. rewrite iter_vdouble by (cbn [wrows]; auto using SIGMA_w4, ctr4_w4).
  unfold core.
  destruct (iter 10 double_round (SIGMA, k0, k1, ctr4 n jh)) as [[[r0 r1] r2] r3].
  destruct (iter 10 double_round (SIGMA, k0, k1, ctr4 n jl)) as [[[t0 t1] t2] t3].
  cbn [vpair]. unfold mm256_add, permute2x128, m256_bytes.
  change (Z.land 49 3) with 1. change (Z.land (Z.shiftr 49 4) 3) with 3. change (Z.land 32 3) with 0. change (Z.land (Z.shiftr 32 4) 3) with 2.
  cbn [Z.eqb hi lo fst snd Pos.eqb]. rewrite !add4_assoc, !add4_ctr by auto.
  rewrite !(add4_comm SIGMA), !(add4_comm k0), !(add4_comm k1), !(add4_comm (ctr4 _ _)). rewrite <- !app_assoc. reflexivity.
Qed.

Lemma kstream_S c n : kstream c (S n) = kstream c n ++ cblock (bump c (Z.of_nat n)).
Proof. unfold kstream. rewrite seq_S, flat_map_app. cbn [flat_map plus]. rewrite app_nil_r. reflexivity. Qed.

Lemma core_8x_ok k0 k1 n b : w4 k0 -> w4 k1 -> w4 n -> zlen b = 512 ->
  let c := {| cc_key0 := k0; cc_key1 := k1; cc_nonce := n |} in
  core_8x (SIGMA, k0) (k1, n) b = (ks_xor c b, (k1, cc_nonce (bump c 8))).
Proof.
  intros H0 H1 H2 Hb c. unfold core_8x. rewrite !core_8x_lane_ok by auto.
  rewrite <- (ks_xor_any c b 8) by lia.
  f_equal.
  - f_equal. rewrite !kstream_S. change (kstream c 0) with (@nil Z). cbn [app]. unfold c. rewrite !cblock_ctr.
    rewrite <- !app_assoc. reflexivity.
  - unfold mm256_add, set_epi32. cbn [hi lo fst snd]. f_equal.
    + rewrite add4_ctr by auto. destruct k1 as [[[? ?] ?] ?]. destruct H1 as (?&?&?&?). cbn [ctr4]. rewrite add32_0 by auto. reflexivity.
    + rewrite add4_ctr by auto. unfold c, bump. cbn. destruct n as [[[? ?] ?] ?]. reflexivity.
Qed.

(** the counter increment of core_2x *)
Definition used_2x (n : Z) : Z := if 32 <? n then 2 else 1.
Lemma core_2x_ok k0 k1 n b : w4 k0 -> w4 k1 -> w4 n -> 0 < zlen b <= 128 ->
  let c := {| cc_key0 := k0; cc_key1 := k1; cc_nonce := n |} in
  core_2x (SIGMA, k0) (k1, n) b = (ks_xor c b, (k1, cc_nonce (bump c (used_2x (zlen b))))).
Proof.
  intros H0 H1 H2 Hb c. unfold core_2x. unfold bcast_extract, set_epi32. cbn [Z.eqb hi lo fst snd Pos.eqb].
  change (((SIGMA, SIGMA), (k0, k0), (k1, k1), mm256_add (n, n) ((0, 0, 0, 0), (1, 0, 0, 0))))
    with (vpair (SIGMA, k0, k1, add4 n (0, 0, 0, 0)) (SIGMA, k0, k1, add4 n (1, 0, 0, 0))).
  rewrite !add4_ctr by auto. rewrite iter_vdouble by (cbn [wrows]; auto using SIGMA_w4, ctr4_w4).
  assert (K : kstream c 2 = core k0 k1 (ctr4 n 0) ++ core k0 k1 (ctr4 n 1)).
  { rewrite !kstream_S. change (kstream c 0) with (@nil Z). cbn [app]. unfold c. rewrite !cblock_ctr. reflexivity. }
  unfold core in K.
  destruct (iter 10 double_round (SIGMA, k0, k1, ctr4 n 0)) as [[[r0 r1] r2] r3].
  destruct (iter 10 double_round (SIGMA, k0, k1, ctr4 n 1)) as [[[t0 t1] t2] t3].
  cbn [vpair]. unfold mm256_add, permute2x128, m256_bytes.
  change (Z.land 49 3) with 1. change (Z.land (Z.shiftr 49 4) 3) with 3. change (Z.land 32 3) with 0. change (Z.land (Z.shiftr 32 4) 3) with 2.
  cbn [Z.eqb hi lo fst snd Pos.eqb]. rewrite !add4_ctr by auto.
  rewrite !(add4_comm SIGMA), !(add4_comm k0), !(add4_comm k1), !(add4_comm (ctr4 _ _)) in K.
  set (A := q4_bytes (add4 r0 SIGMA)) in *. set (B := q4_bytes (add4 r1 k0)) in *.
  set (C := q4_bytes (add4 r2 k1)) in *. set (D := q4_bytes (add4 r3 (ctr4 n 0))) in *.
  set (A' := q4_bytes (add4 t0 SIGMA)) in *. set (B' := q4_bytes (add4 t1 k0)) in *.
  set (C' := q4_bytes (add4 t2 k1)) in *. set (D' := q4_bytes (add4 t3 (ctr4 n 1))) in *.
  assert (K' : kstream c 2 = (A ++ B) ++ (C ++ D) ++ (A' ++ B') ++ (C' ++ D')) by (rewrite K, <- !app_assoc; reflexivity).
  f_equal.
  - rewrite <- (ks_xor_any c b 2) by lia. rewrite K'.
    assert (L2 : forall x y, zlen (q4_bytes x ++ q4_bytes y) = 32) by (intros; zl; rewrite !q4_bytes_len; lia).
    destruct (zlen b =? 128) eqn:E1; [|destruct (zlen b =? 32) eqn:E2].
    + rewrite <- (ztake_zdrop 32 b) at 5. rewrite xor_zip_app by (rewrite zlen_ztake by lia; symmetry; apply L2). f_equal.
      rewrite <- (ztake_zdrop 32 (zdrop 32 b)) at 2. rewrite zdrop_zdrop by lia.
      rewrite xor_zip_app by (rewrite zlen_ztake by (rewrite zlen_zdrop by lia; lia); symmetry; apply L2). f_equal.
      rewrite <- (ztake_zdrop 32 (zdrop (32 + 32) b)). rewrite zdrop_zdrop by lia.
      rewrite xor_zip_app by (rewrite zlen_ztake by (rewrite zlen_zdrop by lia; lia); symmetry; apply L2).
      change (32 + 32) with 64. change (32 + 64) with 96. f_equal.
      f_equal. apply ztake_all. rewrite zlen_zdrop by lia. lia.
    + symmetry; apply xor_zip_long. unfold A, B. rewrite L2. lia.
    + reflexivity.
  - f_equal.
    + destruct k1 as [[[? ?] ?] ?]. destruct H1 as (?&?&?&?). cbn [ctr4]. rewrite add32_0 by auto. reflexivity.
    + unfold c, bump, used_2x. cbn. destruct n as [[[? ?] ?] ?]. reflexivity.
Qed.

Lemma x86_8x_ok k0 k1 : w4 k0 -> w4 k1 -> forall q b n, 0 <= q -> zlen b = 512 * q -> w4 n ->
  let c := {| cc_key0 := k0; cc_key1 := k1; cc_nonce := n |} in
  x86_chunks core_8x (SIGMA, k0) (k1, n) (chunks_exact 512 b) = (ks_xor c b, (k1, cc_nonce (bump c (8 * q)))).
Proof.
  intros H0 H1 q b n Hq. revert b n. pattern q. apply natlike_ind; [| |exact Hq]; clear q Hq.
  - intros b n Hb Hn c. rewrite (zlen_0_nil b) by lia. cbn [chunks_exact chunks_fuel length x86_chunks].
    rewrite Z.mul_0_r, bump_0 by (unfold c, wc; cbn; auto). reflexivity.
  - intros q Hq IH b n Hb Hn c. rewrite chunks_exact_cons by lia. cbn [x86_chunks].
    rewrite core_8x_ok by (auto; rewrite zlen_ztake; lia). fold c.
    rewrite IH; [|rewrite zlen_zdrop; lia|]. 2:{ apply (wc_bump c 8). unfold c, wc; cbn; auto. }
    replace {| cc_key0 := k0; cc_key1 := k1; cc_nonce := cc_nonce (bump c 8) |} with (bump c 8)
      by (unfold bump; destruct (cc_nonce c) as [[[? ?] ?] ?]; reflexivity).
    rewrite bump_bump. replace (8 + 8 * q) with (8 * Z.succ q) by lia. f_equal.
    rewrite <- (ks_xor_app c _ _ 8) by (rewrite ?zlen_ztake; lia). rewrite ztake_zdrop. reflexivity.
Qed.

(** counter increments by the 2-block path over a tail of n bytes *)
Definition adv_2x (n : Z) : Z := 2 * (n / 128) + (if n mod 128 =? 0 then 0 else used_2x (n mod 128)).
Lemma x86_2x_ok k0 k1 : w4 k0 -> w4 k1 -> forall b n, w4 n ->
  let c := {| cc_key0 := k0; cc_key1 := k1; cc_nonce := n |} in
  x86_chunks core_2x (SIGMA, k0) (k1, n) (chunks 128 b) = (ks_xor c b, (k1, cc_nonce (bump c (adv_2x (zlen b))))).
Proof.
  intros H0 H1 b. apply (chunk_ind 128 (fun b => forall n, w4 n -> let c := {| cc_key0 := k0; cc_key1 := k1; cc_nonce := n |} in
    x86_chunks core_2x (SIGMA, k0) (k1, n) (chunks 128 b) = (ks_xor c b, (k1, cc_nonce (bump c (adv_2x (zlen b))))))); [lia| | |].
  - intros n Hn c. rewrite chunks_nil by lia. cbn [x86_chunks]. change (adv_2x (zlen (@nil Z))) with 0.
    rewrite bump_0 by (unfold c, wc; cbn; auto). reflexivity.
  - intros l Hl n Hn c. rewrite chunks_short by lia. cbn [x86_chunks].
    rewrite core_2x_ok by (auto; lia). fold c. rewrite app_nil_r. f_equal. do 3 f_equal.
    unfold adv_2x. rewrite Z.div_small, Z.mod_small by lia. destruct (zlen l =? 0) eqn:E; lia.
  - intros a r Ha IH n Hn c. rewrite chunks_app by lia. cbn [x86_chunks].
    rewrite core_2x_ok by (auto; lia). fold c. rewrite Ha. change (used_2x 128) with 2.
    rewrite IH. 2:{ apply (wc_bump c 2). unfold c, wc; cbn; auto. }
    replace {| cc_key0 := k0; cc_key1 := k1; cc_nonce := cc_nonce (bump c 2) |} with (bump c 2)
      by (unfold bump; destruct (cc_nonce c) as [[[? ?] ?] ?]; reflexivity).
    rewrite bump_bump. f_equal.
    + symmetry. apply ks_xor_app; lia.
    + do 3 f_equal. unfold adv_2x. zl. rewrite Ha. replace (128 + zlen r) with (zlen r + 1 * 128) by lia.
      rewrite Z.div_add, Z.mod_add by lia. lia.
Qed.

Lemma cipher_x86_spec c b : x86_ok c ->
  let (o, c') := cipher_x86 c b in
  o = ks_xor (of_x86 c) b /\ x86_ok c' /\
  of_x86 c' = bump (of_x86 c) (8 * (zlen b / 512) + adv_2x (zlen b mod 512)).
Proof.
  destruct c as [[s k0] [k1 n]]. intros [Hs (H0 & H1 & H2)]. cbn in Hs, H0, H1, H2. subst s.
  unfold cipher_x86. cbn [z07 z8f].
  pose proof (Z.div_mod (zlen b) 512 ltac:(lia)) as DM. pose proof (Z.mod_pos_bound (zlen b) 512 ltac:(lia)) as MB.
  pose proof (zlen_nonneg b) as Hb0. assert (Hq : 0 <= zlen b / 512) by (apply Z.div_pos; lia).
  rewrite (x86_8x_ok k0 k1 H0 H1 (zlen b / 512)); auto. 2:{ rewrite zlen_ztake; lia. }
  set (c := {| cc_key0 := k0; cc_key1 := k1; cc_nonce := n |}).
  assert (Wc : wc c) by (unfold wc, c; cbn; auto).
  pose proof (wc_bump c (8 * (zlen b / 512)) Wc) as W8.
  rewrite (x86_2x_ok k0 k1 H0 H1) by apply W8.
  assert (EB : forall j, {| cc_key0 := k0; cc_key1 := k1; cc_nonce := cc_nonce (bump c j) |} = bump c j)
    by (intros; unfold bump; destruct (cc_nonce c) as [[[? ?] ?] ?]; reflexivity).
  rewrite EB. rewrite bump_bump. rewrite zlen_zdrop by lia.
  replace (zlen b - zlen b / 512 * 512) with (zlen b mod 512) by lia.
  unfold of_x86, x86_ok. cbn [z07 z8f hi lo fst snd]. fold c. rewrite EB. split; [|split; [split|]]; auto.
  - rewrite <- (ks_xor_app c) by (rewrite ?zlen_ztake; lia). rewrite ztake_zdrop. reflexivity.
  - unfold of_x86. cbn [z07 z8f hi lo fst snd]. rewrite EB. apply wc_bump, Wc.
Qed.

(** ** RFC 8439 *)
Lemma le32_at_app ctr nonce : 0 <= ctr < 2 ^ 32 -> zlen nonce = 12 ->
  words32 (le_bytes 4 ctr ++ nonce) = ctr :: words32 nonce.
Proof.
  Local Transparent le_bytes le_val.
  intros Hc Hn. cbn [le_bytes app words32]. f_equal.
  pose proof (Z.div_mod ctr 256 ltac:(lia)). pose proof (Z.div_mod (ctr / 256) 256 ltac:(lia)).
  pose proof (Z.div_mod (ctr / 256 / 256) 256 ltac:(lia)).
  assert (0 <= ctr / 256 / 256 / 256 < 256).
  { rewrite !Z.div_div by lia. split; [apply Z.div_pos; lia|apply Z.div_lt_upper_bound; lia]. }
  rewrite (Z.mod_small (ctr / 256 / 256 / 256)) by lia. lia.
Qed.
Definition rfc_ctx (key : list Z) (ctr : Z) (nonce : list Z) : chacha := chacha_new key (le_bytes 4 ctr ++ nonce).
Lemma zlen_ctr_nonce ctr nonce : zlen nonce = 12 -> zlen (le_bytes 4 ctr ++ nonce) = 16.
Proof. intros. zl. rewrite zlen_le_bytes. lia. Qed.
Lemma bytes_ctr_nonce ctr nonce : bytes nonce -> bytes (le_bytes 4 ctr ++ nonce).
Proof. intros. apply bytes_app. auto using le_bytes_bytes. Qed.
Lemma chacha_new_wc key nonce : bytes key -> zlen key = 32 -> bytes nonce -> zlen nonce = 16 -> wc (chacha_new key nonce).
Proof.
  intros. unfold wc, chacha_new; cbn [cc_key0 cc_key1 cc_nonce]. repeat match goal with |- _ /\ _ => split end;
  apply four_w4; auto using bytes_ztake, bytes_zdrop; rewrite ?zlen_ztake; rewrite ?zlen_zdrop; lia.
Qed.
Lemma rfc_ctx_wc key ctr nonce : bytes key -> zlen key = 32 -> bytes nonce -> zlen nonce = 12 -> wc (rfc_ctx key ctr nonce).
Proof. intros. apply chacha_new_wc; auto using bytes_ctr_nonce, zlen_ctr_nonce. Qed.
Lemma words32_key key : zlen key = 32 -> words32 key = l4 (four (ztake 16 key)) ++ l4 (four (ztake 16 (zdrop 16 key))).
Proof.
  intros. rewrite !four_words by (rewrite ?zlen_ztake; rewrite ?zlen_zdrop; lia).
  rewrite (ztake_all 16 (zdrop 16 key)) by (rewrite zlen_zdrop; lia).
  rewrite <- words32_app by (rewrite zlen_ztake; lia). rewrite ztake_zdrop. reflexivity.
Qed.
Lemma cblock_rfc key ctr nonce : bytes key -> zlen key = 32 -> bytes nonce -> zlen nonce = 12 -> 0 <= ctr < 2 ^ 32 ->
  cblock (rfc_ctx key ctr nonce) = chacha20_block key ctr nonce.
Proof.
  intros Bk Lk Bn Ln Hc. destruct (rfc_ctx_wc key ctr nonce) as (A & B & C); auto.
  unfold cblock. rewrite core_spec by auto. unfold chacha20_block. f_equal. f_equal.
  unfold rfc_ctx, chacha_new. cbn [cc_key0 cc_key1 cc_nonce]. rewrite (words32_key key) by auto.
  rewrite <- app_assoc. do 2 f_equal. rewrite four_words by auto using zlen_ctr_nonce.
  rewrite le32_at_app by auto. reflexivity.
Qed.
Lemma l4_inj a b : l4 a = l4 b -> a = b.
Proof. destruct a as [[[? ?] ?] ?], b as [[[? ?] ?] ?]. cbn. congruence. Qed.
Lemma bump_rfc key ctr nonce j : zlen nonce = 12 -> 0 <= ctr < 2 ^ 32 ->
  bump (rfc_ctx key ctr nonce) j = rfc_ctx key ((ctr + j) mod 2 ^ 32) nonce.
Proof.
  intros Ln Hc. unfold bump, rfc_ctx, chacha_new. cbn [cc_key0 cc_key1 cc_nonce].
  assert (E : forall x, 0 <= x < 2 ^ 32 -> l4 (four (le_bytes 4 x ++ nonce)) = x :: words32 nonce).
  { intros. rewrite four_words by auto using zlen_ctr_nonce. apply le32_at_app; auto. }
  pose proof (E ctr Hc) as E1. pose proof (E ((ctr + j) mod 2 ^ 32) ltac:(apply Z.mod_pos_bound; reflexivity)) as E2.
  destruct (four (le_bytes 4 ctr ++ nonce)) as [[[n0 n1] n2] n3].
  destruct (four (le_bytes 4 ((ctr + j) mod 2 ^ 32) ++ nonce)) as [[[m0 m1] m2] m3]. cbn [l4] in E1, E2.
  injection E1 as -> E1. injection E2 as -> E2. rewrite <- E1 in E2. injection E2 as -> -> ->. reflexivity.
Qed.
Lemma kstream_rfc key ctr nonce n : bytes key -> zlen key = 32 -> bytes nonce -> zlen nonce = 12 -> 0 <= ctr < 2 ^ 32 ->
  kstream (rfc_ctx key ctr nonce) n = key_stream key ctr nonce n.
Proof.
  intros. unfold kstream, key_stream. apply flat_map_ext. intros j. rewrite bump_rfc by auto.
  apply cblock_rfc; auto. apply Z.mod_pos_bound. reflexivity.
Qed.
Lemma ks_xor_rfc key ctr nonce b : bytes key -> zlen key = 32 -> bytes nonce -> zlen nonce = 12 -> 0 <= ctr < 2 ^ 32 ->
  ks_xor (rfc_ctx key ctr nonce) b = chacha20_encrypt key ctr nonce b.
Proof.
  intros. unfold ks_xor, chacha20_encrypt. rewrite kstream_rfc by auto. apply xor_zip_spec.
  rewrite <- kstream_rfc, kstream_len by auto. pose proof (nblk_ge (zlen b)). unfold nblk in *. lia.
Qed.

(** ** construction of the contexts *)
Lemma splice_zero a n (x : list Z) : Z.of_nat a + zlen x = Z.of_nat n -> splice (repeat 0 n) (Z.of_nat a) x = repeat 0 a ++ x.
Proof.
  intros H. unfold splice. rewrite zdrop_all by (rewrite zlen_repeat; lia). rewrite app_nil_r. f_equal.
  unfold zlen in H. replace n with (a + (n - a))%nat by lia. rewrite repeat_app. rewrite ztake_app_le by (rewrite zlen_repeat; lia).
  apply ztake_all. rewrite zlen_repeat. lia.
Qed.
Lemma full_nonce nonce : zlen nonce = 12 -> splice (repeat 0 16) 4 nonce = le_bytes 4 0 ++ nonce.
Proof. intros. apply (splice_zero 4 16). lia. Qed.
Lemma xfull_nonce nonce : zlen nonce = 24 -> splice (repeat 0 16) 8 (ztake 8 (zdrop 16 nonce)) = le_bytes 4 0 ++ xnonce nonce.
Proof.
  intros. rewrite ztake_all by (rewrite zlen_zdrop; lia). rewrite (splice_zero 8 16) by (rewrite zlen_zdrop; lia). reflexivity.
Qed.
Lemma le_val_le_bytes4 x : u32 x -> le_val (le_bytes 4 x) = x.
Proof. intros. rewrite le_val_le_bytes. apply Z.mod_small. exact H. Qed.
Lemma q4_bytes_four a : w4 a -> four (q4_bytes a) = a.
Proof.
  destruct a as [[[a0 a1] a2] a3]. intros (H0 & H1 & H2 & H3). apply l4_inj. rewrite four_words by apply q4_bytes_len.
  pose proof (le_val_le_bytes4 a0 H0). pose proof (le_val_le_bytes4 a1 H1).
  pose proof (le_val_le_bytes4 a2 H2). pose proof (le_val_le_bytes4 a3 H3).
  cbn [q4_bytes l4]. cbn [le_bytes app words32 le_val] in *. do 3 (f_equal; [lia|]). f_equal. lia.
Qed.
Lemma hchacha_ctx key nonce : bytes key -> zlen key = 32 -> bytes nonce -> zlen nonce = 16 ->
  let '(r0, r1, r2, r3) := iter 10 double_round (SIGMA, four (ztake 16 key), four (ztake 16 (zdrop 16 key)), four nonce) in
  w4 r0 /\ w4 r3 /\ hchacha20 key nonce = q4_bytes r0 ++ q4_bytes r3.
Proof.
  intros Bk Lk Bn Ln. set (z := (SIGMA, _, _, four nonce)).
  assert (Wz : wrows z).
  { destruct (chacha_new_wc key nonce) as (A & B & C); auto. unfold z, wrows. auto using SIGMA_w4. }
  destruct (iter_spec 10 z Wz) as [E W].
  assert (Ez : init_state key nonce = lrows z).
  { unfold init_state, z. cbn [lrows]. rewrite (words32_key key), <- four_words by auto. rewrite <- app_assoc. reflexivity. }
  unfold hchacha20. rewrite Ez, E. destruct (iter 10 double_round z) as [[[r0 r1] r2] r3]. destruct W as (W0 & W1 & W2 & W3).
  split; auto. split; auto. rewrite !q4_bytes_l4, <- serialize_app. f_equal.
  cbn [lrows]. destruct r0 as [[[? ?] ?] ?], r1 as [[[? ?] ?] ?], r2 as [[[? ?] ?] ?], r3 as [[[? ?] ?] ?]. reflexivity.
Qed.
Lemma xkey_len key nonce : bytes key -> zlen key = 32 -> bytes nonce -> zlen nonce = 24 -> zlen (xkey key nonce) = 32 /\ bytes (xkey key nonce).
Proof.
  intros Bk Lk Bn Ln. unfold xkey.
  pose proof (hchacha_ctx key (ztake 16 nonce) Bk Lk (bytes_ztake _ _ Bn) ltac:(rewrite zlen_ztake; lia)) as H.
  destruct (iter 10 _ _) as [[[r0 r1] r2] r3]. destruct H as (_ & _ & ->). zl. rewrite !q4_bytes_len. split; [lia|].
  apply bytes_app. auto using q4_bytes_bytes.
Qed.
Lemma xnonce_len nonce : bytes nonce -> zlen nonce = 24 -> zlen (xnonce nonce) = 12 /\ bytes (xnonce nonce).
Proof.
  intros Bn Ln. unfold xnonce. split. zl. rewrite ?zlen_repeat, zlen_zdrop; lia. apply bytes_app. split.
  apply bytes_repeat; unfold byte_ok; lia. auto using bytes_zdrop.
Qed.
Lemma xchacha_new_rfc key nonce : bytes key -> zlen key = 32 -> bytes nonce -> zlen nonce = 24 ->
  xchacha_new key nonce = rfc_ctx (xkey key nonce) 0 (xnonce nonce).
Proof.
  intros Bk Lk Bn Ln. unfold xchacha_new, hchacha, rfc_ctx, chacha_new. rewrite <- xfull_nonce by auto. unfold xkey.
  pose proof (hchacha_ctx key (ztake 16 nonce) Bk Lk (bytes_ztake _ _ Bn) ltac:(rewrite zlen_ztake; lia)) as H.
  destruct (iter 10 _ _) as [[[r0 r1] r2] r3]. destruct H as (W0 & W3 & ->).
  rewrite (ztake_app_le 16), (zdrop_app_ge 16) by (rewrite q4_bytes_len; lia).
  rewrite q4_bytes_len, zdrop_0. rewrite (ztake_all 16 (q4_bytes r0)), (ztake_all 16 (q4_bytes r3)) by (rewrite q4_bytes_len; lia).
  rewrite !q4_bytes_four by auto. reflexivity.
Qed.
Lemma SIGMA_bytes_four : four SIGMA_bytes = SIGMA. Proof. reflexivity. Qed.
Lemma format_key_ok key nonce : bytes key -> zlen key = 32 -> bytes nonce -> zlen nonce = 16 ->
  x86_ok (format_key key nonce) /\ of_x86 (format_key key nonce) = chacha_new key nonce.
Proof.
  intros. assert (E : of_x86 (format_key key nonce) = chacha_new key nonce) by reflexivity.
  split; auto. split. reflexivity. rewrite E. apply chacha_new_wc; auto.
Qed.
Lemma iter_hdouble n : forall z, wrows z -> iter n hdouble z = iter n double_round z.
Proof. induction n as [|n IH]; intros z Hz; auto. rewrite !iter_S. destruct (hdouble_ok z Hz) as [E W]. rewrite E in *. auto. Qed.
Lemma xchacha_new_x86_ok key nonce : bytes key -> zlen key = 32 -> bytes nonce -> zlen nonce = 24 ->
  x86_ok (xchacha_new_x86 key nonce) /\ of_x86 (xchacha_new_x86 key nonce) = xchacha_new key nonce.
Proof.
  intros Bk Lk Bn Ln.
  assert (E : hi (z07 (xchacha_new_x86 key nonce)) = SIGMA /\ of_x86 (xchacha_new_x86 key nonce) = xchacha_new key nonce).
  { unfold xchacha_new_x86, xchacha_new, hchacha. rewrite SIGMA_bytes_four, iter_hdouble.
    - destruct (iter 10 _ _) as [[[r0 r1] r2] r3]. split; reflexivity.
    - destruct (chacha_new_wc key (ztake 16 nonce)) as (A & B & C); auto using bytes_ztake. rewrite zlen_ztake; lia.
      unfold wrows. auto using SIGMA_w4. }
  destruct E as [E1 E2]. split; auto. split; auto. rewrite E2, xchacha_new_rfc by auto.
  destruct (xkey_len key nonce), (xnonce_len nonce); auto. apply rfc_ctx_wc; auto.
Qed.
