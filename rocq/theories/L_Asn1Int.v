(** INTEGER contents: minimality, value, uniqueness; enumerations. *)
Require Import Verif.Base Verif.L_Base Verif.M_Asn1 Verif.M_Pkix Verif.S_Der Verif.L_Asn1.
Require Import ZifyNat.

Lemma int_value_bound x r : bytes (x :: r) ->
  - (128 * 256 ^ zlen r) <= int_value (x :: r) < 128 * 256 ^ zlen r.
Proof.
  intro H. apply bytes_cons in H as [Hx Hr]. unfold byte_ok in Hx.
  pose proof (be_val_bound r Hr). unfold int_value. rewrite be_val_cons, zlen_cons.
  pose proof (zlen_nonneg r). rewrite Z.pow_add_r by lia. change (256^1) with 256.
  set (P := 256 ^ zlen r) in *. destruct (Z.leb_spec 128 x); nia.
Qed.

Lemma minimal_far x y r : bytes (x :: y :: r) -> minimal_int (x :: y :: r) ->
  int_value (x :: y :: r) < - (128 * 256 ^ zlen r) \/ 128 * 256 ^ zlen r <= int_value (x :: y :: r).
Proof.
  intros H M. apply bytes_cons in H as [Hx Hr]. apply bytes_cons in Hr as [Hy Hr]. unfold byte_ok in *.
  pose proof (be_val_bound r Hr). unfold int_value. rewrite !be_val_cons, !zlen_cons.
  pose proof (zlen_nonneg r). rewrite !Z.pow_add_r by lia. change (256^1) with 256.
  set (P := 256 ^ zlen r) in *. cbn in M. destruct (Z.leb_spec 128 x).
  - left. assert (x < 255 \/ x = 255 /\ y < 128) as [?|[? ?]] by lia; nia.
  - right. assert (0 < x \/ x = 0 /\ 128 <= y) as [?|[? ?]] by lia; nia.
Qed.

Lemma minimal_len_le a b : wf_int a -> wf_int b -> int_value a = int_value b -> (length a <= length b)%nat.
Proof.
  intros [Ba Ma] [Bb Mb] E.
  destruct (Nat.leb_spec (length a) (length b)); auto. exfalso.
  destruct b as [|x b]; [cbn in Mb; tauto|].
  destruct a as [|u [|v a]]; cbn [length] in *; try lia.
  pose proof (int_value_bound x b Bb). pose proof (minimal_far u v a Ba Ma).
  assert (256 ^ zlen b <= 256 ^ zlen a). { apply Z.pow_le_mono_r; unfold zlen; lia. }
  lia.
Qed.

Lemma int_value_mod b : int_value b mod 256 ^ zlen b = be_val b mod 256 ^ zlen b.
Proof.
  destruct b as [|x b]; [reflexivity|]. unfold int_value. destruct (128 <=? x); auto.
  rewrite <- (Z.mod_add (be_val (x::b) - _) 1).
  - f_equal. lia.
  - apply Z.pow_nonzero; [lia|apply zlen_nonneg].
Qed.

Lemma minimal_unique a b : wf_int a -> wf_int b -> int_value a = int_value b -> a = b.
Proof.
  intros Wa Wb E. assert (L: length a = length b).
  { pose proof (minimal_len_le a b Wa Wb E). pose proof (minimal_len_le b a Wb Wa (eq_sym E)). lia. }
  destruct Wa as [Ba _], Wb as [Bb _]. apply be_val_inj; auto.
  pose proof (int_value_mod a) as Ea. pose proof (int_value_mod b) as Eb.
  assert (zlen a = zlen b) as Z1 by (unfold zlen; lia).
  rewrite (Z.mod_small (be_val a)) in Ea by now apply be_val_bound.
  rewrite (Z.mod_small (be_val b)) in Eb by now apply be_val_bound.
  congruence.
Qed.

Lemma strip_ff_cons x y b : strip_ff (x :: y :: b) =
  if (x =? 0xff) && (Z.land y 0x80 =? 0x80) then strip_ff (y :: b) else x :: y :: b.
Proof. reflexivity. Qed.
Lemma strip_ff_spec b : bytes b -> match b with x :: _ => 128 <= x | [] => False end ->
  let r := strip_ff b in wf_int r /\ int_value r = int_value b.
Proof.
  induction b as [|x b IH]; [tauto|]. intros Hb Hx. destruct b as [|y b].
  { cbn. repeat split; auto. }
  pose proof Hb as Hb'. apply bytes_cons in Hb' as [H1 H2]. pose proof H2 as H2'. apply bytes_cons in H2' as [H3 H4].
  cbv zeta. rewrite strip_ff_cons. rewrite land_80 by auto. unfold byte_ok in *.
  destruct (Z.eqb_spec x 0xff); destruct (Z.leb_spec 128 y); cbn [andb Z.eqb Pos.eqb].
  - destruct (IH H2) as [W E]; auto. split; auto. cbv zeta in *. rewrite E. unfold int_value.
    destruct (Z.leb_spec 128 y); [|lia]. destruct (Z.leb_spec 128 x); [|lia].
    subst x. rewrite (be_val_cons 255), (zlen_cons 255). pose proof (zlen_nonneg (y::b)).
    rewrite Z.pow_add_r by lia. lia.
  - split; [|reflexivity]. split; auto. cbn; lia.
  - split; [|reflexivity]. split; auto. cbn; lia.
  - split; [|reflexivity]. split; auto. cbn; lia.
Qed.

Lemma strip_00_cons x y b : strip_00 (x :: y :: b) =
  if (x =? 0x00) && (Z.land y 0x80 =? 0x00) then strip_00 (y :: b) else x :: y :: b.
Proof. reflexivity. Qed.
Lemma strip_00_spec b : bytes b -> match b with x :: _ => x < 128 | [] => False end ->
  let r := strip_00 b in wf_int r /\ int_value r = int_value b /\ match r with x :: _ => x < 128 | [] => False end.
Proof.
  induction b as [|x b IH]; [tauto|]. intros Hb Hx. destruct b as [|y b].
  { cbn. repeat split; auto. }
  pose proof Hb as Hb'. apply bytes_cons in Hb' as [H1 H2]. pose proof H2 as H2'. apply bytes_cons in H2' as [H3 H4].
  cbv zeta. rewrite strip_00_cons. rewrite land_80 by auto. unfold byte_ok in *.
  destruct (Z.eqb_spec x 0x00); destruct (Z.leb_spec 128 y); cbn [andb Z.eqb Pos.eqb].
  - split; [|auto]. split; auto. cbn; lia.
  - destruct (IH H2) as (W & E & N); auto. split; auto. split; auto. cbv zeta in *. rewrite E. unfold int_value.
    destruct (Z.leb_spec 128 y); [lia|]. destruct (Z.leb_spec 128 x); [lia|].
    subst x. rewrite (be_val_cons 0). lia.
  - split; [|auto]. split; auto. cbn; lia.
  - split; [|auto]. split; auto. cbn; lia.
Qed.

Lemma all_zero_val b : forallb (fun y => y =? 0) b = true -> be_val b = 0.
Proof.
  induction b; auto. cbn [forallb]. intro H. apply andb_true_iff in H as [H1 H2]. apply Z.eqb_eq in H1. subst a.
  rewrite be_val_cons, IHb; auto. 
Qed.

Lemma integer_new_spec b : bytes b ->
  wf_int (integer_new b) /\ int_value (integer_new b) = int_value b.
Proof.
  intro Hb. assert (Z0: wf_int [0]). { split; [repeat constructor; lia|cbn; auto]. }
  destruct b as [|x b]; [cbn; auto|].
  unfold integer_new. destruct (forallb _ (x::b)) eqn:F.
  - split; auto. pose proof (all_zero_val _ F). unfold int_value at 2. rewrite H.
    cbn [forallb] in F. apply andb_true_iff in F as [F _]. apply Z.eqb_eq in F. subst x. reflexivity.
  - pose proof Hb as Hb'. apply bytes_cons in Hb' as [H1 _]. rewrite land_80 by auto.
    destruct (Z.leb_spec 128 x); cbn [Z.eqb Pos.eqb].
    + apply strip_ff_spec; auto.
    + destruct (strip_00_spec (x::b) Hb) as (A & B & _); auto.
Qed.

Lemma strip_zeros_spec b : bytes b -> bytes (strip_zeros b) /\ be_val (strip_zeros b) = be_val b /\
  zlen (strip_zeros b) <= zlen b /\ match strip_zeros b with x :: _ => 0 < x | [] => True end.
Proof.
  induction b as [|x b IH]; intro Hb.
  - cbn. repeat split; auto. lia.
  - pose proof Hb as Hb'. apply bytes_cons in Hb' as [H1 H2]. unfold byte_ok in H1. cbn [strip_zeros].
    destruct (Z.eqb_spec x 0).
    + destruct (IH H2) as (A & B & C & D). subst x. rewrite be_val_cons, zlen_cons. repeat split; auto; lia.
    + repeat split; auto; lia.
Qed.

Lemma integer_new_positive_spec n b : bytes b -> zlen b + 1 <= n ->
  exists i, integer_new_positive n b = Ok i /\ wf_int i /\ int_value i = be_val b /\
    integer_is_negative i = false /\ zlen i <= zlen b + 1 /\ be_val i = be_val b.
Proof.
  intros Hb Hn. destruct (strip_zeros_spec b Hb) as (A & B & C & D). unfold integer_new_positive.
  pose proof (zlen_nonneg b).
  destruct (strip_zeros b) as [|x r] eqn:E; cbv zeta.
  - destruct (Z.ltb_spec n 1); [lia|]. exists [0]. rewrite <- B. repeat split; auto.
    + repeat constructor; lia.
    + cbn; lia.
  - pose proof A as A'. apply bytes_cons in A' as [A1 A2]. rewrite land_80 by auto. unfold byte_ok in A1.
    destruct (Z.leb_spec 128 x); cbn [Z.eqb Pos.eqb].
    + destruct (Z.ltb_spec n (zlen (x::r) + 1)); [lia|]. exists (0 :: x :: r). split; auto.
      split. { split; [apply bytes_cons; split; auto; unfold byte_ok; lia|cbn; lia]. }
      unfold int_value. cbn [Z.leb Z.compare]. rewrite be_val_cons, B. rewrite !zlen_cons in *. repeat split; auto; lia.
    + destruct (Z.ltb_spec n (zlen (x::r))); [lia|]. exists (x :: r). split; auto.
      split. { split; auto. destruct r; cbn; lia. }
      unfold int_value. destruct (Z.leb_spec 128 x); [lia|]. rewrite B. repeat split; auto; try lia.
      unfold integer_is_negative. rewrite land_80 by auto. destruct (Z.leb_spec 128 x); [lia|auto].
Qed.

Lemma is_negative_spec i : wf_int i -> integer_is_negative i = (int_value i <? 0).
Proof.
  intros [Hb M]. destruct i as [|x r]; [cbn in M; tauto|].
  pose proof (int_value_bound x r Hb) as B. pose proof Hb as Hb'. apply bytes_cons in Hb' as [H1 H2].
  pose proof (be_val_bound r H2). pose proof (zlen_nonneg r).
  unfold integer_is_negative, int_value in *. rewrite land_80 by auto. unfold byte_ok in *.
  rewrite be_val_cons, zlen_cons, Z.pow_add_r in * by lia. change (256^1) with 256 in *.
  set (P := 256 ^ zlen r) in *.
  destruct (Z.leb_spec 128 x); cbn [Z.eqb Pos.eqb]; symmetry; [apply Z.ltb_lt|apply Z.ltb_ge]; nia.
Qed.

Lemma as_usize_spec i v : wf_int i ->
  integer_as_usize i = Ok v <-> (v = int_value i /\ 0 <= v < 2^63).
Proof.
  intros W. unfold integer_as_usize. rewrite is_negative_spec by auto.
  destruct W as [Hb M]. destruct i as [|x r]; [cbn in M; tauto|].
  pose proof (int_value_bound x r Hb) as B.
  destruct (Z.ltb_spec (int_value (x::r)) 0); cbn [orb].
  { split; [discriminate|lia]. }
  assert (V: int_value (x::r) = be_val (x::r)).
  { pose proof Hb as Hb'. apply bytes_cons in Hb' as [H1 H2]. unfold int_value in *. destruct (Z.leb_spec 128 x); auto.
    pose proof (be_val_bound (x::r) Hb). lia. }
  rewrite be_val_zeros_app, <- V.
  destruct (Z.ltb_spec 8 (zlen (x::r))).
  - split; [discriminate|]. intros [-> HH]. exfalso.
    destruct r as [|y r]; [cbn in H0; lia|]. pose proof (minimal_far x y r Hb M).
    zl. assert (256^7 <= 256 ^ zlen r) by (apply Z.pow_le_mono_r; lia).
    change (256^7) with (2^56) in *. lia.
  - zl. assert (256 ^ zlen r <= 256^7). { apply Z.pow_le_mono_r; lia. }
    change (256^7) with (2^56) in *. split; [intros H2; assert (v = int_value (x::r)) as -> by congruence; split; [reflexivity|lia]|intros [-> _]; reflexivity].
Qed.

Lemma as_usize_total i : integer_as_usize i <> Panic.
Proof. unfold integer_as_usize. destruct (_ || _); discriminate. Qed.

(** enumerations *)
Definition enum_body (v : Z) : list Z := integer_new (be_bytes 8 v).

Lemma int_value_be8 v : 0 <= v < 2^63 -> int_value (be_bytes 8 v) = v.
Proof.
  intro H. assert (be_val (be_bytes 8 v) = v).
  { rewrite be_val_be_bytes. apply Z.mod_small. change (256 ^ Z.of_nat 8) with (2^64). lia. }
  pose proof (be_bytes_bytes 8 v) as Hb. pose proof (zlen_be_bytes 8 v) as HL.
  destruct (be_bytes 8 v) as [|x r] eqn:E; [discriminate|].
  apply bytes_cons in Hb as [Hx Hr]. pose proof (be_val_bound r Hr) as Br. rewrite zlen_cons in HL.
  assert (zlen r = 7) as L7 by lia. rewrite L7 in Br. change (256^7) with (2^56) in Br.
  unfold int_value. destruct (Z.leb_spec 128 x) as [Hx2|]; auto.
  rewrite be_val_cons, L7 in H0. change (256^7) with (2^56) in H0. lia.
Qed.

Lemma good_Enum vals : Forall (fun v => 0 <= v < 2^63) vals ->
  good (Enum vals) (fun v t => tlv t (enum_body v)) (fun v => In v vals) any_follow.
Proof.
  intros HV. pose proof good_Integer as [G1 G2 G3 G4 G5]. rewrite Forall_forall in HV.
  assert (W: forall v, In v vals -> wf_int (enum_body v) /\ int_value (enum_body v) = v).
  { intros v Hv. unfold enum_body. destruct (integer_new_spec (be_bytes 8 v)) as [A B].
    - apply be_bytes_bytes.
    - rewrite int_value_be8 in B; auto. }
  assert (EX: forall v, existsb (Z.eqb v) vals = true <-> In v vals).
  { intro v. rewrite existsb_exists. split.
    - intros (x & H1 & H2). apply Z.eqb_eq in H2. now subst.
    - intro H. exists v. split; auto. apply Z.eqb_refl. }
  constructor; cbn [Enum c_parse c_encode c_len].
  - intros t p a rest Hb H. binv H. destruct x as [i q]. binv H.
    destruct (existsb _ vals) eqn:E2; [|discriminate]. injection H as -> ->. apply EX in E2.
    apply G1 in E as (Wi & _ & -> & L); auto. apply as_usize_spec in E0 as [E0 _]; auto.
    destruct (W a E2) as [W1 W2]. assert (i = enum_body a) as -> by (apply minimal_unique; auto; congruence).
    repeat split; auto.
  - intros t a rest Ha _ L. destruct (W a Ha) as [W1 W2]. rewrite G2 by (auto; exact I). cbn [bind].
    assert (integer_as_usize (enum_body a) = Ok a) as ->.
    { apply as_usize_spec; auto. }
    cbn [bind]. apply EX in Ha. rewrite Ha. reflexivity.
  - intros a t e Ha L. destruct (W a Ha). apply G3; auto.
  - intros a t Ha L. destruct (W a Ha). apply G4; auto.
  - intros t p Hb. specialize (G5 t p Hb). destruct (c_parse Integer t p) as [[i q]| |]; cbn [bind]; try congruence.
    pose proof (as_usize_total i). destruct (integer_as_usize i); cbn [bind]; try congruence.
    destruct (existsb _ _); discriminate.
Qed.

(** object identifiers: from_path agrees with the X.690 base-128 encoding on the paths used *)
Definition digit128 (m : Z) (i : nat) : Z := (m / 128 ^ Z.of_nat i) mod 128.

Lemma base128_digits k : forall f m, (k <= f)%nat ->
  (k = O /\ m = 0) \/ 128 ^ (Z.of_nat k - 1) <= m < 128 ^ Z.of_nat k /\ (0 < k)%nat ->
  base128 f m = map (fun i => digit128 m i + 128) (rev (seq 0 k)).
Proof.
  induction k; intros f m Hf H.
  - destruct H as [[_ ->]|[_ H]]; [|lia]. destruct f; reflexivity.
  - destruct H as [[? _]|[H _]]; [discriminate|].
    destruct f; [lia|]. cbn [base128].
    assert (0 < m). { eapply Z.lt_le_trans; [|apply H]. apply Z.pow_pos_nonneg; lia. }
    destruct (Z.leb_spec m 0); [lia|]. rewrite (IHk f (m/128)); [|lia|].
    + cbn [seq rev]. rewrite map_app. f_equal.
      * rewrite <- seq_shift, <- map_rev, map_map. apply map_ext. intro i. unfold digit128.
        rewrite Nat2Z.inj_succ, Z.pow_succ_r by lia. rewrite Z.div_div; auto; try lia.
      * cbn. unfold digit128. change (128 ^ Z.of_nat 0) with 1. rewrite Z.div_1_r. reflexivity.
    + destruct k.
      * left. split; auto. apply Z.div_small. change (128 ^ Z.of_nat 1) with 128 in H. lia.
      * right. split; [|lia]. rewrite (Nat2Z.inj_succ (S k)) in H.
        replace (Z.succ (Z.of_nat (S k)) - 1) with (Z.succ (Z.of_nat (S k) - 1)) in H by lia.
        rewrite !Z.pow_succ_r in H by lia. split.
        -- apply Z.div_le_lower_bound; lia.
        -- apply Z.div_lt_upper_bound; lia.
Qed.

Lemma lor_80 y : Z.lor (y mod 256) 0x80 = y mod 128 + 128.
Proof.
  assert (y mod 128 = (y mod 256) mod 128) as ->.
  { change 256 with (128*2). rewrite Z.rem_mul_r by lia. rewrite Z.mul_comm, Z.mod_add, Z.mod_mod; lia. }
  assert (In (y mod 256) (map Z.of_nat (seq 0 256))).
  { apply in_map_iff. pose proof (Z.mod_pos_bound y 256). exists (Z.to_nat (y mod 256)). split; [lia|]. apply in_seq. lia. }
  assert (forallb (fun y => Z.lor y 0x80 =? y mod 128 + 128) (map Z.of_nat (seq 0 256)) = true) by (vm_compute; reflexivity).
  rewrite forallb_forall in H0. apply Z.eqb_eq, H0, H.
Qed.

Lemma oid_groups_spec k n : oid_groups n k = map (fun i => digit128 n i + 128) (rev (seq 1 k)) ++ [n mod 128].
Proof.
  induction k.
  - cbn. f_equal. apply (Z.land_ones n 7). lia.
  - cbn [oid_groups]. rewrite lor_80, IHk. rewrite seq_S, rev_app_distr, map_app. cbn [rev app map].
    rewrite Z.shiftr_div_pow2 by lia. change (1 + k)%nat with (S k).
    unfold digit128 at 2. rewrite Z.pow_mul_r by lia. reflexivity.
Qed.

Lemma oid_item_spec n : 0 <= n < 2^64 -> oid_item n = oid_subid n.
Proof.
  intro H. unfold oid_item, oid_subid. destruct (Z.ltb_spec n 0x7f).
  - rewrite Z.div_small, Z.mod_small by lia. reflexivity.
  - rewrite oid_groups_spec. f_equal.
    pose proof (Z.log2_spec n) as LS. assert (Hl: 6 <= Z.log2 n < 64).
    { split; [apply Z.log2_le_pow2; lia|apply Z.log2_lt_pow2; lia]. }
    set (l := Z.log2 n) in *. set (k := (l+1+6)/7 - 1).
    assert (7*k <= l < 7*k + 7). { subst k. pose proof (Z.div_mod (l+1+6) 7). pose proof (Z.mod_pos_bound (l+1+6) 7). lia. }
    rewrite (base128_digits (Z.to_nat k) 16); [| lia |].
    + rewrite <- seq_shift, <- map_rev, map_map. apply map_ext. intro i. unfold digit128.
      rewrite Nat2Z.inj_succ, Z.pow_succ_r by lia. rewrite Z.div_div; auto; try lia.
    + assert (Hlow: 128 ^ k <= n). { change 128 with (2^7). rewrite <- Z.pow_mul_r by lia.
        eapply Z.le_trans; [apply Z.pow_le_mono_r with (c:=l); lia|]. apply LS. lia. }
      assert (Hhi: n < 128 ^ (k+1)). { change 128 with (2^7). rewrite <- Z.pow_mul_r by lia.
        eapply Z.lt_le_trans; [apply LS; lia|]. apply Z.pow_le_mono_r; lia. }
      destruct (Z.eq_dec k 0) as [K0|K0].
      * left. rewrite K0 in *. split; [lia|]. apply Z.div_small. change (128 ^ (0+1)) with 128 in Hhi. lia.
      * right. rewrite Z2Nat.id by lia. split; [|lia]. split.
        -- apply Z.div_le_lower_bound; [lia|]. replace k with (Z.succ (k-1)) in Hlow by lia.
           rewrite Z.pow_succ_r in Hlow by lia. lia.
        -- apply Z.div_lt_upper_bound; [lia|]. rewrite Z.pow_add_r in Hhi by lia. lia.
Qed.

Lemma oid_from_path_spec a b rest : 0 <= a < 256 -> 0 <= b < 256 -> 40 * a + b < 128 -> Forall (fun n => 0 <= n < 2^64) rest ->
  zlen (oid_spec (a :: b :: rest)) <= 16 -> oid_from_path (a :: b :: rest) = Ok (oid_spec (a :: b :: rest)).
Proof.
  intros Ha Hb Hab HR HL. unfold oid_from_path.
  assert (E: (a mod 256) * 40 + b mod 256 :: flat_map oid_item rest = oid_spec (a :: b :: rest)).
  { unfold oid_spec. rewrite !Z.mod_small by lia. unfold oid_subid at 1. rewrite Z.div_small, Z.mod_small by lia.
    cbn [base128 app Z.leb Z.compare]. f_equal; [lia|]. clear -HR. induction HR; cbn; auto. rewrite oid_item_spec, IHHR; auto. }
  rewrite E. cbv zeta. destruct (Z.leb_spec (zlen (oid_spec (a::b::rest))) OID_MAX_LEN) as [|N]; [|unfold OID_MAX_LEN in N; lia].
  cbn [andb].
  assert (forallb (fun x => x <? 256) (oid_spec (a::b::rest)) = true) as ->; auto.
  apply forallb_forall. intros x Hx. apply Z.ltb_lt.
  assert (SB: forall n y, In y (oid_subid n) -> y < 256).
  { intros n y Hy. unfold oid_subid in Hy. apply in_app_iff in Hy as [Hy|[<-|[]]].
    - revert Hy. generalize 16%nat (n/128). induction n0; cbn [base128]; intros m Hy; [destruct Hy|].
      destruct (m <=? 0); [destruct Hy|]. apply in_app_iff in Hy as [Hy|[<-|[]]]; eauto.
      pose proof (Z.mod_pos_bound m 128). lia.
    - pose proof (Z.mod_pos_bound n 128). lia. }
  unfold oid_spec in Hx. apply in_app_iff in Hx as [Hx|Hx]; eauto.
  apply in_flat_map in Hx as (y & _ & Hy). eauto.
Qed.
