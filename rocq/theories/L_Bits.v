(** Bit-level facts on Z words. *)
Require Import Verif.Base Verif.L_Base Verif.L_Blocks.
Require Import ZifyNat.

Definition u32 (x : Z) : Prop := 0 <= x < 2 ^ 32.

Lemma small_testbit w x : 0 <= w -> 0 <= x -> (forall n, w <= n -> Z.testbit x n = false) -> x < 2 ^ w.
Proof.
  intros Hw Hx H. destruct (Z.eq_dec x 0) as [->|Hn]; [apply Z.pow_pos_nonneg; lia|].
  destruct (Z.lt_ge_cases x (2 ^ w)) as [|G]; [assumption|exfalso].
  assert (w <= Z.log2 x). { apply Z.log2_le_pow2; lia. }
  pose proof (Z.bit_log2 x ltac:(lia)) as B. rewrite H in B by lia. discriminate.
Qed.
Lemma testbit_small w x n : 0 <= x < 2 ^ w -> w <= n -> Z.testbit x n = false.
Proof.
  intros Hx Hn. assert (0 <= w). { destruct (Z.lt_ge_cases w 0); [|lia]. rewrite Z.pow_neg_r in Hx; lia. }
  rewrite <- (Z.mod_small x (2 ^ w)) by lia. apply Z.mod_pow2_bits_high. lia.
Qed.
Lemma lxor_range w x y : 0 <= x < 2 ^ w -> 0 <= y < 2 ^ w -> 0 <= Z.lxor x y < 2 ^ w.
Proof.
  intros Hx Hy. assert (0 <= w). { destruct (Z.lt_ge_cases w 0); [|lia]. rewrite Z.pow_neg_r in Hx; lia. }
  assert (0 <= Z.lxor x y) by (apply Z.lxor_nonneg; lia). split; auto. apply small_testbit; auto.
  intros n Hn. rewrite Z.lxor_spec, (testbit_small w x), (testbit_small w y) by auto. reflexivity.
Qed.
Lemma lor_range w x y : 0 <= x < 2 ^ w -> 0 <= y < 2 ^ w -> 0 <= Z.lor x y < 2 ^ w.
Proof.
  intros Hx Hy. assert (0 <= w). { destruct (Z.lt_ge_cases w 0); [|lia]. rewrite Z.pow_neg_r in Hx; lia. }
  assert (0 <= Z.lor x y) by (apply Z.lor_nonneg; lia). split; auto. apply small_testbit; auto.
  intros n Hn. rewrite Z.lor_spec, (testbit_small w x), (testbit_small w y) by auto. reflexivity.
Qed.
Lemma land_range_r w x y : 0 <= y < 2 ^ w -> 0 <= Z.land x y < 2 ^ w.
Proof.
  intros Hy. assert (0 <= w). { destruct (Z.lt_ge_cases w 0); [|lia]. rewrite Z.pow_neg_r in Hy; lia. }
  assert (0 <= Z.land x y) by (apply Z.land_nonneg; lia). split; auto. apply small_testbit; auto.
  intros n Hn. rewrite Z.land_spec, (testbit_small w y) by auto. apply andb_false_r.
Qed.
Lemma land_ones_mod w x : 0 <= w -> Z.land x (2 ^ w - 1) = x mod 2 ^ w.
Proof. intros. rewrite Z.sub_1_r, <- Z.ones_equiv. apply Z.land_ones; auto. Qed.

(** splitting a mask at bit k *)
Lemma land_split k x m0 M : 0 <= k -> 0 <= m0 < 2 ^ k ->
  Z.land x (m0 + 2 ^ k * M) = Z.land x m0 + 2 ^ k * Z.land (x / 2 ^ k) M.
Proof.
  intros Hk Hm.
  replace (m0 + 2 ^ k * M) with (Z.lor (Z.shiftl M k) m0) by (rewrite lor_add by lia; lia).
  rewrite Z.land_lor_distr_r.
  replace (Z.land x (Z.shiftl M k)) with (Z.shiftl (Z.land (x / 2 ^ k) M) k).
  - rewrite lor_add; [lia|lia|]. apply land_range_r; auto.
  - rewrite <- Z.shiftr_div_pow2 by lia. apply Z.bits_inj'. intros n Hn.
    rewrite Z.land_spec. destruct (Z.ltb_spec n k).
    + rewrite !Z.shiftl_spec_low by lia. symmetry; apply andb_false_r.
    + rewrite !Z.shiftl_spec by lia. rewrite Z.land_spec, Z.shiftr_spec by lia.
      replace (n - k + k) with n by lia. reflexivity.
Qed.

Lemma mod_mod_pow x a b : 0 <= a <= b -> (x mod 2 ^ b) mod 2 ^ a = x mod 2 ^ a.
Proof.
  intros H. symmetry. apply Znumtheory.Zmod_div_mod; try (apply Z.pow_pos_nonneg; lia).
  exists (2 ^ (b - a)). rewrite <- Z.pow_add_r by lia. f_equal; lia.
Qed.
Lemma mod_div_pow x a b : 0 <= a <= b -> (x mod 2 ^ b) / 2 ^ a = (x / 2 ^ a) mod 2 ^ (b - a).
Proof.
  intros H. replace b with (a + (b - a)) at 1 by lia. rewrite Z.pow_add_r by lia.
  assert (0 < 2 ^ a) by (apply Z.pow_pos_nonneg; lia). assert (0 < 2 ^ (b - a)) by (apply Z.pow_pos_nonneg; lia).
  rewrite Z.rem_mul_r by lia. rewrite Z.mul_comm, Z.div_add by lia.
  rewrite Z.div_small by (apply Z.mod_pos_bound; lia). lia.
Qed.

(** reading a slice of a little-endian byte string *)
Lemma le_val_slice b i n : bytes b -> 0 <= i -> 0 <= n -> i + n <= zlen b ->
  le_val (ztake n (zdrop i b)) = (le_val b / 2 ^ (8 * i)) mod 2 ^ (8 * n).
Proof.
  intros Hb Hi Hn Hl.
  rewrite <- (ztake_zdrop i b) at 2. rewrite <- (ztake_zdrop n (zdrop i b)) at 2.
  rewrite !le_val_app. rewrite !zlen_ztake by (rewrite ?zlen_zdrop by lia; lia).
  change 256 with (2 ^ 8). rewrite <- !Z.pow_mul_r by lia.
  set (A := le_val (ztake i b)). set (B := le_val (ztake n (zdrop i b))). set (C := le_val (zdrop n (zdrop i b))).
  assert (HA : 0 <= A < 2 ^ (8 * i)).
  { pose proof (le_val_bound (ztake i b) (bytes_ztake _ _ Hb)) as X. rewrite zlen_ztake in X by lia.
    change 256 with (2 ^ 8) in X. rewrite <- Z.pow_mul_r in X by lia. exact X. }
  assert (HB : 0 <= B < 2 ^ (8 * n)).
  { pose proof (le_val_bound (ztake n (zdrop i b)) (bytes_ztake _ _ (bytes_zdrop _ _ Hb))) as X.
    rewrite zlen_ztake in X by (rewrite zlen_zdrop; lia).
    change 256 with (2 ^ 8) in X. rewrite <- Z.pow_mul_r in X by lia. exact X. }
  rewrite (Z.mul_comm (2 ^ (8 * i))), Z.div_add by lia. rewrite (Z.div_small A) by lia.
  rewrite Z.add_0_l, (Z.mul_comm (2 ^ (8 * n))), Z.mod_add by lia. rewrite Z.mod_small by lia. reflexivity.
Qed.
Lemma le_val_u32 b : bytes b -> zlen b = 4 -> u32 (le_val b).
Proof. intros Hb Hl. pose proof (le_val_bound b Hb) as X. rewrite Hl in X. exact X. Qed.

(** chunks *)
Lemma chunks_nil n : 0 < n -> chunks n (@nil Z) = [].
Proof. intros. unfold chunks. change (zlen (@nil Z)) with 0. rewrite Z.div_0_l by lia. reflexivity. Qed.
Lemma chunks_short n (l : list Z) : 0 < zlen l < n -> chunks n l = [l].
Proof.
  intros H. unfold chunks. rewrite chunks_exact_short by lia. rewrite Z.div_small by lia.
  destruct (zlen l =? 0 * n) eqn:E; [lia|]. rewrite zdrop_0. reflexivity.
Qed.
Lemma chunks_cons n (l : list Z) : 0 < n <= zlen l -> chunks n l = ztake n l :: chunks n (zdrop n l).
Proof.
  intros H. unfold chunks. rewrite chunks_exact_cons by lia. rewrite zlen_zdrop by lia.
  assert (E : (zlen l - n) / n = zlen l / n - 1).
  { replace (zlen l - n) with (zlen l + (-1) * n) by lia. rewrite Z.div_add by lia. lia. }
  rewrite E. cbn [app]. f_equal. f_equal.
  destruct (zlen l =? zlen l / n * n) eqn:E1; destruct (zlen l - n =? (zlen l / n - 1) * n) eqn:E2; try lia; auto.
  assert (1 <= zlen l / n) by (apply Z.div_le_lower_bound; lia).
  rewrite zdrop_zdrop by nia. f_equal. f_equal. lia.
Qed.

(** induction on chunks *)
Lemma chunk_ind n (P : list Z -> Prop) : 0 < n -> P [] -> (forall l, 0 < zlen l < n -> P l) ->
  (forall a b, zlen a = n -> P b -> P (a ++ b)) -> forall l, P l.
Proof.
  intros Hn H0 H1 H2 l. remember (length l) as k eqn:E. revert l E.
  induction k as [k IH] using lt_wf_ind. intros l ->.
  destruct (Z.lt_ge_cases (zlen l) n) as [L|L].
  - destruct l as [|x l]; auto. apply H1. rewrite zlen_cons in *. pose proof (zlen_nonneg l). lia.
  - rewrite <- (ztake_zdrop n l). apply H2. { apply zlen_ztake; lia. }
    apply (IH (length (zdrop n l))); auto.
    assert (zlen (zdrop n l) = zlen l - n) by (apply zlen_zdrop; lia). unfold zlen in *. lia.
Qed.
Lemma chunks_app n (a b : list Z) : 0 < n -> zlen a = n -> chunks n (a ++ b) = a :: chunks n b.
Proof.
  intros Hn Ha. rewrite chunks_cons by (rewrite zlen_app; pose proof (zlen_nonneg b); lia).
  rewrite ztake_app_eq, zdrop_app_eq by lia. reflexivity.
Qed.
