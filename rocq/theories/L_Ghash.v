(** The carry-less multiply and reduce of ghash.rs is the field multiplication of SP 800-38D. *)
Require Import Verif.Base Verif.L_Base Verif.L_Blocks Verif.L_Bits Verif.M_Ghash Verif.L_Clmul Verif.S_Gcm.
Require Import ZifyNat Btauto.

Ltac xac := apply Z.bits_inj'; intros ?n ?Hn; rewrite ?Z.lxor_spec, ?Z.bits_0; btauto.

Definition Q : Z := 2 ^ 128 + 2 ^ 127 + 2 ^ 126 + 2 ^ 121 + 1.
(** division by t modulo Q *)
Definition redc1 (X : Z) : Z := Z.shiftr (Z.lxor X (bz (Z.odd X) Q)) 1.
Fixpoint rn (n : nat) (X : Z) : Z := match n with O => X | S n => rn n (redc1 X) end.

Lemma redc1_lxor a b : redc1 (Z.lxor a b) = Z.lxor (redc1 a) (redc1 b).
Proof.
  unfold redc1. rewrite odd_lxor, bz_xorb, lxor_4, Z.shiftr_lxor. reflexivity.
Qed.
Lemma redc1_double a : redc1 (2 * a) = a.
Proof.
  unfold redc1. rewrite Z.odd_mul. cbn [Z.odd andb bz]. rewrite Z.lxor_0_r, Z.shiftr_div_pow2 by lia.
  change (2 ^ 1) with 2. lia.
Qed.
Lemma redc1_bzQ b : redc1 (bz b Q) = 0. Proof. destruct b; reflexivity. Qed.
Lemma redc1_nonneg a : 0 <= a -> 0 <= redc1 a.
Proof. intros. unfold redc1. apply Z.shiftr_nonneg, lxor_nonneg'; auto. destruct (Z.odd a); cbn; lia. Qed.
Lemma redc1_eq a : a = Z.lxor (2 * redc1 a) (bz (Z.odd a) Q).
Proof.
  unfold redc1. set (y := Z.lxor a _).
  assert (E : 2 * Z.shiftr y 1 = y).
  { rewrite (lxor_decomp y) at 2. rewrite Z.shiftr_div_pow2 by lia. change (2 ^ 1) with 2.
    replace (Z.odd y) with false; [cbn [bz]; now rewrite Z.lxor_0_l|].
    unfold y. rewrite odd_lxor. destruct (Z.odd a); reflexivity. }
  rewrite E. subst y. xac.
Qed.

Lemma rn_lxor n : forall a b, rn n (Z.lxor a b) = Z.lxor (rn n a) (rn n b).
Proof. induction n as [|n IH]; intros; cbn [rn]; auto. now rewrite redc1_lxor, IH. Qed.
Lemma rn_nonneg n : forall a, 0 <= a -> 0 <= rn n a.
Proof. induction n as [|n IH]; intros; cbn [rn]; auto using redc1_nonneg. Qed.
Lemma rn_add m n : forall a, rn (m + n) a = rn n (rn m a).
Proof. induction m as [|m IH]; intros; cbn [rn Nat.add]; auto. Qed.
Lemma shiftl_S a n : 0 <= n -> Z.shiftl a (n + 1) = 2 * Z.shiftl a n.
Proof. intros. rewrite <- Z.shiftl_shiftl by lia. rewrite (Z.shiftl_mul_pow2 _ 1) by lia. lia. Qed.
Lemma rn_shiftl n : forall a, rn n (Z.shiftl a (Z.of_nat n)) = a.
Proof.
  induction n as [|n IH]; intros; cbn [rn]; [apply Z.shiftl_0_r|].
  rewrite Nat2Z.inj_succ, <- Z.add_1_r, shiftl_S, redc1_double, IH by lia. auto.
Qed.
Lemma rn_0 n : rn n 0 = 0.
Proof. induction n as [|n IH]; cbn [rn]; auto. Qed.
Lemma Qpos : 0 <= Q. Proof. now unfold Q. Qed.

Lemma half_range n a : 0 <= a < 2 ^ Z.of_nat (S n) -> 0 <= a / 2 < 2 ^ Z.of_nat n.
Proof.
  rewrite Nat2Z.inj_succ, Z.pow_succ_r by lia. intros.
  split; [apply Z.div_pos|apply Z.div_lt_upper_bound]; lia.
Qed.
Lemma rn_kernel n : forall a, 0 <= a < 2 ^ Z.of_nat n -> rn n (clmul Q a) = 0.
Proof.
  induction n as [|n IH]; intros a Ha.
  - change (2 ^ Z.of_nat 0) with 1 in Ha. replace a with 0 by lia. reflexivity.
  - rewrite clmul_step by lia. cbn [rn]. rewrite redc1_lxor, redc1_bzQ, redc1_double, Z.lxor_0_l.
    apply IH, half_range, Ha.
Qed.
Lemma bz_clmul b a x : clmul (bz b a) x = bz b (clmul a x) \/ x < 0.
Proof. destruct (Z.lt_ge_cases x 0); auto. left. destruct b; cbn [bz]; auto. apply clmul_0_l. lia. Qed.

(** dividing one factor is dividing the product *)
Lemma rn_clmul_redc1 m V X : 0 <= V -> 0 <= X < 2 ^ Z.of_nat (S m) ->
  rn (S m) (clmul V X) = rn m (clmul (redc1 V) X).
Proof.
  intros HV HX. rewrite (redc1_eq V) at 1.
  rewrite clmul_lxor_l, clmul_double_l, rn_lxor by lia.
  replace (rn (S m) (clmul (bz (Z.odd V) Q) X)) with 0.
  - rewrite Z.lxor_0_r. cbn [rn]. now rewrite redc1_double.
  - destruct (Z.odd V); cbn [bz]; [now rewrite rn_kernel|]. now rewrite clmul_0_l, rn_0 by lia.
Qed.
Lemma pow2_mono a b : (a <= b)%nat -> 2 ^ Z.of_nat a <= 2 ^ Z.of_nat b.
Proof. intros. apply Z.pow_le_mono_r; lia. Qed.
Lemma rn_clmul_rn k : forall m V X, 0 <= V -> 0 <= X < 2 ^ Z.of_nat m ->
  rn (k + m) (clmul V X) = rn m (clmul (rn k V) X).
Proof.
  induction k as [|k IH]; intros m V X HV HX; [reflexivity|].
  cbn [Nat.add]. rewrite rn_clmul_redc1; auto.
  - cbn [rn]. apply IH; auto using redc1_nonneg.
  - assert (Hm := pow2_mono m (S (k + m)) ltac:(lia)). lia.
Qed.

(** Algorithm 1 *)
Lemma gcm_V_redc1 V : gcm_V V = redc1 V.
Proof.
  unfold gcm_V, redc1, bz. destruct (Z.odd V); [|now rewrite Z.lxor_0_r].
  rewrite Z.shiftr_lxor. reflexivity.
Qed.
Lemma mod_pow2_succ X n : 0 <= n -> X mod 2 ^ (n + 1) = Z.lxor (bz (Z.testbit X n) (2 ^ n)) (X mod 2 ^ n).
Proof.
  intros. apply Z.bits_inj'. intros i Hi. rewrite Z.lxor_spec.
  assert (B : Z.testbit (bz (Z.testbit X n) (2 ^ n)) i = Z.testbit X n && (n =? i)).
  { destruct (Z.testbit X n); cbn [bz andb]; [apply Z.pow2_bits_eqb; lia | apply Z.bits_0]. }
  rewrite B. destruct (Z.lt_trichotomy i n) as [G|[->|G]].
  - rewrite !Z.mod_pow2_bits_low by lia. replace (n =? i) with false by lia. now rewrite andb_false_r, xorb_false_l.
  - rewrite Z.mod_pow2_bits_low, Z.mod_pow2_bits_high by lia. now rewrite Z.eqb_refl, andb_true_r, xorb_false_r.
  - rewrite !Z.mod_pow2_bits_high by lia. replace (n =? i) with false by lia. now rewrite andb_false_r.
Qed.
Lemma gcm_loop_spec X : forall n Zi Vi, 0 <= Vi -> (n <= 127)%nat ->
  gcm_loop (S n) (127 - Z.of_nat n) X Zi Vi = Z.lxor Zi (rn n (clmul Vi (X mod 2 ^ Z.of_nat (S n)))).
Proof.
  induction n as [|n IH]; intros Zi Vi HV Hn.
  - cbn [gcm_loop rn]. change (2 ^ Z.of_nat 1) with 2. rewrite Zmod_odd.
    replace (127 - (127 - Z.of_nat 0)) with 0 by lia. rewrite Z.bit0_odd.
    destruct (Z.odd X); cbn [clmul clmul_pos]; now rewrite ?Z.lxor_0_r.
  - change (gcm_loop (S (S n)) ?i X Zi Vi) with
      (gcm_loop (S n) (i + 1) X (if Z.testbit X (127 - i) then Z.lxor Zi Vi else Zi) (gcm_V Vi)).
    replace (127 - Z.of_nat (S n) + 1) with (127 - Z.of_nat n) by lia.
    replace (127 - (127 - Z.of_nat (S n))) with (Z.of_nat (S n)) by lia.
    rewrite gcm_V_redc1, IH by (auto using redc1_nonneg; lia).
    replace (Z.of_nat (S (S n))) with (Z.of_nat (S n) + 1) by lia.
    rewrite (mod_pow2_succ X (Z.of_nat (S n))) by lia.
    set (Y := X mod 2 ^ Z.of_nat (S n)).
    assert (HY : 0 <= Y < 2 ^ Z.of_nat (S n)) by (apply Z.mod_pos_bound, Z.pow_pos_nonneg; lia).
    assert (0 <= 2 ^ Z.of_nat (S n)) by (apply Z.pow_nonneg; lia).
    rewrite clmul_lxor_r by (try lia; destruct (Z.testbit X (Z.of_nat (S n))); cbn [bz]; lia).
    rewrite rn_lxor, (rn_clmul_redc1 n Vi Y) by auto.
    destruct (Z.testbit X (Z.of_nat (S n))); cbn [bz].
    + replace (2 ^ Z.of_nat (S n)) with (Z.shiftl 1 (Z.of_nat (S n))) by (rewrite Z.shiftl_mul_pow2; lia).
      rewrite clmul_shiftl_r, clmul_1_r, rn_shiftl by lia. xac.
    + change (clmul Vi 0) with 0. rewrite rn_0. xac.
Qed.
Definition r128 (x : Z) := 0 <= x < 2 ^ 128.
Lemma gcm_mul_spec X Y : r128 X -> 0 <= Y -> gcm_mul X Y = rn 127 (clmul Y X).
Proof.
  intros HX HY. unfold gcm_mul. change 0 with (127 - Z.of_nat 127) at 1.
  change 128%nat with (S 127). rewrite gcm_loop_spec by lia. rewrite Z.lxor_0_l. do 2 f_equal.
  apply Z.mod_small, HX.
Qed.

(** reduce! *)
Definition C64 : Z := 0xc200000000000000.
Lemma half_lo v : half false v = v mod 2 ^ 64.
Proof. unfold half. apply Z.land_ones. lia. Qed.
Lemma half_lo_range v : 0 <= half false v < 2 ^ 64.
Proof. rewrite half_lo. apply Z.mod_pos_bound. lia. Qed.
Lemma half_hi_range v : r128 v -> 0 <= half true v < 2 ^ 64.
Proof. unfold half, r128. intros. rewrite Z.shiftr_div_pow2 by lia. split; [apply Z.div_pos|apply Z.div_lt_upper_bound]; lia. Qed.
Lemma halves v : v = Z.lxor (half false v) (Z.shiftl (half true v) 64).
Proof.
  unfold half. apply Z.bits_inj'. intros n Hn. rewrite Z.lxor_spec, Z.land_spec, Z.shiftl_spec by lia.
  destruct (Z.lt_ge_cases n 64).
  - rewrite Z.ones_spec_low, (Z.testbit_neg_r _ (n - 64)) by lia. now rewrite andb_true_r, xorb_false_r.
  - rewrite Z.ones_spec_high, Z.shiftr_spec by lia. rewrite andb_false_r, xorb_false_l. f_equal. lia.
Qed.
Lemma swap64_lxor v : swap64 v = Z.lxor (half true v) (Z.shiftl (half false v) 64) \/ ~ r128 v.
Proof.
  destruct (Z.lt_ge_cases v 0); [right; unfold r128; lia|].
  destruct (Z.lt_ge_cases v (2 ^ 128)) as [L|]; [|right; unfold r128; lia]. left.
  unfold swap64. apply Z.bits_inj'. intros n Hn. rewrite Z.lxor_spec, Z.lor_spec, Z.shiftl_spec by lia.
  destruct (Z.lt_ge_cases n 64).
  - rewrite (Z.testbit_neg_r _ (n - 64)) by lia. now rewrite orb_false_r, xorb_false_r.
  - rewrite (testbit_small 64 (half true v)) by (try apply half_hi_range; unfold r128; lia).
    rewrite xorb_false_l. reflexivity.
Qed.
Lemma swap64_ok v : r128 v -> swap64 v = Z.lxor (half true v) (Z.shiftl (half false v) 64).
Proof. intros. destruct (swap64_lxor v); tauto. Qed.
Lemma shiftl_lt x m n : 0 <= m -> 0 <= n -> 0 <= x < 2 ^ m -> 0 <= Z.shiftl x n < 2 ^ (m + n).
Proof. intros. rewrite Z.shiftl_mul_pow2, Z.pow_add_r by lia. nia. Qed.
Lemma widen m n x : 0 <= m <= n -> 0 <= x < 2 ^ m -> 0 <= x < 2 ^ n.
Proof. intros H Hx. assert (2 ^ m <= 2 ^ n) by (apply Z.pow_le_mono_r; lia). lia. Qed.
Lemma r128_lxor a b : r128 a -> r128 b -> r128 (Z.lxor a b).
Proof. apply lxor_range. Qed.
Lemma r128_clmul a b : 0 <= a < 2 ^ 64 -> 0 <= b < 2 ^ 64 -> r128 (clmul a b).
Proof. intros. apply (clmul_range 64 64); lia. Qed.
Lemma r128_swap v : r128 v -> r128 (swap64 v).
Proof.
  intros. rewrite swap64_ok by auto. apply r128_lxor.
  - apply (widen 64); [lia|]. now apply half_hi_range.
  - apply (shiftl_lt _ 64 64); try lia. apply half_lo_range.
Qed.

Lemma rn64 X : 0 <= X ->
  rn 64 X = Z.lxor (Z.shiftr X 64) (Z.lxor (clmul C64 (half false X)) (Z.shiftl (half false X) 64)).
Proof.
  intros HX. pose proof (half_lo_range X) as Hl. set (l := half false X) in *.
  assert (E : clmul Q l = Z.lxor l (Z.shiftl (Z.lxor (clmul C64 l) (Z.shiftl l 64)) 64)).
  { change Q with (Z.lxor 1 (Z.shiftl (Z.lxor C64 (Z.shiftl 1 64)) 64)).
    rewrite clmul_lxor_l, clmul_shiftl_l, clmul_lxor_l, clmul_shiftl_l by lia.
    rewrite (clmul_comm 1 l), clmul_1_r by lia. reflexivity. }
  rewrite <- (Z.lxor_0_r (rn 64 X)). rewrite <- (rn_kernel 64 l) by (exact Hl).
  rewrite <- rn_lxor, E. rewrite (halves X) at 1. fold l. unfold half.
  replace (Z.lxor (Z.lxor l (Z.shiftl (Z.shiftr X 64) 64)) (Z.lxor l (Z.shiftl (Z.lxor (clmul C64 l) (Z.shiftl l 64)) 64)))
    with (Z.shiftl (Z.lxor (Z.shiftr X 64) (Z.lxor (clmul C64 l) (Z.shiftl l 64))) 64).
  - apply (rn_shiftl 64).
  - rewrite (Z.shiftl_lxor (Z.shiftr X 64)). xac.
Qed.

Definition accval (acc : Z * Z * Z) : Z :=
  let '(lo, mi, hi) := acc in
  Z.lxor lo (Z.lxor (Z.shiftl (Z.lxor mi (Z.lxor lo hi)) 64) (Z.shiftl hi 128)).
Definition accok (acc : Z * Z * Z) : Prop := let '(lo, mi, hi) := acc in r128 lo /\ r128 mi /\ r128 hi.

Lemma shiftr_shiftl_64 a : Z.shiftr (Z.shiftl a 64) 64 = a.
Proof. rewrite Z.shiftr_shiftl_l, Z.shiftl_0_r by lia. auto. Qed.
Lemma half_lo_lxor a b : half false (Z.lxor a b) = Z.lxor (half false a) (half false b).
Proof.
  unfold half. apply Z.bits_inj'. intros n Hn. rewrite Z.lxor_spec, !Z.land_spec, Z.lxor_spec. btauto.
Qed.
Lemma half_hi_lxor a b : half true (Z.lxor a b) = Z.lxor (half true a) (half true b).
Proof. apply Z.shiftr_lxor. Qed.
Lemma half_lo_shiftl a : half false (Z.shiftl a 64) = 0.
Proof. rewrite half_lo, Z.shiftl_mul_pow2 by lia. apply Z.mod_mul. lia. Qed.
Lemma clmulepi64_00 x y : clmulepi64 x y 0 = clmul (half false x) (half false y). Proof. reflexivity. Qed.
Lemma clmulepi64_11 x y : clmulepi64 x y 0x11 = clmul (half true x) (half true y). Proof. reflexivity. Qed.
Lemma clmulepi64_01 x y : clmulepi64 x y 0x01 = clmul (half true x) (half false y). Proof. reflexivity. Qed.
Lemma clmulepi64_10 x y : clmulepi64 x y 0x10 = clmul (half false x) (half true y). Proof. reflexivity. Qed.

(** the two folding steps on (lo, middle, hi) *)
Lemma fold_step lo mid : r128 lo -> 0 <= mid ->
  rn 64 (Z.lxor lo (Z.shiftl mid 64)) = Z.lxor mid (Z.lxor (swap64 lo) (clmul C64 (half false lo))).
Proof.
  intros Hlo Hm. rewrite rn64 by (apply lxor_nonneg'; [destruct Hlo; lia|apply Z.shiftl_nonneg; lia]).
  rewrite half_lo_lxor, half_lo_shiftl, Z.lxor_0_r.
  change (Z.shiftr ?x 64) with (half true x). rewrite half_hi_lxor.
  change (half true (Z.shiftl mid 64)) with (Z.shiftr (Z.shiftl mid 64) 64). rewrite shiftr_shiftl_64.
  rewrite swap64_ok by auto. xac.
Qed.

Lemma reduce_ok acc : accok acc -> reduce acc = rn 128 (accval acc).
Proof.
  destruct acc as [[lo mi] hi]. intros (Hlo & Hmi & Hhi). unfold reduce, accval.
  change 128%nat with (64 + 64)%nat. rewrite rn_add.
  replace (Z.lxor (Z.shiftl (Z.lxor mi (Z.lxor lo hi)) 64) (Z.shiftl hi 128))
    with (Z.shiftl (Z.lxor (Z.lxor mi (Z.lxor lo hi)) (Z.shiftl hi 64)) 64)
    by (rewrite Z.shiftl_lxor, Z.shiftl_shiftl by lia; reflexivity).
  pose proof (r128_lxor _ _ Hmi (r128_lxor _ _ Hlo Hhi)) as Hmid.
  assert (Hh0 : 0 <= Z.shiftl hi 64) by (apply Z.shiftl_nonneg; destruct Hhi; lia).
  assert (Hn1 : 0 <= Z.lxor (Z.lxor mi (Z.lxor lo hi)) (Z.shiftl hi 64)) by (apply lxor_nonneg'; [apply Hmid|exact Hh0]).
  rewrite fold_step by auto.
  set (mid := Z.lxor mi (Z.lxor lo hi)) in *.
  set (mi' := Z.lxor mid (Z.lxor (swap64 lo) (clmul C64 (half false lo)))).
  replace (Z.lxor (Z.lxor mid (Z.shiftl hi 64)) (Z.lxor (swap64 lo) (clmul C64 (half false lo))))
    with (Z.lxor mi' (Z.shiftl hi 64)) by (unfold mi'; xac).
  assert (Hmi' : r128 mi').
  { apply r128_lxor; auto. apply r128_lxor; [now apply r128_swap|]. apply r128_clmul; [unfold C64; lia|apply half_lo_range]. }
  rewrite fold_step by (auto; apply Hhi).
  rewrite !clmulepi64_00. change (half false GF128_POLY_HI) with C64.
  replace (Z.lxor (Z.lxor (Z.lxor (Z.lxor mi lo) hi) (swap64 lo)) (clmul C64 (half false lo))) with mi'
    by (unfold mi', mid; xac).
  xac.
Qed.

Lemma reduce_r128 acc : accok acc -> r128 (reduce acc).
Proof.
  destruct acc as [[lo mi] hi]. intros (Hlo & Hmi & Hhi). unfold reduce.
  rewrite !clmulepi64_00. change (half false GF128_POLY_HI) with C64.
  assert (P : forall x, r128 (clmul C64 (half false x))) by (intros; apply r128_clmul; [unfold C64; lia|apply half_lo_range]).
  repeat first [apply r128_lxor | apply r128_swap | apply P | assumption].
Qed.

(** mul! adds one product *)
Lemma half_swap_xor x : r128 x -> half false (Z.lxor (swap64 x) x) = Z.lxor (half true x) (half false x).
Proof.
  intros. rewrite half_lo_lxor, swap64_ok, half_lo_lxor, half_lo_shiftl, Z.lxor_0_r by auto. f_equal.
  rewrite half_lo. apply Z.mod_small. now apply half_hi_range.
Qed.
Lemma clmul_halves x h : r128 x -> r128 h ->
  clmul x h = Z.lxor (clmul (half false x) (half false h))
    (Z.lxor (Z.shiftl (Z.lxor (clmul (half true x) (half false h)) (clmul (half false x) (half true h))) 64)
       (Z.shiftl (clmul (half true x) (half true h)) 128)).
Proof.
  intros Hx Hh. pose proof (half_lo_range x). pose proof (half_hi_range x Hx).
  pose proof (half_lo_range h). pose proof (half_hi_range h Hh).
  rewrite (halves x) at 1. rewrite (halves h) at 1.
  set (x0 := half false x) in *. set (x1 := half true x) in *. set (h0 := half false h) in *. set (h1 := half true h) in *.
  assert (0 <= Z.shiftl x1 64) by (apply Z.shiftl_nonneg; lia).
  assert (0 <= Z.shiftl h1 64) by (apply Z.shiftl_nonneg; lia).
  rewrite clmul_lxor_r, !clmul_lxor_l by lia.
  rewrite !clmul_shiftl_l, !clmul_shiftl_r, Z.shiftl_shiftl, Z.shiftl_lxor by (try lia).
  change (64 + 64) with 128. xac.
Qed.
Lemma mul_acc_ok acc x h : accok acc -> r128 x -> r128 h ->
  accok (mul_acc acc x h (xor_halves h)) /\ accval (mul_acc acc x h (xor_halves h)) = Z.lxor (accval acc) (clmul x h).
Proof.
  destruct acc as [[lo mi] hi]. intros (Hlo & Hmi & Hhi) Hx Hh. unfold mul_acc, xor_halves.
  rewrite !clmulepi64_00, clmulepi64_11, !half_swap_xor by auto.
  pose proof (half_lo_range x). pose proof (half_hi_range x Hx).
  pose proof (half_lo_range h). pose proof (half_hi_range h Hh).
  assert (0 <= Z.lxor (half true x) (half false x) < 2 ^ 64) by (apply lxor_range; auto).
  assert (0 <= Z.lxor (half true h) (half false h) < 2 ^ 64) by (apply lxor_range; auto).
  split.
  - cbn [accok]. repeat split; repeat first [apply r128_lxor | apply r128_clmul]; auto; apply Hlo || apply Hmi || apply Hhi.
  - unfold accval. rewrite (clmul_halves x h) by auto.
    rewrite clmul_lxor_r, !clmul_lxor_l by lia.
    rewrite !Z.shiftl_lxor. xac.
Qed.

(** Montgomery-style product *)
Definition M (a b : Z) : Z := rn 128 (clmul a b).
Lemma r128_0 : r128 0. Proof. unfold r128; lia. Qed.
Lemma mul1_M a b : r128 a -> r128 b -> mul1 a b = M a b /\ r128 (mul1 a b).
Proof.
  intros Ha Hb. unfold mul1, M.
  destruct (mul_acc_ok (0, 0, 0) a b) as [A B]; auto; [repeat split; cbv; congruence|].
  split; [|now apply reduce_r128]. rewrite reduce_ok, B by auto. cbn [accval].
  rewrite Z.lxor_0_l. reflexivity.
Qed.
Lemma M_r128 a b : r128 a -> r128 b -> r128 (M a b).
Proof. intros Ha Hb. destruct (mul1_M a b Ha Hb) as [<- H]. auto. Qed.
Lemma M_lxor a a' b : 0 <= b -> M (Z.lxor a a') b = Z.lxor (M a b) (M a' b).
Proof. intros. unfold M. now rewrite clmul_lxor_l, rn_lxor. Qed.
Lemma rn_assoc n a b c :
  0 <= a < 2 ^ Z.of_nat n -> 0 <= b -> 0 <= c < 2 ^ Z.of_nat n ->
  rn n (clmul (rn n (clmul a b)) c) = rn n (clmul a (rn n (clmul b c))).
Proof.
  intros Ha Hb Hc.
  assert (Hab : 0 <= clmul a b) by (apply clmul_nonneg; lia).
  assert (Hbc : 0 <= clmul b c) by (apply clmul_nonneg; lia).
  rewrite <- (rn_clmul_rn n n (clmul a b) c) by auto.
  rewrite (clmul_comm a (rn n _)) by (try apply rn_nonneg; lia).
  rewrite <- (rn_clmul_rn n n (clmul b c) a) by auto.
  f_equal. rewrite clmul_assoc by lia. apply clmul_comm; lia.
Qed.
Lemma M_assoc a b c : r128 a -> r128 b -> r128 c -> M (M a b) c = M a (M b c).
Proof. intros Ha Hb Hc. apply (rn_assoc 128); [exact Ha | apply Hb | exact Hc]. Qed.

(** the hash subkey, shifted *)
Lemma lxor_disjoint_add k a b : 0 <= k -> 0 <= a < 2 ^ k -> 0 <= b -> Z.lxor a (2 ^ k * b) = a + 2 ^ k * b.
Proof.
  intros Hk Ha Hb. symmetry. apply Z.add_nocarry_lxor. apply Z.bits_inj'. intros n Hn. rewrite Z.bits_0, Z.land_spec.
  rewrite (Z.mul_comm _ b). rewrite Z.mul_pow2_bits by lia.
  destruct (Z.lt_ge_cases n k); [rewrite (Z.testbit_neg_r b) by lia; apply andb_false_r|].
  now rewrite (testbit_small k a) by lia.
Qed.
Lemma testbit_hi x k : 0 <= k -> 0 <= x < 2 ^ (k + 1) -> Z.testbit x k = (2 ^ k <=? x).
Proof.
  intros Hk Hx. rewrite Z.pow_add_r in Hx by lia. change (2 ^ 1) with 2 in Hx.
  rewrite Z.testbit_odd, Z.shiftr_div_pow2 by lia.
  destruct (2 ^ k <=? x) eqn:E.
  - replace (x / 2 ^ k) with 1; [reflexivity|]. apply (Z.div_unique _ _ _ (x - 2 ^ k)); lia.
  - rewrite Z.div_small by lia. reflexivity.
Qed.

Lemma gf128_be_spec h : r128 h -> gf128_big_endian h = Z.lxor (2 * h) (bz (Z.testbit h 127) Q).
Proof.
  intros Hh. pose proof (half_lo_range h) as Hl. pose proof (half_hi_range h Hh) as Hhh.
  assert (Eh : h = half false h + 2 ^ 64 * half true h).
  { rewrite half_lo. unfold half. rewrite Z.shiftr_div_pow2 by lia. pose proof (Z.div_mod h (2 ^ 64)). lia. }
  unfold gf128_big_endian.
  assert (L3 : Z.testbit (lane32z h 3) 31 = Z.testbit h 127).
  { unfold lane32z. rewrite Z.mod_pow2_bits_low, Z.shiftr_spec by lia. reflexivity. }
  assert (L1 : Z.testbit (lane32z h 1) 31 = Z.testbit h 63).
  { unfold lane32z. rewrite Z.mod_pow2_bits_low, Z.shiftr_spec by lia. reflexivity. }
  assert (B63 : Z.testbit h 63 = (2 ^ 63 <=? half false h)).
  { rewrite <- testbit_hi by lia. unfold half. rewrite Z.land_spec, Z.ones_spec_low by lia. now rewrite andb_true_r. }
  assert (B127 : Z.testbit h 127 = (2 ^ 63 <=? half true h)).
  { rewrite <- testbit_hi by lia. unfold half. rewrite Z.shiftr_spec by lia. reflexivity. }
  unfold srai31. rewrite L3, L1, B63, B127.
  set (lo := half false h) in *. set (hi := half true h) in *. clearbody lo hi.
  set (c31 := Z.testbit (lane32z h 0) 31). clearbody c31.
  rewrite Eh. clear L3 L1 B63 B127 Eh Hh.
  assert (T : Z.land GF128_POLY_CARRY_MASK
     (of_lanes (if 2 ^ 63 <=? hi then 2 ^ 32 - 1 else 0) (if c31 then 2 ^ 32 - 1 else 0)
        (if 2 ^ 63 <=? lo then 2 ^ 32 - 1 else 0) (if 2 ^ 63 <=? hi then 2 ^ 32 - 1 else 0)) =
     Z.lxor (bz (2 ^ 63 <=? lo) (2 ^ 64 * 1)) (bz (2 ^ 63 <=? hi) (Z.lxor (2 ^ 128 * 1) Q))).
  { destruct (2 ^ 63 <=? hi), c31, (2 ^ 63 <=? lo); reflexivity. }
  rewrite T. clear T c31.
  assert (Rlo : (lo + lo) mod 2 ^ 64 = 2 * lo - 2 ^ 64 * Z.b2z (2 ^ 63 <=? lo)).
  { symmetry. apply (Z.mod_unique _ _ (Z.b2z (2 ^ 63 <=? lo))); destruct (2 ^ 63 <=? lo) eqn:E; cbn [Z.b2z]; lia. }
  assert (Rhi : (hi + hi) mod 2 ^ 64 = 2 * hi - 2 ^ 64 * Z.b2z (2 ^ 63 <=? hi)).
  { symmetry. apply (Z.mod_unique _ _ (Z.b2z (2 ^ 63 <=? hi))); destruct (2 ^ 63 <=? hi) eqn:E; cbn [Z.b2z]; lia. }
  rewrite Rlo, Rhi.
  set (l := 2 * lo - 2 ^ 64 * Z.b2z (2 ^ 63 <=? lo)). set (k := 2 * hi - 2 ^ 64 * Z.b2z (2 ^ 63 <=? hi)).
  assert (Hlr : 0 <= l < 2 ^ 64) by (unfold l; destruct (2 ^ 63 <=? lo) eqn:E; cbn [Z.b2z]; lia).
  assert (Hkr : 0 <= k < 2 ^ 64) by (unfold k; destruct (2 ^ 63 <=? hi) eqn:E; cbn [Z.b2z]; lia).
  set (hi' := hi - 2 ^ 63 * Z.b2z (2 ^ 63 <=? hi)).
  assert (Hhi' : 0 <= hi' < 2 ^ 63) by (unfold hi'; destruct (2 ^ 63 <=? hi) eqn:E; cbn [Z.b2z]; lia).
  assert (Ek : k = 2 * hi') by (unfold k, hi'; lia).
  assert (E2 : 2 * (lo + 2 ^ 64 * hi) = Z.lxor (Z.lxor (l + 2 ^ 64 * k) (bz (2 ^ 63 <=? lo) (2 ^ 64 * 1))) (bz (2 ^ 63 <=? hi) (2 ^ 128 * 1))).
  { assert (E1 : Z.lxor (l + 2 ^ 64 * k) (bz (2 ^ 63 <=? lo) (2 ^ 64 * 1)) = l + 2 ^ 64 * (k + Z.b2z (2 ^ 63 <=? lo))).
    { rewrite <- (lxor_disjoint_add 64 l k) by lia.
      rewrite <- (lxor_disjoint_add 64 l (k + _)) by (destruct (2 ^ 63 <=? lo); cbn [Z.b2z]; lia).
      rewrite Z.lxor_assoc. f_equal. destruct (2 ^ 63 <=? lo); cbn [bz Z.b2z]; [|now rewrite Z.lxor_0_r, Z.add_0_r].
      rewrite Ek. rewrite (Z.mul_comm _ (2 * hi')), (Z.mul_comm _ 1), (Z.mul_comm _ (_ + 1)).
      rewrite <- !(Z.shiftl_mul_pow2 _ 64), <- Z.shiftl_lxor by lia. f_equal.
      rewrite Z.lxor_comm. pose proof (lxor_disjoint_add 1 1 hi' ltac:(lia) ltac:(lia) ltac:(lia)) as X1.
      change (2 ^ 1) with 2 in X1. rewrite X1. lia. }
    rewrite E1. destruct (2 ^ 63 <=? hi) eqn:E; cbn [bz].
    - rewrite lxor_disjoint_add by (try lia; unfold l, hi' in *; destruct (2 ^ 63 <=? lo) eqn:F; cbn [Z.b2z] in *; lia).
      unfold l, k; destruct (2 ^ 63 <=? lo) eqn:F; cbn [Z.b2z]; lia.
    - rewrite Z.lxor_0_r. unfold l, k; destruct (2 ^ 63 <=? lo) eqn:F; cbn [Z.b2z]; lia. }
  rewrite E2. rewrite bz_lxor. xac.
Qed.
Lemma gf128_be_r128 h : r128 h -> r128 (gf128_big_endian h).
Proof.
  intros Hh. unfold gf128_big_endian. apply r128_lxor.
  - unfold r128. set (a := (_ + _) mod 2 ^ 64). set (b := (half true h + _) mod 2 ^ 64).
    assert (0 <= a < 2 ^ 64) by (apply Z.mod_pos_bound; lia). assert (0 <= b < 2 ^ 64) by (apply Z.mod_pos_bound; lia). lia.
  - unfold r128. rewrite Z.land_comm. apply (land_range_r 128). unfold GF128_POLY_CARRY_MASK. lia.
Qed.
Lemma redc1_be h : r128 h -> redc1 (gf128_big_endian h) = h.
Proof. intros. rewrite gf128_be_spec by auto. now rewrite redc1_lxor, redc1_double, redc1_bzQ, Z.lxor_0_r. Qed.

Theorem M_is_gcm_mul a h : r128 a -> r128 h -> M a (gf128_big_endian h) = gcm_mul a h.
Proof.
  intros Ha Hh. pose proof (gf128_be_r128 h Hh) as Hb. unfold r128 in *.
  rewrite gcm_mul_spec by (auto; lia). unfold M. rewrite clmul_comm by lia.
  change 128%nat with (S 127). rewrite rn_clmul_redc1; [|lia|exact Ha]. now rewrite redc1_be.
Qed.
