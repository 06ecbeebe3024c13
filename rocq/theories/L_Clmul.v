(** Algebra of the carry-less product. *)
Require Import Verif.Base Verif.L_Base Verif.L_Bits Verif.M_Ghash.
Require Import ZifyNat.

Lemma lxor_2 : forall a b, Z.lxor (2 * a) (2 * b) = 2 * Z.lxor a b.
Proof.
  intros. rewrite <- !Z.shiftl_1_l || idtac.
  replace (2 * a) with (Z.shiftl a 1) by (rewrite Z.shiftl_mul_pow2; lia).
  replace (2 * b) with (Z.shiftl b 1) by (rewrite Z.shiftl_mul_pow2; lia).
  rewrite <- Z.shiftl_lxor. rewrite Z.shiftl_mul_pow2; lia.
Qed.

Definition bz (b : bool) (a : Z) : Z := if b then a else 0.

Lemma bz_lxor : forall b x y, bz b (Z.lxor x y) = Z.lxor (bz b x) (bz b y).
Proof. destruct b; intros; cbn; auto. Qed.
Lemma bz_xorb : forall b c x, bz (xorb b c) x = Z.lxor (bz b x) (bz c x).
Proof. destruct b, c; intros; cbn; rewrite ?Z.lxor_nilpotent, ?Z.lxor_0_r; auto. Qed.

Lemma clmul_step : forall a b, 0 <= b -> clmul a b = Z.lxor (bz (Z.odd b) a) (2 * clmul a (b / 2)).
Proof.
  intros a b Hb. destruct b as [|p|p]; [reflexivity| |lia].
  destruct p as [p|p|].
  - replace (Z.pos p~1 / 2) with (Z.pos p) by (rewrite Pos2Z.inj_xI; lia). reflexivity.
  - replace (Z.pos p~0 / 2) with (Z.pos p) by (rewrite Pos2Z.inj_xO; lia). reflexivity.
  - cbn. rewrite Z.lxor_0_r. auto.
Qed.
Lemma clmul_0_r : forall a, clmul a 0 = 0. Proof. reflexivity. Qed.

(** induction on nonnegative integers by halving *)
Lemma half_ind : forall P : Z -> Prop, P 0 -> (forall b, 0 < b -> P (b / 2) -> P b) -> forall b, 0 <= b -> P b.
Proof.
  intros P H0 Hs b Hb.
  assert (G : forall n : nat, forall b, 0 <= b -> (Z.to_nat b < n)%nat -> P b).
  { induction n as [|n IH]; intros b' Hb' Hn; [lia|].
    destruct (Z.eq_dec b' 0) as [->|]; auto. apply Hs; [lia|]. apply IH; [apply Z.div_pos; lia|].
    assert (b' / 2 < b') by (apply Z.div_lt; lia). lia. }
  apply (G (S (Z.to_nat b))); lia.
Qed.

Lemma odd_lxor : forall a b, Z.odd (Z.lxor a b) = xorb (Z.odd a) (Z.odd b).
Proof. intros. rewrite <- !Z.bit0_odd. apply Z.lxor_spec. Qed.
Lemma div2_lxor : forall a b, Z.lxor a b / 2 = Z.lxor (a / 2) (b / 2).
Proof.
  intros. rewrite <- !Z.div2_div, !Z.div2_spec. apply Z.shiftr_lxor.
Qed.
Lemma lxor_nonneg' : forall a b, 0 <= a -> 0 <= b -> 0 <= Z.lxor a b.
Proof. intros. apply Z.lxor_nonneg. lia. Qed.

Ltac xsolve := repeat rewrite Z.lxor_assoc; repeat match goal with
  | |- Z.lxor ?a _ = Z.lxor ?a _ => f_equal
  end; try reflexivity.

Lemma lxor_4 : forall a b c d, Z.lxor (Z.lxor a b) (Z.lxor c d) = Z.lxor (Z.lxor a c) (Z.lxor b d).
Proof. intros. rewrite !Z.lxor_assoc. f_equal. rewrite <- !Z.lxor_assoc. f_equal. apply Z.lxor_comm. Qed.

Lemma clmul_nonneg : forall a b, 0 <= a -> 0 <= b -> 0 <= clmul a b.
Proof.
  intros a b Ha. revert b. apply half_ind; [rewrite clmul_0_r; lia|].
  intros b Hb IH. rewrite clmul_step by lia. apply lxor_nonneg'; [destruct (Z.odd b); cbn; lia | lia].
Qed.

Lemma clmul_lxor_l : forall b a a', 0 <= b -> clmul (Z.lxor a a') b = Z.lxor (clmul a b) (clmul a' b).
Proof.
  intros b a a' Hb. revert b Hb. apply half_ind; [reflexivity|].
  intros b Hb IH. rewrite !(clmul_step _ b) by lia. rewrite IH, bz_lxor, <- lxor_2. apply lxor_4.
Qed.

Lemma clmul_lxor_r : forall a b b', 0 <= b -> 0 <= b' -> clmul a (Z.lxor b b') = Z.lxor (clmul a b) (clmul a b').
Proof.
  intros a b b' Hb. revert b Hb b'. apply (half_ind (fun b => forall b', 0 <= b' -> clmul a (Z.lxor b b') = Z.lxor (clmul a b) (clmul a b'))).
  - intros. rewrite Z.lxor_0_l, clmul_0_r, Z.lxor_0_l. auto.
  - intros b Hb IH b' Hb'.
    assert (0 <= b / 2) by (apply Z.div_pos; lia). assert (0 <= b' / 2) by (apply Z.div_pos; lia).
    rewrite (clmul_step a (Z.lxor b b')) by (apply lxor_nonneg'; lia).
    rewrite odd_lxor, div2_lxor, IH by lia.
    rewrite (clmul_step a b), (clmul_step a b') by lia. rewrite bz_xorb, <- lxor_2. apply lxor_4.
Qed.

Lemma clmul_0_l : forall b, 0 <= b -> clmul 0 b = 0.
Proof. apply half_ind; [reflexivity|]. intros b Hb IH. rewrite clmul_step, IH by lia. destruct (Z.odd b); reflexivity. Qed.

Lemma clmul_1_r : forall a, clmul a 1 = a. Proof. reflexivity. Qed.
Lemma clmul_double_r : forall a b, 0 <= b -> clmul a (2 * b) = 2 * clmul a b.
Proof.
  intros. rewrite clmul_step by lia. rewrite Z.odd_mul. cbn [Z.odd andb bz]. rewrite Z.lxor_0_l.
  replace (2 * b / 2) with b by lia. auto.
Qed.
Lemma clmul_double_l : forall b a, 0 <= b -> clmul (2 * a) b = 2 * clmul a b.
Proof.
  intros b a Hb. revert b Hb. apply half_ind; [reflexivity|].
  intros b Hb IH. rewrite !(clmul_step _ b) by lia. rewrite IH, <- lxor_2. f_equal. destruct (Z.odd b); reflexivity.
Qed.
Lemma lxor_decomp : forall b, b = Z.lxor (bz (Z.odd b) 1) (2 * (b / 2)).
Proof.
  intros. apply Z.bits_inj'. intros n Hn. rewrite Z.lxor_spec.
  destruct (Z.eq_dec n 0) as [->|].
  - rewrite Z.testbit_even_0, xorb_false_r, Z.bit0_odd. destruct (Z.odd b); reflexivity.
  - replace n with (Z.succ (n - 1)) by lia. rewrite Z.testbit_even_succ by lia.
    replace (b / 2) with (Z.shiftr b 1) by (rewrite Z.shiftr_div_pow2; lia).
    rewrite Z.shiftr_spec by lia. replace (n - 1 + 1) with (Z.succ (n - 1)) by lia.
    replace (Z.testbit (bz (Z.odd b) 1) (Z.succ (n - 1))) with false; [now rewrite xorb_false_l|].
    destruct (Z.odd b); cbn [bz]; [|now rewrite Z.bits_0].
    symmetry. apply (Z.testbit_false 1); [lia|]. rewrite Z.div_small; [reflexivity|].
    split; [lia|]. apply Z.pow_gt_1; lia.
Qed.
Lemma clmul_comm : forall a b, 0 <= a -> 0 <= b -> clmul a b = clmul b a.
Proof.
  intros a b Ha Hb. revert b Hb. apply half_ind; [rewrite clmul_0_l by lia; reflexivity|].
  intros b Hb IH. rewrite clmul_step by lia. rewrite (lxor_decomp b) at 3.
  rewrite clmul_lxor_l, clmul_double_l, <- IH by lia. f_equal.
  destruct (Z.odd b); cbn [bz]; [|now rewrite clmul_0_l].
  revert a Ha IH. intros a Ha _. revert a Ha. apply half_ind; [reflexivity|].
  intros a Ha IH. rewrite clmul_step by lia. rewrite <- IH. apply lxor_decomp.
Qed.
Lemma clmul_assoc : forall a b c, 0 <= a -> 0 <= b -> 0 <= c -> clmul (clmul a b) c = clmul a (clmul b c).
Proof.
  intros a b c Ha Hb Hc. revert c Hc. apply half_ind; [reflexivity|].
  intros c Hc IH. assert (0 <= c / 2) by (apply Z.div_pos; lia).
  rewrite !(clmul_step _ c) by lia. rewrite IH.
  pose proof (clmul_nonneg b (c / 2) Hb H).
  rewrite clmul_lxor_r; [|destruct (Z.odd c); cbn; lia|lia].
  rewrite clmul_double_r by lia. f_equal. destruct (Z.odd c); reflexivity.
Qed.

Lemma clmul_shiftl_l : forall n a b, 0 <= b -> 0 <= n -> clmul (Z.shiftl a n) b = Z.shiftl (clmul a b) n.
Proof.
  intros n a b Hb Hn. revert n Hn. apply natlike_ind; [now rewrite !Z.shiftl_0_r|].
  intros n Hn IH. rewrite <- Z.add_1_r, <- !Z.shiftl_shiftl, !(Z.shiftl_mul_pow2 _ 1) by lia.
  change (2 ^ 1) with 2. rewrite !(Z.mul_comm _ 2), clmul_double_l, IH by lia. auto.
Qed.
Lemma clmul_shiftl_r : forall n a b, 0 <= a -> 0 <= b -> 0 <= n -> clmul a (Z.shiftl b n) = Z.shiftl (clmul a b) n.
Proof.
  intros. rewrite clmul_comm, clmul_shiftl_l, (clmul_comm b a) by (try apply Z.shiftl_nonneg; lia). auto.
Qed.

Lemma clmul_range : forall m n a b, 0 <= m -> 0 <= n -> 0 <= a < 2 ^ m -> 0 <= b < 2 ^ n -> 0 <= clmul a b < 2 ^ (m + n).
Proof.
  intros m n a b Hm Hn Ha Hb. revert n Hn b Hb.
  apply (natlike_ind (fun n => forall b, 0 <= b < 2 ^ n -> 0 <= clmul a b < 2 ^ (m + n))).
  - intros b Hb. replace b with 0 by lia. cbn. lia.
  - intros n Hn IH b Hb. rewrite Z.pow_succ_r in Hb by lia.
    assert (Hh : 0 <= b / 2 < 2 ^ n) by (split; [apply Z.div_pos|apply Z.div_lt_upper_bound]; lia).
    specialize (IH _ Hh). rewrite clmul_step by lia.
    replace (m + Z.succ n) with (Z.succ (m + n)) by lia. rewrite Z.pow_succ_r by lia.
    rewrite <- Z.pow_succ_r by lia. apply lxor_range; rewrite ?Z.pow_succ_r by lia; try lia.
    assert (2 ^ m <= 2 ^ (m + n)) by (apply Z.pow_le_mono_r; lia).
    destruct (Z.odd b); cbn [bz]; lia.
Qed.
