(** Booth recoding: the digits are what they should be. *)
Require Import Verif.Base Verif.L_Base Verif.M_Ec Verif.L_Bits.
Require Import ZifyNat Znumtheory.

(** The signed value of a (digit, sign) pair. *)
Definition sd (t : Z * Z) : Z := if snd t =? 0 then fst t else - fst t.

(** k / 2^i rounded to nearest, halves upwards. *)
Definition rnd (k i : Z) : Z := (2 * k / 2 ^ i + 1) / 2.

Definition recode_good (w v : Z) : bool :=
  let t := recode w v in
  (0 <=? fst t) && (fst t <=? 2 ^ (w - 1)) && ((snd t =? 0) || (snd t =? 1)) &&
  (sd t =? (v + 1) / 2 - (if v <? 2 ^ w then 0 else 2 ^ w)) && ((2 ^ w <=? v) || (snd t =? 0)).

Lemma recode7_all : forallb (fun i => recode_good 7 (Z.of_nat i)) (seq 0 256) = true.
Proof. vm_compute. reflexivity. Qed.

Lemma recode5_all : forallb (fun i => recode_good 5 (Z.of_nat i)) (seq 0 64) = true.
Proof. vm_compute. reflexivity. Qed.

Lemma recode_ok w v : w = 5 \/ w = 7 -> 0 <= v < 2 ^ (w + 1) ->
  0 <= fst (recode w v) <= 2 ^ (w - 1) /\ (snd (recode w v) = 0 \/ snd (recode w v) = 1) /\
  sd (recode w v) = (v + 1) / 2 - (if v <? 2 ^ w then 0 else 2 ^ w) /\
  (v < 2 ^ w -> snd (recode w v) = 0).
Proof.
  intros W V. assert (G : recode_good w v = true).
  { destruct W as [-> | ->].
    - pose proof recode5_all as A. rewrite forallb_forall in A.
      specialize (A (Z.to_nat v)). rewrite Z2Nat.id in A by lia. apply A. apply in_seq.
      change (2 ^ (5 + 1)) with 64 in V. lia.
    - pose proof recode7_all as A. rewrite forallb_forall in A.
      specialize (A (Z.to_nat v)). rewrite Z2Nat.id in A by lia. apply A. apply in_seq.
      change (2 ^ (7 + 1)) with 256 in V. lia. }
  unfold recode_good in G. cbv zeta in G. lia.
Qed.

(** The signed digit of the window at bit i is the difference of roundings. *)
Lemma digit_rnd w k i : 0 < w -> 0 <= i -> 0 <= k ->
  let v := (2 * k / 2 ^ i) mod 2 ^ (w + 1) in
  (v + 1) / 2 - (if v <? 2 ^ w then 0 else 2 ^ w) = rnd k i - 2 ^ w * rnd k (i + w).
Proof.
  intros W I K. unfold rnd. rewrite (Z.pow_add_r 2 i w), (Z.pow_add_r 2 w 1) by lia.
  rewrite <- Z.div_div; [|apply Z.pow_nonzero; lia|apply Z.pow_pos_nonneg; lia].
  set (m := 2 * k / 2 ^ i). change (2 ^ 1) with 2.
  assert (P : 0 < 2 ^ w) by (apply Z.pow_pos_nonneg; lia). set (B := 2 ^ w) in *. clearbody B m. clear - P.
  cbv zeta. set (v := m mod (B * 2)).
  assert (V : 0 <= v < B * 2) by (apply Z.mod_pos_bound; lia).
  pose proof (Z.div_mod m (B * 2) ltac:(lia)) as E. fold v in E. set (q := m / (B * 2)) in *. clearbody q v. subst m.
  assert (EQ : (B * 2 * q + v + 1) / 2 = (v + 1) / 2 + B * q).
  { replace (B * 2 * q + v + 1) with (v + 1 + (B * q) * 2) by lia. apply Z.div_add. lia. }
  rewrite EQ. destruct (Z.ltb_spec v B).
  - assert (E1 : (B * 2 * q + v) / B = 2 * q) by (symmetry; apply (Z.div_unique _ _ _ v); lia).
    assert (E2 : (2 * q + 1) / 2 = q) by (symmetry; apply (Z.div_unique _ _ _ 1); lia).
    rewrite E1, E2. lia.
  - assert (E1 : (B * 2 * q + v) / B = 2 * q + 1) by (symmetry; apply (Z.div_unique _ _ _ (v - B)); lia).
    assert (E2 : (2 * q + 1 + 1) / 2 = q + 1) by (symmetry; apply (Z.div_unique _ _ _ 0); lia).
    rewrite E1, E2. lia.
Qed.

Lemma rnd_0 k : rnd k 0 = k.
Proof. unfold rnd. change (2 ^ 0) with 1. rewrite Z.div_1_r. symmetry. apply (Z.div_unique _ _ _ 1); lia. Qed.

Lemma rnd_bounds k i : 0 <= k -> 1 <= i -> 0 <= rnd k i /\
  k - 2 ^ (i - 1) < 2 ^ i * rnd k i <= k + 2 ^ (i - 1).
Proof.
  intros K I. unfold rnd. replace (2 ^ i) with (2 * 2 ^ (i - 1)) by (rewrite <- Z.pow_succ_r by lia; f_equal; lia).
  assert (P : 0 < 2 ^ (i - 1)) by (apply Z.pow_pos_nonneg; lia). set (B := 2 ^ (i - 1)) in *. clearbody B.
  rewrite Z.div_mul_cancel_l by lia.
  pose proof (Z.div_mod k B ltac:(lia)). pose proof (Z.mod_pos_bound k B P). pose proof (Z.div_pos k B ltac:(lia) P).
  set (q := k / B) in *. set (r := k mod B) in *. clearbody q r.
  pose proof (Z.div_mod (q + 1) 2 ltac:(lia)). pose proof (Z.mod_pos_bound (q + 1) 2 ltac:(lia)).
  set (h := (q + 1) / 2) in *. set (g := (q + 1) mod 2) in *. clearbody h g.
  split; [lia|]. assert (2 * B * h = B * (q + 1 - g)) by (rewrite <- Z.mul_assoc, (Z.mul_comm 2), <- Z.mul_assoc; f_equal; lia). nia.
Qed.

(** *** the window *)
Lemma znth_le_bytes n k j : 0 <= k < 256 ^ Z.of_nat n -> (j <= n)%nat ->
  znth (le_bytes n k ++ [0]) j = (k / 256 ^ Z.of_nat j) mod 256.
Proof.
  revert k j. induction n as [|n IH]; intros k j K J.
  - replace j with 0%nat by lia. cbn. assert (k = 0) by (cbn in K; lia). subst. reflexivity.
  - destruct j as [|j].
    + cbn [le_bytes app znth nth]. change (256 ^ Z.of_nat 0) with 1. rewrite Z.div_1_r. reflexivity.
    + change (znth (le_bytes (S n) k ++ [0]) (S j)) with (znth (le_bytes n (k / 256) ++ [0]) j).
      assert (P : 256 ^ Z.of_nat (S n) = 256 * 256 ^ Z.of_nat n).
      { rewrite Nat2Z.inj_succ, Z.pow_succ_r by lia. reflexivity. }
      rewrite IH; [|split; [apply Z.div_pos; lia|apply Z.div_lt_upper_bound; lia]|lia].
      rewrite Nat2Z.inj_succ, Z.pow_succ_r by lia. rewrite Z.div_div by (try apply Z.pow_pos_nonneg; lia). reflexivity.
Qed.

Lemma window_ok N k i : 0 <= k < 2 ^ (8 * N) -> 1 <= i -> (i - 1) / 8 + 1 <= N ->
  booth_window (le_bytes (Z.to_nat N) k ++ [0]) i = (2 * k / 2 ^ i) mod 256.
Proof.
  intros K I B. unfold booth_window. cbv zeta.
  set (o := (i - 1) / 8) in *. set (s := (i - 1) mod 8).
  assert (S : 0 <= s < 8) by (apply Z.mod_pos_bound; lia).
  assert (O : 0 <= o) by (apply Z.div_pos; lia).
  assert (Ei : i - 1 = 8 * o + s) by (apply Z.div_mod; lia).
  assert (K' : 0 <= k < 256 ^ Z.of_nat (Z.to_nat N)).
  { rewrite Z2Nat.id by lia. change 256 with (2 ^ 8). rewrite <- Z.pow_mul_r by lia. exact K. }
  rewrite !znth_le_bytes by (assumption || lia). rewrite !Z2Nat.id by lia.
  assert (P : 0 < 256 ^ o) by (apply Z.pow_pos_nonneg; lia).
  rewrite Z.pow_add_r by lia. change (256 ^ 1) with 256. rewrite <- Z.div_div by lia.
  replace (2 * k / 2 ^ i) with (k / 256 ^ o / 2 ^ s).
  2: { rewrite Z.div_div by (try apply Z.pow_pos_nonneg; lia). change 256 with (2 ^ 8).
       rewrite <- Z.pow_mul_r, <- Z.pow_add_r by lia. rewrite <- Ei.
       replace (2 ^ i) with (2 * 2 ^ (i - 1)) by (rewrite <- Z.pow_succ_r by lia; f_equal; lia).
       rewrite Z.div_mul_cancel_l; [reflexivity| |lia]. apply Z.pow_nonzero; lia. }
  set (q := k / 256 ^ o). assert (Q : 0 <= q) by (apply Z.div_pos; lia). clearbody q.
  rewrite Z.lor_comm, (lor_add _ (q mod 256) 8) by (try apply Z.mod_pos_bound; lia). change (2 ^ 8) with 256.
  rewrite Z.shiftr_div_pow2 by lia.
  (* (q mod 65536) / 2^s mod 256 *)
  replace ((q / 256) mod 256 * 256 + q mod 256) with (q mod (256 * 256)) by (rewrite Z.rem_mul_r by lia; lia).
  pose proof (Z.div_mod q (256 * 256) ltac:(lia)) as E. pose proof (Z.mod_pos_bound q (256 * 256) ltac:(lia)) as M.
  set (u := q / (256 * 256)) in *. set (r := q mod (256 * 256)) in *. clearbody u r.
  rewrite E. replace (256 * 256 * u) with ((256 * 2 ^ (8 - s) * u) * 2 ^ s).
  2: { replace (256 * 256) with (256 * (2 ^ (8 - s) * 2 ^ s)); [ring|]. rewrite <- Z.pow_add_r by lia.
       replace (8 - s + s) with 8 by lia. reflexivity. }
  rewrite Z.add_comm, Z.div_add by (apply Z.pow_nonzero; lia).
  replace (256 * 2 ^ (8 - s) * u) with (2 ^ (8 - s) * u * 256) by ring. rewrite Z.mod_add by lia. reflexivity.
Qed.

Lemma window0_ok N k : 0 <= k < 2 ^ (8 * N) -> 1 <= N ->
  (Z.shiftl (znth (le_bytes (Z.to_nat N) k ++ [0]) 0) 1) mod 256 = (2 * k / 2 ^ 0) mod 256.
Proof.
  intros K B. rewrite znth_le_bytes.
  - change (256 ^ Z.of_nat 0) with 1. change (2 ^ 0) with 1. rewrite !Z.div_1_r. rewrite Z.shiftl_mul_pow2 by lia.
    change (2 ^ 1) with 2. rewrite (Z.mul_comm 2 k). rewrite Zmult_mod, Zmod_mod, <- Zmult_mod. reflexivity.
  - rewrite Z2Nat.id by lia. change 256 with (2 ^ 8). rewrite <- Z.pow_mul_r by lia. exact K.
  - lia.
Qed.
