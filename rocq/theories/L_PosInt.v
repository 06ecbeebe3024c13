(** Lemmas on the PosInt model: representation invariant, values of the plain operations. *)
Require Import Verif.Base Verif.L_Base Verif.L_Blocks Verif.M_Util Verif.L_Util Verif.T_Util Verif.M_PosInt Verif.S_Bignum.
Require Import ZifyNat.

(** Representation invariant of PosInt<N> (posint.rs:10-13 and the comment at 48-51) and the number represented. *)
Definition wf (N : Z) (x : posint) : Prop :=
  words N (p_words x) /\ 0 <= p_used x <= N /\ Forall (eq 0) (zdrop (p_used x) (p_words x)).
Definition val (x : posint) : Z := limbs_val (as_words x).

Lemma pow64_pos k : 0 < 2 ^ (64 * k) \/ k < 0.
Proof. destruct (Z.lt_ge_cases k 0); [now right|left]. apply Z.pow_pos_nonneg; lia. Qed.
Lemma pow64 k : 0 <= k -> 0 < 2 ^ (64 * k). Proof. intros; apply Z.pow_pos_nonneg; lia. Qed.
Lemma pow64_le a b : a <= b -> 2 ^ (64 * a) <= 2 ^ (64 * b). Proof. intros; apply Z.pow_le_mono_r; lia. Qed.
Lemma pow64_add a b : 0 <= a -> 0 <= b -> 2 ^ (64 * (a + b)) = 2 ^ (64 * a) * 2 ^ (64 * b).
Proof. intros. rewrite Z.mul_add_distr_l, Z.pow_add_r by lia. reflexivity. Qed.

Lemma to_words_len k v : zlen (to_words k v) = Z.of_nat k.
Proof. revert v; induction k; intros; cbn [to_words]; [reflexivity|]. rewrite zlen_cons, IHk. lia. Qed.
Lemma to_words_u64 k v : Forall u64 (to_words k v).
Proof.
  revert v; induction k; intros; cbn [to_words]; constructor; [|apply IHk].
  apply Z.mod_pos_bound. reflexivity.
Qed.
Lemma to_words_val k v : limbs_val (to_words k v) = v mod 2 ^ (64 * Z.of_nat k).
Proof.
  revert v; induction k; intros; cbn [to_words limbs_val]; [now rewrite Z.mod_1_r|].
  rewrite IHk. replace (64 * Z.of_nat (S k)) with (64 + 64 * Z.of_nat k) by lia.
  rewrite Z.pow_add_r by lia. rewrite Z.rem_mul_r by (try apply pow64; lia). reflexivity.
Qed.
Lemma to_words_ok k v : 0 <= k -> words k (to_words (Z.to_nat k) v).
Proof. intros; split; [rewrite to_words_len; lia|apply to_words_u64]. Qed.
Lemma to_words_small k v : 0 <= k -> 0 <= v < 2 ^ (64 * k) -> limbs_val (to_words (Z.to_nat k) v) = v.
Proof. intros. rewrite to_words_val, Z2Nat.id by lia. apply Z.mod_small; lia. Qed.

Lemma words_bound k x : words k x -> 0 <= limbs_val x < 2 ^ (64 * k).
Proof. intros [L U]. rewrite <- L. now apply limbs_val_bound. Qed.
Lemma words_nonneg k x : words k x -> 0 <= k.
Proof. intros [L _]. pose proof (zlen_nonneg x). lia. Qed.

Lemma limbs_zeros l : Forall (eq 0) l -> limbs_val l = 0.
Proof. induction 1; cbn [limbs_val]; lia. Qed.
Lemma zeros_u64 n : Forall u64 (repeat 0 n).
Proof. induction n; constructor; [red; lia|assumption]. Qed.
Lemma zeros_eq n : Forall (eq 0) (repeat 0 n).
Proof. induction n; constructor; auto. Qed.
Lemma zlen_zeros n : zlen (repeat 0 n) = Z.of_nat n.
Proof. unfold zlen. now rewrite repeat_length. Qed.
Lemma Forall_ztake {A} (P : A -> Prop) n l : Forall P l -> Forall P (ztake n l).
Proof.
  intros H. unfold ztake. rewrite <- (firstn_skipn (Z.to_nat n) l) in H. now apply Forall_app in H.
Qed.
Lemma Forall_zdrop {A} (P : A -> Prop) n l : Forall P l -> Forall P (zdrop n l).
Proof.
  intros H. unfold zdrop. rewrite <- (firstn_skipn (Z.to_nat n) l) in H. now apply Forall_app in H.
Qed.

Lemma words_ztake N k x : words N x -> 0 <= k <= N -> words k (ztake k x).
Proof. intros [L U] H. split; [rewrite zlen_ztake; lia|now apply Forall_ztake]. Qed.
Lemma words_zdrop N k x : words N x -> 0 <= k <= N -> words (N - k) (zdrop k x).
Proof. intros [L U] H. split; [rewrite zlen_zdrop; lia|now apply Forall_zdrop]. Qed.
Lemma limbs_split N k x : words N x -> 0 <= k <= N ->
  limbs_val x = limbs_val (ztake k x) + 2 ^ (64 * k) * limbs_val (zdrop k x).
Proof.
  intros W H. rewrite <- (ztake_zdrop k x) at 1. rewrite limbs_val_app.
  destruct (words_ztake N k x W H) as [-> _]. reflexivity.
Qed.
Lemma limbs_ztake N k x : words N x -> 0 <= k <= N -> limbs_val (ztake k x) = limbs_val x mod 2 ^ (64 * k).
Proof.
  intros W H. rewrite (limbs_split N k x W H). pose proof (words_bound _ _ (words_ztake N k x W H)).
  rewrite Z.mul_comm, Z_mod_plus_full. symmetry. apply Z.mod_small. lia.
Qed.
Lemma limbs_zdrop N k x : words N x -> 0 <= k <= N -> limbs_val (zdrop k x) = limbs_val x / 2 ^ (64 * k).
Proof.
  intros W H. rewrite (limbs_split N k x W H). pose proof (words_bound _ _ (words_ztake N k x W H)).
  rewrite Z.mul_comm, Z.div_add by (pose proof (pow64 k); lia). rewrite Z.div_small; lia.
Qed.

Lemma wf_words N x : wf N x -> words N (p_words x). Proof. now intros [W _]. Qed.
Lemma wf_used N x : wf N x -> 0 <= p_used x <= N. Proof. now intros (_ & U & _). Qed.
Lemma wf_cap N x : wf N x -> pcap x = N. Proof. now intros [[L _] _]. Qed.
Lemma as_words_ok N x : wf N x -> words (p_used x) (as_words x).
Proof. intros (W & U & _). now apply words_ztake with N. Qed.
Lemma val_bound N x : wf N x -> 0 <= val x < 2 ^ (64 * p_used x).
Proof. intros H. apply words_bound. now apply as_words_ok with N. Qed.
Lemma val_words N x : wf N x -> val x = limbs_val (p_words x).
Proof.
  intros (W & U & Z0). rewrite (limbs_split N (p_used x) _ W U), (limbs_zeros _ Z0). unfold val, as_words. lia.
Qed.
Lemma val_boundN N x : wf N x -> 0 <= val x < 2 ^ (64 * N).
Proof. intros H. rewrite (val_words N x H). apply words_bound. apply H. Qed.

Lemma len_of_words N x k : wf N x -> 0 <= k <= N -> words k (ztake k (p_words x)).
Proof. intros (W & _) H. now apply words_ztake with N. Qed.
Lemma len_of_val N x k : wf N x -> 0 <= k <= N -> limbs_val (ztake k (p_words x)) = val x mod 2 ^ (64 * k).
Proof. intros H Hk. rewrite (val_words N x H). apply limbs_ztake with N; [apply H|lia]. Qed.
Lemma len_of_val_small N x k : wf N x -> 0 <= k <= N -> val x < 2 ^ (64 * k) ->
  limbs_val (ztake k (p_words x)) = val x.
Proof. intros H Hk Hv. rewrite (len_of_val N) by assumption. apply Z.mod_small. pose proof (val_bound N x H). lia. Qed.

Lemma pfill_ok N k w : words k w -> k <= N -> wf N (pfill N k w) /\ val (pfill N k w) = limbs_val w /\ p_used (pfill N k w) = k.
Proof.
  intros W Hk. pose proof (words_nonneg _ _ W) as Hk0. destruct W as [L U].
  assert (E : as_words (pfill N k w) = w).
  { unfold as_words, pfill; cbn [p_words p_used]. rewrite ztake_app_le by lia. rewrite ztake_all by lia. reflexivity. }
  split; [|split; [unfold val; now rewrite E|reflexivity]].
  split; [|split].
  - split; cbn [pfill p_words].
    + rewrite zlen_app, zlen_zeros. lia.
    + apply Forall_app. split; [assumption|apply zeros_u64].
  - cbn [pfill p_used]. lia.
  - cbn [pfill p_words p_used]. rewrite zdrop_app_ge by lia. apply Forall_zdrop, zeros_eq.
Qed.
Lemma pfill_wf N k w : words k w -> k <= N -> wf N (pfill N k w). Proof. intros; now apply pfill_ok. Qed.
Lemma pfill_val N k w : words k w -> k <= N -> val (pfill N k w) = limbs_val w. Proof. intros; now apply pfill_ok. Qed.
Lemma pfill_as_words N k w : words k w -> as_words (pfill N k w) = w.
Proof. intros [L _]. unfold as_words, pfill; cbn [p_words p_used]. rewrite ztake_app_le by lia. now rewrite ztake_all by lia. Qed.

Lemma splice0_ok N k x w : wf N x -> words k w -> p_used x <= k -> k <= N ->
  mkPI (splice (p_words x) 0 w) k = pfill N k w.
Proof.
  intros (W & U & Z0) [L F] Hk HN. unfold splice, pfill. rewrite Z.add_0_l. rewrite L.
  change (ztake 0 (p_words x)) with (@nil Z). cbn [app]. f_equal. f_equal.
  assert (Z1 : Forall (eq 0) (zdrop k (p_words x))).
  { pose proof (Forall_zdrop (eq 0) (k - p_used x) _ Z0) as Q. rewrite zdrop_zdrop in Q by lia. replace (p_used x + (k - p_used x)) with k in Q by lia. replace (k - p_used x + p_used x) with k in Q by lia. exact Q. }
  assert (L1 : length (zdrop k (p_words x)) = Z.to_nat (N - k)).
  { destruct W as [LW _]. pose proof (zlen_zdrop k (p_words x) ltac:(lia)). unfold zlen in *. lia. }
  rewrite <- L1. clear - Z1. induction Z1; cbn; congruence.
Qed.

(** *** expand *)
Lemma pexpand_ok N x o : wf N x -> 0 <= p_used o <= N -> val x < 2 ^ (64 * p_used o) ->
  wf N (pexpand x o) /\ val (pexpand x o) = val x.
Proof.
  intros H Ho Hv. pose proof (len_of_val_small N x _ H Ho Hv) as E.
  assert (val (pexpand x o) = val x) as V by (unfold val at 1, as_words, pexpand; cbn; exact E).
  split; [|assumption]. destruct H as (W & U & Z0). split; [exact W|]. split; [exact Ho|].
  cbn [pexpand p_words p_used].
  assert (limbs_val (zdrop (p_used o) (p_words x)) = 0) as Q.
  { rewrite (limbs_zdrop N) by assumption. rewrite <- (val_words N x) by (repeat split; assumption || apply W || lia).
    apply Z.div_small. pose proof (val_bound N x ltac:(repeat split; assumption || apply W || lia)). lia. }
  pose proof (Forall_zdrop u64 (p_used o) _ (proj2 W)) as FU. revert Q FU. generalize (zdrop (p_used o) (p_words x)).
  induction l as [|a l IH]; intros Q FU; [constructor|]. inversion FU as [|? ? Ua FU']; subst. cbn [limbs_val] in Q.
  pose proof (limbs_val_bound l FU'). red in Ua. constructor; [lia|]. apply IH; [lia|assumption].
Qed.

(** *** constants *)
Lemma pzero_ok N : 0 <= N -> wf N (pzero N) /\ val (pzero N) = 0.
Proof.
  intros. split; [|reflexivity]. split; [|split]; cbn [pzero p_words p_used].
  - split; [rewrite zlen_zeros; lia|apply zeros_u64].
  - lia.
  - apply zeros_eq.
Qed.
Lemma pone_ok N : 1 <= N -> wf N (pone N) /\ val (pone N) = 1.
Proof.
  intros. assert (pone N = pfill N 1 [1]) as ->.
  { unfold pone, pfill. replace (Z.to_nat N) with (S (Z.to_nat (N - 1))) by lia. reflexivity. }
  destruct (pfill_ok N 1 [1]) as (W & V & _); [split; [reflexivity|constructor; [red; lia|constructor]]|lia|].
  split; [assumption|]. now rewrite V.
Qed.
Lemma fixed_one_ok N x : wf N x -> 1 <= p_used x -> wf N (fixed_one x) /\ val (fixed_one x) = 1 /\ p_used (fixed_one x) = p_used x.
Proof.
  intros H Hu. pose proof (wf_used N x H). unfold fixed_one. rewrite (wf_cap N x H).
  destruct (pone_ok N ltac:(lia)) as [W V]. destruct (pexpand_ok N (pone N) x) as [W' V']; auto.
  - rewrite V. apply Z.pow_gt_1; lia.
  - split; [assumption|]. split; [congruence|reflexivity].
Qed.

(** *** size and comparison *)
Lemma bitsize_val x : bn_bitsize x = if limbs_val x =? 0 then 0 else Z.log2 (limbs_val x) + 1.
Proof. reflexivity. Qed.
Lemma bitsize_le x k : Forall u64 x -> 0 <= k -> (limbs_val x < 2 ^ k <-> bn_bitsize x <= k).
Proof.
  intros U Hk. pose proof (limbs_val_bound x U) as B. unfold bn_bitsize. destruct (limbs_val x =? 0) eqn:E.
  - split; intros; [lia|]. apply Z.eqb_eq in E. rewrite E. apply Z.pow_pos_nonneg; lia.
  - apply Z.eqb_neq in E. pose proof (Z.log2_lt_pow2 (limbs_val x) k ltac:(lia)). lia.
Qed.
Lemma bitsize_nonneg x : 0 <= bn_bitsize x.
Proof. unfold bn_bitsize. destruct (_ =? _); [lia|]. pose proof (Z.log2_nonneg (limbs_val x)). lia. Qed.
Lemma digitsize_spec x d : Forall u64 x -> 0 <= d -> (limbs_val x < 2 ^ (64 * d) <-> bn_digitsize x <= d).
Proof.
  intros U Hd. rewrite (bitsize_le x (64 * d) U) by lia. unfold bn_digitsize.
  pose proof (bitsize_nonneg x). split; intros.
  - apply Z.lt_succ_r, Z.div_lt_upper_bound; lia.
  - pose proof (Z.mul_succ_div_gt (bn_bitsize x + 63) 64). lia.
Qed.
Lemma digitsize_nonneg x : 0 <= bn_digitsize x.
Proof. unfold bn_digitsize. apply Z.div_pos; [pose proof (bitsize_nonneg x); lia|lia]. Qed.
Lemma digitsize_lt x : Forall u64 x -> limbs_val x < 2 ^ (64 * bn_digitsize x).
Proof. intros. apply digitsize_spec; [assumption|apply digitsize_nonneg|lia]. Qed.

(** a number stored in all N words, with [used] set to its digit size *)
Lemma digits_ok N w : words N w -> wf N (mkPI w (bn_digitsize w)) /\ val (mkPI w (bn_digitsize w)) = limbs_val w.
Proof.
  intros W. pose proof (words_nonneg _ _ W) as HN. destruct (words_bound N w W) as [B0 B1].
  assert (D : bn_digitsize w <= N) by (apply digitsize_spec; [apply W|lia|assumption]).
  pose proof (digitsize_nonneg w) as D0. pose proof (digitsize_lt w (proj2 W)) as D1.
  destruct (pfill_ok N N w W ltac:(lia)) as (WF & V & U).
  destruct (pexpand_ok N (pfill N N w) (mkPI w (bn_digitsize w)) WF) as [WE VE]; cbn [p_used].
  - lia.
  - rewrite V. assumption.
  - assert (E : pexpand (pfill N N w) (mkPI w (bn_digitsize w)) = mkPI w (bn_digitsize w)).
    { unfold pexpand, pfill; cbn [p_words p_used]. rewrite Z.sub_diag. cbn [Z.to_nat repeat]. now rewrite app_nil_r. }
    rewrite E in *. split; [assumption|congruence].
Qed.

Lemma len_bits_val x : len_bits x = if val x =? 0 then 0 else Z.log2 (val x) + 1. Proof. reflexivity. Qed.
Lemma is_zero_val N x : wf N x -> is_zero x = (val x =? 0).
Proof.
  intros H. pose proof (val_bound N x H). unfold is_zero. rewrite len_bits_val. destruct (val x =? 0) eqn:E; [reflexivity|].
  pose proof (Z.log2_nonneg (val x)). lia.
Qed.
Lemma is_even_val N x : wf N x -> 0 < N -> is_even x = Z.even (val x).
Proof.
  intros H HN. rewrite (val_words N x H). unfold is_even, znth. destruct H as ([L _] & _).
  destruct (p_words x) as [|a l]; [exfalso; change (zlen (@nil Z)) with 0 in L; lia|].
  cbn [nth limbs_val]. rewrite Z.even_add, Z.even_mul. change (Z.even (2 ^ 64)) with true. cbn.
  destruct (Z.even a); reflexivity.
Qed.
Lemma is_odd_val N x : wf N x -> 0 < N -> is_odd x = Z.odd (val x).
Proof. intros. unfold is_odd. rewrite (is_even_val N) by assumption. now rewrite Z.negb_even. Qed.
Lemma less_than_val x y : less_than x y = (val x <? val y).
Proof. unfold less_than, bn_cmp_lt, val. destruct (limbs_val _ <? limbs_val _); reflexivity. Qed.
Lemma pequals_val x y : pequals x y = (val x =? val y). Proof. reflexivity. Qed.

(** *** plain arithmetic *)
Lemma padd_ok N x y : wf N x -> wf N y -> val x + val y < 2 ^ (64 * N) ->
  wf N (padd x y) /\ val (padd x y) = val x + val y.
Proof.
  intros Hx Hy Hs. unfold padd, bn_add. cbn [fst]. rewrite (wf_cap N x Hx).
  pose proof (wf_used N x Hx). pose proof (val_bound N x Hx). pose proof (val_bound N y Hy).
  destruct (digits_ok N (to_words (Z.to_nat N) (limbs_val (as_words x) + limbs_val (as_words y)))) as [W V].
  - apply to_words_ok; lia.
  - split; [assumption|]. rewrite V. apply to_words_small; unfold val in *; lia.
Qed.
Lemma psub_ok N x y : wf N x -> wf N y -> val y <= val x ->
  wf N (psub x y) /\ val (psub x y) = val x - val y /\ p_used (psub x y) = p_used x.
Proof.
  intros Hx Hy Hle. pose proof (wf_used N x Hx) as U. pose proof (val_bound N x Hx). pose proof (val_bound N y Hy).
  unfold psub. rewrite (wf_cap N x Hx). unfold bn_optsub. cbn [Z.eqb].
  destruct (pfill_ok N (p_used x) (to_words (Z.to_nat (p_used x)) (limbs_val (as_words x) - limbs_val (as_words_len_of y x)))) as (W & V & E).
  - apply to_words_ok; lia.
  - lia.
  - split; [assumption|]. split; [|assumption]. rewrite V. unfold as_words_len_of.
    rewrite (len_of_val_small N y) by (assumption || lia). apply to_words_small; unfold val in *; lia.
Qed.
Lemma pmul_ok N N2 a b : wf N a -> wf N b -> 2 * N <= N2 ->
  wf N2 (pmul N2 a b) /\ val (pmul N2 a b) = val a * val b /\ p_used (pmul N2 a b) = p_used a + p_used b.
Proof.
  intros Ha Hb HN. pose proof (wf_used N a Ha). pose proof (wf_used N b Hb).
  pose proof (val_bound N a Ha). pose proof (val_bound N b Hb).
  destruct (pfill_ok N2 (p_used a + p_used b) (bn_mul (p_used a + p_used b) (as_words a) (as_words b))) as (W & V & E).
  - apply to_words_ok; lia.
  - lia.
  - split; [assumption|]. split; [|assumption]. unfold pmul. rewrite V. unfold bn_mul.
    apply to_words_small; [lia|]. unfold val in *. rewrite pow64_add by lia. nia.
Qed.
Lemma pwiden_ok N N2 x : wf N x -> N <= N2 ->
  wf N2 (pwiden N2 x) /\ val (pwiden N2 x) = val x /\ p_used (pwiden N2 x) = p_used x.
Proof.
  intros H HN. pose proof (wf_used N x H). apply pfill_ok; [now apply as_words_ok with N|lia].
Qed.
Lemma sub_mod_ok N x y p : wf N x -> wf N y -> wf N p -> val x < val p -> val y < val p ->
  wf N (sub_mod x y p) /\ val (sub_mod x y p) = (val x - val y) mod val p /\ p_used (sub_mod x y p) = p_used p.
Proof.
  intros Hx Hy Hp Lx Ly. pose proof (wf_used N p Hp). pose proof (val_bound N p Hp). pose proof (val_bound N x Hx).
  pose proof (val_bound N y Hy). unfold sub_mod. rewrite (wf_cap N x Hx).
  destruct (pfill_ok N (p_used p) (bn_modsub (p_used p) (as_words_len_of x p) (as_words_len_of y p) (as_words p))) as (W & V & E).
  - apply to_words_ok; lia.
  - lia.
  - split; [assumption|]. split; [|assumption]. rewrite V. unfold bn_modsub, as_words_len_of.
    rewrite !(len_of_val_small N) by (assumption || lia). fold (val p). destruct (Z.ltb_spec (val x) (val y)).
    + rewrite to_words_small by lia. rewrite <- (Z_mod_plus_full (val x - val y) 1). rewrite Z.mod_small; lia.
    + rewrite to_words_small by lia. rewrite Z.mod_small; lia.
Qed.
Lemma shr_ok N k w c : words k w -> k <= N -> 0 <= c < 64 ->
  wf N (pfill N k (bn_shr_small k w c)) /\ val (pfill N k (bn_shr_small k w c)) = limbs_val w / 2 ^ c.
Proof.
  intros W Hk Hc. pose proof (words_nonneg _ _ W). pose proof (words_bound _ _ W).
  destruct (pfill_ok N k (bn_shr_small k w c)) as (WF & V & _); [apply to_words_ok; lia|lia|].
  split; [assumption|]. rewrite V. unfold bn_shr_small. rewrite Z.mod_small by lia. apply to_words_small; [lia|].
  assert (0 < 2 ^ c) by (apply Z.pow_pos_nonneg; lia). split; [apply Z.div_pos; lia|].
  apply Z.le_lt_trans with (limbs_val w); [apply Z.div_le_upper_bound; nia|lia].
Qed.
Lemma shift_right_1_ok N x : wf N x -> wf N (shift_right_1 x) /\ val (shift_right_1 x) = val x / 2 /\ p_used (shift_right_1 x) = p_used x.
Proof.
  intros H. pose proof (wf_used N x H). unfold shift_right_1. rewrite (wf_cap N x H).
  destruct (shr_ok N (p_used x) (as_words x) 1) as [W V]; [now apply as_words_ok with N|lia|lia|].
  split; [assumption|]. split; [exact V|reflexivity].
Qed.
Lemma shift_right_vartime_ok N x s : wf N x -> 0 <= s < 64 * p_used x ->
  wf N (shift_right_vartime x s) /\ val (shift_right_vartime x s) = val x / 2 ^ s /\
  p_used (shift_right_vartime x s) = p_used x - s / 64.
Proof.
  intros H Hs. pose proof (wf_used N x H) as U. unfold shift_right_vartime. cbv zeta. rewrite (wf_cap N x H).
  change 63 with (Z.ones 6). rewrite Z.land_ones by lia. change (2 ^ 6) with 64.
  replace ((s - s mod 64) / 64) with (s / 64)
    by (rewrite (Z.div_mod s 64) at 2 by lia; rewrite Z.add_simpl_r, Z.mul_comm, Z.div_mul; lia).
  assert (0 <= s / 64 < p_used x) by (split; [apply Z.div_pos; lia|apply Z.div_lt_upper_bound; lia]).
  pose proof (Z.mod_pos_bound s 64 ltac:(lia)) as HM.
  destruct (shr_ok N (p_used x - s / 64) (zdrop (s / 64) (as_words x)) (s mod 64)) as [W V].
  - apply words_zdrop; [now apply as_words_ok with N|lia].
  - lia.
  - assumption.
  - split; [assumption|]. split; [|reflexivity]. rewrite V.
    rewrite (limbs_zdrop (p_used x)) by (try apply (as_words_ok N); assumption || lia). fold (val x).
    rewrite Z.div_div by (try apply pow64; try (apply Z.pow_nonzero); try apply Z.pow_pos_nonneg; lia).
    rewrite <- Z.pow_add_r by (try apply Z.mul_nonneg_nonneg; lia). f_equal. f_equal.
    rewrite (Z.div_mod s 64) at 3 by lia. reflexivity.
Qed.
