(** Lemmas on the parts of RSA key generation: reduce_even, trailing zeros, one Miller-Rabin base. *)
Require Import Verif.Base Verif.L_Base Verif.L_Blocks Verif.M_Util Verif.L_Util Verif.T_Util Verif.M_PosInt Verif.S_Bignum
  Verif.L_PosInt Verif.L_Mont Verif.L_Fermat Verif.M_Rsa Verif.L_Rsa Verif.M_RsaGen Verif.S_Prime Verif.L_Invert.
Require Import ZifyNat Znumtheory.

Section ReduceEven.
Variable bn : bignum.
Hypothesis BN : bignum_ok bn.
Variables (M : Z) (m : posint).
Hypotheses (Wm : wf M m) (M1 : 1 < val m).
Let k := p_used m.

Lemma re_k : 1 <= k <= M.
Proof.
  pose proof (wf_used M m Wm). pose proof (val_bound M m Wm) as B. destruct (Z.eq_dec k 0) as [E|]; [|unfold k in *; lia].
  unfold k in E. rewrite E in B. change (2 ^ (64 * 0)) with 1 in B. lia.
Qed.
Definition re_ok (r : posint) (v : Z) : Prop := wf M r /\ p_used r = k /\ val r = v mod val m.
Lemma addend_ok bit : 0 <= bit <= 1 ->
  let a := mkPI (upd (repeat 0 (Z.to_nat M)) 0 bit) k in words k (as_words a) /\ limbs_val (as_words a) = bit.
Proof.
  intros Hb. pose proof re_k. cbv zeta.
  assert (E : mkPI (upd (repeat 0 (Z.to_nat M)) 0 bit) k = pfill M k (bit :: repeat 0 (Z.to_nat (k - 1)))).
  { unfold pfill. replace (Z.to_nat M) with (S (Z.to_nat (k - 1) + Z.to_nat (M - k))) by lia. cbn [repeat upd app].
    now rewrite repeat_app. }
  assert (W : words k (bit :: repeat 0 (Z.to_nat (k - 1)))).
  { split; [rewrite zlen_cons, zlen_zeros; lia|]. constructor; [red; lia|apply zeros_u64]. }
  rewrite E, pfill_as_words by exact W. split; [exact W|]. cbn [limbs_val]. rewrite (limbs_zeros _ (zeros_eq _)). lia.
Qed.
Lemma re_bit r v bit : re_ok r v -> 0 <= bit <= 1 ->
  re_ok (reduce_even_bit bn m (mkPI (repeat 0 (Z.to_nat M)) k) r bit) (2 * v + bit).
Proof.
  intros (Wr & Ur & Vr) Hb. pose proof re_k. pose proof (Z.mod_pos_bound v (val m) ltac:(lia)) as Bv.
  unfold reduce_even_bit. cbv zeta. cbn [p_words p_used]. rewrite Ur.
  assert (WR : words k (as_words r)) by (rewrite <- Ur; now apply as_words_ok with M).
  assert (WM : words k (as_words m)) by now apply as_words_ok with M.
  destruct (ok_modadd bn BN k (as_words r) (as_words r) (as_words m) WR WR WM) as [W1 V1];
    [fold (val r) (val m); lia|fold (val r) (val m); lia|]. fold (val r) (val m) in V1.
  rewrite (splice0_ok M k r _ Wr W1) by lia. rewrite pfill_as_words by exact W1.
  destruct (addend_ok bit Hb) as [W2 V2]. cbv zeta in W2, V2.
  destruct (ok_modadd bn BN k (bn_modadd bn (as_words r) (as_words r) (as_words m)) _ (as_words m) W1 W2 WM) as [W3 V3].
  - rewrite V1. fold (val m). apply Z.mod_pos_bound. lia.
  - rewrite V2. fold (val m). lia.
  - rewrite (splice0_ok M k r _ Wr W3) by lia. destruct (pfill_ok M k _ W3 ltac:(lia)) as (W4 & V4 & U4).
    split; [exact W4|]. split; [exact U4|]. rewrite V4, V3, V1, V2, Vr. fold (val m).
    rewrite Zplus_mod_idemp_l. rewrite <- (Zplus_mod_idemp_l (v mod val m + v mod val m)).
    rewrite <- Zplus_mod. rewrite Zplus_mod_idemp_l. f_equal. lia.
Qed.
Lemma re_fold l : Forall (fun c => 0 <= c <= 1) l -> forall r v, re_ok r v ->
  re_ok (fold_left (reduce_even_bit bn m (mkPI (repeat 0 (Z.to_nat M)) k)) l r) (fold_left (fun a b => 2 * a + b) l v).
Proof.
  induction 1 as [|b l Hb F IH]; intros r v H; [exact H|]. cbn [fold_left]. apply IH. now apply re_bit.
Qed.
Lemma fold_bits l a : fold_left (fun a b => 2 * a + b) l a = a * 2 ^ zlen l + bitsval l.
Proof.
  unfold bitsval. revert a. induction l as [|b l IH]; intros a; cbn [fold_left]; [change (zlen (@nil Z)) with 0; rewrite Z.pow_0_r; lia|].
  rewrite IH, (IH (2 * 0 + b)), zlen_cons. rewrite Z.pow_add_r by (pose proof (zlen_nonneg l); lia). ring.
Qed.

(** reduce_even computes x mod m for a full-width m and an x of at least as many words less one *)
Lemma reduce_even_ok N x : wf N x -> M < N -> k - 1 <= p_used x -> 2 ^ (64 * (k - 1)) <= val m ->
  exists r, reduce_even bn x m = Ok r /\ wf M r /\ p_used r = k /\ val r = val x mod val m.
Proof.
  intros Wx HN Hu Hm. pose proof re_k. pose proof (wf_used N x Wx). unfold reduce_even.
  rewrite (wf_cap M m Wm), (wf_cap N x Wx). destruct (Z.ltb_spec M N); [|lia]. cbn [negb]. cbv zeta. cbn [p_used p_words].
  fold k. rewrite (Z.max_r 0 (k - 1)) by lia. rewrite (Z.max_r 0 (p_used x - (k - 1))) by lia. set (i := p_used x - (k - 1)).
  pose proof (as_words_ok N x Wx) as WX.
  assert (WS : words (k - 1) (zdrop i (as_words x))).
  { replace (k - 1) with (p_used x - i) by (unfold i; lia). apply words_zdrop; [exact WX|unfold i; lia]. }
  rewrite (proj1 WS), Z.eqb_refl. cbn [negb].
  assert (WZ : wf M (mkPI (repeat 0 (Z.to_nat M)) k)).
  { split; [|split]; cbn [p_words p_used]; [split; [rewrite zlen_zeros; lia|apply zeros_u64]|lia|apply Forall_zdrop, zeros_eq]. }
  assert (R0 : re_ok (mkPI (splice (repeat 0 (Z.to_nat M)) 0 (zdrop i (as_words x))) k) (limbs_val (zdrop i (as_words x)))).
  { pose proof (words_bound _ _ WS) as BS.
    assert (Z0 : wf M (mkPI (repeat 0 (Z.to_nat M)) 0)).
    { split; [|split]; cbn [p_words p_used]; [split; [rewrite zlen_zeros; lia|apply zeros_u64]|lia|apply Forall_zdrop, zeros_eq]. }
    pose proof (splice0_ok M (k - 1) (mkPI (repeat 0 (Z.to_nat M)) 0) _ Z0 WS ltac:(cbn [p_used]; lia) ltac:(lia)) as E. cbn [p_words] in E.
    destruct (pfill_ok M (k - 1) _ WS ltac:(lia)) as (WF & VF & UF).
    destruct (pexpand_ok M _ m WF ltac:(fold k; lia)) as [WE VE].
    { rewrite VF. fold k. pose proof (pow64_le (k - 1) k ltac:(lia)). lia. }
    assert (EQ : mkPI (splice (repeat 0 (Z.to_nat M)) 0 (zdrop i (as_words x))) k = pexpand (pfill M (k - 1) (zdrop i (as_words x))) m).
    { unfold pexpand. rewrite <- E. reflexivity. }
    rewrite EQ. split; [exact WE|]. split; [reflexivity|]. rewrite VE, VF. symmetry. apply Z.mod_small. lia. }
  assert (WT : words i (ztake i (p_words x))) by (apply len_of_words with N; [exact Wx|unfold i; lia]).
  destruct (bits_msb_val (pone 1) eq_refl 0 _ (proj2 WT)) as (V & ZL & F).
  pose proof (re_fold _ F _ _ R0) as (A & B & C). eexists. split; [reflexivity|]. split; [exact A|]. split; [exact B|].
  rewrite C, fold_bits, V, ZL, (proj1 WT). f_equal.
  assert (ET : ztake i (p_words x) = ztake i (as_words x)).
  { unfold as_words. rewrite L_Blocks.ztake_ztake by (unfold i; lia). reflexivity. }
  rewrite ET. unfold val. rewrite (limbs_split (p_used x) i (as_words x) WX) by (unfold i; lia). ring.
Qed.
End ReduceEven.

(** *** trailing zeros *)
Lemma pos_ctz_spec p : 0 <= pos_ctz p /\ exists o, Z.odd o = true /\ 0 < o /\ Zpos p = 2 ^ pos_ctz p * o.
Proof.
  induction p as [p IH|p IH|]; cbn [pos_ctz].
  - split; [lia|]. exists (Zpos p~1). split; [reflexivity|]. split; [lia|]. rewrite Z.pow_0_r. lia.
  - destruct IH as (H & o & O & P & E). split; [lia|]. exists o. split; [exact O|]. split; [exact P|].
    rewrite Z.pow_add_r by lia. change (2 ^ 1) with 2. rewrite Pos2Z.inj_xO, E. ring.
  - split; [lia|]. exists 1. split; [reflexivity|]. split; [lia|]. reflexivity.
Qed.
Lemma pctz_spec x : 0 < val x -> 0 <= pctz x /\ exists o, Z.odd o = true /\ 0 < o /\ val x = 2 ^ pctz x * o.
Proof.
  unfold pctz, bn_ctz. fold (val x). intros H. destruct (val x) as [|p|p]; try lia. apply pos_ctz_spec.
Qed.
Lemma odd_unique a b m n : 0 <= a -> 0 <= b -> Z.odd m = true -> Z.odd n = true -> 2 ^ a * m = 2 ^ b * n -> a = b /\ m = n.
Proof.
  assert (L : forall a b m n, 0 <= a < b -> Z.odd m = true -> 2 ^ a * m = 2 ^ b * n -> False).
  { clear. intros a b m n H O E. replace b with (a + (1 + (b - a - 1))) in E by lia. rewrite !Z.pow_add_r in E by lia.
    change (2 ^ 1) with 2 in E. assert (E' : m = 2 * (2 ^ (b - a - 1) * n)) by (apply Z.mul_reg_l with (2 ^ a); [apply Z.pow_nonzero; lia|lia]).
    rewrite E', Z.odd_mul in O. discriminate. }
  intros Ha Hb Om On E. destruct (Z.lt_trichotomy a b) as [H|[->|H]].
  - exfalso. eapply (L a b m n); eauto.
  - split; [reflexivity|]. apply Z.mul_reg_l with (2 ^ b); [apply Z.pow_nonzero; lia|exact E].
  - exfalso. eapply (L b a n m); eauto.
Qed.

(** *** one base *)
Section Base1.
Variable bn : bignum.
Hypothesis BN : bignum_ok bn.
Variable w : posint.
Hypotheses (Ww : wf 64 w) (Ow : Z.odd (val w) = true) (W3 : 3 < val w).
Notation n := (val w).

Lemma mrep_eq z o v u : mrep 64 w z v -> mrep 64 w o u -> ~ (n | u) -> pequals z o = true <-> cong n v u.
Proof.
  intros (Wz & Uz & Bz & Cz) (Wo & Uo & Bo & Co) Hu. rewrite pequals_val, Z.eqb_eq. pose proof (R_coprime 64 w Ww Ow) as RC.
  split.
  - intros E. rewrite E in Cz. apply cong_cancel with (2 ^ (64 * p_used w)); [exact RC|]. apply cong_trans with (val o); [now apply cong_sym|exact Co].
  - intros C. assert (Co0 : ~ (n | val o)).
    { intros D. apply Hu. unfold cong in Co. assert (D2 : (n | u * 2 ^ (64 * p_used w))) by (replace (u * 2 ^ (64 * p_used w)) with (val o - (val o - u * 2 ^ (64 * p_used w))) by ring; now apply Z.divide_sub_r).
      apply Gauss with (2 ^ (64 * p_used w)); [rewrite Z.mul_comm; exact D2|exact RC]. }
    assert (CC : cong n (val z) (val o)).
    { apply cong_trans with (1 := Cz). apply cong_trans with (u * 2 ^ (64 * p_used w)); [apply cong_mul; [exact C|apply cong_refl]|now apply cong_sym]. }
    pose proof (val_bound 64 z Wz). pose proof (val_bound 64 o Wo).
    assert (0 < val o < n).
    { split; [destruct (Z.eq_dec (val o) 0) as [E|]; [exfalso; apply Co0; rewrite E; exists 0; lia|lia]|].
      destruct (Z.eq_dec (val o) n) as [E|]; [exfalso; apply Co0; rewrite E; apply Z.divide_refl|lia]. }
    destruct CC as [q Q]. assert (q = 0 \/ q <> 0) as [->|] by lia; [lia|]. exfalso. clear - Q H1 H Bz H2.
    assert (q = 1 \/ q <= -1 \/ 2 <= q) as [->|[Hq|Hq]] by lia; nia.
Qed.
Lemma not_dvd u : 0 < u < n -> ~ (n | u).
Proof. intros H D. apply Z.divide_pos_le in D; lia. Qed.
Lemma cong_one v : cong n v 1 <-> v mod n = 1.
Proof.
  split; intros H; [apply cong_eq in H; [|lia]; rewrite (Z.mod_small 1) in H by lia; exact H|].
  apply mod_cong; [lia|]. rewrite (Z.mod_small 1) by lia. exact H.
Qed.
Lemma cong_m1 v : cong n v (n - 1) <-> v mod n = n - 1.
Proof.
  split; intros H; [apply cong_eq in H; [|lia]; rewrite (Z.mod_small (n - 1)) in H by lia; exact H|].
  apply mod_cong; [lia|]. rewrite (Z.mod_small (n - 1)) by lia. exact H.
Qed.

Variable mr : mr_params.
Hypothesis HM : mr_new bn w = Ok mr.

Lemma mr_fields : exists o, 0 < mr_a mr /\ Z.odd o = true /\ 0 < o /\ n - 1 = 2 ^ mr_a mr * o /\
  mr_w mr = w /\ mr_w0 mr = mont_neg_inverse bn w /\ mr_mf mr = montifier bn w /\
  wf 64 (mr_w1 mr) /\ val (mr_w1 mr) = n - 1 /\
  wf 64 (mr_m mr) /\ val (mr_m mr) = o /\ 1 <= p_used (mr_m mr) /\
  mrep 64 w (mr_mont_w1 mr) (n - 1) /\ mrep 64 w (mr_mont_one mr) 1.
Proof.
  pose proof HM as H. unfold mr_new in H. change (pword MAX_PRIVATE_MODULUS_WORDS 1) with (Ok (pone 64)) in H. cbn [bind] in H. cbv zeta in H.
  injection H as H. rewrite <- H. cbn [mr_w mr_w1 mr_a mr_m mr_w0 mr_mf mr_mont_w1 mr_mont_one]. clear H.
  destruct (pone_ok 64 ltac:(lia)) as [W1 V1]. destruct (psub_ok 64 w (pone 64) Ww W1 ltac:(lia)) as (Wp & Vp & Up).
  rewrite V1 in Vp. destruct (pctz_spec (psub w (pone 64)) ltac:(lia)) as (A0 & o & Oo & Po & E). rewrite Vp in E.
  set (a := pctz (psub w (pone 64))) in *.
  assert (A1 : 0 < a).
  { destruct (Z.eq_dec a 0) as [Z0|]; [|lia]. exfalso. rewrite Z0, Z.pow_0_r, Z.mul_1_l in E. rewrite <- E, Z.odd_sub, Ow in Oo. discriminate. }
  pose proof (val_bound 64 _ Wp) as BW. rewrite Vp, Up in BW.
  assert (AU : 0 <= a < 64 * p_used (psub w (pone 64))).
  { split; [lia|]. rewrite Up. apply (Z.pow_lt_mono_r_iff 2); [lia|pose proof (wf_used 64 w Ww); lia|].
    apply Z.le_lt_trans with (n - 1); [|lia]. rewrite E. rewrite <- (Z.mul_1_r (2 ^ a)) at 1. apply Z.mul_le_mono_nonneg_l; [apply Z.pow_nonneg; lia|lia]. }
  destruct (shift_right_vartime_ok 64 _ a Wp AU) as (Ws & Vs & Us).
  assert (VO : val (shift_right_vartime (psub w (pone 64)) a) = o).
  { rewrite Vs, Vp, E, Z.mul_comm, Z.div_mul; [reflexivity|apply Z.pow_nonzero; lia]. }
  pose proof (montifier_ok bn BN 64 w Ww Ow) as MF.
  exists o. split; [exact A1|]. split; [exact Oo|]. split; [exact Po|]. split; [exact E|]. split; [reflexivity|]. split; [reflexivity|].
  split; [reflexivity|]. split; [exact Wp|]. split; [exact Vp|]. split; [exact Ws|]. split; [exact VO|].
  split.
  { pose proof (val_bound 64 _ Ws) as B. pose proof (wf_used 64 _ Ws). destruct (Z.eq_dec (p_used (shift_right_vartime (psub w (pone 64)) a)) 0) as [Z0|]; [|lia].
    rewrite Z0 in B. change (2 ^ (64 * 0)) with 1 in B. lia. }
  split.
  - rewrite <- Vp. apply to_montgomery_ok; [exact BN|exact Ww|exact Ow|split; [exact Wp|lia]|exact MF].
  - apply one_mont_ok; try assumption. now apply neg_inverse_ok with 64.
Qed.

Lemma mr_squares_ok k : forall z v, mrep 64 w z v ->
  mr_squares bn mr k z = PossiblyPrime <-> exists i, 1 <= i <= Z.of_nat k /\ cong n (v ^ (2 ^ i)) (n - 1).
Proof.
  destruct mr_fields as (o & A & Oo & Po & E & Ew & E0 & Emf & Ww1 & Vw1 & Wm & Vm & Um & R1 & Rone).
  assert (N0 : (val w * mr_w0 mr + 1) mod 2 ^ 64 = 0) by (rewrite E0; now apply neg_inverse_ok with 64).
  induction k as [|k IH]; intros z v Rz; cbn [mr_squares].
  { split; [discriminate|]. intros (i & Hi & _). lia. }
  cbv zeta. rewrite Ew. pose proof (rep_sqr bn BN 64 w Ww Ow (mr_w0 mr) N0 z v Rz) as Rs.
  set (z' := mont_sqr bn z w (mr_w0 mr)) in *.
  pose proof (mrep_eq z' _ _ _ Rs R1 (not_dvd (n - 1) ltac:(lia))) as Q1.
  pose proof (mrep_eq z' _ _ _ Rs Rone (not_dvd 1 ltac:(lia))) as Q2.
  assert (SQ : forall i, 0 <= i -> v ^ (2 ^ (i + 1)) = (v * v) ^ (2 ^ i)).
  { intros i Hi. rewrite Z.pow_add_r by lia. rewrite (Z.mul_comm (2 ^ i)), Z.pow_mul_r by (try apply Z.pow_nonneg; lia). f_equal. apply Z.pow_2_r. }
  destruct (pequals z' (mr_mont_w1 mr)).
  { split; [|reflexivity]. intros _. exists 1. split; [lia|]. change (2 ^ 1) with 2. rewrite Z.pow_2_r. apply Q1. reflexivity. }
  destruct (pequals z' (mr_mont_one mr)).
  { split; [discriminate|]. intros (i & Hi & C). exfalso. assert (C1 : cong n (v ^ (2 ^ i)) 1).
    { replace i with (i - 1 + 1) by lia. rewrite SQ by lia. apply cong_trans with (1 ^ (2 ^ (i - 1))); [apply cong_pow, Q2; reflexivity|].
      rewrite Z.pow_1_l by (apply Z.pow_nonneg; lia). apply cong_refl. }
    apply cong_m1 in C. apply cong_one in C1. lia. }
  rewrite IH with (1 := Rs). split; intros (i & Hi & C).
  - exists (i + 1). split; [lia|]. rewrite SQ by lia. exact C.
  - destruct (Z.eq_dec i 1) as [->|].
    + exfalso. change (2 ^ 1) with 2 in C. rewrite Z.pow_2_r in C. apply Q1 in C. discriminate.
    + exists (i - 1). split; [lia|]. rewrite <- SQ by lia. replace (i - 1 + 1) with i by lia. exact C.
Qed.
Lemma mr_squares_dec k z : mr_squares bn mr k z = PossiblyPrime \/ mr_squares bn mr k z = Composite.
Proof.
  revert z; induction k as [|k IH]; intros z; cbn [mr_squares]; [now right|]. cbv zeta.
  destruct (pequals _ _); [now left|]. destruct (pequals _ _); [now right|]. apply IH.
Qed.

Theorem check_base_ok b : wf 64 b -> exists r, check_base bn mr b = Ok r /\
  match r with
  | UnsuitableBase => val b <= 1 \/ n - 1 <= val b
  | PossiblyPrime => 1 < val b < n - 1 /\ strong_probable_prime n (val b)
  | Composite => 1 < val b < n - 1 /\ ~ strong_probable_prime n (val b)
  end.
Proof.
  destruct mr_fields as (o & A & Oo & Po & E & Ew & E0 & Emf & Ww1 & Vw1 & Wm & Vm & Um & R1 & Rone). intros Wb.
  assert (N0 : (val w * mr_w0 mr + 1) mod 2 ^ 64 = 0) by (rewrite E0; now apply neg_inverse_ok with 64).
  pose proof (val_bound 64 b Wb) as Bb.
  unfold check_base. rewrite less_than_val, Vw1, len_bits_val.
  assert (LB : (if val b =? 0 then 0 else Z.log2 (val b) + 1) <=? 1 = (val b <=? 1)).
  { destruct (Z.eqb_spec (val b) 0); [destruct (Z.leb_spec (val b) 1); lia|].
    destruct (Z.leb_spec (val b) 1).
    - replace (val b) with 1 by lia. reflexivity.
    - assert (1 <= Z.log2 (val b)) by (change 1 with (Z.log2 2); apply Z.log2_le_mono; lia). lia. }
  rewrite LB. destruct (Z.leb_spec (val b) 1) as [L1|L1]; [eexists; split; [reflexivity|]; now left|].
  destruct (Z.ltb_spec (val b) (n - 1)) as [L2|L2]; [|eexists; split; [reflexivity|]; right; lia]. cbn [negb orb].
  rewrite Ew, Emf. pose proof (montifier_ok bn BN 64 w Ww Ow) as MF.
  assert (OP : operand 64 w b) by (split; [exact Wb|pose proof (n_pos 64 w Ww Ow); lia]).
  pose proof (to_montgomery_ok bn BN 64 w Ww Ow b _ OP MF) as Rb.
  destruct (mont_exp_ok bn BN 64 w Ww Ow (mr_w0 mr) N0 _ _ _ Rb Rone 64 (mr_m mr) Wm Um) as (z & -> & Rz). cbn [bind]. rewrite Vm in Rz.
  pose proof (mrep_eq z _ _ _ Rz Rone (not_dvd 1 ltac:(lia))) as Q2. rewrite cong_one in Q2.
  pose proof (mrep_eq z _ _ _ Rz R1 (not_dvd (n - 1) ltac:(lia))) as Q1. rewrite cong_m1 in Q1.
  assert (P0 : val b ^ (2 ^ 0 * o) = val b ^ o) by (rewrite Z.pow_0_r, Z.mul_1_l; reflexivity).
  destruct (pequals z (mr_mont_one mr)); cbn [orb].
  { eexists. split; [reflexivity|]. split; [lia|]. exists (mr_a mr), o. split; [exact A|]. split; [exact E|]. split; [exact Oo|]. left. now apply Q2. }
  destruct (pequals z (mr_mont_w1 mr)).
  { eexists. split; [reflexivity|]. split; [lia|]. exists (mr_a mr), o. split; [exact A|]. split; [exact E|]. split; [exact Oo|]. right. exists 0. split; [lia|]. rewrite P0. now apply Q1. }
  pose proof (mr_squares_ok (Z.to_nat (mr_a mr - 1)) z _ Rz) as SQ. rewrite Z2Nat.id in SQ by lia.
  assert (PW : forall i, 0 <= i -> val b ^ (2 ^ i * o) = (val b ^ o) ^ (2 ^ i)).
  { intros i Hi. rewrite Z.mul_comm, Z.pow_mul_r; [reflexivity|lia|apply Z.pow_nonneg; lia]. }
  eexists. split; [reflexivity|]. destruct (mr_squares_dec (Z.to_nat (mr_a mr - 1)) z) as [D|D]; rewrite D; (split; [lia|]).
  - apply SQ in D. destruct D as (i & Hi & C). exists (mr_a mr), o. split; [exact A|]. split; [exact E|]. split; [exact Oo|]. right. exists i. split; [lia|].
    rewrite PW by lia. apply cong_m1. exact C.
  - intros (a' & m' & A' & E' & O' & HH). destruct (odd_unique a' (mr_a mr) m' o) as [-> ->]; try lia; try assumption.
    destruct HH as [HH|(j & Hj & HH)]; [apply Q2 in HH; discriminate|].
    destruct (Z.eq_dec j 0) as [->|]; [rewrite P0 in HH; apply Q1 in HH; discriminate|].
    assert (X : mr_squares bn mr (Z.to_nat (mr_a mr - 1)) z = PossiblyPrime); [|rewrite X in D; discriminate].
    apply SQ. exists j. split; [lia|]. apply cong_m1. rewrite <- PW by lia. exact HH.
Qed.
End Base1.

(** a prime is a strong probable prime to every base *)
Lemma sqrt_one p x : prime p -> cong p (x * x) 1 -> cong p x 1 \/ cong p x (p - 1).
Proof.
  intros P C. unfold cong in *. replace (x * x - 1) with ((x - 1) * (x + 1)) in C by ring.
  destruct (prime_mult p P _ _ C) as [D|D]; [now left|]. right. replace (x - (p - 1)) with (x + 1 - p) by ring.
  apply Z.divide_sub_r; [exact D|apply Z.divide_refl].
Qed.
Theorem prime_strong w b : prime w -> 2 < w -> 0 < b < w -> strong_probable_prime w b.
Proof.
  intros P W2 Hb. assert (Ow : Z.odd w = true).
  { destruct (Z.odd w) eqn:E; [reflexivity|]. exfalso. rewrite <- Z.negb_even in E. apply Bool.negb_false_iff in E. apply even_split in E.
    destruct E as [k E]. assert (2 = w) by (apply prime_div_prime; [apply prime_2|exact P|exists k; lia]). lia. }
  destruct (w - 1) as [|u|u] eqn:EU; try lia. destruct (pos_ctz_spec u) as (A0 & o & Oo & Po & E). rewrite <- EU in E.
  set (a := pos_ctz u) in *. assert (A1 : 0 < a).
  { destruct (Z.eq_dec a 0) as [Z0|]; [|lia]. exfalso. rewrite Z0, Z.pow_0_r, Z.mul_1_l in E. rewrite <- E, Z.odd_sub, Ow in Oo. discriminate. }
  exists a, o. split; [exact A1|]. split; [exact E|]. split; [exact Oo|].
  assert (ND : ~ (w | b)) by (intros D; apply Z.divide_pos_le in D; lia).
  pose proof (fermat w b P ND) as F. rewrite E in F.
  assert (EX : forall k, 0 <= k -> k <= a -> cong w (b ^ (2 ^ k * o)) 1 ->
     cong w (b ^ o) 1 \/ exists j, 0 <= j < k /\ cong w (b ^ (2 ^ j * o)) (w - 1)).
  { apply (natlike_ind (fun k => k <= a -> cong w (b ^ (2 ^ k * o)) 1 -> cong w (b ^ o) 1 \/ exists j, 0 <= j < k /\ cong w (b ^ (2 ^ j * o)) (w - 1))).
    - intros _ C. rewrite Z.pow_0_r, Z.mul_1_l in C. now left.
    - intros k Hk IH Ha C. rewrite Z.pow_succ_r in C by lia. replace (2 * 2 ^ k * o) with (2 ^ k * o + 2 ^ k * o) in C by ring.
      assert (0 <= 2 ^ k * o) by (apply Z.mul_nonneg_nonneg; [apply Z.pow_nonneg; lia|lia]).
      rewrite Z.pow_add_r in C by assumption. apply sqrt_one in C; [|exact P]. destruct C as [C|C].
      + destruct (IH ltac:(lia) C) as [H1|(j & Hj & H1)]; [now left|]. right. exists j. split; [lia|exact H1].
      + right. exists k. split; [lia|exact C]. }
  destruct (EX a ltac:(lia) ltac:(lia) F) as [C|(j & Hj & C)]; [left|right; exists j; split; [lia|]].
  - apply cong_eq in C; [|lia]. rewrite (Z.mod_small 1) in C by lia. exact C.
  - apply cong_eq in C; [|lia]. rewrite (Z.mod_small (w - 1)) in C by lia. exact C.
Qed.
