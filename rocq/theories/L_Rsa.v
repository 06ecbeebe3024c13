(** Lemmas on the RSA operations (M_Rsa.v). *)
Require Import Verif.Base Verif.L_Base Verif.L_Blocks Verif.M_Util Verif.L_Util Verif.M_PosInt Verif.S_Bignum Verif.L_PosInt Verif.L_Mont Verif.L_Fermat.
Require Import Verif.M_Rsa Verif.S_Rsa.
Require Import ZifyNat Znumtheory.

Lemma even_false_odd v : Z.even v = false -> Z.odd v = true. Proof. rewrite <- Z.negb_odd. now destruct (Z.odd v). Qed.
Lemma bit_mask e i : 0 <= i -> (Z.land e (Z.shiftl 1 i) =? Z.shiftl 1 i) = Z.testbit e i.
Proof.
  intros Hi. rewrite Z.shiftl_1_l. assert (E : Z.land e (2 ^ i) = if Z.testbit e i then 2 ^ i else 0).
  { apply Z.bits_inj'. intros j Hj. rewrite Z.land_spec, Z.pow2_bits_eqb by lia.
    destruct (Z.eqb_spec i j) as [<-|n].
    - rewrite andb_true_r. destruct (Z.testbit e i); rewrite ?Z.pow2_bits_eqb, ?Z.bits_0 by lia; [symmetry; apply Z.eqb_refl|reflexivity].
    - rewrite andb_false_r. destruct (Z.testbit e i); rewrite ?Z.pow2_bits_eqb, ?Z.bits_0 by lia; lia. }
  assert (0 < 2 ^ i) by (apply Z.pow_pos_nonneg; lia). rewrite E. destruct (Z.testbit e i); lia.
Qed.
Lemma testbit_step e i : 0 <= i -> e / 2 ^ i = 2 * (e / 2 ^ (i + 1)) + (if Z.testbit e i then 1 else 0).
Proof.
  intros Hi. rewrite Z.testbit_eqb by lia. rewrite Z.pow_add_r by lia. rewrite <- Z.div_div by (try apply Z.pow_pos_nonneg; try apply Z.pow_nonzero; lia).
  change (2 ^ 1) with 2. pose proof (Z.div_mod (e / 2 ^ i) 2 ltac:(lia)). pose proof (Z.mod_pos_bound (e / 2 ^ i) 2 ltac:(lia)).
  destruct (Z.eqb_spec ((e / 2 ^ i) mod 2) 1); lia.
Qed.

Section Pub.
Variable bn : bignum.
Hypothesis OK : bignum_ok bn.
Variables (N : Z) (n : posint) (e : Z).
Hypothesis Wn : wf N n.
Hypothesis On : Z.odd (val n) = true.
Hypothesis He : 0 < e.
Let key := pub_make bn n e.
Let n0 := mont_neg_inverse bn n.
Lemma key_n0 : (val n * n0 + 1) mod 2 ^ 64 = 0. Proof. now apply neg_inverse_ok with N. Qed.

Lemma public_fold c_mont b : mrep N n c_mont b -> forall j s, 0 <= Z.of_nat j ->
  mrep N n (fst s) (b ^ (e / 2 ^ Z.of_nat j)) -> (snd s = true -> e / 2 ^ Z.of_nat j = 0) ->
  mrep N n (fst (fold_left (public_step bn key c_mont) (map Z.of_nat (rev (seq 0 j))) s)) (b ^ e).
Proof.
  intros Hc. induction j as [|j IH]; intros [acc first] _ Hacc Hf; cbn [fst snd] in *.
  - change (2 ^ Z.of_nat 0) with 1 in Hacc. rewrite Z.div_1_r in Hacc. exact Hacc.
  - rewrite seq_S, rev_app_distr. cbn [rev app map plus fold_left]. unfold public_step at 2.
    change (pub_n key) with n. change (pub_n0 key) with n0. change (pub_e key) with e.
    rewrite bit_mask by lia.
    pose proof (testbit_step e (Z.of_nat j) ltac:(lia)) as TS. replace (Z.of_nat j + 1) with (Z.of_nat (S j)) in TS by lia.
    set (E := e / 2 ^ Z.of_nat (S j)) in *. assert (E0 : 0 <= E) by (apply Z.div_pos; [lia|apply Z.pow_pos_nonneg; lia]).
    set (tmp := if first then acc else mont_sqr bn acc n n0).
    assert (HT : mrep N n tmp (b ^ (2 * E))).
    { unfold tmp. destruct first; [rewrite (Hf eq_refl) in *; exact Hacc|].
      apply rep_eq with (b ^ E * b ^ E); [rewrite <- Z.pow_add_r by lia; f_equal; lia|].
      apply rep_sqr; auto using key_n0. }
    apply IH; [lia| |].
    + rewrite TS. destruct (Z.testbit e (Z.of_nat j)); cbn [fst].
      * apply rep_eq with (b ^ (2 * E) * b); [now rewrite Z.pow_add_r, Z.pow_1_r by lia|]. apply rep_mul; auto using key_n0.
      * now rewrite Z.add_0_r.
    + destruct (Z.testbit e (Z.of_nat j)); cbn [snd]; discriminate.
Qed.

Lemma public_op_ok c : wf N c -> val c < val n ->
  exists m, public_op bn key c = Ok m /\ wf N m /\ p_used m = p_used n /\ val m = val c ^ e mod val n.
Proof.
  intros Wc Hc. pose proof (n_pos N n Wn On) as Hn. pose proof (k_pos N n Wn On) as Hk.
  unfold public_op. change (pub_n key) with n. rewrite less_than_val. destruct (Z.ltb_spec (val c) (val n)); [|lia]. cbn [negb].
  change (pub_e key) with e. change (pub_one key) with (mont_mul bn (fixed_one n) (montifier bn n) n n0). change (pub_mf key) with (montifier bn n).
  destruct (Z.eqb_spec e 0); [lia|].
  destruct (pexpand_ok N c n Wc ltac:(lia) ltac:(lia)) as [We Ve].
  pose proof (montifier_ok bn OK N n Wn On) as Hm.
  assert (Hx : mrep N n (to_montgomery bn (pexpand c n) (montifier bn n) n) (val c)).
  { rewrite <- Ve. apply to_montgomery_ok; auto. split; [exact We|rewrite Ve; lia]. }
  pose proof (one_mont_ok bn OK N n Wn On n0 key_n0 _ Hm) as H1.
  pose proof (public_fold _ _ Hx (Z.to_nat (Z.log2 e + 1)) (mont_mul bn (fixed_one n) (montifier bn n) n n0, true)) as F. cbn [fst snd] in F.
  assert (Z0 : e / 2 ^ Z.of_nat (Z.to_nat (Z.log2 e + 1)) = 0).
  { pose proof (Z.log2_nonneg e). rewrite Z2Nat.id by lia. apply Z.div_small. split; [lia|]. replace (Z.log2 e + 1) with (Z.succ (Z.log2 e)) by lia. now apply Z.log2_spec. }
  rewrite Z0 in F. specialize (F ltac:(lia) H1 ltac:(auto)). unfold exponent_bits.
  destruct (fold_left _ _ _) as [acc fl]. cbn [fst] in F. destruct (from_montgomery_ok bn OK N n Wn On acc _ F) as (A & B & C).
  eexists. split; [reflexivity|]. auto.
Qed.
Lemma public_op_range c : val n <= val c -> public_op bn key c = Err OutOfRange.
Proof. intros H. unfold public_op. change (pub_n key) with n. rewrite less_than_val. destruct (Z.ltb_spec (val c) (val n)); [lia|reflexivity]. Qed.
End Pub.

(** *** multiplication by a reduced factor modulo a prime is fully reduced *)
Section Strict.
Variable bn : bignum.
Hypothesis OK : bignum_ok bn.
Variables (N : Z) (n : posint).
Hypothesis Wn : wf N n.
Hypothesis On : Z.odd (val n) = true.
Variable n0 : Z.
Hypothesis N0 : (val n * n0 + 1) mod 2 ^ 64 = 0.
Let k := p_used n.
Let R := 2 ^ (64 * k).

Lemma reduce8_zero product : (8 | k) -> words (2 * k) product -> limbs_val product = 0 -> val (mont_reduce8 bn product n n0) = 0.
Proof.
  intros D8 W P0. pose proof (ok_emontredc bn OK k product (as_words n) n0 D8 W (n_words N n Wn) (n_odd n On) N0) as E.
  unfold mont_reduce8. destruct (bn_emontredc_8n bn product (as_words n) n0) as [z c]. destruct E as (Wz & Hc & Eq).
  fold (val n) in Eq. fold R in Eq. pose proof (k_pos N n Wn On) as Hk. fold k in Hk. pose proof (n_pos N n Wn On) as Hn. fold k in Hn. fold R in Hn.
  assert (zlen z / 2 = k) as ->. { destruct Wz as [-> _]. rewrite Z.mul_comm, Z.div_mul; lia. }
  pose proof (words_ztake _ k z Wz ltac:(lia)) as Wlo. pose proof (words_zdrop _ k z Wz ltac:(lia)) as Whi.
  replace (2 * k - k) with k in Whi by lia. pose proof (words_bound _ _ Wlo) as Blo. pose proof (words_bound _ _ Whi) as Bhi. fold R in Blo, Bhi.
  set (q := limbs_val (ztake k z)) in *. set (hi := limbs_val (zdrop k z)) in *. rewrite P0, Z.add_0_l in Eq.
  assert (q = 0) as Q0.
  { apply small_dvd with R; [lia|]. apply Gauss with (val n); [exists (c * R + hi); lia|].
    apply rel_prime_sym. apply (R_coprime N n Wn On). }
  rewrite Q0, Z.mul_0_l in Eq. assert (c = 0 /\ hi = 0) as [-> H0] by nia.
  cbv zeta. rewrite (wf_cap N n Wn). fold k. unfold bn_cmp_lt, bn_optsub. fold hi. rewrite H0. fold (val n).
  destruct (Z.ltb_spec (val n) 0); [lia|]. change (Z.lor 0 0 =? 0) with true. cbn iota. rewrite Z.sub_0_r.
  destruct (pfill_ok N k _ (to_words_ok k 0 ltac:(lia)) ltac:(lia)) as (_ & -> & _). apply to_words_small; lia.
Qed.

Lemma mont_mul_lt x y : prime (val n) -> wf N x -> wf N y -> val x < val n -> val y < val n -> val (mont_mul bn x y n n0) < val n.
Proof.
  intros P Wx Wy Bx By. pose proof (n_pos N n Wn On) as Hn. pose proof (val_nonneg N x Wx). pose proof (val_nonneg N y Wy).
  destruct (mont_mul_ok bn OK N n Wn On n0 N0 x y Wx Wy ltac:(lia) ltac:(lia)) as (A & B & C & D).
  destruct (Z.eq_dec (val (mont_mul bn x y n n0)) (val n)) as [E|]; [exfalso|lia].
  rewrite E in D. assert (Dxy : (val n | val x * val y)).
  { destruct D as [j D]. exists (2 ^ (64 * p_used n) - j). lia. }
  assert (Z0 : val x * val y = 0).
  { apply prime_mult in Dxy as [Dx|Dx]; auto; apply small_dvd in Dx; try lia; nia. }
  enough (val (mont_mul bn x y n n0) = 0) by lia. pose proof (k_pos N n Wn On) as Hk.
  unfold mont_mul. destruct ((p_used x =? 16) && (p_used y =? 16) && (p_used n =? 16)) eqn:E1;
    [|destruct ((p_used x =? 32) && (p_used y =? 32) && (p_used n =? 32)) eqn:E2].
  - assert (p_used x = k /\ p_used y = k /\ k = 16) as (Ux & Uy & K) by (unfold k; lia).
    destruct (mul_words n On k (as_words x) (as_words y)) as [W V]; [rewrite <- Ux; now apply as_words_ok with N|rewrite <- Uy; now apply as_words_ok with N|].
    replace 32 with (2 * k) by lia. apply reduce8_zero; auto; [exists 2; lia|]. rewrite V. exact Z0.
  - assert (p_used x = k /\ p_used y = k /\ k = 32) as (Ux & Uy & K) by (unfold k; lia).
    destruct (mul_words n On k (as_words x) (as_words y)) as [W V]; [rewrite <- Ux; now apply as_words_ok with N|rewrite <- Uy; now apply as_words_ok with N|].
    replace 64 with (2 * k) by lia. apply reduce8_zero; auto; [exists 4; lia|]. rewrite V. exact Z0.
  - exfalso. destruct (operand_words N n Wn On x) as [W1 V1]; [split; auto; lia|]. destruct (operand_words N n Wn On y) as [W2 V2]; [split; auto; lia|].
    destruct (ok_montmul bn OK k _ _ (as_words n) W1 W2 (n_words N n Wn) (n_odd n On)) as (Wz & Lz & Cz).
    { rewrite V1, V2, Z0. fold (val n). unfold k. clear - Hn. nia. }
    unfold mont_mul in E. rewrite E1, E2 in E. rewrite (wf_cap N x Wx) in E. fold k in E.
    destruct (pfill_ok N k _ Wz ltac:(lia)) as (_ & V & _). rewrite V in E. fold (val n) in Lz. lia.
Qed.
End Strict.

Lemma to_montgomery_lt bn N n x mf : bignum_ok bn -> wf N n -> Z.odd (val n) = true -> operand N n x -> is_montifier N n mf ->
  val (to_montgomery bn x mf n) < val n.
Proof.
  intros OK Wn On Ox (Wm & Bm & Cm). pose proof (n_pos N n Wn On). pose proof (k_pos N n Wn On). pose proof (val_nonneg N mf Wm).
  destruct (operand_words N n Wn On x Ox) as [W1 V1]. destruct (operand_words N n Wn On mf) as [W2 V2]; [split; auto; lia|].
  destruct Ox as [Wx Bx]. pose proof (val_nonneg N x Wx).
  destruct (ok_montmul bn OK _ _ _ (as_words n) W1 W2 (n_words N n Wn) (n_odd n On)) as (Wz & Lz & Cz); [rewrite V1, V2; fold (val n); nia|].
  unfold to_montgomery. rewrite (wf_cap N x Wx). destruct (pfill_ok N _ _ Wz ltac:(lia)) as (A & B & C). rewrite B. exact Lz.
Qed.
