(** invert_vartime, add_mod, reduce_even and mod_inverse of PosInt (posint.rs) compute what they should. *)
Require Import Verif.Base Verif.L_Base Verif.L_Blocks Verif.M_Util Verif.L_Util Verif.T_Util Verif.M_PosInt Verif.S_Bignum
  Verif.L_PosInt.
Require Import ZifyNat Znumtheory.

Lemma bn_shr_words k w c : 0 <= k -> words k (bn_shr_small k w c).
Proof. intros. now apply to_words_ok. Qed.
Lemma lor0 a : Z.lor a (Z.shiftl 0 63 mod 2 ^ 64) = a.
Proof. change (Z.shiftl 0 63 mod 2 ^ 64) with 0. apply Z.lor_0_r. Qed.
Lemma upd_same_nth (l : list Z) (i : nat) : (i < length l)%nat -> upd l i (znth l i) = l.
Proof.
  revert i; induction l; intros [|i] H; cbn in *; try lia; [reflexivity|].
  f_equal. unfold znth in IHl. apply IHl. lia.
Qed.
(** posint.rs:763-776: exact as long as the sum fits the array *)
Lemma add_shift_right_1_ok N x y : wf N x -> wf N y -> 0 < val x + val y < 2 ^ (64 * N) ->
  exists r, add_shift_right_1 x y = Ok r /\ wf N r /\ val r = (val x + val y) / 2.
Proof.
  intros Hx Hy [Hp Hs]. pose proof (wf_used N x Hx). pose proof (val_bound N x Hx) as Bx. pose proof (val_bound N y Hy) as By.
  unfold add_shift_right_1, bn_add. rewrite (wf_cap N x Hx). fold (val x) (val y).
  rewrite Z.div_small by lia. set (w := to_words (Z.to_nat N) (val x + val y)).
  assert (W : words N w) by (apply to_words_ok; lia).
  assert (V : limbs_val w = val x + val y) by (apply to_words_small; lia).
  destruct (digits_ok N w W) as [WF VW]. pose proof (wf_used _ _ WF) as HU. cbn [p_used] in HU.
  assert (D : bn_digitsize w <> 0).
  { intros E. pose proof (digitsize_lt w (proj2 W)) as Q. rewrite E in Q. change (2 ^ (64 * 0)) with 1 in Q. lia. }
  rewrite (proj2 (Z.eqb_neq _ _) D). rewrite lor0.
  rewrite upd_same_nth by (pose proof (bn_shr_words N (ztake (bn_digitsize w) w) 1 ltac:(lia)) as [L _]; unfold zlen in L; lia).
  change (ztake (bn_digitsize w) w) with (as_words (mkPI w (bn_digitsize w))).
  assert (VS : limbs_val (bn_shr_small N (as_words (mkPI w (bn_digitsize w))) 1) = (val x + val y) / 2).
  { unfold bn_shr_small. change (1 mod 64) with 1. change (2 ^ 1) with 2. fold (val (mkPI w (bn_digitsize w))). rewrite VW, V.
    apply to_words_small; [lia|]. split; [apply Z.div_pos; lia|]. apply Z.div_lt_upper_bound; lia. }
  eexists. split; [reflexivity|].
  destruct (pfill_ok N N (bn_shr_small N (as_words (mkPI w (bn_digitsize w))) 1)) as (WP & VP & UP);
    [apply bn_shr_words; lia|lia|].
  destruct (pexpand_ok N _ (mkPI w (bn_digitsize w)) WP) as [WE VE]; [exact HU| |].
  - rewrite VP, VS. cbn [p_used]. pose proof (digitsize_lt w (proj2 W)). rewrite V in H0.
    apply Z.le_lt_trans with (val x + val y); [apply Z.div_le_upper_bound; lia|assumption].
  - unfold pexpand, pfill in WE, VE. cbn [p_words p_used] in WE, VE. rewrite Z.sub_diag in WE, VE.
    cbn [Z.to_nat repeat] in WE, VE. rewrite app_nil_r in WE, VE. split; [exact WE|].
    rewrite VE. unfold pfill in VP. cbn in VP. rewrite Z.sub_diag in VP. cbn [Z.to_nat repeat] in VP. rewrite app_nil_r in VP.
    rewrite VP. exact VS.
Qed.

Section Bn.
Variable bn : bignum.
Hypothesis BN : bignum_ok bn.

Lemma add_mod_ok N x b m : wf N x -> wf N b -> wf N m -> val x < val m -> val b < val m ->
  wf N (add_mod bn x b m) /\ val (add_mod bn x b m) = (val x + val b) mod val m.
Proof.
  intros Hx Hb Hm Lx Lb. pose proof (wf_used N m Hm) as U. pose proof (val_bound N m Hm).
  destruct (ok_modadd bn BN (p_used m) (as_words_len_of x m) (as_words_len_of b m) (as_words m)) as [W V].
  - apply len_of_words with N; assumption.
  - apply len_of_words with N; assumption.
  - apply as_words_ok with N; assumption.
  - unfold as_words_len_of. rewrite (len_of_val_small N x) by (assumption || lia). exact Lx.
  - unfold as_words_len_of. rewrite (len_of_val_small N b) by (assumption || lia). exact Lb.
  - assert (Ex : limbs_val (as_words_len_of x m) = val x) by (apply (len_of_val_small N); assumption || lia).
    assert (Eb : limbs_val (as_words_len_of b m) = val b) by (apply (len_of_val_small N); assumption || lia).
    rewrite Ex, Eb in V. unfold add_mod. cbv zeta. rewrite (wf_cap N x Hx).
    destruct (pfill_ok N (p_used m) _ W ltac:(lia)) as (WF & VF & _).
    destruct (digits_ok N (p_words (pfill N (p_used m) (bn_modadd bn (as_words_len_of x m) (as_words_len_of b m) (as_words m)))))
      as [WD VD]; [apply WF|]. split; [exact WD|]. rewrite VD, <- (val_words N) by exact WF. rewrite VF. exact V.
Qed.

Lemma mod_inverse_ok N x n : wf N x -> wf N n -> Z.odd (val n) = true -> 1 < val n -> val x < val n ->
  Z.gcd (val x) (val n) = 1 ->
  wf N (mod_inverse bn x n) /\ val (mod_inverse bn x n) < val n /\ (val x * val (mod_inverse bn x n)) mod val n = 1 /\
  p_used (mod_inverse bn x n) = p_used n.
Proof.
  intros Hx Hn Ho H1 Hlt Hg. pose proof (wf_used N n Hn) as U. pose proof (val_bound N n Hn).
  pose proof (len_of_val_small N x (p_used n) Hx U ltac:(lia)) as E.
  destruct (ok_modinv bn BN (p_used n) (as_words_len_of x n) (as_words n)) as (W & V & M).
  - apply len_of_words with N; assumption.
  - apply as_words_ok with N; assumption.
  - exact Ho.
  - exact H1.
  - unfold as_words_len_of. rewrite E. exact Hg.
  - unfold mod_inverse. rewrite (wf_cap N x Hx). destruct (pfill_ok N (p_used n) _ W ltac:(lia)) as (WF & VF & UF).
    rewrite VF. assert (Ex : limbs_val (as_words_len_of x n) = val x) by exact E. rewrite Ex in M. auto.
Qed.

(** *** invert_vartime *)
Definition bits (z : Z) : Z := if z =? 0 then 0 else Z.log2 z + 1.
Lemma bits_nonneg z : 0 <= bits z. Proof. unfold bits. pose proof (Z.log2_nonneg z). destruct (_ =? _); lia. Qed.
Lemma bits_pos z : 0 < z -> 0 < bits z. Proof. intros. unfold bits. pose proof (Z.log2_nonneg z). destruct (Z.eqb_spec z 0); lia. Qed.
Lemma bits_mono a b : 0 <= a <= b -> bits a <= bits b.
Proof.
  intros. unfold bits. pose proof (Z.log2_le_mono a b). pose proof (Z.log2_nonneg b).
  destruct (Z.eqb_spec a 0), (Z.eqb_spec b 0); lia.
Qed.
Lemma bits_half z : 0 < z -> bits (z / 2) = bits z - 1.
Proof.
  intros H. unfold bits. destruct (Z.eqb_spec z 0); [lia|]. destruct (Z.eqb_spec (z / 2) 0) as [E|E].
  - assert (z = 1) as -> by (Z.div_mod_to_equations; lia). reflexivity.
  - assert (2 <= z) by (Z.div_mod_to_equations; lia).
    rewrite <- Z.div2_div, Z.div2_spec, Z.log2_shiftr by lia. assert (1 <= Z.log2 z) by (change 1 with (Z.log2 2); apply Z.log2_le_mono; lia). lia.
Qed.

Lemma even_split z : Z.even z = true -> exists k, z = 2 * k.
Proof. intros H. apply Z.even_spec in H. exact H. Qed.
Lemma odd_split z : Z.odd z = true -> exists k, z = 2 * k + 1.
Proof. intros H. apply Z.odd_spec in H. exact H. Qed.

Record inv (N : Z) (x y : posint) (s : inv_st) : Prop := mkI {
  w_u : wf N (iu s); w_v : wf N (iv s); w_a : wf N (ia s); w_b : wf N (ib s); w_c : wf N (ic s); w_d : wf N (id s);
  i_u : val (ia s) * val x - val (ib s) * val y = val (iu s);
  i_v : val (id s) * val y - val (ic s) * val x = val (iv s);
  b_a : val (ia s) < val y; b_b : val (ib s) < val x; b_c : val (ic s) < val y; b_d : val (id s) < val x;
  b_u : 0 < val (iu s) <= val x; b_v : 0 <= val (iv s);
  i_ph : (val (ia s) = 1 /\ val (ib s) = 0) \/ val (iv s) < val x;
  i_g : Z.gcd (val (iu s)) (val (iv s)) = Z.gcd (val x) (val y) }.

Section Inv.
Variables (N : Z) (x y : posint).
Hypotheses (HN : 0 < N) (Wx : wf N x) (Wy : wf N y) (Ox : Z.odd (val x) = true) (X1 : 1 < val x) (XY : val x < val y)
  (Y2 : 2 * val y <= 2 ^ (64 * N)).

Lemma gcd_odd s : inv N x y s -> Z.odd (val (iu s)) = true \/ Z.odd (val (iv s)) = true.
Proof.
  intros I. destruct (Z.odd (val (iu s))) eqn:Eu; [now left|]. destruct (Z.odd (val (iv s))) eqn:Ev; [now right|].
  exfalso. rewrite <- Z.negb_even in Eu, Ev. apply Bool.negb_false_iff in Eu, Ev.
  apply even_split in Eu, Ev. destruct Eu as [k Ek], Ev as [l El].
  assert ((2 | Z.gcd (val x) (val y))) as D.
  { rewrite <- (i_g _ _ _ _ I). apply Z.gcd_greatest; [exists k; lia|exists l; lia]. }
  assert ((2 | val x)) as [m E] by (eapply Z.divide_trans; [exact D|apply Z.gcd_divide_l]).
  apply odd_split in Ox. destruct Ox. lia.
Qed.

Lemma gcd_sub a b : Z.gcd (a - b) b = Z.gcd a b.
Proof. rewrite Z.gcd_comm, Z.gcd_sub_diag_r. apply Z.gcd_comm. Qed.

Lemma mod_wrap a m : 0 <= a < 2 * m -> (a < m /\ a mod m = a) \/ (m <= a /\ a mod m = a - m).
Proof.
  intros. destruct (Z.lt_ge_cases a m); [left|right]; split; try lia; [now apply Z.mod_small|].
  symmetry. apply Zmod_unique with 1; lia.
Qed.

Lemma wrap_u S T X Y W S' T' : S * X - T * Y = W -> 0 < W <= X -> X < Y ->
  (S < Y /\ S' = S) \/ (Y <= S /\ S' = S - Y) -> (T < X /\ T' = T) \/ (X <= T /\ T' = T - X) ->
  S' * X - T' * Y = W.
Proof.
  intros E HW HX [[H1 ->]|[H1 ->]] [[H2 ->]|[H2 ->]]; try lia; exfalso.
  - assert (S * X <= (Y - 1) * X) by (apply Z.mul_le_mono_nonneg_r; lia).
    assert (X * Y <= T * Y) by (apply Z.mul_le_mono_nonneg_r; lia). lia.
  - assert (Y * X <= S * X) by (apply Z.mul_le_mono_nonneg_r; lia).
    assert (T * Y <= (X - 1) * Y) by (apply Z.mul_le_mono_nonneg_r; lia). lia.
Qed.
Lemma wrap_v S T X Y W S' T' : T * Y - S * X = W -> 0 <= W < X -> X < Y ->
  (S < Y /\ S' = S) \/ (Y <= S /\ S' = S - Y) -> (T < X /\ T' = T) \/ (X <= T /\ T' = T - X) ->
  T' * Y - S' * X = W.
Proof.
  intros E HW HX [[H1 ->]|[H1 ->]] [[H2 ->]|[H2 ->]]; try lia; exfalso.
  - assert (S * X <= (Y - 1) * X) by (apply Z.mul_le_mono_nonneg_r; lia).
    assert (X * Y <= T * Y) by (apply Z.mul_le_mono_nonneg_r; lia). lia.
  - assert (Y * X <= S * X) by (apply Z.mul_le_mono_nonneg_r; lia).
    assert (T * Y <= (X - 1) * Y) by (apply Z.mul_le_mono_nonneg_r; lia). lia.
Qed.
Lemma wrap_v1 S T X Y W S' T' : T * Y - S * X = W -> 0 <= W -> 0 < X < Y -> T < X ->
  (S < Y /\ S' = S) \/ (Y <= S /\ S' = S - Y) -> (T < X /\ T' = T) \/ (X <= T /\ T' = T - X) ->
  T' * Y - S' * X = W.
Proof.
  intros E HW HX HT [[H1 ->]|[H1 ->]] [[H2 ->]|[H2 ->]]; try lia; exfalso.
  assert (Y * X <= S * X) by (apply Z.mul_le_mono_nonneg_r; lia).
  assert (T * Y <= (X - 1) * Y) by (apply Z.mul_le_mono_nonneg_r; lia). lia.
Qed.
Lemma val0 z : wf N z -> 0 <= val z. Proof. intros W. apply (val_bound N z W). Qed.

Lemma inv_sub_ok s : inv N x y s -> 0 < val (iv s) ->
  inv N x y (inv_sub bn x y s) /\
  val (iu (inv_sub bn x y s)) <= val (iu s) /\ val (iv (inv_sub bn x y s)) <= val (iv s) /\
  (Z.even (val (iu (inv_sub bn x y s))) = true \/ Z.even (val (iv (inv_sub bn x y s))) = true).
Proof.
  intros I Hv. pose proof (gcd_odd s I) as HO. destruct I as [wu wv wa wb wc wd eu ev ba bb bc bd bu bv ph g]. unfold inv_sub.
  rewrite !(is_odd_val N) by assumption.
  destruct (Z.odd (val (iu s)) && Z.odd (val (iv s))) eqn:EO.
  2:{ split; [constructor; assumption|]. split; [lia|]. split; [lia|]. rewrite <- !Z.negb_odd.
      destruct (Z.odd (val (iu s))), (Z.odd (val (iv s))); cbn in *; auto; destruct HO; discriminate. }
  apply andb_prop in EO. destruct EO as [Ou Ov].
  assert (P : Z.even (val (iu s) - val (iv s)) = true).
  { rewrite Z.even_sub, <- !Z.negb_odd, Ou, Ov. reflexivity. }
  pose proof (val0 _ wa). pose proof (val0 _ wb). pose proof (val0 _ wc). pose proof (val0 _ wd). clear Y2.
  rewrite less_than_val. destruct (Z.ltb_spec (val (iv s)) (val (iu s))) as [L|L].
  - destruct (psub_ok N (iu s) (iv s) wu wv ltac:(lia)) as (W1 & V1 & _).
    destruct (add_mod_ok N (ia s) (ic s) y wa wc Wy ba bc) as [W2 V2].
    destruct (add_mod_ok N (ib s) (id s) x wb wd Wx bb bd) as [W3 V3].
    cbn [iu iv ia ib ic id]. split; [|rewrite V1; split; [lia|split; [lia|left; exact P]]].
    pose proof (mod_wrap (val (ia s) + val (ic s)) (val y) ltac:(lia)) as MA.
    pose proof (mod_wrap (val (ib s) + val (id s)) (val x) ltac:(lia)) as MB.
    assert (K : (val (ia s) + val (ic s)) * val x - (val (ib s) + val (id s)) * val y = val (iu s) - val (iv s)) by (rewrite <- eu, <- ev; ring).
    constructor; cbn [iu iv ia ib ic id]; try assumption; rewrite ?V1, ?V2, ?V3; try lia.
    + apply (wrap_u _ _ _ _ _ _ _ K); [lia|lia|exact MA|exact MB].
    + rewrite gcd_sub. exact g.
  - destruct (psub_ok N (iv s) (iu s) wv wu ltac:(lia)) as (W1 & V1 & _).
    destruct (add_mod_ok N (ic s) (ia s) y wc wa Wy bc ba) as [W2 V2].
    destruct (add_mod_ok N (id s) (ib s) x wd wb Wx bd bb) as [W3 V3].
    cbn [iu iv ia ib ic id]. split.
    2:{ rewrite V1. split; [lia|split; [lia|right]]. rewrite Z.even_sub, <- !Z.negb_odd, Ou, Ov. reflexivity. }
    pose proof (mod_wrap (val (ic s) + val (ia s)) (val y) ltac:(lia)) as MC.
    pose proof (mod_wrap (val (id s) + val (ib s)) (val x) ltac:(lia)) as MD.
    assert (K : (val (id s) + val (ib s)) * val y - (val (ic s) + val (ia s)) * val x = val (iv s) - val (iu s)) by (rewrite <- eu, <- ev; ring).
    constructor; cbn [iu iv ia ib ic id]; try assumption; rewrite ?V1, ?V2, ?V3; try lia.
    + destruct ph as [[A1 B0]|Hph].
      * apply (wrap_v1 _ _ _ _ _ _ _ K); [lia|lia|lia|exact MC|exact MD].
      * apply (wrap_v _ _ _ _ _ _ _ K); [lia|lia|exact MC|exact MD].
    + rewrite Z.gcd_comm, gcd_sub, Z.gcd_comm. exact g.
Qed.

Lemma gcd_half_l a b : 0 <= a -> Z.even a = true -> Z.odd b = true -> Z.gcd (a / 2) b = Z.gcd a b.
Proof.
  intros Ha Ea Ob. apply even_split in Ea. destruct Ea as [k ->]. rewrite (Z.mul_comm 2 k), Z.div_mul by lia.
  rewrite Z.mul_comm. symmetry. rewrite Z.gcd_comm, (Z.gcd_comm k b).
  assert (R : rel_prime b 2).
  { apply rel_prime_sym, prime_rel_prime; [apply prime_2|]. intros [m E]. apply odd_split in Ob. destruct Ob. lia. }
  apply Z.gcd_unique; try apply Z.gcd_nonneg.
  - apply Z.gcd_divide_l.
  - apply Z.divide_mul_r, Z.gcd_divide_r.
  - intros q Hb Hk. apply Z.gcd_greatest; [exact Hb|].
    apply Gauss with 2; [exact Hk|]. exact (rel_prime_div b 2 q R Hb).
Qed.

(** halving a coefficient pair: exact, and the same multiple of x and y is taken away *)
Lemma halve_pair_ok a b u : wf N a -> wf N b -> val a < val y -> val b < val x ->
  val a * val x - val b * val y = u -> Z.even u = true ->
  exists a' b', inv_halve_pair x y a b = Ok (a', b') /\ wf N a' /\ wf N b' /\ val a' < val y /\ val b' < val x /\
    val a' * val x - val b' * val y = u / 2.
Proof.
  intros Wa Wb La Lb E Eu. pose proof (val0 _ Wa). pose proof (val0 _ Wb).
  unfold inv_halve_pair. rewrite !(is_odd_val N) by assumption.
  assert (U2 : u = 2 * (u / 2)). { apply even_split in Eu. destruct Eu as [k ->]. rewrite (Z.mul_comm 2 k), Z.div_mul; lia. }
  destruct (Z.odd (val a) || Z.odd (val b)) eqn:EO.
  - destruct (add_shift_right_1_ok N a y Wa Wy ltac:(lia)) as (a' & Ea & Wa' & Va).
    destruct (add_shift_right_1_ok N b x Wb Wx ltac:(lia)) as (b' & Eb & Wb' & Vb).
    rewrite Ea. cbn [bind]. rewrite Eb. cbn [bind]. exists a', b'. split; [reflexivity|]. split; [exact Wa'|]. split; [exact Wb'|].
    assert (PA : Z.even (val a + val y) = true /\ Z.even (val b + val x) = true).
    { clear - E Eu Ox EO. rewrite <- E in Eu. rewrite Z.even_sub, !Z.even_mul in Eu. rewrite !Z.even_add.
      rewrite <- !Z.negb_odd in *. rewrite Ox in *. destruct (Z.odd (val a)), (Z.odd (val b)), (Z.odd (val y)); cbn in *; auto; discriminate. }
    destruct PA as [PA PB]. apply even_split in PA, PB. destruct PA as [k Ek], PB as [l El].
    rewrite Va, Vb, Ek, El. rewrite (Z.mul_comm 2 k), (Z.mul_comm 2 l), !Z.div_mul by lia.
    split; [lia|]. split; [lia|]. apply Z.mul_reg_l with 2; [lia|]. rewrite <- U2, <- E. clear - Ek El. lia.
  - apply Bool.orb_false_iff in EO. destruct EO as [Oa Ob]. rewrite <- Z.negb_even in Oa, Ob. apply Bool.negb_false_iff in Oa, Ob.
    destruct (shift_right_1_ok N a Wa) as (Wa' & Va & _). destruct (shift_right_1_ok N b Wb) as (Wb' & Vb & _).
    do 2 eexists. split; [reflexivity|]. split; [exact Wa'|]. split; [exact Wb'|]. rewrite Va, Vb.
    apply even_split in Oa, Ob. destruct Oa as [k Ek], Ob as [l El].
    rewrite Ek, El in *. rewrite (Z.mul_comm 2 k), (Z.mul_comm 2 l), !Z.div_mul by lia. split; [lia|]. split; [lia|]. apply Z.mul_reg_l with 2; [lia|]. rewrite <- U2, <- E. clear - Ek El. lia.
Qed.

Lemma inv_halve_ok s : inv N x y s -> (Z.even (val (iu s)) = true \/ Z.even (val (iv s)) = true) ->
  exists s', inv_halve x y s = Ok s' /\ inv N x y s' /\
   ((val (iu s') = val (iu s) / 2 /\ val (iv s') = val (iv s)) \/ (val (iu s') = val (iu s) /\ val (iv s') = val (iv s) / 2)).
Proof.
  intros I HE. pose proof (gcd_odd s I) as HO. destruct I as [wu wv wa wb wc wd eu ev ba bb bc bd bu bv ph g]. unfold inv_halve.
  rewrite !(is_even_val N) by assumption.
  destruct (Z.even (val (iu s))) eqn:Eu.
  - destruct HO as [HO|HO]; [rewrite <- Z.negb_even, Eu in HO; discriminate|].
    destruct (halve_pair_ok (ia s) (ib s) _ wa wb ba bb eu Eu) as (a' & b' & E & Wa & Wb & La & Lb & Q).
    rewrite E. cbn [bind]. eexists. split; [reflexivity|]. destruct (shift_right_1_ok N _ wu) as (W1 & V1 & _).
    split; [|left; cbn [iu iv]; split; [exact V1|reflexivity]].
    pose proof (even_split _ Eu) as [k Ek].
    constructor; cbn [iu iv ia ib ic id]; try assumption; rewrite ?V1; try assumption.
    + rewrite Ek, (Z.mul_comm 2 k), Z.div_mul; lia.
    + right. destruct ph as [[A1 B0]|]; [|assumption]. exfalso. rewrite A1, B0 in eu. assert (EU : val (iu s) = val x) by lia. rewrite EU, <- Z.negb_odd, Ox in Eu. discriminate.
    + rewrite gcd_half_l; [exact g|lia|exact Eu|exact HO].
  - destruct HE as [HE|Ev]; [discriminate|]. rewrite Ev.
    assert (HU : Z.odd (val (iu s)) = true) by (rewrite <- Z.negb_even, Eu; reflexivity).
    assert (ev' : val (ic s) * val x - val (id s) * val y = - val (iv s)) by lia.
    destruct (halve_pair_ok (ic s) (id s) _ wc wd bc bd ev') as (c' & d' & E & Wc & Wd & Lc & Ld & Q).
    { rewrite Z.even_opp. exact Ev. }
    rewrite E. cbn [bind]. eexists. split; [reflexivity|]. destruct (shift_right_1_ok N _ wv) as (W1 & V1 & _).
    split; [|right; cbn [iu iv]; split; [reflexivity|exact V1]].
    pose proof (even_split _ Ev) as [k Ek].
    assert (K : val (iv s) / 2 = k) by (rewrite Ek, (Z.mul_comm 2 k), Z.div_mul; lia).
    assert (K' : - val (iv s) / 2 = - k) by (rewrite Ek; replace (- (2 * k)) with ((- k) * 2) by lia; rewrite Z.div_mul; lia).
    constructor; cbn [iu iv ia ib ic id]; try assumption; rewrite ?V1, ?K; try assumption; try lia.
    + rewrite Z.gcd_comm, <- K, gcd_half_l; [rewrite Z.gcd_comm; exact g|lia|exact Ev|exact HU].
Qed.

Definition inv_result (r : option posint) : Prop :=
  match r with
  | Some d => wf N d /\ val d < val y /\ (val d * val x) mod val y = 1
  | None => Z.gcd (val x) (val y) <> 1
  end.

Lemma inv_loop_ok fuel s : inv N x y s -> 0 < val (iv s) -> bits (val (iu s)) + bits (val (iv s)) <= Z.of_nat fuel ->
  exists r, inv_loop bn fuel x y s = Ok r /\ inv_result r.
Proof.
  revert s; induction fuel as [|f IH]; intros s I Hv HF.
  { pose proof (bits_pos _ Hv). pose proof (bits_nonneg (val (iu s))). lia. }
  cbn [inv_loop]. destruct (inv_sub_ok s I Hv) as (I1 & Lu & Lv & PE).
  destruct (inv_halve_ok _ I1 PE) as (s' & -> & I2 & HV). cbn [bind].
  rewrite (is_zero_val N) by apply I2. destruct (Z.eqb_spec (val (iv s')) 0) as [E0|E0].
  - eexists. split; [reflexivity|]. pose proof (i_g _ _ _ _ I2) as G. rewrite E0, Z.gcd_0_r, Z.abs_eq in G by (pose proof (b_u _ _ _ _ I2); lia).
    pose proof (b_u _ _ _ _ I2). rewrite len_bits_val. destruct (Z.eqb_spec (val (iu s')) 0); [lia|].
    destruct (Z.eqb_spec (Z.log2 (val (iu s')) + 1) 1) as [E|E].
    + assert (val (iu s') = 1) as E1. { pose proof (Z.log2_spec (val (iu s')) ltac:(lia)) as LS. replace (Z.log2 (val (iu s'))) with 0 in LS by lia. change (2 ^ 0) with 1 in LS. change (2 ^ Z.succ 0) with 2 in LS. lia. }
      cbn. split; [apply I2|]. split; [apply I2|]. pose proof (i_u _ _ _ _ I2) as Q. rewrite E1 in Q.
      symmetry. apply Zmod_unique with (val (ib s')); [lia|]. lia.
    + cbn. intros Q. rewrite Q in G. rewrite G in E. apply E. reflexivity.
  - apply IH; [exact I2|pose proof (b_v _ _ _ _ I2); lia|].
    pose proof (b_u _ _ _ _ I1). pose proof (b_v _ _ _ _ I1).
    pose proof (bits_mono (val (iu (inv_sub bn x y s))) (val (iu s)) ltac:(lia)).
    pose proof (bits_mono (val (iv (inv_sub bn x y s))) (val (iv s)) ltac:(lia)).
    destruct HV as [[-> ->]|[-> E]].
    + rewrite bits_half by lia. lia.
    + rewrite E in *. assert (0 < val (iv (inv_sub bn x y s))) by (Z.div_mod_to_equations; lia). rewrite bits_half by lia. lia.
Qed.

Theorem invert_ok : exists r, invert_vartime bn x y = Ok r /\ inv_result r.
Proof.
  unfold invert_vartime. cbv zeta. rewrite !(is_zero_val N), !(is_even_val N), (wf_cap N x) by assumption.
  rewrite (proj2 (Z.eqb_neq (val x) 0)), (proj2 (Z.eqb_neq (val y) 0)) by lia. rewrite <- (Z.negb_odd (val x)), Ox. cbn [negb orb andb].
  assert (UX : 1 <= p_used x). { pose proof (val_bound N x Wx). pose proof (wf_used N x Wx). destruct (Z.eq_dec (p_used x) 0) as [E|]; [|lia]. rewrite E in *. change (2 ^ (64 * 0)) with 1 in *. lia. }
  assert (UY : 1 <= p_used y). { pose proof (val_bound N y Wy). pose proof (wf_used N y Wy). destruct (Z.eq_dec (p_used y) 0) as [E|]; [|lia]. rewrite E in *. change (2 ^ (64 * 0)) with 1 in *. lia. }
  pose proof (wf_used N x Wx). pose proof (wf_used N y Wy).
  destruct (pone_ok N ltac:(lia)) as [W1 V1]. destruct (pzero_ok N ltac:(lia)) as [W0 V0].
  assert (P1 : forall z, 1 <= p_used z -> 1 < 2 ^ (64 * p_used z)) by (intros; apply Z.pow_gt_1; lia).
  destruct (pexpand_ok N (pone N) y W1 ltac:(lia)) as [Wa Va]; [rewrite V1; auto|].
  destruct (pexpand_ok N (pone N) x W1 ltac:(lia)) as [Wd Vd]; [rewrite V1; auto|].
  destruct (pexpand_ok N (pzero N) y W0 ltac:(lia)) as [Wc Vc]; [rewrite V0; pose proof (P1 y UY); lia|].
  destruct (pexpand_ok N (pzero N) x W0 ltac:(lia)) as [Wb Vb]; [rewrite V0; pose proof (P1 x UX); lia|].
  apply inv_loop_ok.
  - constructor; cbn [iu iv ia ib ic id]; try assumption; rewrite ?Va, ?Vb, ?Vc, ?Vd, ?V1, ?V0; try lia.
  - cbn [iv]. lia.
  - cbn [iu iv]. rewrite !len_bits_val. unfold bits. rewrite (proj2 (Z.eqb_neq (val x) 0)), (proj2 (Z.eqb_neq (val y) 0)) by lia.
    pose proof (Z.log2_nonneg (val x)). pose proof (Z.log2_nonneg (val y)). lia.
Qed.
End Inv.

(** Whether there is an inverse is decided correctly for every modulus, also one that fills its array: the variables
    u and v do not depend on the coefficients. *)
Record uv (N : Z) (x y : posint) (s : inv_st) : Prop := mkUV {
  uv_u : wf N (iu s); uv_v : wf N (iv s); uv_pos : 0 < val (iu s); uv_v0 : 0 <= val (iv s);
  uv_g : Z.gcd (val (iu s)) (val (iv s)) = Z.gcd (val x) (val y) }.
Section Gcd.
Variables (N : Z) (x y : posint).
Hypotheses (HN : 0 < N) (Ox : Z.odd (val x) = true).
Lemma uv_odd s : uv N x y s -> Z.odd (val (iu s)) = true \/ Z.odd (val (iv s)) = true.
Proof.
  intros I. destruct (Z.odd (val (iu s))) eqn:Eu; [now left|]. destruct (Z.odd (val (iv s))) eqn:Ev; [now right|].
  exfalso. rewrite <- Z.negb_even in Eu, Ev. apply Bool.negb_false_iff in Eu, Ev.
  apply even_split in Eu, Ev. destruct Eu as [k Ek], Ev as [l El].
  assert ((2 | Z.gcd (val x) (val y))) as D.
  { rewrite <- (uv_g _ _ _ _ I). apply Z.gcd_greatest; [exists k; lia|exists l; lia]. }
  assert ((2 | val x)) as [m E] by (eapply Z.divide_trans; [exact D|apply Z.gcd_divide_l]).
  apply odd_split in Ox. destruct Ox. lia.
Qed.
Lemma uv_sub s : uv N x y s -> uv N x y (inv_sub bn x y s).
Proof.
  intros I. destruct I as [wu wv pu pv g]. unfold inv_sub. destruct (_ && _); [|constructor; assumption].
  rewrite less_than_val. destruct (Z.ltb_spec (val (iv s)) (val (iu s))) as [L|L].
  - destruct (psub_ok N (iu s) (iv s) wu wv ltac:(lia)) as (W1 & V1 & _).
    constructor; cbn [iu iv]; try assumption; rewrite ?V1; try lia. rewrite gcd_sub. exact g.
  - destruct (psub_ok N (iv s) (iu s) wv wu ltac:(lia)) as (W1 & V1 & _).
    constructor; cbn [iu iv]; try assumption; rewrite ?V1; try lia. rewrite Z.gcd_comm, gcd_sub, Z.gcd_comm. exact g.
Qed.
Lemma uv_halve s s' : uv N x y s -> inv_halve x y s = Ok s' -> uv N x y s'.
Proof.
  intros I. pose proof (uv_odd s I) as HO. destruct I as [wu wv pu pv g]. unfold inv_halve.
  rewrite !(is_even_val N) by assumption. destruct (Z.even (val (iu s))) eqn:Eu.
  - destruct HO as [HO|HO]; [rewrite <- Z.negb_even, Eu in HO; discriminate|].
    destruct (inv_halve_pair x y (ia s) (ib s)) as [[a b]| |]; try discriminate. cbn [bind]. intros E. injection E as <-.
    destruct (shift_right_1_ok N _ wu) as (W1 & V1 & _). pose proof (even_split _ Eu) as [k Ek].
    constructor; cbn [iu iv]; try assumption; rewrite ?V1.
    + rewrite Ek, (Z.mul_comm 2 k), Z.div_mul; lia.
    + rewrite (gcd_half_l N x Ox); [exact g|lia|exact Eu|exact HO].
  - destruct (Z.even (val (iv s))) eqn:Ev; [|discriminate].
    destruct (inv_halve_pair x y (ic s) (id s)) as [[a b]| |]; try discriminate. cbn [bind]. intros E. injection E as <-.
    assert (HU : Z.odd (val (iu s)) = true) by (rewrite <- Z.negb_even, Eu; reflexivity).
    destruct (shift_right_1_ok N _ wv) as (W1 & V1 & _). pose proof (even_split _ Ev) as [k Ek].
    constructor; cbn [iu iv]; try assumption; rewrite ?V1.
    + apply Z.div_pos; lia.
    + rewrite Z.gcd_comm, (gcd_half_l N x Ox); [rewrite Z.gcd_comm; exact g|lia|exact Ev|exact HU].
Qed.
Lemma uv_loop fuel : forall s r, uv N x y s -> inv_loop bn fuel x y s = Ok r ->
  (r <> None <-> Z.gcd (val x) (val y) = 1).
Proof.
  induction fuel as [|f IH]; intros s r I E; [discriminate|]. cbn [inv_loop] in E. pose proof (uv_sub s I) as I1.
  destruct (inv_halve x y (inv_sub bn x y s)) as [s'| |] eqn:E1; try discriminate. cbn [bind] in E.
  pose proof (uv_halve _ _ I1 E1) as I2. rewrite (is_zero_val N) in E by apply I2.
  destruct (Z.eqb_spec (val (iv s')) 0) as [E0|E0]; [|now apply (IH s')].
  injection E as <-. pose proof (uv_pos _ _ _ _ I2) as P. pose proof (uv_g _ _ _ _ I2) as G. rewrite E0, Z.gcd_0_r, Z.abs_eq in G by lia.
  rewrite <- G, len_bits_val. destruct (Z.eqb_spec (val (iu s')) 0); [lia|].
  destruct (Z.eqb_spec (Z.log2 (val (iu s')) + 1) 1) as [El|El].
  - assert (val (iu s') = 1) as E2. { pose proof (Z.log2_spec (val (iu s')) ltac:(lia)) as LS. replace (Z.log2 (val (iu s'))) with 0 in LS by lia. change (2 ^ 0) with 1 in LS. change (2 ^ Z.succ 0) with 2 in LS. lia. }
    split; [lia|discriminate].
  - split; [congruence|]. intros E2. rewrite E2 in El. exfalso. apply El. reflexivity.
Qed.
Theorem invert_gcd r : wf N x -> wf N y -> 0 < val x -> 0 < val y -> invert_vartime bn x y = Ok r ->
  (r <> None <-> Z.gcd (val x) (val y) = 1).
Proof.
  intros Wx Wy Px Py. unfold invert_vartime. cbv zeta. rewrite !(is_zero_val N), !(is_even_val N), (wf_cap N x) by assumption.
  rewrite (proj2 (Z.eqb_neq (val x) 0)), (proj2 (Z.eqb_neq (val y) 0)) by lia. rewrite <- (Z.negb_odd (val x)), Ox. cbn [negb orb andb].
  apply uv_loop. constructor; cbn [iu iv]; try assumption; try lia; reflexivity.
Qed.
End Gcd.
End Bn.
