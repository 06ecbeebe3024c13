(** Montgomery arithmetic of low/posint.rs under the contract of the assembly (S_Bignum.v). *)
Require Import Verif.Base Verif.L_Base Verif.L_Blocks Verif.M_Util Verif.L_Util Verif.M_PosInt Verif.S_Bignum Verif.L_PosInt.
Require Import ZifyNat Znumtheory.

(** *** congruences *)
Definition cong (n a b : Z) : Prop := (n | a - b).
Lemma cong_refl n a : cong n a a. Proof. exists 0. ring. Qed.
Lemma cong_sym n a b : cong n a b -> cong n b a. Proof. intros [k H]. exists (-k). lia. Qed.
Lemma cong_trans n a b c : cong n a b -> cong n b c -> cong n a c. Proof. intros [k H] [j G]. exists (k + j). lia. Qed.
Lemma cong_add n a b c d : cong n a b -> cong n c d -> cong n (a + c) (b + d). Proof. intros [k H] [j G]. exists (k + j). lia. Qed.
Lemma cong_sub n a b c d : cong n a b -> cong n c d -> cong n (a - c) (b - d). Proof. intros [k H] [j G]. exists (k - j). lia. Qed.
Lemma cong_mul n a b c d : cong n a b -> cong n c d -> cong n (a * c) (b * d).
Proof. intros [k H] [j G]. exists (k * c + b * j). replace a with (b + k * n) by lia. replace c with (d + j * n) by lia. ring. Qed.
Lemma cong_pow n a b e : cong n a b -> cong n (a ^ e) (b ^ e).
Proof.
  intros H. destruct (Z.lt_ge_cases e 0) as [L|G]; [rewrite !Z.pow_neg_r by lia; apply cong_refl|].
  revert e G. apply natlike_ind; [apply cong_refl|]. intros e He IH. rewrite !Z.pow_succ_r by lia. now apply cong_mul.
Qed.
Lemma cong_mod n a : n <> 0 -> cong n (a mod n) a.
Proof. intros. exists (- (a / n)). rewrite Z.mod_eq by lia. ring. Qed.
Lemma mod_cong n a b : n <> 0 -> a mod n = b mod n -> cong n a b.
Proof. intros H E. apply cong_trans with (a mod n); [apply cong_sym; now apply cong_mod|]. rewrite E. now apply cong_mod. Qed.
Lemma cong_eq n a b : n <> 0 -> cong n a b -> a mod n = b mod n.
Proof. intros H [k E]. replace a with (b + k * n) by lia. now rewrite Z_mod_plus_full. Qed.
Lemma cong_small n a b : 0 <= a < n -> cong n a b -> a = b mod n.
Proof. intros H C. apply cong_eq in C; [|lia]. now rewrite Z.mod_small in C. Qed.
Lemma cong_cancel n a b r : rel_prime n r -> cong n (a * r) (b * r) -> cong n a b.
Proof. intros R H. unfold cong in *. replace (a * r - b * r) with (r * (a - b)) in H by ring. now apply Gauss with r. Qed.
Lemma cong_weak n m a b : (m | n) -> cong n a b -> cong m a b.
Proof. intros D H. now apply Z.divide_trans with n. Qed.
Lemma odd_pow2 n k : Z.odd n = true -> 0 <= k -> rel_prime n (2 ^ k).
Proof.
  intros H G. revert k G. apply (natlike_ind (fun k => rel_prime n (2 ^ k))); [apply rel_prime_sym, rel_prime_1|].
  intros e He IH. rewrite Z.pow_succ_r by lia. apply rel_prime_mult; [|assumption].
  apply rel_prime_sym, prime_rel_prime; [apply prime_2|]. intros [q E]. rewrite E, Z.odd_mul in H. now rewrite andb_false_r in H.
Qed.

Section Mont.
Variable bn : bignum.
Hypothesis OK : bignum_ok bn.
Variables (N : Z) (n : posint).
Hypothesis Wn : wf N n.
Hypothesis Odd : Z.odd (val n) = true.
Let k := p_used n.
Let R := 2 ^ (64 * k).

Lemma n_pos : 0 < val n < R.
Proof. pose proof (val_bound N n Wn). split; [|apply H]. destruct (Z.eq_dec (val n) 0) as [E|]; [rewrite E in Odd; discriminate|lia]. Qed.
Lemma k_pos : 1 <= k <= N.
Proof.
  pose proof (wf_used N n Wn). pose proof n_pos. unfold R in *. destruct (Z.eq_dec k 0) as [E|]; [|fold k in H; lia].
  rewrite E in H0. change (2 ^ (64 * 0)) with 1 in H0. lia.
Qed.
Lemma R_coprime : rel_prime (val n) R.
Proof. pose proof k_pos. apply odd_pow2; [assumption|lia]. Qed.
Lemma n_words : words k (as_words n). Proof. now apply as_words_ok with N. Qed.
Lemma n_odd : Z.odd (limbs_val (as_words n)) = true. Proof. exact Odd. Qed.

(** [x] holds [v] in Montgomery form, reduced up to possibly one subtraction of n *)
Definition mrep (x : posint) (v : Z) : Prop := wf N x /\ p_used x = k /\ val x <= val n /\ cong (val n) (val x) (v * R).

(** the generic shape of an operand *)
Definition operand (x : posint) : Prop := wf N x /\ val x < R.
Lemma operand_words x : operand x -> words k (as_words_len_of x n) /\ limbs_val (as_words_len_of x n) = val x.
Proof.
  intros [W V]. pose proof k_pos. unfold as_words_len_of. fold k. split; [apply len_of_words with N|apply len_of_val_small with N]; auto; lia.
Qed.

Lemma mul_words j x y : words j x -> words j y -> words (2 * j) (bn_mul (2 * j) x y) /\ limbs_val (bn_mul (2 * j) x y) = limbs_val x * limbs_val y.
Proof.
  intros Wx Wy. pose proof (words_bound _ _ Wx). pose proof (words_bound _ _ Wy). pose proof (words_nonneg _ _ Wx).
  unfold bn_mul. split; [apply to_words_ok; lia|]. apply to_words_small; [lia|].
  replace (64 * (2 * j)) with (64 * (j + j)) by lia. rewrite pow64_add by lia. nia.
Qed.

Lemma mul_bound a b : 0 <= a < R -> 0 <= b <= val n -> a * b <= R * val n.
Proof. pose proof n_pos. nia. Qed.

Lemma val_nonneg x : wf N x -> 0 <= val x. Proof. intros H. now pose proof (val_bound N x H). Qed.

(** the montifier *)
Definition is_montifier (mf : posint) : Prop := wf N mf /\ val mf < val n /\ cong (val n) (val mf) (R * R).
Lemma montifier_ok : is_montifier (montifier bn n).
Proof.
  pose proof n_pos. pose proof k_pos. destruct (ok_montifier bn OK k (as_words n) n_words n_odd) as [W V]. fold (val n) in V.
  unfold montifier. rewrite (wf_cap N n Wn). fold k. destruct (pfill_ok N k _ W ltac:(lia)) as (A & B & C).
  split; [exact A|]. rewrite B, V. split; [apply Z.mod_pos_bound; lia|].
  replace (R * R) with (2 ^ (128 * k)); [apply cong_mod; lia|]. unfold R. rewrite <- Z.pow_add_r by lia. f_equal. lia.
Qed.

Lemma to_montgomery_ok x mf : operand x -> is_montifier mf -> mrep (to_montgomery bn x mf n) (val x).
Proof.
  intros Ox (Wm & Bm & Cm). pose proof n_pos. pose proof k_pos. pose proof (val_nonneg mf Wm).
  destruct (operand_words x Ox) as [W1 V1]. destruct (operand_words mf) as [W2 V2]; [split; auto; lia|].
  destruct Ox as [Wx Bx]. pose proof (val_nonneg x Wx).
  destruct (ok_montmul bn OK k _ _ (as_words n) W1 W2 n_words n_odd) as (Wz & Lz & Cz); [rewrite V1, V2; fold (val n) R; nia|].
  rewrite V1, V2 in Cz. unfold to_montgomery. rewrite (wf_cap N x Wx). fold k. destruct (pfill_ok N k _ Wz ltac:(lia)) as (A & B & C).
  split; [exact A|]. split; [exact C|]. fold (val n) in Lz, Cz. rewrite B. split; [lia|].
  apply cong_cancel with R; [apply R_coprime|]. apply cong_trans with (val x * val mf); [apply mod_cong; [lia|exact Cz]|].
  rewrite <- Z.mul_assoc. apply cong_mul; [apply cong_refl|exact Cm].
Qed.

Lemma from_montgomery_ok x v : mrep x v -> let r := from_montgomery bn x n in wf N r /\ p_used r = k /\ val r = v mod val n.
Proof.
  intros (Wx & Ux & Bx & Cx). pose proof n_pos. pose proof k_pos. destruct (operand_words x) as [W1 V1]; [split; auto; lia|].
  destruct (ok_demont bn OK k _ (as_words n) W1 n_words n_odd) as (Wz & Lz & Cz). rewrite V1 in Cz. fold (val n) in Lz, Cz.
  unfold from_montgomery. cbv zeta. rewrite (wf_cap N x Wx). fold k. destruct (pfill_ok N k _ Wz ltac:(lia)) as (A & B & C).
  split; [exact A|]. split; [exact C|]. rewrite B. pose proof (words_bound _ _ Wz).
  apply cong_small; [lia|]. apply cong_cancel with R; [apply R_coprime|]. apply cong_trans with (2 := Cx). apply mod_cong; [lia|exact Cz].
Qed.

(** reduction of a wider number *)
Lemma reduce_ok N2 x mf : wf N2 x -> N < N2 -> val x <= R * val n -> is_montifier mf ->
  exists r, preduce bn x n mf = Ok r /\ wf N r /\ p_used r = k /\ val r <= val n /\ cong (val n) (val r) (val x).
Proof.
  intros Wx HN Hb Hm. pose proof n_pos. pose proof k_pos. unfold preduce. rewrite (wf_cap N n Wn), (wf_cap N2 x Wx).
  destruct (Z.ltb_spec N N2); [|lia]. eexists. split; [reflexivity|].
  pose proof (val_bound N2 x Wx) as Vx.
  assert (Sm : val x mod 2 ^ (64 * (k + k)) = val x). { apply Z.mod_small. rewrite pow64_add by lia. fold R. nia. }
  destruct (ok_montredc bn OK k (p_used x) k (as_words x) (as_words n)) as (Wz & Lz & Cz);
    [lia|now apply as_words_ok with N2|exact n_words|exact n_odd|fold (val x) (val n) R; rewrite Sm; exact Hb|].
  fold (val x) (val n) R in Lz, Cz. rewrite Sm in Cz. pose proof (words_bound _ _ Wz).
  destruct (pfill_ok N k _ Wz ltac:(lia)) as (A & B & C).
  assert (Eq : mont_redc bn x n = pfill N k (bn_montredc bn (as_words x) (as_words n) k)) by (unfold mont_redc; now rewrite (wf_cap N n Wn)).
  rewrite Eq. destruct (to_montgomery_ok (pfill N k (bn_montredc bn (as_words x) (as_words n) k)) mf) as (D & E & F & G); [split; [exact A|rewrite B; fold R; lia]|exact Hm|].
  split; [exact D|]. split; [exact E|]. split; [exact F|]. apply cong_trans with (1 := G). rewrite B. apply mod_cong; [lia|exact Cz].
Qed.

Variable n0 : Z.
Hypothesis N0 : (val n * n0 + 1) mod 2 ^ 64 = 0.
Lemma reduce8_ok product : (8 | k) -> words (2 * k) product -> limbs_val product <= R * val n ->
  let r := mont_reduce8 bn product n n0 in
  wf N r /\ p_used r = k /\ val r <= val n /\ cong (val n) (val r * R) (limbs_val product) /\ r = pfill N k (as_words r).
Proof.
  intros D8 W B. pose proof (ok_emontredc bn OK k product (as_words n) n0 D8 W n_words n_odd N0) as E.
  unfold mont_reduce8. destruct (bn_emontredc_8n bn product (as_words n) n0) as [z c]. destruct E as (Wz & Hc & Eq).
  fold (val n) in Eq. fold R in Eq. pose proof k_pos as Hk. pose proof n_pos as Hn.
  assert (zlen z / 2 = k) as ->. { destruct Wz as [-> _]. rewrite Z.mul_comm, Z.div_mul; lia. }
  pose proof (words_ztake _ k z Wz ltac:(lia)) as Wlo. pose proof (words_zdrop _ k z Wz ltac:(lia)) as Whi.
  replace (2 * k - k) with k in Whi by lia. pose proof (words_bound _ _ Wlo) as Blo. pose proof (words_bound _ _ Whi) as Bhi.
  fold R in Blo, Bhi. pose proof (words_bound _ _ W) as BP. cbv zeta. rewrite (wf_cap N n Wn). fold k.
  unfold bn_optsub, bn_cmp_lt. fold (val n).
  set (q := limbs_val (ztake k z)) in *. set (hi := limbs_val (zdrop k z)) in *. set (P := limbs_val product) in *.
  set (T := c * R + hi) in *.
  assert (HT : 0 <= T < 2 * val n) by (clearbody T q hi P R; nia).
  set (s := hi - (if Z.lor c (if val n <? hi then 1 else 0) =? 0 then 0 else val n)).
  assert (HS : 0 <= s mod R <= val n /\ (s mod R = T \/ s mod R = T - val n)).
  { unfold s. destruct Hc as [-> | ->].
    - rewrite Z.lor_0_l. destruct (Z.ltb_spec (val n) hi); cbn [Z.eqb].
      + rewrite Z.mod_small by lia. lia.
      + rewrite Z.mod_small by lia. lia.
    - assert (Z.lor 1 (if val n <? hi then 1 else 0) = 1) as -> by (destruct (val n <? hi); reflexivity). cbn [Z.eqb].
      replace (hi - val n) with (T - val n + (-1) * R) by (unfold T; ring). rewrite Z_mod_plus_full.
      rewrite Z.mod_small by (unfold T in *; lia). lia. }
  pose proof (to_words_ok k s ltac:(lia)) as Ws. destruct (pfill_ok N k _ Ws ltac:(lia)) as (F1 & F2 & F3).
  pose proof (to_words_val (Z.to_nat k) s) as TV. rewrite Z2Nat.id in TV by lia. fold R in TV.
  split; [exact F1|]. split; [exact F3|]. rewrite F2, TV. split; [lia|]. split.
  - exists (q - (T - s mod R) / val n * R).
    destruct HS as [_ [-> | ->]].
    + rewrite Z.sub_diag, Z.div_0_l by lia. clearbody T; nia.
    + replace (T - (T - val n)) with (val n) by ring. rewrite Z.div_same by lia. clearbody T; nia.
  - f_equal. symmetry. now apply pfill_as_words.
Qed.

Lemma in_place_same x product : wf N x -> p_used x = k -> (8 | k) -> words (2 * k) product -> limbs_val product <= R * val n ->
  mont_reduce8_in_place bn x product n n0 = mont_reduce8 bn product n n0.
Proof.
  intros Wx U D W B. unfold mont_reduce8_in_place, mont_reduce8. destruct (bn_emontredc_8n bn product (as_words n) n0) as [z c].
  cbv zeta. rewrite (wf_cap N n Wn). fold k. pose proof k_pos. apply splice0_ok; auto; try lia.
  unfold bn_optsub. apply to_words_ok. lia.
Qed.

Lemma mont_mul_ok x y : wf N x -> wf N y -> val x < R -> val y <= val n ->
  let r := mont_mul bn x y n n0 in
  wf N r /\ p_used r = k /\ val r <= val n /\ cong (val n) (val r * R) (val x * val y).
Proof.
  intros Wx Wy Bx By. pose proof (val_nonneg x Wx). pose proof (val_nonneg y Wy). pose proof n_pos. pose proof k_pos.
  pose proof (mul_bound (val x) (val y) ltac:(lia) ltac:(lia)) as B1.
  unfold mont_mul. cbv zeta. destruct ((p_used x =? 16) && (p_used y =? 16) && (p_used n =? 16)) eqn:E1;
    [|destruct ((p_used x =? 32) && (p_used y =? 32) && (p_used n =? 32)) eqn:E2].
  - assert (p_used x = k /\ p_used y = k /\ k = 16) as (Ux & Uy & K) by (unfold k; lia).
    destruct (mul_words k (as_words x) (as_words y)) as [W V]; [rewrite <- Ux; now apply as_words_ok with N|rewrite <- Uy; now apply as_words_ok with N|].
    replace 32 with (2 * k) by lia. destruct (reduce8_ok (bn_mul (2 * k) (as_words x) (as_words y))) as (A & B & C & D & _); auto.
    + exists 2. lia. + rewrite V. exact B1. + rewrite V in D. auto.
  - assert (p_used x = k /\ p_used y = k /\ k = 32) as (Ux & Uy & K) by (unfold k; lia).
    destruct (mul_words k (as_words x) (as_words y)) as [W V]; [rewrite <- Ux; now apply as_words_ok with N|rewrite <- Uy; now apply as_words_ok with N|].
    replace 64 with (2 * k) by lia. destruct (reduce8_ok (bn_mul (2 * k) (as_words x) (as_words y))) as (A & B & C & D & _); auto.
    + exists 4. lia. + rewrite V. exact B1. + rewrite V in D. auto.
  - destruct (operand_words x) as [W1 V1]; [split; auto; lia|]. destruct (operand_words y) as [W2 V2]; [split; auto; lia|].
    destruct (ok_montmul bn OK k _ _ (as_words n) W1 W2 n_words n_odd) as (Wz & Lz & Cz); [rewrite V1, V2; exact B1|].
    rewrite V1, V2 in Cz. rewrite (wf_cap N x Wx). fold k. destruct (pfill_ok N k _ Wz ltac:(lia)) as (A & B & C).
    split; [exact A|]. split; [exact C|]. fold (val n) in Lz, Cz. rewrite B. split; [lia|]. apply mod_cong; [lia|exact Cz].
Qed.

Lemma mont_sqr_ok x : wf N x -> val x <= val n ->
  let r := mont_sqr bn x n n0 in
  wf N r /\ p_used r = k /\ val r <= val n /\ cong (val n) (val r * R) (val x * val x).
Proof.
  intros Wx Bx. pose proof (val_nonneg x Wx). pose proof n_pos. pose proof k_pos.
  pose proof (mul_bound (val x) (val x) ltac:(lia) ltac:(lia)) as B1.
  unfold mont_sqr. cbv zeta. destruct ((p_used x =? 16) && (p_used n =? 16)) eqn:E1;
    [|destruct ((p_used x =? 32) && (p_used n =? 32)) eqn:E2].
  - assert (p_used x = k /\ k = 16) as (Ux & K) by (unfold k; lia).
    destruct (mul_words k (as_words x) (as_words x)) as [W V]; [rewrite <- Ux; now apply as_words_ok with N|rewrite <- Ux; now apply as_words_ok with N|].
    replace 32 with (2 * k) by lia. destruct (reduce8_ok (bn_mul (2 * k) (as_words x) (as_words x))) as (A & B & C & D & _); auto.
    + exists 2. lia. + rewrite V. exact B1. + rewrite V in D. auto.
  - assert (p_used x = k /\ k = 32) as (Ux & K) by (unfold k; lia).
    destruct (mul_words k (as_words x) (as_words x)) as [W V]; [rewrite <- Ux; now apply as_words_ok with N|rewrite <- Ux; now apply as_words_ok with N|].
    replace 64 with (2 * k) by lia. destruct (reduce8_ok (bn_mul (2 * k) (as_words x) (as_words x))) as (A & B & C & D & _); auto.
    + exists 4. lia. + rewrite V. exact B1. + rewrite V in D. auto.
  - destruct (operand_words x) as [W1 V1]; [split; auto; lia|].
    destruct (ok_montsqr bn OK k _ (as_words n) W1 n_words n_odd) as (Wz & Lz & Cz); [rewrite V1; exact B1|].
    rewrite V1 in Cz. rewrite (wf_cap N x Wx). fold k. destruct (pfill_ok N k _ Wz ltac:(lia)) as (A & B & C).
    split; [exact A|]. split; [exact C|]. fold (val n) in Lz, Cz. rewrite B. split; [lia|]. apply mod_cong; [lia|exact Cz].
Qed.

Lemma sqr_in_place_same x : wf N x -> val x <= val n -> mont_sqr_in_place bn x n n0 = mont_sqr bn x n n0.
Proof.
  intros Wx Bx. pose proof (val_nonneg x Wx). pose proof n_pos.
  pose proof (mul_bound (val x) (val x) ltac:(lia) ltac:(lia)) as B1.
  unfold mont_sqr_in_place, mont_sqr. destruct ((p_used x =? 16) && (p_used n =? 16)) eqn:E1;
    [|destruct ((p_used x =? 32) && (p_used n =? 32)) eqn:E2; [|reflexivity]].
  - assert (p_used x = k /\ k = 16) as (Ux & K) by (unfold k; lia).
    destruct (mul_words k (as_words x) (as_words x)) as [W V]; [rewrite <- Ux; now apply as_words_ok with N|rewrite <- Ux; now apply as_words_ok with N|].
    replace 32 with (2 * k) by lia. apply in_place_same; auto; [exists 2; lia|rewrite V; exact B1].
  - assert (p_used x = k /\ k = 32) as (Ux & K) by (unfold k; lia).
    destruct (mul_words k (as_words x) (as_words x)) as [W V]; [rewrite <- Ux; now apply as_words_ok with N|rewrite <- Ux; now apply as_words_ok with N|].
    replace 64 with (2 * k) by lia. apply in_place_same; auto; [exists 4; lia|rewrite V; exact B1].
Qed.

(** on representations *)
Lemma rep_mul x y a b : mrep x a -> mrep y b -> mrep (mont_mul bn x y n n0) (a * b).
Proof.
  intros (W1 & U1 & B1 & C1) (W2 & U2 & B2 & C2). pose proof n_pos. destruct (mont_mul_ok x y W1 W2 ltac:(lia) B2) as (A & B & C & D).
  split; [exact A|]. split; [exact B|]. split; [exact C|]. apply cong_cancel with R; [apply R_coprime|].
  apply cong_trans with (1 := D). replace (a * b * R * R) with (a * R * (b * R)) by ring. now apply cong_mul.
Qed.
Lemma rep_sqr x a : mrep x a -> mrep (mont_sqr bn x n n0) (a * a).
Proof.
  intros (W1 & U1 & B1 & C1). destruct (mont_sqr_ok x W1 B1) as (A & B & C & D).
  split; [exact A|]. split; [exact B|]. split; [exact C|]. apply cong_cancel with R; [apply R_coprime|].
  apply cong_trans with (1 := D). replace (a * a * R * R) with (a * R * (a * R)) by ring. now apply cong_mul.
Qed.
Lemma rep_sqr_in_place x a : mrep x a -> mrep (mont_sqr_in_place bn x n n0) (a * a).
Proof. intros H. rewrite sqr_in_place_same; [now apply rep_sqr|apply H|apply H]. Qed.

Lemma one_mont_ok mf : is_montifier mf -> mrep (mont_mul bn (fixed_one n) mf n n0) 1.
Proof.
  intros (Wm & Bm & Cm). pose proof n_pos. pose proof k_pos. destruct (fixed_one_ok N n Wn ltac:(unfold k in *; lia)) as (W1 & V1 & U1).
  destruct (mont_mul_ok (fixed_one n) mf W1 Wm ltac:(lia) ltac:(lia)) as (A & B & C & D).
  split; [exact A|]. split; [exact B|]. split; [exact C|].
  apply cong_cancel with R; [apply R_coprime|]. apply cong_trans with (1 := D). rewrite V1, !Z.mul_1_l. exact Cm.
Qed.

(** *** windowed exponentiation *)
Definition bitsval (l : list Z) : Z := fold_left (fun a b => 2 * a + b) l 0.
Lemma bitsval_acc l a : fold_left (fun a b => 2 * a + b) l a = a * 2 ^ zlen l + bitsval l.
Proof.
  unfold bitsval. revert a. induction l as [|b l IH]; intros a; cbn [fold_left]; [change (zlen (@nil Z)) with 0; rewrite Z.pow_0_r; lia|].
  rewrite IH, (IH (2 * 0 + b)), zlen_cons. rewrite Z.pow_add_r by (pose proof (zlen_nonneg l); lia). ring.
Qed.
Lemma bitsval_app l m : bitsval (l ++ m) = bitsval l * 2 ^ zlen m + bitsval m.
Proof. unfold bitsval at 1. rewrite fold_left_app. apply bitsval_acc. Qed.

Lemma rep_used x v : mrep x v -> words k (as_words x). Proof. intros (W & U & _). rewrite <- U. now apply as_words_ok with N. Qed.

Lemma copy_row ts : Forall (fun t => words k (as_words t)) ts -> forall i, 0 <= i < zlen ts ->
  bn_copy_row (flat_map as_words ts) k i = as_words (nth (Z.to_nat i) ts (pzero N)).
Proof.
  unfold bn_copy_row. induction 1 as [|t ts Ht F IH]; intros i Hi; [change (zlen (@nil posint)) with 0 in Hi; lia|].
  pose proof k_pos. rewrite zlen_cons in Hi. cbn [flat_map]. destruct (Z.eq_dec i 0) as [->|].
  - rewrite Z.mul_0_l, zdrop_0. destruct Ht as [L _]. rewrite ztake_app_le by lia. rewrite ztake_all by lia. reflexivity.
  - destruct Ht as [L _]. rewrite zdrop_app_ge by nia. replace (i * k - zlen (as_words t)) with ((i - 1) * k) by lia.
    rewrite IH by lia. replace (Z.to_nat i) with (S (Z.to_nat (i - 1))) by lia. reflexivity.
Qed.

Variables (x one_mont : posint) (b : Z).
Hypothesis Rx : mrep x b.
Hypothesis R1 : mrep one_mont 1.
Let table := exp_table bn x one_mont n n0.
Lemma rep_eq y a c : a = c -> mrep y a -> mrep y c. Proof. now intros ->. Qed.
Lemma table_row i : 0 <= i < 16 -> mrep (pfill N k (bn_copy_row table k i)) (b ^ i).
Proof.
  intros Hi. unfold table, exp_table. cbv zeta.
  set (t2 := mont_sqr bn x n n0). set (t3 := mont_mul bn t2 x n n0). set (t4 := mont_sqr bn t2 n n0). set (t5 := mont_mul bn t4 x n n0).
  set (t6 := mont_sqr bn t3 n n0). set (t7 := mont_mul bn t6 x n n0). set (t8 := mont_sqr bn t4 n n0). set (t9 := mont_mul bn t8 x n n0).
  set (t10 := mont_sqr bn t5 n n0). set (t11 := mont_mul bn t10 x n n0). set (t12 := mont_sqr bn t6 n n0). set (t13 := mont_mul bn t12 x n n0).
  set (t14 := mont_sqr bn t7 n n0). set (t15 := mont_mul bn t14 x n n0).
  assert (Q2 : mrep t2 (b ^ 2)) by (apply rep_eq with (b * b); [ring|now apply rep_sqr]).
  assert (Q3 : mrep t3 (b ^ 3)) by (apply rep_eq with (b ^ 2 * b); [ring|now apply rep_mul]).
  assert (Q4 : mrep t4 (b ^ 4)) by (apply rep_eq with (b ^ 2 * b ^ 2); [ring|now apply rep_sqr]).
  assert (Q5 : mrep t5 (b ^ 5)) by (apply rep_eq with (b ^ 4 * b); [ring|now apply rep_mul]).
  assert (Q6 : mrep t6 (b ^ 6)) by (apply rep_eq with (b ^ 3 * b ^ 3); [ring|now apply rep_sqr]).
  assert (Q7 : mrep t7 (b ^ 7)) by (apply rep_eq with (b ^ 6 * b); [ring|now apply rep_mul]).
  assert (Q8 : mrep t8 (b ^ 8)) by (apply rep_eq with (b ^ 4 * b ^ 4); [ring|now apply rep_sqr]).
  assert (Q9 : mrep t9 (b ^ 9)) by (apply rep_eq with (b ^ 8 * b); [ring|now apply rep_mul]).
  assert (Q10 : mrep t10 (b ^ 10)) by (apply rep_eq with (b ^ 5 * b ^ 5); [ring|now apply rep_sqr]).
  assert (Q11 : mrep t11 (b ^ 11)) by (apply rep_eq with (b ^ 10 * b); [ring|now apply rep_mul]).
  assert (Q12 : mrep t12 (b ^ 12)) by (apply rep_eq with (b ^ 6 * b ^ 6); [ring|now apply rep_sqr]).
  assert (Q13 : mrep t13 (b ^ 13)) by (apply rep_eq with (b ^ 12 * b); [ring|now apply rep_mul]).
  assert (Q14 : mrep t14 (b ^ 14)) by (apply rep_eq with (b ^ 7 * b ^ 7); [ring|now apply rep_sqr]).
  assert (Q15 : mrep t15 (b ^ 15)) by (apply rep_eq with (b ^ 14 * b); [ring|now apply rep_mul]).
  assert (Q1 : mrep x (b ^ 1)) by (now rewrite Z.pow_1_r).
  assert (Q0 : mrep one_mont (b ^ 0)) by exact R1.
  clearbody t2 t3 t4 t5 t6 t7 t8 t9 t10 t11 t12 t13 t14 t15.
  set (ts := [one_mont; x; t2; t3; t4; t5; t6; t7; t8; t9; t10; t11; t12; t13; t14; t15]).
  assert (F : Forall (fun t => words k (as_words t)) ts) by (unfold ts; repeat (constructor; [eapply rep_used; eassumption|]); constructor).
  rewrite copy_row; [|exact F|exact Hi].
  assert (G : mrep (nth (Z.to_nat i) ts (pzero N)) (b ^ i)).
  { assert (i = 0 \/ i = 1 \/ i = 2 \/ i = 3 \/ i = 4 \/ i = 5 \/ i = 6 \/ i = 7 \/ i = 8 \/ i = 9 \/ i = 10 \/ i = 11 \/ i = 12 \/ i = 13 \/ i = 14 \/ i = 15) as HI by lia.
    repeat destruct HI as [->|HI]; try subst i; assumption. }
  set (t := nth (Z.to_nat i) ts (pzero N)) in *. clearbody t. pose proof (rep_used _ _ G) as Wt. pose proof k_pos.
  destruct (pfill_ok N k _ Wt ltac:(lia)) as (A & B & C). destruct G as (_ & _ & G1 & G2).
  split; [exact A|]. split; [exact C|]. rewrite B. split; [exact G1|exact G2].
Qed.

(** the state between windows: the accumulator holds b^E *)
Definition exp_inv (s : exp_st) (E : Z) : Prop :=
  mrep (ex_accum s) (b ^ E) /\ 0 <= E /\ (ex_first s = true -> E = 0) /\ ex_wcount s = 0 /\ ex_window s = 0.
Lemma exp_window s E c3 c2 c1 c0 : exp_inv s E -> 0 <= c3 <= 1 -> 0 <= c2 <= 1 -> 0 <= c1 <= 1 -> 0 <= c0 <= 1 ->
  exp_inv (fold_left (exp_step bn table n n0) [c3; c2; c1; c0] s) (16 * E + (8 * c3 + 4 * c2 + 2 * c1 + c0)).
Proof.
  intros (HA & HE & HF & HW & HN) H3 H2 H1 H0. destruct s as [acc first wc win]. cbn [ex_accum ex_first ex_wcount ex_window] in *. subst wc win.
  cbn [fold_left]. unfold exp_step at 4. cbn [ex_accum ex_first ex_wcount ex_window]. change (0 + 1 =? 4) with false. cbn iota.
  unfold exp_step at 3. cbn [ex_accum ex_first ex_wcount ex_window]. change (0 + 1 + 1 =? 4) with false. cbn iota.
  unfold exp_step at 2. cbn [ex_accum ex_first ex_wcount ex_window]. change (0 + 1 + 1 + 1 =? 4) with false. cbn iota.
  unfold exp_step at 1. cbn [ex_accum ex_first ex_wcount ex_window]. change (0 + 1 + 1 + 1 + 1 =? 4) with true. cbn iota.
  set (w := Z.lor _ c0).
  assert (Hw : w = 8 * c3 + 4 * c2 + 2 * c1 + c0).
  { unfold w. assert (c3 = 0 \/ c3 = 1) as [-> | ->] by lia; assert (c2 = 0 \/ c2 = 1) as [-> | ->] by lia;
    assert (c1 = 0 \/ c1 = 1) as [-> | ->] by lia; assert (c0 = 0 \/ c0 = 1) as [-> | ->] by lia; reflexivity. }
  set (a1 := if first then acc else mont_sqr_in_place bn acc n n0).
  assert (A1 : mrep a1 (b ^ (2 * E))).
  { unfold a1. destruct first; [rewrite (HF eq_refl) in *; exact HA|].
    apply rep_eq with (b ^ E * b ^ E); [rewrite <- Z.pow_add_r by lia; f_equal; lia|now apply rep_sqr_in_place]. }
  set (a2 := mont_sqr_in_place bn a1 n n0). set (a3 := mont_sqr_in_place bn a2 n n0). set (a4 := mont_sqr_in_place bn a3 n n0).
  assert (A2 : mrep a2 (b ^ (4 * E))) by (apply rep_eq with (b ^ (2 * E) * b ^ (2 * E)); [rewrite <- Z.pow_add_r by lia; f_equal; lia|now apply rep_sqr_in_place]).
  assert (A3 : mrep a3 (b ^ (8 * E))) by (apply rep_eq with (b ^ (4 * E) * b ^ (4 * E)); [rewrite <- Z.pow_add_r by lia; f_equal; lia|now apply rep_sqr_in_place]).
  assert (A4 : mrep a4 (b ^ (16 * E))) by (apply rep_eq with (b ^ (8 * E) * b ^ (8 * E)); [rewrite <- Z.pow_add_r by lia; f_equal; lia|now apply rep_sqr_in_place]).
  clearbody a1 a2 a3 a4 w. rewrite Hw in *. clear Hw w.
  unfold exp_inv. cbn [ex_accum ex_first ex_wcount ex_window]. split; [|repeat split; try lia; discriminate].
  apply rep_eq with (b ^ (16 * E) * b ^ (8 * c3 + 4 * c2 + 2 * c1 + c0)); [now rewrite <- Z.pow_add_r by lia|].
  apply rep_mul; [exact A4|]. rewrite (wf_cap N n Wn). fold k. apply table_row. lia.
Qed.

Lemma exp_bits q : forall l s E, zlen l = 4 * Z.of_nat q -> Forall (fun c => 0 <= c <= 1) l -> exp_inv s E ->
  exp_inv (fold_left (exp_step bn table n n0) l s) (2 ^ zlen l * E + bitsval l).
Proof.
  induction q as [|q IH]; intros l s E HL HF HI.
  - destruct l as [|? l]; [|rewrite zlen_cons in HL; pose proof (zlen_nonneg l); lia].
    change (zlen (@nil Z)) with 0. unfold bitsval. cbn [fold_left]. replace (2 ^ 0 * E + 0) with E by (rewrite Z.pow_0_r; ring). exact HI.
  - destruct l as [|c3 [|c2 [|c1 [|c0 l]]]]; rewrite ?zlen_cons in HL; change (zlen (@nil Z)) with 0 in HL; try lia.
    inversion HF as [|? ? H3 F3]; subst. inversion F3 as [|? ? H2 F2]; subst. inversion F2 as [|? ? H1 F1]; subst. inversion F1 as [|? ? H0 F0]; subst.
    change (c3 :: c2 :: c1 :: c0 :: l) with ([c3; c2; c1; c0] ++ l). rewrite fold_left_app, bitsval_app, zlen_app.
    change (zlen [c3; c2; c1; c0]) with 4.
    pose proof (IH l _ _ ltac:(lia) F0 (exp_window s E c3 c2 c1 c0 HI H3 H2 H1 H0)) as Q.
    assert (Ev : bitsval [c3; c2; c1; c0] = 8 * c3 + 4 * c2 + 2 * c1 + c0) by (unfold bitsval; cbn [fold_left]; ring). rewrite Ev.
    replace (2 ^ (4 + zlen l) * E + ((8 * c3 + 4 * c2 + 2 * c1 + c0) * 2 ^ zlen l + bitsval l))
      with (2 ^ zlen l * (16 * E + (8 * c3 + 4 * c2 + 2 * c1 + c0)) + bitsval l); [exact Q|].
    rewrite Z.pow_add_r by (pose proof (zlen_nonneg l); lia). change (2 ^ 4) with 16. ring.
Qed.

Lemma word_bits_len w : zlen (word_bits w) = 64. Proof. reflexivity. Qed.
Lemma word_bits_01 w : Forall (fun c => 0 <= c <= 1) (word_bits w).
Proof.
  unfold word_bits. apply Forall_map, Forall_forall. intros i _. rewrite (Z.land_ones _ 1) by lia.
  change (2 ^ 1) with 2. pose proof (Z.mod_pos_bound (Z.shiftr w (Z.of_nat i)) 2). lia.
Qed.
Lemma bits_prefix w m : bitsval (map (fun i => Z.land (Z.shiftr w (Z.of_nat i)) 1) (rev (seq 0 m))) = w mod 2 ^ Z.of_nat m.
Proof.
  induction m as [|m IH]; [cbn; now rewrite Z.mod_1_r|].
  rewrite seq_S, rev_app_distr. cbn [rev app map plus]. set (l := map _ (rev (seq 0 m))) in *.
  change (?h :: l) with ([h] ++ l). rewrite bitsval_app, IH.
  assert (zlen l = Z.of_nat m) as -> by (unfold l, zlen; rewrite map_length, rev_length, seq_length; reflexivity).
  unfold bitsval. cbn [fold_left]. rewrite (Z.land_ones _ 1) by lia. rewrite Z.shiftr_div_pow2 by lia.
  replace (2 ^ Z.of_nat (S m)) with (2 ^ Z.of_nat m * 2 ^ 1) by (rewrite <- Z.pow_add_r by lia; f_equal; lia).
  rewrite Z.rem_mul_r by (try (apply Z.pow_nonzero; lia); try apply Z.pow_pos_nonneg; lia). ring.
Qed.
Lemma word_bits_val w : u64 w -> bitsval (word_bits w) = w.
Proof. intros H. unfold word_bits. rewrite bits_prefix. apply Z.mod_small. exact H. Qed.
Lemma bits_msb_val ws : Forall u64 ws ->
  bitsval (bits_msb_first ws) = limbs_val ws /\ zlen (bits_msb_first ws) = 64 * zlen ws /\ Forall (fun c => 0 <= c <= 1) (bits_msb_first ws).
Proof.
  unfold bits_msb_first. induction 1 as [|w ws Hw F IH]; [repeat split; constructor|]. destruct IH as (A & B & C).
  cbn [rev]. rewrite flat_map_app. cbn [flat_map]. rewrite app_nil_r. rewrite bitsval_app, zlen_app, A, B, word_bits_len, zlen_cons, word_bits_val by assumption.
  split; [cbn [limbs_val]; ring|]. split; [lia|]. apply Forall_app. split; [exact C|apply word_bits_01].
Qed.

Lemma mont_exp_ok N' e : wf N' e -> 1 <= p_used e -> exists r, mont_exp bn x one_mont e n n0 = Ok r /\ mrep r (b ^ val e).
Proof.
  intros We He. unfold mont_exp. destruct (Z.eqb_spec (p_used e) 0); [lia|]. eexists. split; [reflexivity|].
  pose proof (as_words_ok N' e We) as [L U]. destruct (bits_msb_val _ U) as (V & ZL & F).
  assert (I0 : exp_inv (mkExp one_mont true 0 0) 0) by (repeat split; cbn; try lia; rewrite ?Z.pow_0_r; apply R1).
  pose proof (exp_bits (Z.to_nat (16 * p_used e)) (bits_msb_first (as_words e)) _ 0 ltac:(lia) F I0) as Q.
  fold table. destruct Q as (Q & _). rewrite Z.mul_0_r, Z.add_0_l, V in Q. exact Q.
Qed.
End Mont.

Section ModExp.
Variable bn : bignum.
Hypothesis OK : bignum_ok bn.
(** Modular exponentiation is exact, for every base of the modulus' width and every exponent. *)
Lemma mod_exp_ok N n n0 mf x N' e : wf N n -> Z.odd (val n) = true -> (val n * n0 + 1) mod 2 ^ 64 = 0 ->
  is_montifier N n mf -> operand N n x -> wf N' e -> 1 <= p_used e ->
  exists r, mod_exp bn x e n mf n0 = Ok r /\ wf N r /\ p_used r = p_used n /\ val r = val x ^ val e mod val n.
Proof.
  intros Wn On N0 Hm Ox We He. unfold mod_exp. cbv zeta.
  pose proof (one_mont_ok bn OK N n Wn On n0 N0 mf Hm) as R1. pose proof (to_montgomery_ok bn OK N n Wn On x mf Ox Hm) as Rx.
  destruct (mont_exp_ok bn OK N n Wn On n0 N0 _ _ _ Rx R1 N' e We He) as (r & E & M). rewrite E. cbn [bind].
  destruct (from_montgomery_ok bn OK N n Wn On r _ M) as (A & B & C). eexists. split; [reflexivity|]. auto.
Qed.

Lemma neg_inverse_ok N n : wf N n -> Z.odd (val n) = true -> (val n * mont_neg_inverse bn n + 1) mod 2 ^ 64 = 0.
Proof.
  intros Wn On. pose proof (k_pos N n Wn On) as Hk. pose proof (as_words_ok N n Wn) as W.
  destruct (ok_negmodinv bn OK _ _ W On) as [Wz Cz]. fold (val n) in Cz.
  unfold mont_neg_inverse. unfold pfill. cbn [p_words]. set (z := bn_negmodinv bn (as_words n)) in *.
  destruct z as [|z0 zs]; [destruct Wz as [L _]; change (zlen (@nil Z)) with 0 in L; lia|].
  change (znth ((z0 :: zs) ++ repeat 0 (Z.to_nat (pcap n - p_used n))) 0) with z0. cbn [limbs_val] in Cz.
  replace (64 * p_used n) with (64 + 64 * (p_used n - 1)) in Cz by lia. rewrite Z.pow_add_r in Cz by lia.
  apply Z.mod_divide in Cz; [|pose proof (pow64 (p_used n - 1)); lia]. destruct Cz as [q Hq].
  apply Z.mod_divide; [lia|]. exists (q * 2 ^ (64 * (p_used n - 1)) - val n * limbs_val zs). lia.
Qed.
End ModExp.
