(** C19, C20, C21: the RSA public and private operations. *)
Require Import Verif.Base Verif.L_Base Verif.L_Blocks Verif.M_Util Verif.L_Util Verif.M_PosInt Verif.S_Bignum Verif.L_PosInt Verif.L_Mont Verif.L_Fermat.
Require Import Verif.M_Rsa Verif.S_Rsa Verif.L_Rsa Verif.L_RsaCrt.
Require Import ZifyNat Znumtheory.

(** *** C19 *)
(** Which public keys can be made: odd modulus of 256 to 1024 bytes (2041 to 8192 bits), exponent not zero. *)
Theorem C19_public_key : forall bn n e, wf 128 n ->
  (pub_new bn n e = Ok (pub_make bn n e) <-> Z.odd (val n) = true /\ 2 ^ 2040 <= val n < 2 ^ 8192 /\ e <> 0) /\
  (pub_new bn n e = Ok (pub_make bn n e) \/ pub_new bn n e = Err OutOfRange).
Proof.
  intros bn n e Wn. unfold pub_new. rewrite (is_even_val 128 n Wn) by lia. rewrite <- Z.negb_odd.
  unfold len_bytes, MIN_PUBLIC_MODULUS_BYTES, MAX_PUBLIC_MODULUS_BYTES, MIN_PUBLIC_MODULUS_BITS, MAX_PUBLIC_MODULUS_BITS.
  change (2048 / 8) with 256. change (8192 / 8) with 1024. rewrite len_bits_val. pose proof (val_bound 128 n Wn) as B.
  assert (G : (256 <=? ((if val n =? 0 then 0 else Z.log2 (val n) + 1) + 7) / 8) && (((if val n =? 0 then 0 else Z.log2 (val n) + 1) + 7) / 8 <=? 1024) = true
            <-> 2 ^ 2040 <= val n < 2 ^ 8192).
  { destruct (Z.eqb_spec (val n) 0) as [E|E].
    - rewrite E. change ((0 + 7) / 8) with 0. split; [discriminate|]. intros [H _]. exfalso. apply Z.le_ngt in H. apply H. apply Z.pow_pos_nonneg; lia.
    - pose proof (Z.log2_le_pow2 (val n) 2040 ltac:(lia)) as L1. pose proof (Z.log2_lt_pow2 (val n) 8192 ltac:(lia)) as L2. rewrite L1, L2.
      set (l := Z.log2 (val n)). rewrite andb_true_iff, !Z.leb_le. clear. split; intros; Z.div_mod_to_equations; lia. }
  destruct (_ && _) eqn:A.
  - destruct G as [G _]. specialize (G eq_refl). cbn [negb]. rewrite orb_false_r.
    destruct (Z.odd (val n)); cbn [negb orb]; destruct (Z.eqb_spec e 0); (split; [split; [discriminate || intros _; auto|]|auto]).
    all: try (intros (? & ? & ?); congruence).
  - destruct G as [_ G]. cbn [negb]. rewrite orb_true_r, orb_true_l. split; [|now right]. split; [discriminate|].
    intros (_ & H & _). specialize (G H). discriminate.
Qed.

(** The public operation is exact modular exponentiation for every key that can be made and every input. *)
Theorem C19_public_op : forall bn, bignum_ok bn -> forall n e key c, wf 128 n -> 0 <= e -> pub_new bn n e = Ok key -> wf 128 c ->
  (val c < val n -> exists m, public_op bn key c = Ok m /\ val m = val c ^ e mod val n) /\
  (val n <= val c -> public_op bn key c = Err OutOfRange).
Proof.
  intros bn OK n e key c Wn He E Wc. destruct (C19_public_key bn n e Wn) as [I [D|D]]; [|congruence].
  pose proof (proj1 I D) as (On & _ & He0). assert (key = pub_make bn n e) as -> by congruence. split; intros H.
  - destruct (public_op_ok bn OK 128 n e Wn On ltac:(lia) c Wc H) as (m & Em & _ & _ & V). exists m. auto.
  - now apply public_op_range.
Qed.

(** *** C20 *)
(** Whatever value [m] comes out of the CRT computation, only an [m] that the public operation maps back to [c] is
    released. *)
Theorem C20_check : forall bn, bignum_ok bn -> forall n e key c m r, wf 128 n -> 0 <= e ->
  pub_new bn n e = Ok (pr_public key) -> wf 128 c -> wf 128 m ->
  private_check bn key c m = Ok r -> r = m /\ val m < val n /\ val m ^ e mod val n = val c.
Proof.
  intros bn OK n e key c m r Wn He E Wc Wm H. destruct (C19_public_op bn OK n e _ m Wn He E Wm) as [A B].
  unfold private_check in H. destruct (Z.lt_ge_cases (val m) (val n)) as [L|G].
  - destruct (A L) as (c2 & E2 & V2). rewrite E2 in H. cbn [bind] in H. rewrite pequals_val in H. destruct (Z.eqb_spec (val c2) (val c)); [|discriminate].
    injection H as <-. repeat split; [exact L|congruence].
  - rewrite B in H by lia. discriminate.
Qed.

(** bignum_demont writes one word per word of the modulus, whatever it is given (it is called outside its contract when
    the key is inconsistent) *)
Definition demont_fills (bn : bignum) : Prop := forall x m, words (zlen m) (bn_demont bn x m).

Lemma crt_shape bn key c m : demont_fills bn -> wf 64 (pr_q key) -> private_crt bn key c = Ok m -> wf 128 m.
Proof.
  intros Sh Wq H. unfold private_crt in H.
  destruct (preduce bn c (pr_p key) _) as [cp| |]; try discriminate. cbn [bind] in H.
  destruct (mod_exp bn cp _ _ _ _) as [m1| |]; try discriminate. cbn [bind] in H.
  destruct (preduce bn c (pr_q key) _) as [cq| |]; try discriminate. cbn [bind] in H.
  unfold mod_exp at 1 in H. destruct (mont_exp bn _ _ _ _ _) as [y| |]; try discriminate. cbn [bind] in H. injection H as <-.
  set (w := bn_demont bn (as_words_len_of y (pr_q key)) (as_words (pr_q key))).
  assert (Ww : words (p_used (pr_q key)) w).
  { pose proof (Sh (as_words_len_of y (pr_q key)) (as_words (pr_q key))) as S. pose proof (as_words_ok 64 _ Wq) as [L _]. rewrite L in S. exact S. }
  pose proof (wf_used 64 _ Wq) as U. unfold from_montgomery. fold w.
  assert (C : pcap (pwiden MAX_PUBLIC_MODULUS_WORDS (pfill (pcap y) (p_used (pr_q key)) w)) = 128).
  { unfold pwiden. rewrite pfill_as_words by exact Ww. cbn [pfill p_used]. apply wf_cap. apply pfill_ok; [exact Ww|unfold MAX_PUBLIC_MODULUS_WORDS, MAX_PUBLIC_MODULUS_BITS; lia]. }
  unfold padd. rewrite C. unfold bn_add. cbn [fst]. apply digits_ok. apply to_words_ok. lia.
Qed.

(** For every content of the private key, consistent or not: a returned value is below the modulus and the public
    operation maps it back to the input. *)
Theorem C20_private_op : forall bn, bignum_ok bn -> demont_fills bn -> forall p q d dp dq iqmp n e key c r,
  wf 64 q -> wf 128 n -> 0 <= e -> wf 128 c -> priv_new bn p q d dp dq iqmp n e = Ok key ->
  private_op bn key c = Ok r -> val c < val n /\ val r < val n /\ val r ^ e mod val n = val c.
Proof.
  intros bn OK Sh p q d dp dq iqmp n e key c r Wq Wn He Wc Hk H. unfold priv_new in Hk.
  destruct (_ || _); [discriminate|]. destruct (pub_new bn n e) as [pub| |] eqn:Ep; try discriminate. cbn [bind] in Hk. injection Hk as <-.
  assert (En : pub_n pub = n). { destruct (C19_public_key bn n e Wn) as [_ [D|D]]; [|congruence]. replace pub with (pub_make bn n e) by congruence. reflexivity. }
  unfold private_op in H. cbn [priv_make pr_public] in H. rewrite En, less_than_val in H. destruct (Z.ltb_spec (val c) (val n)); [|discriminate]. cbn [negb] in H.
  destruct (private_crt bn _ c) as [m| |] eqn:Em; try discriminate. cbn [bind] in H. apply crt_shape in Em; [|exact Sh|exact Wq].
  destruct (C20_check bn OK n e (priv_make bn pub p q d dp dq iqmp) c m r Wn He Ep Wc Em H) as (-> & A & B). auto.
Qed.

(** *** C21 *)
Section Valid.
Variables p q n e d dp dq qinv : Z.
Hypothesis V : rsa_valid p q n e d dp dq qinv.
Lemma valid_rel : rel_prime p q. Proof. apply primes_rel; apply V. Qed.
Lemma one_cong a m : 1 < m -> a mod m = 1 -> cong m a 1.
Proof. intros H E. apply mod_cong; [lia|]. rewrite E. symmetry. now apply Z.mod_small. Qed.
Lemma exp_cancel m a b : 1 < m -> (e * a) mod m = 1 -> (e * b) mod m = 1 -> cong m a b.
Proof.
  intros Hm A B. apply one_cong in A, B; auto. apply cong_cancel with e.
  - apply rel_prime_sym. destruct A as [k Ek]. apply bezout_rel_prime. apply Bezout_intro with a (- k). lia.
  - rewrite !(Z.mul_comm _ e). apply cong_trans with 1; [exact A|apply cong_sym; exact B].
Qed.
Lemma inv_pow l x a : prime l -> 2 < l -> 0 < a -> (e * a) mod (l - 1) = 1 -> cong l ((x ^ a) ^ e) x.
Proof.
  intros P L Ha E. pose proof (rv_e _ _ _ _ _ _ _ _ V). rewrite <- Z.pow_mul_r by lia. rewrite <- (Z.pow_1_r x) at 2. apply pow_cong_phi; auto; try nia.
  rewrite Z.mul_comm. apply one_cong; [lia|exact E].
Qed.
(** the number recombined from the two halves *)
Lemma recombine c h m : 0 <= c -> m = c ^ dq mod q + q * h -> 0 <= h < p ->
  cong p h ((c ^ dp mod p - c ^ dq mod q) * qinv) -> m = c ^ d mod n /\ 0 <= m < n /\ cong n (m ^ e) c.
Proof.
  intros Hc -> Hh Ch. destruct V as [P Q P2 Q2 Dn En He [Hd [Ed1 Ed2]] [Hdp Edp] [Hdq Edq] [Hqi Eqi]].
  set (m2 := c ^ dq mod q) in *. assert (B2 : 0 <= m2 < q) by (apply Z.mod_pos_bound; lia). set (m1 := c ^ dp mod p) in *.
  assert (Hm : 0 <= m2 + q * h < n) by (rewrite En; clear - B2 Hh; nia).
  assert (Mq : cong q (m2 + q * h) (c ^ d)).
  { apply cong_trans with m2; [exists h; ring|]. apply cong_trans with (c ^ dq); [apply cong_mod; clear - Q2; lia|].
    apply pow_cong_phi; [exact Q|apply Hdq|exact Hd|]. apply exp_cancel; [clear - Q2; lia|exact Edq|exact Ed2]. }
  assert (Mp : cong p (m2 + q * h) (c ^ d)).
  { apply cong_trans with m1.
    - apply cong_trans with (m2 + q * ((m1 - m2) * qinv)); [apply cong_add; [apply cong_refl|apply cong_mul; [apply cong_refl|exact Ch]]|].
      apply one_cong in Eqi as [k Ek]; [|lia]. exists ((m1 - m2) * k).
      replace (m2 + q * ((m1 - m2) * qinv) - m1) with ((m1 - m2) * (q * qinv - 1)) by ring. rewrite Ek. ring.
    - apply cong_trans with (c ^ dp); [apply cong_mod; clear - P2; lia|]. apply pow_cong_phi; [exact P|apply Hdp|exact Hd|].
      apply exp_cancel; [clear - P2; lia|exact Edp|exact Ed1]. }
  assert (Mn : cong n (m2 + q * h) (c ^ d)) by (rewrite En; apply crt_cong; auto using valid_rel).
  split; [now apply cong_small|]. split; [exact Hm|]. apply cong_trans with ((c ^ d) ^ e); [now apply cong_pow|].
  rewrite En. apply crt_cong; [apply valid_rel|apply inv_pow|apply inv_pow]; auto.
Qed.
End Valid.

(** The computation is right for every valid key with q < p whose primes take the same number of 64-bit words (and
    for every size of key: [priv_make] is [new] without its size checks). *)
Theorem C21_crt_exact : forall bn, bignum_ok bn -> forall p q d dp dq iqmp n e c,
  wf 64 p -> wf 64 q -> wf 64 dp -> wf 64 dq -> wf 64 iqmp -> wf 128 n -> wf 128 c ->
  rsa_valid (val p) (val q) (val n) e (val d) (val dp) (val dq) (val iqmp) -> val q < val p -> p_used p = p_used q ->
  val c < val n ->
  exists m, private_op bn (priv_make bn (pub_make bn n e) p q d dp dq iqmp) c = Ok m /\ wf 128 m /\ val m = val c ^ val d mod val n.
Proof.
  intros bn OK p q d dp dq iqmp n e c Wp Wq Wdp Wdq Wi Wn Wc V Hqp Su Hc.
  assert (Podd : forall l, prime l -> 2 < l -> Z.odd l = true).
  { intros l Pl L2. destruct (Z.odd l) eqn:E; [reflexivity|]. exfalso. rewrite <- Z.negb_even in E. apply negb_false_iff, Z.even_spec in E as [k Ek].
    destruct (prime_divisors l Pl 2) as [D|[D|[D|D]]]; [exists k; lia|lia..]. }
  pose proof V as V'. destruct V' as [P Q P2 Q2 Dn En He [Hd [Ed1 Ed2]] [Hdp Edp] [Hdq Edq] [Hqi Eqi]].
  pose proof (Podd _ P P2) as Op. pose proof (Podd _ Q Q2) as Oq.
  assert (On : Z.odd (val n) = true) by (rewrite En, Z.odd_mul, Op, Oq; reflexivity).
  pose proof (n_pos 64 p Wp Op) as Np. pose proof (n_pos 64 q Wq Oq) as Nq. pose proof (val_nonneg 128 c Wc) as Hc0.
  unfold private_op. change (pub_n (pr_public (priv_make bn (pub_make bn n e) p q d dp dq iqmp))) with n. rewrite less_than_val.
  destruct (Z.ltb_spec (val c) (val n)); [|lia]. cbn [negb].
  destruct (crt_ok bn OK p q d dp dq iqmp n c e Wp Wq Wdp Wdq Wi Wc Op Oq ltac:(lia) ltac:(lia)) as (m & h & Em & Wm & Vm & Bh & Ch & Lh);
    [rewrite Su; clear - En Hc Np Nq; nia|clear - En Hc Np Nq Su; rewrite <- Su in *; nia|lia|exact Su|].
  rewrite Em. cbn [bind].
  set (m1 := val c ^ val dp mod val p) in *. set (m2 := val c ^ val dq mod val q) in *.
  assert (B1 : 0 <= m1 < val p) by (apply Z.mod_pos_bound; clear - P2; lia).
  assert (B2 : 0 <= m2 < val q) by (apply Z.mod_pos_bound; clear - Q2; lia).
  assert (S : (m1 - m2 + (if m1 <? m2 then val p else 0)) mod 2 ^ (64 * p_used p) = m1 - m2 + (if m1 <? m2 then val p else 0)).
  { apply Z.mod_small. clear - B1 B2 Np Hqp. clearbody m1 m2. generalize dependent (2 ^ (64 * p_used p)). intros. destruct (Z.ltb_spec m1 m2); lia. }
  rewrite S in Ch, Lh. clear S.
  assert (Ls : m1 - m2 + (if m1 <? m2 then val p else 0) < val p) by (clear - B1 B2 Hqp; clearbody m1 m2; destruct (Z.ltb_spec m1 m2); lia).
  specialize (Lh P Ls).
  assert (Ch' : cong (val p) h ((m1 - m2) * val iqmp)).
  { apply cong_trans with (1 := Ch). apply cong_mul; [|apply cong_refl]. destruct (m1 <? m2); [exists 1; ring|exists 0; ring]. }
  destruct (recombine _ _ _ _ _ _ _ _ V (val c) h (val m) Hc0 Vm ltac:(lia) Ch') as (Vmd & Bm & Cm).
  unfold private_check. change (pr_public (priv_make bn (pub_make bn n e) p q d dp dq iqmp)) with (pub_make bn n e).
  destruct (public_op_ok bn OK 128 n e Wn On He m Wm ltac:(lia)) as (c2 & Ec & _ & _ & Vc). rewrite Ec. cbn [bind]. rewrite pequals_val, Vc.
  assert (val m ^ e mod val n = val c) as -> by (symmetry; apply cong_small; [lia|apply cong_sym; exact Cm]).
  rewrite Z.eqb_refl. exists m. auto.
Qed.

Theorem C21_private_op : forall bn, bignum_ok bn -> forall p q d dp dq iqmp n e key c,
  wf 64 p -> wf 64 q -> wf 64 dp -> wf 64 dq -> wf 64 iqmp -> wf 128 n -> wf 128 c ->
  rsa_valid (val p) (val q) (val n) e (val d) (val dp) (val dq) (val iqmp) -> val q < val p -> p_used p = p_used q ->
  priv_new bn p q d dp dq iqmp n e = Ok key ->
  (val c < val n -> exists m, private_op bn key c = Ok m /\ val m = val c ^ val d mod val n) /\
  (val n <= val c -> private_op bn key c = Err OutOfRange).
Proof.
  intros bn OK p q d dp dq iqmp n e key c Wp Wq Wdp Wdq Wi Wn Wc V Hqp Su Hk.
  assert (key = priv_make bn (pub_make bn n e) p q d dp dq iqmp) as ->.
  { unfold priv_new in Hk. destruct (_ || _); [discriminate|]. destruct (C19_public_key bn n e Wn) as [_ [D|D]]; rewrite D in Hk; [|discriminate].
    cbn [bind] in Hk. congruence. }
  split; intros H.
  - destruct (C21_crt_exact bn OK p q d dp dq iqmp n e c) as (m & E & _ & Vm); auto. exists m. auto.
  - unfold private_op. cbn [priv_make pr_public pub_make pub_n]. rewrite less_than_val. destruct (Z.ltb_spec (val c) (val n)); [lia|reflexivity].
Qed.

(** Without q < p the claim is false: for every valid key (in the sense of RFC 8017, which does not order the primes)
    with p + 1 < q there is an input below the modulus on which the private operation fails. *)
Theorem C21_p_below_q_refuted : forall bn, bignum_ok bn -> forall p q d dp dq iqmp n e,
  wf 64 p -> wf 64 q -> wf 64 dp -> wf 64 dq -> wf 64 iqmp -> wf 128 n ->
  rsa_valid (val p) (val q) (val n) e (val d) (val dp) (val dq) (val iqmp) -> val p + 1 < val q -> p_used p = p_used q ->
  exists c, wf 128 c /\ val c < val n /\ is_ok (private_op bn (priv_make bn (pub_make bn n e) p q d dp dq iqmp) c) = false.
Proof.
  intros bn OK p q d dp dq iqmp n e Wp Wq Wdp Wdq Wi Wn V Hpq Su.
  assert (Podd : forall l, prime l -> 2 < l -> Z.odd l = true).
  { intros l Pl L2. destruct (Z.odd l) eqn:E; [reflexivity|]. exfalso. rewrite <- Z.negb_even in E. apply negb_false_iff, Z.even_spec in E as [k Ek].
    destruct (prime_divisors l Pl 2) as [D|[D|[D|D]]]; [exists k; lia|lia..]. }
  pose proof V as V'. destruct V' as [P Q P2 Q2 Dn En He [Hd [Ed1 Ed2]] [Hdp Edp] [Hdq Edq] [Hqi Eqi]].
  pose proof (Podd _ P P2) as Op. pose proof (Podd _ Q Q2) as Oq.
  assert (On : Z.odd (val n) = true) by (rewrite En, Z.odd_mul, Op, Oq; reflexivity).
  pose proof (n_pos 64 p Wp Op) as Np. pose proof (n_pos 64 q Wq Oq) as Nq.
  (* c = 0 mod p, c = -1 mod q *)
  destruct (rel_prime_bezout _ _ (valid_rel _ _ _ _ _ _ _ _ V)) as [u v Buv].
  set (t := (- u) mod val q). assert (Bt : 0 <= t < val q) by (apply Z.mod_pos_bound; lia).
  set (cv := val p * t). assert (Bc : 0 <= cv < val n) by (unfold cv; rewrite En; clear - Bt Np; nia).
  assert (Cp : cong (val p) cv 0) by (exists t; unfold cv; ring).
  assert (Cq : cong (val q) cv (-1)).
  { unfold cv. apply cong_trans with (val p * (- u)); [apply cong_mul; [apply cong_refl|apply cong_mod; lia]|]. exists v. lia. }
  pose proof (Z.lt_trans _ _ _ (proj2 Bc) (proj2 (val_boundN 128 n Wn))) as Bn.
  destruct (pfill_ok 128 128 _ (to_words_ok 128 cv ltac:(discriminate)) ltac:(discriminate)) as (Wc & Vc & _). rewrite (to_words_small 128 cv) in Vc; [|discriminate|split; [apply Bc|exact Bn]].
  set (c := pfill 128 128 (to_words (Z.to_nat 128) cv)) in *. clearbody c. clear Bn. exists c. split; [exact Wc|]. rewrite Vc. split; [apply Bc|].
  unfold private_op. change (pub_n (pr_public (priv_make bn (pub_make bn n e) p q d dp dq iqmp))) with n. rewrite less_than_val, Vc.
  destruct (Z.ltb_spec cv (val n)); [|exfalso; clear - H Bc; lia]. cbn [negb]. clearbody cv.
  destruct (crt_ok bn OK p q d dp dq iqmp n c e Wp Wq Wdp Wdq Wi Wc Op Oq (proj1 Hdp) (proj1 Hdq)) as (m & h & Em & Wm & Vm & Bh & Ch & Lh);
    [rewrite Vc; rewrite Su in *; clear - En Bc Np Nq; nia|rewrite Vc; rewrite <- Su in *; clear - En Bc Np Nq; nia|clear - Hqi Np; lia|exact Su|].
  rewrite Em. cbn [bind]. rewrite Vc in *.
  assert (P0 : val p <> 0) by (clear - P2; lia). assert (Q0 : val q <> 0) by (clear - Q2; lia).
  (* the halves are 0 and q - 1 *)
  assert (M1 : cv ^ val dp mod val p = 0).
  { rewrite (cong_eq (val p) _ (0 ^ val dp) P0) by (now apply cong_pow). rewrite Z.pow_0_l by apply Hdp. apply Z.mod_0_l, P0. }
  assert (Odq : Z.odd (val dq) = true).
  { destruct (Z.odd (val dq)) eqn:E; [reflexivity|exfalso]. rewrite <- Z.negb_even in E. apply negb_false_iff, Z.even_spec in E as [k Ek].
    apply one_cong in Edq as [j Ej]; [|clear - Q2; lia]. assert (Z.even (val q - 1) = true) as Eq by (rewrite Z.even_sub, <- Z.negb_odd, Oq; reflexivity).
    apply Z.even_spec in Eq as [i Ei]. rewrite Ek, Ei in Ej. clear - Ej. lia. }
  assert (M2 : cv ^ val dq mod val q = val q - 1).
  { rewrite (cong_eq (val q) _ ((-1) ^ val dq) Q0) by (now apply cong_pow).
    rewrite (Z.pow_opp_odd 1) by (now apply Z.odd_spec). rewrite Z.pow_1_l by (apply Z.lt_le_incl, Hdq). symmetry. apply (Z.mod_unique (-(1)) (val q) (-1) (val q - 1)); [left|]; clear - Q2; lia. }
  rewrite M2 in Vm. rewrite M1, M2 in Ch. clear M1 M2 Lh. set (Rp := 2 ^ (64 * p_used p)) in *. rewrite <- Su in Nq. fold Rp in Nq.
  (* the subtraction wraps *)
  assert (S : (0 - (val q - 1) + (if 0 <? val q - 1 then val p else 0)) mod Rp = Rp + val p + 1 - val q).
  { destruct (Z.ltb_spec 0 (val q - 1)); [|exfalso; clear - Q2 H0; lia]. symmetry. apply (Z.mod_unique _ Rp (-1)); [left|]; clear - Nq Hpq P2; clearbody Rp; lia. }
  rewrite S in Ch. clear S.
  assert (Cm : cong (val p) (val m) Rp).
  { rewrite Vm. apply one_cong in Eqi; [|clear - P2; lia].
    apply cong_trans with (val q - 1 + val q * ((Rp + val p + 1 - val q) * val iqmp)); [apply cong_add; [apply cong_refl|apply cong_mul; [apply cong_refl|exact Ch]]|].
    replace (val q * ((Rp + val p + 1 - val q) * val iqmp)) with ((Rp + val p + 1 - val q) * (val q * val iqmp)) by ring.
    apply cong_trans with (val q - 1 + (Rp + val p + 1 - val q) * 1); [apply cong_add; [apply cong_refl|apply cong_mul; [apply cong_refl|exact Eqi]]|].
    exists 1. ring. }
  unfold private_check. change (pr_public (priv_make bn (pub_make bn n e) p q d dp dq iqmp)) with (pub_make bn n e).
  destruct (Z.lt_ge_cases (val m) (val n)) as [Lm|Gm]; [|rewrite public_op_range by assumption; reflexivity].
  destruct (public_op_ok bn OK 128 n e Wn On He m Wm Lm) as (c2 & Ec & _ & _ & V2). rewrite Ec. cbn [bind]. rewrite pequals_val, Vc, V2.
  destruct (Z.eqb_spec (val m ^ e mod val n) cv) as [E|]; [exfalso|reflexivity].
  assert (Cme : cong (val p) (Rp ^ e) 0).
  { apply cong_trans with (val m ^ e); [apply cong_pow, cong_sym; exact Cm|]. apply cong_trans with (2 := Cp). rewrite <- E.
    apply cong_weak with (val n); [exists (val q); rewrite En; apply Z.mul_comm|]. apply cong_sym, cong_mod. clear - Bc; lia. }
  unfold cong in Cme. rewrite Z.sub_0_r in Cme.
  assert (RP : rel_prime (val p) (Rp ^ e)).
  { unfold Rp. pose proof (k_pos 64 p Wp Op). rewrite <- Z.pow_mul_r by (clear - H0 He; lia). apply odd_pow2; [exact Op|clear - H0 He; nia]. }
  destruct RP as [_ _ G]. specialize (G (val p) (Z.divide_refl _) Cme). apply Z.divide_1_r_nonneg in G; clear - G P2; lia.
Qed.

Print Assumptions C19_public_key.
Print Assumptions C19_public_op.
Print Assumptions C20_check.
Print Assumptions C20_private_op.
Print Assumptions C21_crt_exact.
Print Assumptions C21_private_op.
Print Assumptions C21_p_below_q_refuted.
