(** C26: the keys RSA key generation yields. *)
Require Import Verif.Base Verif.L_Base Verif.L_Blocks Verif.L_Bits Verif.M_Util Verif.L_Util Verif.T_Util Verif.M_PosInt Verif.S_Bignum
  Verif.L_PosInt Verif.T_PosInt Verif.L_Mont Verif.L_Fermat Verif.M_Rsa Verif.S_Rsa Verif.L_Rsa Verif.M_RsaGen Verif.S_Prime Verif.L_Invert
  Verif.L_RsaGen Verif.L_BignumRef Verif.T_RsaGen Verif.T_RsaSig.
Require Import ZifyNat Znumtheory.

(** *** one candidate *)
Definition passed {S} (fill : S -> Z -> res (list Z) * S) (size : key_size) (v : Z) (s s' : S) : Prop :=
  prime_shape (modulus_bits size / 2) v /\ no_small_factor v /\ mr_run fill v (bases size) s true s'.

Lemma half_bits size : modulus_bits size / 2 = private_prime_size_bits size.
Proof. destruct size; reflexivity. Qed.
Lemma pow_bits a b : a <= b -> 2 ^ a <= 2 ^ b. Proof. intros. apply Z.pow_le_mono_r; lia. Qed.
Lemma shape_big size v : prime_shape (modulus_bits size / 2) v -> be_val PRODUCT_OF_SMALL_PRIMES < v /\ 65537 < v.
Proof.
  intros [[L U] _]. rewrite half_bits in *. destruct (size_facts size) as (k & Hk & Eh & _). rewrite Eh in *.
  assert (P : be_val PRODUCT_OF_SMALL_PRIMES < 2 ^ 1020) by apply product_bound.
  pose proof (pow_bits 1020 (64 * k - 2) ltac:(clear - Hk; lia)) as Q. pose proof (pow_bits 17 (64 * k - 2) ltac:(clear - Hk; lia)) as Q'. change (2 ^ 17) with 131072 in Q'.
  revert P Q Q' L. clear. generalize (be_val PRODUCT_OF_SMALL_PRIMES) (2 ^ 1020) (2 ^ (64 * k - 2)). intros. lia.
Qed.
Lemma big_3 v : 65537 < v -> 743 < v. Proof. lia. Qed.

Lemma product_fits : be_val PRODUCT_OF_SMALL_PRIMES < 2 ^ (64 * 64).
Proof. apply Z.lt_trans with (2 ^ 1020); [apply product_bound|reflexivity]. Qed.
Lemma sieve_ok sp v : pfrom_bytes 64 PRODUCT_OF_SMALL_PRIMES = Ok sp -> Z.odd (val v) = true -> is_coprime v sp = true -> no_small_factor (val v).
Proof.
  intros E Ov C r P Hr D. destruct (from_bytes_spec 64 _ ltac:(lia) product_bytes) as [A _]. destruct A as (sp' & E' & _ & V & _).
  { apply product_fits. }
  rewrite E in E'. injection E' as <-. unfold is_coprime, bn_coprime in C. fold (val v) (val sp) in C. rewrite V in C. apply Z.eqb_eq in C.
  pose proof (prime_ge_2 r P). destruct (Z.eq_dec r 2) as [->|].
  { destruct D as [k D]. rewrite D, Z.odd_mul in Ov. rewrite Bool.andb_false_r in Ov. discriminate. }
  assert (D1 : (r | 1)) by (rewrite <- C; apply Z.gcd_greatest; [exact D|apply small_prime_divides; [exact P|lia]]).
  apply Z.divide_1_r_nonneg in D1; lia.
Qed.
Lemma sieve_prime sp v : pfrom_bytes 64 PRODUCT_OF_SMALL_PRIMES = Ok sp -> be_val PRODUCT_OF_SMALL_PRIMES < val v -> prime (val v) -> is_coprime v sp = true.
Proof.
  intros E B P. destruct (from_bytes_spec 64 _ ltac:(lia) product_bytes) as [A _]. destruct A as (sp' & E' & _ & V & _).
  { apply product_fits. }
  rewrite E in E'. injection E' as <-. unfold is_coprime, bn_coprime. fold (val v) (val sp). rewrite V. apply Z.eqb_eq. apply Zgcd_1_rel_prime.
  apply prime_rel_prime; [exact P|]. intros D. destruct product_bound as [P0 _]. apply Z.divide_pos_le in D; [|exact P0].
  revert B D. generalize (be_val PRODUCT_OF_SMALL_PRIMES). clear. intros. lia.
Qed.
Lemma product_reads : exists sp, pfrom_bytes 64 PRODUCT_OF_SMALL_PRIMES = Ok sp.
Proof.
  destruct (from_bytes_spec 64 _ ltac:(lia) product_bytes) as [A _]. destruct A as (sp & E & _); [|now exists sp].
  apply product_fits.
Qed.

Section Candidate.
Variable bn : bignum.
Hypothesis BN : bignum_ok bn.
Variable S : Type.
Variables cand chk : S -> Z -> res (list Z) * S.
Hypotheses (FC : source_ok cand) (FK : source_ok chk).
Variable size : key_size.
Notation h := (modulus_bits size / 2).

Lemma cand_reads buf s s1 : cand s (private_prime_size_bits size / 8) = (Ok buf, s1) ->
  exists p, pfrom_bytes MAX_PRIVATE_MODULUS_WORDS (shape_candidate buf) = Ok p /\ wf 64 p /\
   val p = Z.lor (be_val buf) (3 * 2 ^ (h - 2) + 1) /\ prime_shape h (val p) /\ p_used p = h / 64.
Proof.
  intros E. destruct (FC _ _ _ _ E) as [L B]. destruct (size_facts size) as (k & Hk & Eh & Em & E8 & _). rewrite half_bits, Eh. rewrite E8 in L.
  destruct (shape_ok buf _ B L ltac:(lia)) as (SB & SL & SV). replace (8 * (8 * k)) with (64 * k) in SV by lia.
  pose proof (be_val_bound buf B) as Bd. rewrite L, p256 in Bd by lia. replace (8 * (8 * k)) with (64 * k) in Bd by lia.
  pose proof (lor_shape (64 * k) (be_val buf) ltac:(lia) Bd) as SH. rewrite <- SV in SH.
  change MAX_PRIVATE_MODULUS_WORDS with 64. destruct (from_bytes_spec 64 _ ltac:(lia) SB) as [A _]. destruct A as (p & Ep & Wp & Vp & Up).
  { apply Z.lt_le_trans with (2 ^ (64 * k)); [apply SH|apply pow_bits; lia]. }
  exists p. split; [exact Ep|]. split; [exact Wp|]. split; [congruence|]. split; [rewrite Vp; exact SH|].
  rewrite (Z.mul_comm 64 k), Z.div_mul by lia. rewrite Up.
  assert (Q1 : bn_digitsize (as_words p) <= k).
  { apply digitsize_spec; [apply (as_words_ok 64 p Wp)|lia|]. fold (val p). rewrite Vp. apply SH. }
  assert (Q2 : ~ bn_digitsize (as_words p) <= k - 1).
  { intros Q. apply digitsize_spec in Q; [|apply (as_words_ok 64 p Wp)|lia]. fold (val p) in Q. rewrite Vp in Q. destruct SH as [[SH _] _].
    pose proof (pow_bits (64 * (k - 1)) (64 * k - 2) ltac:(lia)). pose proof (Z.pow_pos_nonneg 2 (64 * k - 2) ltac:(lia) ltac:(lia)). clear - Q SH H H0. lia. }
  lia.
Qed.

Lemma is_prime_ok fuel p s r s' : wf 64 p -> prime_shape h (val p) -> is_prime bn S chk fuel p size s = Some (Ok r, s') ->
  if r then passed chk size (val p) s s' else ~ prime (val p).
Proof.
  intros Wp SH E. destruct (shape_big size _ SH) as [Bg Bs]. pose proof (big_3 _ Bs) as B3. assert (Op : Z.odd (val p) = true) by apply SH.
  unfold is_prime in E. change MAX_PRIVATE_MODULUS_WORDS with 64 in E. destruct product_reads as (sp & ES). rewrite ES in E.
  destruct (is_coprime p sp) eqn:EC; cbn [negb] in E.
  - assert (R : mr_run chk (val p) (bases size) s r s') by (apply (C26_miller_rabin bn BN S chk FK p size s r s' Wp Op ltac:(lia)); eauto).
    destruct r; [|intros P; apply C26_prime_never_rejected in R; [discriminate|exact P|lia]].
    split; [exact SH|]. split; [eapply sieve_ok; eauto|exact R].
  - injection E as <- <-. intros P. rewrite (sieve_prime sp p ES Bg P) in EC. discriminate EC.
Qed.

Local Opaque is_prime pfrom_bytes PRODUCT_OF_SMALL_PRIMES.
Lemma random_prime_loop_ok n fuel s p s' : random_prime_loop bn S cand chk n fuel size s = Some (Ok p, s') ->
  exists s1, wf 64 p /\ p_used p = h / 64 /\ passed chk size (val p) s1 s'.
Proof.
  revert s. induction n as [|n IH]; intros s E; [discriminate|]. cbn [random_prime_loop] in E. unfold random_prime_one in E.
  destruct (cand s (private_prime_size_bits size / 8)) as [[buf| |] s1] eqn:EC; try discriminate E.
  destruct (cand_reads buf s s1 EC) as (c & Er & Wc & Vc & SH & Uc). rewrite Er in E.
  destruct (is_prime bn S chk fuel c size s1) as [[[[|]| |] s2]|] eqn:EP; try discriminate E.
  - injection E as <- <-. exists s1. split; [exact Wc|]. split; [exact Uc|]. apply (is_prime_ok fuel c s1 true s2 Wc SH EP).
  - apply (IH s2 E).
Qed.
End Candidate.

(** One candidate: exactly the bytes drawn with the top two bits and the bottom bit set; it is returned only if it has no
    small factor and passes every base, and it is thrown away only if it is not a prime. *)
Theorem C26_candidate : forall bn, bignum_ok bn -> forall S (cand chk : S -> Z -> res (list Z) * S), source_ok cand -> source_ok chk ->
  forall fuel size s r s', random_prime_one bn S cand chk fuel size s = Some (Ok r, s') ->
  exists buf s1, cand s (modulus_bits size / 16) = (Ok buf, s1) /\
    let v := Z.lor (be_val buf) (3 * 2 ^ (modulus_bits size / 2 - 2) + 1) in
    match r with
    | Some p => wf 64 p /\ val p = v /\ passed chk size v s1 s'
    | None => ~ prime v
    end.
Proof.
  intros bn BN S cand chk FC FK fuel size s r s' E. unfold random_prime_one in E.
  destruct (cand s (private_prime_size_bits size / 8)) as [[buf| |] s1] eqn:EC; try discriminate E.
  exists buf, s1. split; [rewrite <- EC; destruct size; reflexivity|].
  destruct (cand_reads S cand FC size buf s s1 EC) as (c & Er & Wc & Vc & SH & Uc). rewrite Er in E. cbv zeta. rewrite <- Vc.
  destruct (is_prime bn S chk fuel c size s1) as [[[[|]| |] s2]|] eqn:EP; try discriminate E;
    pose proof (is_prime_ok bn BN S chk FK size fuel c s1 _ s2 Wc SH EP) as Q; injection E as <- <-; cbn in Q; auto.
Qed.
Print Assumptions C26_candidate.

(** *** the key *)
Lemma log2_shape k v : 2 <= k -> 2 ^ (k - 1) <= v < 2 ^ k -> Z.log2 v + 1 = k.
Proof. intros Hk H. rewrite (Z.log2_unique v (k - 1)); [lia|lia|]. replace (Z.succ (k - 1)) with k by lia. exact H. Qed.
Lemma mul_shape k p q : 2 <= k -> 3 * 2 ^ (k - 2) <= p < 2 ^ k -> 3 * 2 ^ (k - 2) <= q < 2 ^ k -> 2 ^ (2 * k - 1) <= p * q < 2 ^ (2 * k).
Proof.
  intros Hk Hp Hq. assert (E : 2 ^ k = 4 * 2 ^ (k - 2)) by (replace k with (2 + (k - 2)) at 1 by lia; rewrite Z.pow_add_r by lia; reflexivity).
  assert (E1 : 2 ^ (2 * k - 1) = 8 * (2 ^ (k - 2) * 2 ^ (k - 2))) by (rewrite <- Z.pow_add_r by lia; change 8 with (2 ^ 3); rewrite <- Z.pow_add_r by lia; f_equal; lia).
  assert (E2 : 2 ^ (2 * k) = 2 ^ k * 2 ^ k) by (rewrite <- Z.pow_add_r by lia; f_equal; lia).
  pose proof (Z.pow_pos_nonneg 2 (k - 2) ltac:(lia) ltac:(lia)) as P. rewrite E1, E2, E in *. generalize dependent (2 ^ (k - 2)). clear. intros. nia.
Qed.

Definition key_of (bn : bignum) (p q d dp dq iqmp n : posint) (key : rsa_priv) : Prop :=
  priv_new bn p q d dp dq iqmp n 65537 = Ok key /\
  pr_p key = p /\ pr_q key = q /\ pr_d key = d /\ pr_dp key = dp /\ pr_dq key = dq /\ pr_iqmp key = iqmp /\
  pub_n (pr_public key) = n /\ pub_e (pr_public key) = 65537.
Lemma priv_new_fields bn p q d dp dq iqmp n key : priv_new bn p q d dp dq iqmp n 65537 = Ok key -> key_of bn p q d dp dq iqmp n key.
Proof.
  intros E. split; [exact E|]. unfold priv_new, pub_new in E. cbv zeta in E.
  destruct (is_even p || is_even q || _); [discriminate|]. destruct (is_even n || _ || _); [discriminate|]. cbn [bind] in E.
  injection E as <-. cbn. tauto.
Qed.

Section Make.
Variable bn : bignum.
Hypothesis BN : bignum_ok bn.
Variable k : Z.
Hypothesis Hk : 16 <= k <= 64.
Variables p q : posint.
Hypotheses (Wp : wf 64 p) (Wq : wf 64 q) (Up : p_used p = k) (Uq : p_used q = k)
  (Sp : prime_shape (64 * k) (val p)) (Sq : prime_shape (64 * k) (val q)) (Hlt : val q < val p).

Let one := pone 64.
Let p1 := psub p one.
Let q1 := psub q one.
Let n := pmul 128 p q.
Let phi := pmul 128 p1 q1.
Definition e_int : posint := pone 128.
Lemma shape_gt v : prime_shape (64 * k) v -> 2 ^ (64 * (k - 1)) < v - 1 /\ 65537 < v - 1.
Proof.
  intros [[L _] _]. pose proof (pow_bits (64 * (k - 1)) (64 * k - 2) ltac:(lia)). pose proof (pow_bits 17 (64 * k - 2) ltac:(lia)). change (2 ^ 17) with 131072 in H0.
  clear - L H H0. split; lia.
Qed.
Lemma sub1 v : wf 64 v -> p_used v = k -> prime_shape (64 * k) (val v) -> wf 64 (psub v one) /\ val (psub v one) = val v - 1 /\ p_used (psub v one) = k.
Proof.
  intros W U Sh. destruct (pone_ok 64 ltac:(lia)) as [W1 V1]. fold one in W1, V1. pose proof (shape_gt _ Sh) as [_ G].
  pose proof (big_3 _ G). destruct (psub_ok 64 v one W W1 ltac:(lia)) as (A & B & C). rewrite V1 in B. split; [exact A|]. split; [exact B|congruence].
Qed.
Lemma n_ok : wf 128 n /\ val n = val p * val q /\ p_used n = 2 * k.
Proof. destruct (pmul_ok 64 128 p q Wp Wq ltac:(lia)) as (A & B & C). fold n in A, B, C. split; [exact A|]. split; [exact B|lia]. Qed.
Lemma phi_ok : wf 128 phi /\ val phi = (val p - 1) * (val q - 1).
Proof.
  destruct (sub1 p Wp Up Sp) as (A1 & B1 & C1). destruct (sub1 q Wq Uq Sq) as (A2 & B2 & C2). fold p1 in A1, B1, C1. fold q1 in A2, B2, C2.
  destruct (pmul_ok 64 128 p1 q1 A1 A2 ltac:(lia)) as (A & B & C). fold phi in A, B. split; [exact A|]. congruence.
Qed.
Lemma e_ok : pword MAX_PUBLIC_MODULUS_WORDS PUBLIC_EXPONENT = Ok (pfill 128 1 [65537]) /\ wf 128 (pfill 128 1 [65537]) /\ val (pfill 128 1 [65537]) = 65537.
Proof.
  split; [reflexivity|]. destruct (pfill_ok 128 1 [65537]) as (A & B & _); [split; [reflexivity|constructor; [red; lia|constructor]]|lia|]. split; [exact A|exact B].
Qed.
Lemma n_range : 2 ^ (128 * k - 1) <= val p * val q < 2 ^ (128 * k).
Proof.
  pose proof (mul_shape (64 * k) (val p) (val q) ltac:(lia) (proj1 Sp) (proj1 Sq)) as H.
  replace (2 * (64 * k)) with (128 * k) in H by lia. exact H.
Qed.
Lemma priv_ok d dp dq iqmp : exists key, priv_new bn p q d dp dq iqmp n 65537 = Ok key.
Proof.
  destruct n_ok as (Wn & Vn & _). unfold priv_new, pub_new. cbv zeta. rewrite (is_even_val 64 p Wp), (is_even_val 64 q Wq), (is_even_val 128 n Wn) by lia.
  rewrite Vn, <- !Z.negb_odd, Z.odd_mul. destruct Sp as [Rp Op], Sq as [Rq Oq]. rewrite Op, Oq. cbn [negb orb andb].
  assert (Lp : len_bits p = 64 * k).
  { rewrite len_bits_val. pose proof (shape_gt _ Sp) as [_ G]. pose proof (big_3 _ G). destruct (Z.eqb_spec (val p) 0); [lia|].
    apply log2_shape; [lia|]. destruct Rp as [L U]. split; [|exact U]. replace (64 * k - 1) with (1 + (64 * k - 2)) by lia. rewrite Z.pow_add_r by lia. change (2 ^ 1) with 2.
    pose proof (Z.pow_pos_nonneg 2 (64 * k - 2) ltac:(lia) ltac:(lia)). clear - L H0. lia. }
  assert (Ln : len_bits n = 128 * k).
  { rewrite len_bits_val, Vn. pose proof n_range as R. pose proof (Z.pow_pos_nonneg 2 (128 * k - 1) ltac:(lia) ltac:(lia)). destruct (Z.eqb_spec (val p * val q) 0) as [E|]; [clear - E R H; lia|].
    apply log2_shape; [lia|exact R]. }
  unfold len_bytes. rewrite Lp, Ln.
  unfold MIN_PRIVATE_MODULUS_BYTES, MIN_PRIVATE_MODULUS_BITS, MAX_PRIVATE_MODULUS_BYTES, MAX_PRIVATE_MODULUS_BITS, MIN_PUBLIC_MODULUS_BYTES, MIN_PUBLIC_MODULUS_BITS, MAX_PUBLIC_MODULUS_BYTES, MAX_PUBLIC_MODULUS_BITS.
  replace ((64 * k + 7) / 8) with (8 * k) by (Z.div_mod_to_equations; lia). replace ((128 * k + 7) / 8) with (16 * k) by (Z.div_mod_to_equations; lia).
  change (1024 / 8) with 128. change (4096 / 8) with 512. change (2048 / 8) with 256. change (8192 / 8) with 1024.
  destruct (Z.leb_spec 128 (8 * k)); [|lia]. destruct (Z.leb_spec (8 * k) 512); [|lia]. destruct (Z.leb_spec 256 (16 * k)); [|lia]. destruct (Z.leb_spec (16 * k) 1024); [|lia].
  cbn. eexists. reflexivity.
Qed.

(** a key whose private exponents are right, [make_key] for primes in order *)
Definition exponents_ok (d dp dq : posint) : Prop :=
  wf 128 d /\ wf 64 dp /\ wf 64 dq /\
  0 < val d < (val p - 1) * (val q - 1) /\ (val d * 65537) mod ((val p - 1) * (val q - 1)) = 1 /\
  val dp = val d mod (val p - 1) /\ val dq = val d mod (val q - 1).
Lemma make_any r : make_key bn p q = Ok r ->
  match r with
  | None => Z.gcd 65537 ((val p - 1) * (val q - 1)) <> 1
  | Some key => Z.gcd 65537 ((val p - 1) * (val q - 1)) = 1 /\ exists d dp dq, key_of bn p q d dp dq (mod_inverse bn q p) n key
  end.
Proof.
  unfold make_key. rewrite less_than_val. destruct (Z.ltb_spec (val q) (val p)); [|lia].
  destruct e_ok as (-> & We & Ve). cbn [bind]. cbv zeta. change MAX_PUBLIC_MODULUS_WORDS with 128. change MAX_PRIVATE_MODULUS_WORDS with 64. fold one. fold p1 q1. fold n phi.
  destruct phi_ok as [Wf Vf]. pose proof (shape_gt _ Sp) as [_ Gp]. pose proof (shape_gt _ Sq) as [_ Gq]. pose proof (big_3 _ Gp). pose proof (big_3 _ Gq).
  destruct (invert_vartime bn (pfill 128 1 [65537]) phi) as [i| |] eqn:EI; try discriminate.
  pose proof (invert_gcd bn 128 (pfill 128 1 [65537]) phi ltac:(lia) ltac:(rewrite Ve; reflexivity) i We Wf ltac:(lia) ltac:(rewrite Vf; apply Z.mul_pos_pos; lia) EI) as G.
  rewrite Ve, Vf in G. cbn [bind]. destruct i as [d|].
  2:{ intros E. injection E as <-. intros Q. apply G in Q. congruence. }
  destruct (reduce_even bn d p1) as [dp| |]; try discriminate. cbn [bind]. destruct (reduce_even bn d q1) as [dq| |]; try discriminate. cbn [bind].
  change PUBLIC_EXPONENT with 65537. destruct (priv_new bn p q d dp dq (mod_inverse bn q p) n 65537) as [key| |] eqn:EK; try discriminate. cbn [bind].
  intros E. injection E as <-. split; [apply G; discriminate|]. exists d, dp, dq. now apply priv_new_fields.
Qed.

Lemma phi_room : k < 64 -> 2 * val phi <= 2 ^ (64 * 128).
Proof.
  intros K64. destruct phi_ok as [_ ->]. pose proof n_range as [_ R]. pose proof (pow_bits (1 + 128 * k) (64 * 128) ltac:(lia)) as PB.
  rewrite Z.pow_add_r in PB by lia. change (2 ^ 1) with 2 in PB. pose proof (shape_gt _ Sp) as [_ Gp]. pose proof (shape_gt _ Sq) as [_ Gq].
  assert (H : (val p - 1) * (val q - 1) <= val p * val q) by (clear - Gp Gq; nia). revert R PB H. generalize (2 ^ (64 * 128)) (2 ^ (128 * k)). clear. intros. lia.
Qed.
Lemma make_exact : k < 64 -> exists r, make_key bn p q = Ok r /\
  match r with
  | None => Z.gcd 65537 ((val p - 1) * (val q - 1)) <> 1
  | Some key => exists d dp dq, key_of bn p q d dp dq (mod_inverse bn q p) n key /\ exponents_ok d dp dq
  end.
Proof.
  intros K64. unfold make_key. rewrite less_than_val. destruct (Z.ltb_spec (val q) (val p)); [|lia].
  destruct e_ok as (-> & We & Ve). cbn [bind]. cbv zeta. change MAX_PUBLIC_MODULUS_WORDS with 128. change MAX_PRIVATE_MODULUS_WORDS with 64. fold one. fold p1 q1. fold n phi.
  destruct phi_ok as [Wf Vf]. destruct (sub1 p Wp Up Sp) as (Wp1 & Vp1 & Up1). destruct (sub1 q Wq Uq Sq) as (Wq1 & Vq1 & Uq1). fold p1 in Wp1, Vp1, Up1. fold q1 in Wq1, Vq1, Uq1.
  pose proof (shape_gt _ Sp) as [Fp Gp]. pose proof (shape_gt _ Sq) as [Fq Gq].
  assert (XY : 65537 < val phi) by (rewrite Vf; clear - Gp Gq; nia).
  pose proof (phi_room K64) as Y2.
  destruct (invert_ok bn BN 128 (pfill 128 1 [65537]) phi ltac:(lia) We Wf ltac:(rewrite Ve; reflexivity) ltac:(clear - Ve; lia) ltac:(clear - Ve XY; lia) Y2) as (i & EI & RI). clear Y2.
  rewrite EI. cbn [bind]. unfold inv_result in RI. rewrite Ve, Vf in RI. destruct i as [d|]; [|eexists; split; [reflexivity|exact RI]].
  destruct RI as (Wd & Ld & Md).
  assert (D0 : 0 < val d).
  { pose proof (val_bound 128 d Wd). destruct (Z.eq_dec (val d) 0) as [E|]; [|lia]. rewrite E, Z.mul_0_l, Z.mod_0_l in Md; [discriminate|]. rewrite <- Vf. lia. }
  assert (DB : val phi < val d * 65537).
  { pose proof (Z.div_mod (val d * 65537) (val phi) ltac:(lia)) as DM. rewrite Vf in DM at 3. rewrite Md in DM.
    assert (0 < val d * 65537 / val phi) by (assert (0 <= val d * 65537 / val phi) by (apply Z.div_pos; lia); assert (val d * 65537 / val phi <> 0) by (intros Z0; rewrite Z0 in DM; lia); lia).
    assert (val phi * 1 <= val phi * (val d * 65537 / val phi)) by (apply Z.mul_le_mono_nonneg_l; lia). lia. }
  assert (UD : k - 1 <= p_used d).
  { pose proof (val_bound 128 d Wd) as [_ BD]. pose proof (wf_used 128 d Wd). destruct (Z.le_gt_cases (k - 1) (p_used d)) as [|C]; [assumption|exfalso].
    pose proof (pow64_le (p_used d) (k - 1) ltac:(lia)). rewrite Vf in DB. assert (val d < 2 ^ (64 * (k - 1))) by lia. 
    assert (65537 * val d <= (val p - 1) * (val q - 1)) by (apply Z.mul_le_mono_nonneg; lia). lia. }
  assert (Wk : forall v, val v = val p - 1 \/ val v = val q - 1 -> wf 64 v -> p_used v = k -> exists r, reduce_even bn d v = Ok r /\ wf 64 r /\ val r = val d mod val v).
  { intros v Hv Wv Uv.
    assert (V1 : 1 < val v) by (pose proof (big_3 _ Gp); pose proof (big_3 _ Gq); destruct Hv as [->| ->]; lia).
    assert (V2 : 2 ^ (64 * (p_used v - 1)) <= val v) by (rewrite Uv; destruct Hv as [->| ->]; apply Z.lt_le_incl; assumption).
    destruct (reduce_even_ok bn BN 64 v Wv V1 128 d Wd eq_refl ltac:(rewrite Uv; exact UD) V2) as (r & E & Wr & _ & Vr).
    exists r. auto. }
  destruct (Wk p1 ltac:(left; exact Vp1) Wp1 Up1) as (dp & -> & Wdp & Vdp). cbn [bind].
  destruct (Wk q1 ltac:(right; exact Vq1) Wq1 Uq1) as (dq & -> & Wdq & Vdq). cbn [bind].
  change PUBLIC_EXPONENT with 65537. destruct (priv_ok d dp dq (mod_inverse bn q p)) as (key & EK). rewrite EK. cbn [bind].
  eexists. split; [reflexivity|]. exists d, dp, dq. split; [now apply priv_new_fields|].
  split; [exact Wd|]. split; [exact Wdp|]. split; [exact Wdq|]. split; [split; assumption|]. split; [exact Md|]. rewrite Vp1 in Vdp. rewrite Vq1 in Vdq. auto.
Qed.
End Make.

Lemma make_key_sym bn p q : val p < val q -> make_key bn p q = make_key bn q p.
Proof. intros H. unfold make_key. rewrite !less_than_val. destruct (Z.ltb_spec (val q) (val p)), (Z.ltb_spec (val p) (val q)); try lia. reflexivity. Qed.

(** a number that came out of the search *)
Definition found {S} (chk : S -> Z -> res (list Z) * S) (size : key_size) (x : posint) : Prop :=
  wf 64 x /\ p_used x = modulus_bits size / 2 / 64 /\ exists s1 s2, passed chk size (val x) s1 s2.
Local Opaque make_key random_prime_loop.
Lemma generate_loop_ok bn (BN : bignum_ok bn) S (cand chk : S -> Z -> res (list Z) * S) : source_ok cand -> source_ok chk ->
  forall n fuel size s key s', generate_loop bn S cand chk n fuel size s = Some (Ok key, s') ->
  exists p q, found chk size p /\ found chk size q /\ val q < val p /\ make_key bn p q = Ok (Some key).
Proof.
  intros FC FK. induction n as [|n IH]; intros fuel size s key s' E; [discriminate|]. cbn [generate_loop] in E. unfold random_prime in E.
  destruct (random_prime_loop bn S cand chk fuel fuel size s) as [[[p| |] s1]|] eqn:EP; try discriminate E.
  destruct (random_prime_loop bn S cand chk fuel fuel size s1) as [[[q| |] s2]|] eqn:EQ; try discriminate E.
  rewrite pequals_val in E. destruct (Z.eqb_spec (val p) (val q)); [discriminate E|].
  destruct (make_key bn p q) as [[k|]| |] eqn:EK; try discriminate E; [|eapply IH; exact E]. injection E as <- <-.
  assert (Fp : found chk size p) by (destruct (random_prime_loop_ok bn BN S cand chk FC FK size _ _ _ _ _ EP) as (a & A & B & C); split; [exact A|split; [exact B|exists a; eexists; exact C]]).
  assert (Fq : found chk size q) by (destruct (random_prime_loop_ok bn BN S cand chk FC FK size _ _ _ _ _ EQ) as (a & A & B & C); split; [exact A|split; [exact B|exists a; eexists; exact C]]).
  destruct (Z.lt_total (val q) (val p)) as [L|[L|L]]; [exists p, q; auto|congruence|]. exists q, p. rewrite <- make_key_sym by assumption. auto.
Qed.
Lemma found_facts {S} chk size (x : posint) : @found S chk size x -> exists k, 16 <= k <= 64 /\ modulus_bits size = 128 * k /\
  wf 64 x /\ p_used x = k /\ prime_shape (64 * k) (val x).
Proof.
  intros (W & U & s1 & s2 & Sh & _). destruct (size_facts size) as (k & Hk & _ & Em & _). exists k. split; [exact Hk|]. split; [exact Em|].
  rewrite Em in U, Sh. replace (128 * k / 2) with (64 * k) in U, Sh by (Z.div_mod_to_equations; lia). rewrite Z.mul_comm, Z.div_mul in U by lia. auto.
Qed.

(** Every key generated, whatever the source of randomness yields: p > q, each of exactly half the size with the top two bits
    set, free of prime factors below 743 and having passed [bases] Miller-Rabin bases; n = p q of exactly the size asked for;
    e = 65537 is invertible modulo (p-1)(q-1); and qinv is the inverse of q modulo p (unless p and q share a factor, which no two
    distinct primes do). *)
Theorem C26_generated_key : forall bn, bignum_ok bn -> forall S (cand chk : S -> Z -> res (list Z) * S), source_ok cand -> source_ok chk ->
  forall fuel size s key s', generate_key bn S cand chk fuel size s = Some (Ok key, s') ->
  let p := val (pr_p key) in let q := val (pr_q key) in let n := val (pub_n (pr_public key)) in let qinv := val (pr_iqmp key) in
  q < p /\ (exists s1 s2, passed chk size p s1 s2) /\ (exists s1 s2, passed chk size q s1 s2) /\
  n = p * q /\ Z.log2 n + 1 = modulus_bits size /\ pub_e (pr_public key) = 65537 /\ Z.gcd 65537 ((p - 1) * (q - 1)) = 1 /\
  (rel_prime q p -> 0 < qinv < p /\ (q * qinv) mod p = 1).
Proof.
  intros bn BN S cand chk FC FK fuel size s key s' E. unfold generate_key in E.
  destruct (generate_loop_ok bn BN S cand chk FC FK _ _ _ _ _ _ E) as (p & q & Fp & Fq & L & EK).
  destruct (found_facts _ _ _ Fp) as (k & Hk & Em & Wp & Up & Sp). destruct (found_facts _ _ _ Fq) as (k' & Hk' & Em' & Wq & Uq & Sq).
  assert (Ek : k' = k) by lia. rewrite Ek in Uq, Sq. destruct (make_any bn k Hk p q Wp Wq Up Uq Sp Sq L _ EK) as (G & d & dp & dq & _ & -> & -> & _ & _ & _ & -> & -> & ->).
  cbv zeta. destruct (n_ok k p q Wp Wq Up Uq) as (_ & Vn & _). rewrite Vn.
  split; [exact L|]. split; [apply Fp|]. split; [apply Fq|]. split; [reflexivity|].
  split; [rewrite Em; apply log2_shape; [lia|]; apply (n_range k Hk p q Sp Sq)|]. split; [reflexivity|]. split; [exact G|].
  intros RP. assert (P1 : 1 < val p) by (pose proof (shape_gt k Hk _ Sp) as [_ G2]; pose proof (big_3 _ G2); lia).
  assert (GC : Z.gcd (val q) (val p) = 1) by (apply Zgcd_1_rel_prime; exact RP).
  destruct (mod_inverse_ok bn BN 64 q p Wq Wp (proj2 Sp) P1 L GC) as (Wi & Li & Mi & _). split; [|exact Mi]. split; [|exact Li].
  pose proof (val_bound 64 _ Wi). destruct (Z.eq_dec (val (mod_inverse bn q p)) 0) as [Z0|]; [|lia].
  rewrite Z0, Z.mul_0_r, Z.mod_0_l in Mi by lia. discriminate Mi.
Qed.
Print Assumptions C26_generated_key.

Lemma not_8192 size k : size <> Rsa8192 -> modulus_bits size = 128 * k -> k < 64.
Proof. destruct size; cbn [modulus_bits]; intros N E; try lia. now destruct N. Qed.
(** The private exponents, for every size but 8192: d is the inverse of 65537 modulo (p-1)(q-1), and dp, dq its remainders.  Missing:
    8192-bit keys, where the inversion keeps its sums in an array with no room for the carry ([C26_inversion_refuted]). *)
Theorem C26_exponents_partial : forall bn, bignum_ok bn -> forall S (cand chk : S -> Z -> res (list Z) * S), source_ok cand -> source_ok chk ->
  forall fuel size s key s', size <> Rsa8192 -> generate_key bn S cand chk fuel size s = Some (Ok key, s') ->
  let p := val (pr_p key) in let q := val (pr_q key) in let d := val (pr_d key) in
  0 < d < (p - 1) * (q - 1) /\ (d * 65537) mod ((p - 1) * (q - 1)) = 1 /\ val (pr_dp key) = d mod (p - 1) /\ val (pr_dq key) = d mod (q - 1).
Proof.
  intros bn BN S cand chk FC FK fuel size s key s' N8 E. unfold generate_key in E.
  destruct (generate_loop_ok bn BN S cand chk FC FK _ _ _ _ _ _ E) as (p & q & Fp & Fq & L & EK).
  destruct (found_facts _ _ _ Fp) as (k & Hk & Em & Wp & Up & Sp). destruct (found_facts _ _ _ Fq) as (k' & Hk' & Em' & Wq & Uq & Sq).
  assert (Ek : k' = k) by lia. rewrite Ek in Uq, Sq.
  destruct (make_exact bn BN k Hk p q Wp Wq Up Uq Sp Sq L (not_8192 _ _ N8 Em)) as (r & ER & X). rewrite EK in ER. injection ER as <-.
  destruct X as (d & dp & dq & (_ & -> & -> & -> & -> & -> & _) & (_ & _ & _ & X1 & X2 & X3 & X4)). cbv zeta. auto.
Qed.
Print Assumptions C26_exponents_partial.

Lemma mod_mod_divide a b m : (b | m) -> 0 < b -> 0 < m -> (a mod m) mod b = a mod b.
Proof. intros D Hb Hm. symmetry. apply Zmod_div_mod; assumption. Qed.
Lemma valid_key p q d i : prime p -> prime q -> 743 < p - 1 -> 743 < q - 1 -> q < p -> 0 < d < (p - 1) * (q - 1) ->
  (d * 65537) mod ((p - 1) * (q - 1)) = 1 -> 0 < i < p /\ (q * i) mod p = 1 ->
  rsa_valid p q (p * q) 65537 d (d mod (p - 1)) (d mod (q - 1)) i.
Proof.
  intros PP PQ P1 Q1 L X1 X2 QI.
  assert (PM : 0 < (p - 1) * (q - 1)) by (apply Z.mul_pos_pos; lia).
  assert (Mp : (d * 65537) mod (p - 1) = 1).
  { rewrite <- (mod_mod_divide _ (p - 1) ((p - 1) * (q - 1))) by (try lia; exists (q - 1); ring). rewrite X2. apply Z.mod_small. lia. }
  assert (Mq : (d * 65537) mod (q - 1) = 1).
  { rewrite <- (mod_mod_divide _ (q - 1) ((p - 1) * (q - 1))) by (try lia; exists (p - 1); ring). rewrite X2. apply Z.mod_small. lia. }
  assert (NZ : forall b, 1 < b -> (d * 65537) mod b = 1 -> 0 < d mod b).
  { intros b Hb M. destruct (Z.mod_pos_bound d b ltac:(lia)) as [A _]. destruct (Z.eq_dec (d mod b) 0) as [Z0|]; [|lia].
    rewrite Z.mul_mod, Z0, Z.mul_0_l, Z.mod_0_l in M by lia. discriminate M. }
  assert (A1 : 2 < p) by lia. assert (A2 : 2 < q) by lia. assert (A3 : p <> q) by lia.
  constructor; [exact PP|exact PQ|exact A1|exact A2|exact A3|reflexivity|reflexivity| | | |exact QI].
  - split; [apply X1|]. rewrite !(Z.mul_comm 65537). auto.
  - split; [split; [apply NZ; [clear - A1; lia|exact Mp]|]|].
    + apply Z.lt_trans with (p - 1); [apply Z.mod_pos_bound|]; clear - A1; lia.
    + rewrite Z.mul_mod_idemp_r by lia. rewrite Z.mul_comm. exact Mp.
  - split; [split; [apply NZ; [clear - Q1; lia|exact Mq]|]|].
    + apply Z.lt_trans with (q - 1); [apply Z.mod_pos_bound|]; clear - Q1; lia.
    + rewrite Z.mul_mod_idemp_r by lia. rewrite Z.mul_comm. exact Mq.
Qed.
(** When the numbers found are primes the key is a valid RSA key, fit for use (see C21, C24). *)
Theorem C26_valid_partial : forall bn, bignum_ok bn -> forall S (cand chk : S -> Z -> res (list Z) * S), source_ok cand -> source_ok chk ->
  forall fuel size s key s', size <> Rsa8192 -> generate_key bn S cand chk fuel size s = Some (Ok key, s') ->
  prime (val (pr_p key)) -> prime (val (pr_q key)) ->
  exists p q d dp dq iqmp n, usable_priv bn p q d dp dq iqmp n 65537 key /\ Z.log2 (val n) + 1 = modulus_bits size.
Proof.
  intros bn BN S cand chk FC FK fuel size s key s' N8 E PP PQ.
  destruct (C26_generated_key bn BN S cand chk FC FK fuel size s key s' E) as (_ & _ & _ & _ & LG & _ & _ & QI).
  unfold generate_key in E. destruct (generate_loop_ok bn BN S cand chk FC FK _ _ _ _ _ _ E) as (p & q & Fp & Fq & L & EK).
  destruct (found_facts _ _ _ Fp) as (k & Hk & Em & Wp & Up & Sp). destruct (found_facts _ _ _ Fq) as (k' & Hk' & Em' & Wq & Uq & Sq).
  assert (Ek : k' = k) by lia. rewrite Ek in Uq, Sq.
  destruct (make_exact bn BN k Hk p q Wp Wq Up Uq Sp Sq L (not_8192 _ _ N8 Em)) as (r & ER & X). rewrite EK in ER. injection ER as <-.
  destruct X as (d & dp & dq & (KN & Ep & Eq & Ed & Edp & Edq & Ei & En & Ee) & (Wd & Wdp & Wdq & X1 & X2 & X3 & X4)).
  rewrite Ep in *. rewrite Eq in *. rewrite En in *. rewrite Ei in *.
  destruct (n_ok k p q Wp Wq Up Uq) as (Wn & Vn & Un).
  assert (P1 : 743 < val p - 1) by (pose proof (shape_gt k Hk _ Sp) as [_ G2]; apply (big_3 _ G2)).
  assert (Q1 : 743 < val q - 1) by (pose proof (shape_gt k Hk _ Sq) as [_ G2]; apply (big_3 _ G2)).
  assert (GC : Z.gcd (val q) (val p) = 1).
  { apply Zgcd_1_rel_prime. apply prime_rel_prime; [exact PQ|]. intros D. apply prime_div_prime in D; [lia|assumption|assumption]. }
  destruct (mod_inverse_ok bn BN 64 q p Wq Wp (proj2 Sp) ltac:(lia) L GC) as (Wi & Li & Mi & _).
  exists p, q, d, dp, dq, (mod_inverse bn q p), (pmul 128 p q). split; [|exact LG].
  assert (NN : normal (pmul 128 p q)).
  { unfold normal. rewrite Un, Vn. pose proof (n_range k Hk p q Sp Sq) as [R _]. split; [clear - Hk; lia|].
    apply Z.le_trans with (2 := R). apply pow_bits. clear - Hk; lia. }
  assert (VV : rsa_valid (val p) (val q) (val (pmul 128 p q)) 65537 (val d) (val dp) (val dq) (val (mod_inverse bn q p))).
  { rewrite Vn, X3, X4. apply valid_key; try assumption. apply QI. apply Zgcd_1_rel_prime. exact GC. }
  exact (mkUsable bn p q d dp dq _ _ 65537 key Wp Wq Wdp Wdq Wi Wn NN VV L (eq_trans Up (eq_sym Uq)) KN).
Qed.
Print Assumptions C26_valid_partial.

(** Generated keys sign messages that verify (C24 applied). *)
Corollary C26_sign_then_verify_partial : forall bn, bignum_ok bn -> forall S (cand chk : S -> Z -> res (list Z) * S), source_ok cand -> source_ok chk ->
  forall fuel size s key s', size <> Rsa8192 -> generate_key bn S cand chk fuel size s = Some (Ok key, s') ->
  prime (val (pr_p key)) -> prime (val (pr_q key)) ->
  forall verify sign Hs oid lim, In (verify, sign, Hs, oid, lim) (pkcs1_algs bn) ->
  forall message, bytes message -> zlen message < lim ->
  exists sg, sign key (modulus_bits size / 8) message = Ok sg /\ verify (pr_public key) sg message = Ok tt.
Proof.
  intros bn BN S cand chk FC FK fuel size s key s' N8 E PP PQ verify sign Hs oid lim HA m Bm Lm.
  destruct (C26_valid_partial bn BN S cand chk FC FK fuel size s key s' N8 E PP PQ) as (p & q & d & dp & dq & i & n & U & LG).
  assert (BL : byte_length (val n) = modulus_bits size / 8 /\ (8 | byte_length (val n))).
  { unfold byte_length. replace (Z.log2 (val n)) with (modulus_bits size - 1) by (clear - LG; lia). destruct size; split; try reflexivity;
      (exists 32; reflexivity) || (exists 48; reflexivity) || (exists 64; reflexivity) || (exists 96; reflexivity) || (exists 128; reflexivity). }
  destruct BL as [BL D8].
  destruct (C24_pkcs1 bn BN verify sign Hs oid lim HA p q d dp dq i n 65537 key U D8 m Bm Lm (modulus_bits size / 8)) as [A _].
  destruct A as (sg & A & B & _); [rewrite BL; apply Z.le_refl|]. exists sg. auto.
Qed.
Print Assumptions C26_sign_then_verify_partial.

(** *** no panic *)
Definition never_panics {S} (fill : S -> Z -> res (list Z) * S) : Prop := forall s n, 0 <= n -> fst (fill s n) <> Panic.
Local Transparent random_prime_loop.
Section NoPanic.
Variable bn : bignum.
Hypothesis BN : bignum_ok bn.
Variable S : Type.
Variables cand chk : S -> Z -> res (list Z) * S.
Hypotheses (FC : source_ok cand) (FK : source_ok chk) (NC : never_panics cand) (NK : never_panics chk).
Variable size : key_size.
Notation h := (modulus_bits size / 2).

Lemma mr_no_panic w mr : wf 64 w -> Z.odd (val w) = true -> 3 < val w -> mr_new bn w = Ok mr ->
  forall fuel left s s', mr_loop bn S chk fuel mr (len_bits w) left s <> Some (Panic, s').
Proof.
  intros Ww Ow W3 HM. induction fuel as [|f IH]; intros left s s' E; [discriminate E|]. cbn [mr_loop] in E. cbv zeta in E.
  assert (L0 : 0 <= (len_bits w + 7) / 8) by (apply Z.div_pos; [|lia]; rewrite w_len by assumption; pose proof (Z.log2_nonneg (val w)); lia).
  pose proof (NK s ((len_bits w + 7) / 8) L0) as NP.
  destruct (chk s ((len_bits w + 7) / 8)) as [[buf| |] s1] eqn:EF; [|discriminate E|now apply NP].
  destruct (base_ok S chk FK w Ww Ow W3 buf s s1 EF) as (b & Eb & Wb & DB). rewrite Eb in E. cbn [bind] in E.
  destruct (check_base_ok bn BN w Ww Ow W3 mr HM b Wb) as (v & Ec & _). rewrite Ec in E.
  destruct v; [apply (IH _ _ _ E)| |discriminate E]. destruct (left =? 0); [discriminate E|]. apply (IH _ _ _ E).
Qed.
Local Transparent is_prime.
Lemma is_prime_no_panic fuel p s s' : wf 64 p -> prime_shape h (val p) -> is_prime bn S chk fuel p size s <> Some (Panic, s').
Proof.
  intros Wp SH E. destruct (shape_big size _ SH) as [Bg Bs]. pose proof (big_3 _ Bs) as B3. assert (Op : Z.odd (val p) = true) by apply SH.
  unfold is_prime in E. change MAX_PRIVATE_MODULUS_WORDS with 64 in E. destruct product_reads as (sp & ES). rewrite ES in E.
  destruct (is_coprime p sp); cbn [negb] in E; [|discriminate E]. unfold miller_rabin in E. destruct (mr_new_ok bn p) as (mr & HM). rewrite HM in E.
  eapply mr_no_panic; eauto. lia.
Qed.
Local Opaque is_prime.
Lemma random_prime_no_panic n fuel s s' : random_prime_loop bn S cand chk n fuel size s <> Some (Panic, s').
Proof.
  revert s. induction n as [|n IH]; intros s E; [discriminate E|]. cbn [random_prime_loop] in E. unfold random_prime_one in E.
  assert (L0 : 0 <= private_prime_size_bits size / 8) by (destruct size; vm_compute; discriminate).
  pose proof (NC s _ L0) as NP.
  destruct (cand s (private_prime_size_bits size / 8)) as [[buf| |] s1] eqn:EC; [|discriminate E|now apply NP].
  destruct (cand_reads S cand FC size buf s s1 EC) as (c & Er & Wc & Vc & SH & Uc). rewrite Er in E.
  destruct (is_prime bn S chk fuel c size s1) as [[[[|]| |] s2]|] eqn:EP; try discriminate E.
  - apply (IH _ E).
  - apply (is_prime_no_panic _ _ _ _ Wc SH EP).
Qed.
End NoPanic.
Local Opaque random_prime_loop.
(** Generation never panics when the source of randomness does not (every size but 8192). *)
Theorem C26_no_panic_partial : forall bn, bignum_ok bn -> forall S (cand chk : S -> Z -> res (list Z) * S), source_ok cand -> source_ok chk ->
  never_panics cand -> never_panics chk ->
  forall fuel size s s', size <> Rsa8192 -> generate_key bn S cand chk fuel size s <> Some (Panic, s').
Proof.
  intros bn BN S cand chk FC FK NC NK fuel size s s' N8. unfold generate_key. generalize fuel at 1. intros n. revert s.
  induction n as [|n IH]; intros s E; [discriminate E|]. cbn [generate_loop] in E. unfold random_prime in E.
  destruct (random_prime_loop bn S cand chk fuel fuel size s) as [[[p| |] s1]|] eqn:EP; try discriminate E; [|exact (random_prime_no_panic bn BN S cand chk FC FK NC NK size _ _ _ _ EP)].
  destruct (random_prime_loop bn S cand chk fuel fuel size s1) as [[[q| |] s2]|] eqn:EQ; try discriminate E; [|exact (random_prime_no_panic bn BN S cand chk FC FK NC NK size _ _ _ _ EQ)].
  rewrite pequals_val in E. destruct (Z.eqb_spec (val p) (val q)); [discriminate E|].
  assert (Fp : found chk size p) by (destruct (random_prime_loop_ok bn BN S cand chk FC FK size _ _ _ _ _ EP) as (a & A & B & C); split; [exact A|split; [exact B|exists a; eexists; exact C]]).
  assert (Fq : found chk size q) by (destruct (random_prime_loop_ok bn BN S cand chk FC FK size _ _ _ _ _ EQ) as (a & A & B & C); split; [exact A|split; [exact B|exists a; eexists; exact C]]).
  destruct (found_facts _ _ _ Fp) as (k & Hk & Em & Wp & Up & Sp). destruct (found_facts _ _ _ Fq) as (k' & Hk' & Em' & Wq & Uq & Sq).
  assert (Ek : k' = k) by lia. rewrite Ek in Uq, Sq. pose proof (not_8192 _ _ N8 Em) as K64.
  assert (R : exists r, make_key bn p q = Ok r).
  { destruct (Z.lt_total (val q) (val p)) as [L|[L|L]]; [|congruence|].
    - destruct (make_exact bn BN k Hk p q Wp Wq Up Uq Sp Sq L K64) as (r & ER & _). now exists r.
    - destruct (make_exact bn BN k Hk q p Wq Wp Uq Up Sq Sp L K64) as (r & ER & _). exists r. rewrite make_key_sym by assumption. exact ER. }
  destruct R as ([key|] & ER); rewrite ER in E; [discriminate E|]. apply (IH _ E).
Qed.
Print Assumptions C26_no_panic_partial.

