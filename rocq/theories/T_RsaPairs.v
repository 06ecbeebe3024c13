(** C26: which keys can come out of RSA key generation, and the fault of its modular inversion. *)
Require Import Verif.Base Verif.L_Base Verif.L_Blocks Verif.L_Bits Verif.M_Util Verif.L_Util Verif.T_Util Verif.M_PosInt Verif.S_Bignum
  Verif.L_PosInt Verif.T_PosInt Verif.L_Mont Verif.L_Fermat Verif.M_Rsa Verif.S_Rsa Verif.L_Rsa Verif.M_RsaGen Verif.S_Prime Verif.L_Invert
  Verif.L_RsaGen Verif.L_BignumRef Verif.T_RsaGen Verif.T_RsaKeyGen.
Require Import ZifyNat Znumtheory.

(** A source whose state counts the candidates drawn: p comes first, then q.  And one that yields the base a while the first candidate
    is tested, and b afterwards. *)
Definition feed (p q : Z) (s : Z) (n : Z) : res (list Z) * Z :=
  if n <? 0 then (Err RngFailed, s) else (Ok (be_bytes (Z.to_nat n) (if s =? 0 then p else q)), s + 1).
Definition base_source (a b : Z) (s : Z) (n : Z) : res (list Z) * Z :=
  if n <? 0 then (Err RngFailed, s) else (Ok (be_bytes (Z.to_nat n) (if s =? 1 then a else b)), s).
Lemma feed_ok p q : source_ok (feed p q).
Proof.
  intros s n r s'. unfold feed. destruct (Z.ltb_spec n 0); [discriminate|]. intros E. injection E as <- _.
  split; [rewrite zlen_be_bytes; lia|apply be_bytes_bytes].
Qed.
Lemma bases_ok a b : source_ok (base_source a b).
Proof.
  intros s n r s'. unfold base_source. destruct (Z.ltb_spec n 0); [discriminate|]. intros E. injection E as <- _.
  split; [rewrite zlen_be_bytes; lia|apply be_bytes_bytes].
Qed.
(** numbers without small prime factors pass the trial division *)
Lemma prime_divisor n : 1 < n -> exists r, prime r /\ (r | n).
Proof.
  intros H. refine (Z_lt_induction (fun n => 1 < n -> exists r, prime r /\ (r | n)) _ n _ H); [|lia].
  clear n H. intros n IH Hn. destruct (prime_dec n) as [P|P]; [exists n; split; [exact P|apply Z.divide_refl]|].
    destruct (not_prime_divide n Hn P) as (m & Hm & D). destruct (IH m ltac:(lia) ltac:(lia)) as (r & Pr & Dr). exists r. split; [exact Pr|].
    eapply Z.divide_trans; eassumption.
Qed.
Lemma prime_in_product r l : prime r -> (r | fold_right Z.mul 1 l) -> exists x, In x l /\ (r | x).
Proof.
  intros P. induction l as [|x l IH]; cbn [fold_right]; intros D.
  - apply Z.divide_1_r_nonneg in D; pose proof (prime_ge_2 r P); lia.
  - apply prime_mult in D; [|exact P]. destruct D as [D|D]; [exists x; split; [now left|exact D]|].
    destruct (IH D) as (y & I & Y). exists y. split; [now right|exact Y].
Qed.
Lemma sieve_pass sp v : pfrom_bytes 64 PRODUCT_OF_SMALL_PRIMES = Ok sp -> 0 < val v -> no_small_factor (val v) -> is_coprime v sp = true.
Proof.
  intros E V0 NS. destruct (from_bytes_spec 64 _ ltac:(lia) product_bytes) as [A _]. destruct A as (sp' & E' & _ & V & _).
  { apply product_fits. }
  rewrite E in E'. injection E' as <-. unfold is_coprime, bn_coprime. fold (val v) (val sp). rewrite V. apply Z.eqb_eq.
  pose proof (Z.gcd_nonneg (val v) (be_val PRODUCT_OF_SMALL_PRIMES)) as G0. destruct (Z.eq_dec (Z.gcd (val v) (be_val PRODUCT_OF_SMALL_PRIMES)) 0) as [Z0|].
  { apply Z.gcd_eq_0_l in Z0. lia. }
  destruct (Z.eq_dec (Z.gcd (val v) (be_val PRODUCT_OF_SMALL_PRIMES)) 1) as [|N1]; [assumption|exfalso].
  destruct (prime_divisor (Z.gcd (val v) (be_val PRODUCT_OF_SMALL_PRIMES)) ltac:(lia)) as (r & P & D).
  assert (D1 : (r | val v)) by (eapply Z.divide_trans; [exact D|apply Z.gcd_divide_l]).
  assert (D2 : (r | be_val PRODUCT_OF_SMALL_PRIMES)) by (eapply Z.divide_trans; [exact D|apply Z.gcd_divide_r]).
  rewrite <- small_primes_product in D2. apply prime_in_product in D2; [|exact P]. destruct D2 as (x & I & X).
  assert (B : 0 < x < 743).
  { assert (Q : forallb (fun x => (0 <? x) && (x <? 743)) small_primes_list = true) by (vm_compute; reflexivity). rewrite forallb_forall in Q. specialize (Q x I). lia. }
  apply (NS r P); [|exact D1]. apply Z.divide_pos_le in X; lia.
Qed.
Lemma shape_kept h v : 2 < h -> prime_shape h v -> Z.lor v (3 * 2 ^ (h - 2) + 1) = v.
Proof.
  intros Hh [[L U] O]. assert (P : 2 ^ h = 4 * 2 ^ (h - 2)) by (replace h with (2 + (h - 2)) at 1 by lia; rewrite Z.pow_add_r by lia; reflexivity).
  assert (P2 : 2 <= 2 ^ (h - 2)) by (change 2 with (2 ^ 1) at 1; apply Z.pow_le_mono_r; lia).
  assert (E : v = 3 * 2 ^ (h - 2) + (v - 3 * 2 ^ (h - 2))) by lia.
  rewrite E at 1. rewrite lor_split by lia. change (Z.lor 3 3) with 3.
  set (r := v - 3 * 2 ^ (h - 2)) in *.
  assert (OR : Z.odd r = true).
  { unfold r. rewrite Z.odd_sub, O, Z.odd_mul. replace (h - 2) with (1 + (h - 3)) by lia. rewrite Z.pow_add_r, Z.odd_mul by lia. reflexivity. }
  replace (Z.lor r 1) with r; [lia|]. apply Z.odd_spec in OR as [m ->]. clear. apply Z.bits_inj'. intros i Hi. rewrite Z.lor_spec.
  destruct (Z.eq_dec i 0) as [->|]; [rewrite Z.testbit_odd_0; reflexivity|]. replace (Z.testbit 1 i) with false; [now rewrite Bool.orb_false_r|].
  symmetry. apply Z.bits_above_log2; [lia|cbn; lia].
Qed.
Lemma feed_reads size (p q s c : Z) : (if s =? 0 then p else q) = c -> prime_shape (modulus_bits size / 2) c ->
  exists buf x, feed p q s (private_prime_size_bits size / 8) = (Ok buf, s + 1) /\ pfrom_bytes 64 (shape_candidate buf) = Ok x /\
    wf 64 x /\ val x = c /\ p_used x = modulus_bits size / 2 / 64.
Proof.
  intros Ec SH. destruct (size_facts size) as (k & Hk & Eh & Em & E8 & _).
  exists (be_bytes (Z.to_nat (private_prime_size_bits size / 8)) c).
  assert (EF : feed p q s (private_prime_size_bits size / 8) = (Ok (be_bytes (Z.to_nat (private_prime_size_bits size / 8)) c), s + 1)).
  { unfold feed. rewrite Ec. destruct (Z.ltb_spec (private_prime_size_bits size / 8) 0); [lia|reflexivity]. }
  destruct (cand_reads Z (feed p q) (feed_ok p q) size _ _ _ EF) as (x & Er & Wx & Vx & _ & Ux). exists x.
  split; [exact EF|]. split; [exact Er|]. split; [exact Wx|]. split; [|exact Ux]. rewrite Vx, be_val_be_bytes.
  rewrite Z.mod_small; [apply shape_kept; [|exact SH]; rewrite half_bits, Eh; lia|].
  rewrite E8, Z2Nat.id by lia. rewrite p256 by lia. replace (8 * (8 * k)) with (64 * k) by lia. rewrite <- Eh, <- half_bits.
  destruct SH as [[L U] _]. split; [|exact U]. apply Z.le_trans with (2 := L). apply Z.mul_nonneg_nonneg; [lia|]. apply Z.pow_nonneg. lia.
Qed.
Lemma bases_run a b s w c k : (if s =? 1 then a else b) = c -> 1 < c < w - 1 -> strong_probable_prime w c -> 0 <= k -> mr_run (base_source a b) w k s true s.
Proof.
  intros Ec C SP Hk. rewrite <- (Z2Nat.id k Hk). induction (Z.to_nat k) as [|j IH]; [apply run_done|].
  assert (D : draw_base (base_source a b) w s c s).
  { unfold draw_base. pose proof (Z.log2_nonneg w). set (l := Z.log2 w) in *. destruct (Z.log2_spec w ltac:(lia)) as [_ W]. fold l in W. change (Z.succ l) with (l + 1) in W.
    exists (be_bytes (Z.to_nat ((l + 1 + 7) / 8)) c). assert (N0 : 1 <= (l + 1 + 7) / 8) by (apply Z.div_le_lower_bound; lia).
    split; [unfold base_source; rewrite Ec; destruct (Z.ltb_spec ((l + 1 + 7) / 8) 0); [lia|reflexivity]|].
    rewrite be_val_be_bytes, Z2Nat.id by lia. rewrite (Z.mod_small c (256 ^ _)); [symmetry; apply Z.mod_small; lia|].
    split; [lia|]. rewrite p256 by lia. apply Z.lt_le_trans with (2 ^ (l + 1)); [lia|]. apply Z.pow_le_mono_r; [lia|Z.div_mod_to_equations; lia]. }
  apply run_pass with (b := c) (s1 := s); [lia|exact D|exact C|exact SP|].
  replace (Z.of_nat (Datatypes.S j) - 1) with (Z.of_nat j) by lia. exact IH.
Qed.
Lemma base_passes bn (BN : bignum_ok bn) size x a b s c : wf 64 x -> prime_shape (modulus_bits size / 2) (val x) -> no_small_factor (val x) ->
  (if s =? 1 then a else b) = c -> 1 < c < val x - 1 -> strong_probable_prime (val x) c ->
  exists f0, forall fuel, (f0 <= fuel)%nat -> is_prime bn Z (base_source a b) fuel x size s = Some (Ok true, s).
Proof.
  intros Wx SH NS Ec C SP. destruct (shape_big size _ SH) as [_ Bs]. pose proof (big_3 _ Bs) as B3. assert (O : Z.odd (val x) = true) by apply SH.
  destruct (mr_new_ok bn x) as (mr & HM). destruct (bases_rounds size) as [EB B0].
  destruct (mr_complete bn BN Z (base_source a b) (bases_ok a b) x Wx O ltac:(lia) mr HM (bases size) s true s) as (f0 & F).
  { eapply bases_run; [exact Ec|exact C|exact SP|lia]. } { lia. }
  exists f0. intros fuel Hf. unfold is_prime. change MAX_PRIVATE_MODULUS_WORDS with 64. destruct product_reads as (sp & ES). rewrite ES.
  rewrite (sieve_pass sp x ES ltac:(lia) NS). cbn [negb]. unfold miller_rabin. rewrite HM. rewrite <- (F fuel Hf). f_equal. lia.
Qed.
Local Opaque is_prime pfrom_bytes make_key.
(** Any two distinct numbers of the right shape without small factors, each a strong probable prime to at least one base, and with 65537
    invertible, come out for some randomness. *)
Theorem C26_every_pair_partial : forall bn, bignum_ok bn -> forall size p q a b, size <> Rsa8192 ->
  q < p -> prime_shape (modulus_bits size / 2) p -> prime_shape (modulus_bits size / 2) q -> no_small_factor p -> no_small_factor q ->
  1 < a < p - 1 -> strong_probable_prime p a -> 1 < b < q - 1 -> strong_probable_prime q b ->
  Z.gcd 65537 ((p - 1) * (q - 1)) = 1 ->
  exists (cand chk : Z -> Z -> res (list Z) * Z), source_ok cand /\ source_ok chk /\
  exists fuel s key s', generate_key bn Z cand chk fuel size s = Some (Ok key, s') /\ val (pr_p key) = p /\ val (pr_q key) = q.
Proof.
  intros bn BN size p q a b N8 L Sp Sq NSp NSq Ca Sa Cb Sb G. exists (feed p q), (base_source a b). split; [apply feed_ok|]. split; [apply bases_ok|].
  destruct (feed_reads size p q 0 p eq_refl Sp) as (bp & xp & Ep & Rp & Wp & Vp & Up).
  destruct (feed_reads size p q 1 q eq_refl Sq) as (bq & xq & Eq & Rq & Wq & Vq & Uq).
  rewrite <- Vp in Sp, NSp, Ca, Sa. rewrite <- Vq in Sq, NSq, Cb, Sb.
  destruct (base_passes bn BN size xp a b (0 + 1) a Wp Sp NSp eq_refl Ca Sa) as (fp & Fp).
  destruct (base_passes bn BN size xq a b (1 + 1) b Wq Sq NSq eq_refl Cb Sb) as (fq & Fq).
  set (fuel := Datatypes.S (fp + fq)). exists fuel, 0.
  assert (RP : random_prime bn Z (feed p q) (base_source a b) fuel size 0 = Some (Ok xp, 1)).
  { unfold random_prime, fuel. cbn [random_prime_loop]. unfold random_prime_one. rewrite Ep. change MAX_PRIVATE_MODULUS_WORDS with 64. rewrite Rp, Fp by lia. reflexivity. }
  assert (RQ : random_prime bn Z (feed p q) (base_source a b) fuel size 1 = Some (Ok xq, 2)).
  { unfold random_prime, fuel. cbn [random_prime_loop]. unfold random_prime_one. rewrite Eq. change MAX_PRIVATE_MODULUS_WORDS with 64. rewrite Rq, Fq by lia. reflexivity. }
  destruct (size_facts size) as (k & Hk & Eh & Em & _). rewrite half_bits, Eh in Sp, Sq, Up, Uq. rewrite Z.mul_comm, Z.div_mul in Up, Uq by lia.
  assert (L' : val xq < val xp) by congruence.
  destruct (make_exact bn BN k Hk xp xq Wp Wq Up Uq Sp Sq L' (not_8192 _ _ N8 Em)) as (r & ER & X).
  destruct r as [key|]; [|rewrite Vp, Vq in X; contradiction]. destruct X as (d & dp & dq & (_ & Kp & Kq & _) & _).
  exists key, 2. split; [|rewrite Kp, Kq; auto]. unfold generate_key, fuel. cbn [generate_loop]. fold fuel. rewrite RP, RQ, pequals_val.
  destruct (Z.eqb_spec (val xp) (val xq)); [lia|]. rewrite ER. reflexivity.
Qed.
Print Assumptions C26_every_pair_partial.

(** In particular any two primes, however close to each other: FIPS 186-5 A.1.3 asks for a distance of more than 2^(nlen/2-100),
    and nothing in the code checks this. *)
Corollary C26_every_prime_pair_partial : forall bn, bignum_ok bn -> forall size p q, size <> Rsa8192 ->
  prime p -> prime q -> q < p -> prime_shape (modulus_bits size / 2) p -> prime_shape (modulus_bits size / 2) q ->
  Z.gcd 65537 ((p - 1) * (q - 1)) = 1 ->
  exists (cand chk : Z -> Z -> res (list Z) * Z), source_ok cand /\ source_ok chk /\
  exists fuel s key s', generate_key bn Z cand chk fuel size s = Some (Ok key, s') /\ val (pr_p key) = p /\ val (pr_q key) = q.
Proof.
  intros bn BN size p q N8 PP PQ L Sp Sq G.
  pose proof (big_3 _ (proj2 (shape_big size _ Sp))) as Bp. pose proof (big_3 _ (proj2 (shape_big size _ Sq))) as Bq.
  assert (NS : forall v, prime v -> 743 < v -> no_small_factor v).
  { intros v P B r R LT D. apply prime_div_prime in D; [lia|exact R|exact P]. }
  apply (C26_every_pair_partial bn BN size p q 2 2 N8 L Sp Sq); try lia; try (apply NS; assumption); apply prime_strong; try assumption; lia.
Qed.
Print Assumptions C26_every_prime_pair_partial.

(** Whatever is drawn?  No: primality is only probable.  Numbers b^2+1 with b even are strong probable primes to the base b, so if the
    source yields b for every base, a composite b^2+1 without small factors comes out as a "prime". *)
Lemma square_strong b : 0 < b -> Z.even b = true -> strong_probable_prime (b * b + 1) b.
Proof.
  intros B E. assert (H : exists a m, 0 < a /\ b * b = 2 ^ a * m /\ Z.odd m = true /\ 2 <= a).
  { assert (Q : forall n, 0 < n -> exists a m, 0 <= a /\ n = 2 ^ a * m /\ Z.odd m = true).
    { intros n Hn. refine (Z_lt_induction (fun n => 0 < n -> exists a m, 0 <= a /\ n = 2 ^ a * m /\ Z.odd m = true) _ n _ Hn); [|lia].
      clear n Hn. intros n IH Hn. destruct (Z.odd n) eqn:O; [exists 0, n; split; [lia|]; split; [now rewrite Z.pow_0_r, Z.mul_1_l|exact O]|].
      rewrite <- Z.negb_even in O. apply Bool.negb_false_iff in O. apply Z.even_spec in O as [h ->]. destruct (IH h ltac:(lia) ltac:(lia)) as (a & m & A & E2 & O).
      exists (a + 1), m. split; [lia|]. split; [rewrite Z.pow_add_r by lia; change (2 ^ 1) with 2; lia|exact O]. }
    apply Z.even_spec in E as [h ->]. destruct (Q (h * h)) as (a & m & A & E2 & O); [nia|]. exists (a + 2), m. split; [lia|].
    split; [rewrite Z.pow_add_r by lia; change (2 ^ 2) with 4; lia|]. split; [exact O|lia]. }
  destruct H as (a & m & A & E2 & O & A2). exists a, m. split; [exact A|]. split; [rewrite <- E2; ring|]. split; [exact O|]. right. exists 1. split; [lia|].
  assert (M0 : 0 <= m). { destruct (Z.le_gt_cases 0 m); [assumption|]. pose proof (Z.pow_pos_nonneg 2 a ltac:(lia) ltac:(lia)). nia. }
  change (2 ^ 1) with 2. rewrite Z.pow_mul_r by lia. rewrite Z.pow_2_r. apply Z.odd_spec in O as [t ->].
  assert (C : cong (b * b + 1) ((b * b) ^ (2 * t + 1)) (b * b)).
  { apply cong_trans with ((-1) ^ (2 * t + 1)); [apply cong_pow; exists 1; ring|]. rewrite Z.pow_add_r, Z.pow_mul_r by lia. change ((-1) ^ 2) with 1.
    rewrite Z.pow_1_l by lia. exists (-1). ring. }
  apply cong_eq in C; [|nia]. rewrite C. replace (b * b + 1 - 1) with (b * b) by ring. apply Z.mod_small. nia.
Qed.
Lemma no_small_gcd v : Z.odd v = true -> Z.gcd v (be_val PRODUCT_OF_SMALL_PRIMES) = 1 -> no_small_factor v.
Proof.
  intros O G r P Hr D. pose proof (prime_ge_2 r P). destruct (Z.eq_dec r 2) as [->|].
  { destruct D as [k ->]. rewrite Z.odd_mul, Bool.andb_false_r in O. discriminate O. }
  assert (D1 : (r | 1)) by (rewrite <- G; apply Z.gcd_greatest; [exact D|apply small_prime_divides; [exact P|lia]]).
  apply Z.divide_1_r_nonneg in D1; lia.
Qed.
Definition root_p : Z := 15 * 2 ^ 508 + 20.
Definition root_q : Z := 15 * 2 ^ 508 + 10.
Theorem C26_primality_refuted : forall bn, bignum_ok bn ->
  exists (cand chk : Z -> Z -> res (list Z) * Z), source_ok cand /\ source_ok chk /\
  exists fuel s key s', generate_key bn Z cand chk fuel Rsa2048 s = Some (Ok key, s') /\ ~ prime (val (pr_p key)) /\ ~ prime (val (pr_q key)).
Proof.
  intros bn BN.
  assert (L : root_q * root_q + 1 < root_p * root_p + 1) by (vm_compute; reflexivity).
  assert (Sp : prime_shape (modulus_bits Rsa2048 / 2) (root_p * root_p + 1)) by (unfold prime_shape; vm_compute; split; [split; [discriminate|reflexivity]|reflexivity]).
  assert (Sq : prime_shape (modulus_bits Rsa2048 / 2) (root_q * root_q + 1)) by (unfold prime_shape; vm_compute; split; [split; [discriminate|reflexivity]|reflexivity]).
  assert (Np : no_small_factor (root_p * root_p + 1)) by (apply no_small_gcd; vm_compute; reflexivity).
  assert (Nq : no_small_factor (root_q * root_q + 1)) by (apply no_small_gcd; vm_compute; reflexivity).
  assert (Cp : 1 < root_p < root_p * root_p + 1 - 1) by (vm_compute; split; reflexivity).
  assert (Cq : 1 < root_q < root_q * root_q + 1 - 1) by (vm_compute; split; reflexivity).
  assert (Tp : strong_probable_prime (root_p * root_p + 1) root_p) by (apply square_strong; vm_compute; reflexivity).
  assert (Tq : strong_probable_prime (root_q * root_q + 1) root_q) by (apply square_strong; vm_compute; reflexivity).
  assert (G : Z.gcd 65537 ((root_p * root_p + 1 - 1) * (root_q * root_q + 1 - 1)) = 1) by (vm_compute; reflexivity).
  destruct (C26_every_pair_partial bn BN Rsa2048 _ _ root_p root_q ltac:(discriminate) L Sp Sq Np Nq Cp Tp Cq Tq G) as (cand & chk & A & B & fuel & s & key & s' & E & Vp & Vq).
  exists cand, chk. split; [exact A|]. split; [exact B|]. exists fuel, s, key, s'. split; [exact E|]. rewrite Vp, Vq. split; intros P.
  - apply prime_divisors with (a := 12473) in P; [|exists ((root_p * root_p + 1) / 12473); vm_compute; reflexivity].
      destruct P as [P|[P|[P|P]]]; vm_compute in P; discriminate P.
  - apply prime_divisors with (a := 1049) in P; [|exists ((root_q * root_q + 1) / 1049); vm_compute; reflexivity].
      destruct P as [P|[P|[P|P]]]; vm_compute in P; discriminate P.
Qed.
Print Assumptions C26_primality_refuted.

(** *** The inversion behind d is wrong when the modulus fills its array *)
(** With arrays of two words: an odd x below a coprime y, and an answer that is no inverse.  The halving of y/2 + y loses its
    carry: it is or-ed into the highest non-zero word of the sum rather than into the highest word.  The arrays of generation have 128
    words, so this concerns 8192-bit keys only. *)
Definition bad_x : posint := mkPI [65537; 0] 1.
Definition bad_y : posint := mkPI [226854911280625642308916404954512140972 mod 2 ^ 64; 226854911280625642308916404954512140972 / 2 ^ 64] 2.
Theorem C26_inversion_refuted : exists x y d, wf 2 x /\ wf 2 y /\ Z.odd (val x) = true /\ 1 < val x < val y /\ Z.gcd (val x) (val y) = 1 /\
  invert_vartime ref_bignum x y = Ok (Some d) /\ (val d * val x) mod val y <> 1.
Proof.
  exists bad_x, bad_y. assert (R : exists d, invert_vartime ref_bignum bad_x bad_y = Ok (Some d) /\ val d = 6148820867675914241).
  { eexists. split; vm_compute; reflexivity. }
  destruct R as (d & E & V). exists d.
  assert (W : forall a b u, u64 a -> u64 b -> 0 <= u <= 2 -> Forall (eq 0) (zdrop u [a; b]) -> wf 2 (mkPI [a; b] u)).
  { intros a b u A B U F. split; [split; [reflexivity|repeat (constructor; try assumption)]|]. split; [exact U|exact F]. }
  split; [apply W; try (red; lia); try lia; repeat constructor|]. split; [apply W; [vm_compute; split; [discriminate|reflexivity]|vm_compute; split; [discriminate|reflexivity]|lia|vm_compute; constructor]|].
  split; [reflexivity|]. split; [split; vm_compute; reflexivity|]. split; [vm_compute; reflexivity|]. split; [exact E|]. rewrite V. vm_compute. discriminate.
Qed.
Print Assumptions C26_inversion_refuted.
