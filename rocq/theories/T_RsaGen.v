(** C26: RSA key generation yields consistent keys. *)
Require Import Verif.Base Verif.L_Base Verif.L_Blocks Verif.L_Bits Verif.M_Util Verif.L_Util Verif.T_Util Verif.M_PosInt Verif.S_Bignum
  Verif.L_PosInt Verif.T_PosInt Verif.L_Mont Verif.L_Fermat Verif.M_Rsa Verif.S_Rsa Verif.L_Rsa Verif.M_RsaGen Verif.S_Prime Verif.L_Invert
  Verif.L_RsaGen Verif.L_BignumRef.
Require Import ZifyNat Znumtheory.

(** *** What a random source is, and the requirements on the numbers *)
(** Filling a buffer of n bytes, when it succeeds, yields n bytes (which they are is not restricted). *)
Definition source_ok {S} (fill : S -> Z -> res (list Z) * S) : Prop :=
  forall s n r s', fill s n = (Ok r, s') -> zlen r = n /\ bytes r.
Definition modulus_bits (k : key_size) : Z :=
  match k with Rsa2048 => 2048 | Rsa3072 => 3072 | Rsa4096 => 4096 | Rsa6144 => 6144 | Rsa8192 => 8192 end.
(** number of bases to pass: one more than the smallest number of iterations FIPS 186-5 table B.1 allows *)
Definition bases (k : key_size) : Z := match k with Rsa2048 => 6 | _ => 5 end.
(** a number of exactly h bits, the top two set, and odd *)
Definition prime_shape (h v : Z) : Prop := 3 * 2 ^ (h - 2) <= v < 2 ^ h /\ Z.odd v = true.
Definition no_small_factor (v : Z) : Prop := forall r, prime r -> r < 743 -> ~ (r | v).
(** the base drawn for a number w: as many bits as w has, from a buffer of that many bits rounded up to bytes *)
Definition draw_base {S} (fill : S -> Z -> res (list Z) * S) (w : Z) (s : S) (b : Z) (s' : S) : Prop :=
  exists buf, fill s ((Z.log2 w + 1 + 7) / 8) = (Ok buf, s') /\ b = be_val buf mod 2 ^ (Z.log2 w + 1).
(** The Miller-Rabin test of FIPS 186-5 B.3.1 with bases from a source: k more bases to pass, from state s, the
    verdict, and the state of the source afterwards. *)
Inductive mr_run {S} (fill : S -> Z -> res (list Z) * S) (w : Z) : Z -> S -> bool -> S -> Prop :=
| run_done s : mr_run fill w 0 s true s
| run_skip k s b s1 r s2 : 0 < k -> draw_base fill w s b s1 -> b <= 1 \/ w - 1 <= b -> mr_run fill w k s1 r s2 -> mr_run fill w k s r s2
| run_pass k s b s1 r s2 : 0 < k -> draw_base fill w s b s1 -> 1 < b < w - 1 -> strong_probable_prime w b ->
    mr_run fill w (k - 1) s1 r s2 -> mr_run fill w k s r s2
| run_fail k s b s1 : 0 < k -> draw_base fill w s b s1 -> 1 < b < w - 1 -> ~ strong_probable_prime w b -> mr_run fill w k s false s1.

(** *** sizes *)
Lemma size_facts size : exists k, 16 <= k <= 64 /\ private_prime_size_bits size = 64 * k /\ modulus_bits size = 128 * k /\
  private_prime_size_bits size / 8 = 8 * k /\ public_modulus_size_bits size = 128 * k.
Proof. destruct size; [exists 16|exists 24|exists 32|exists 48|exists 64]; repeat split; try reflexivity; lia. Qed.
Lemma bases_rounds size : bases size = miller_rabin_rounds size + 1 /\ 0 <= miller_rabin_rounds size.
Proof. destruct size; split; reflexivity || (cbn; lia). Qed.

Theorem C26_sizes : forall v size, key_size_try_from v = Ok size <-> v = modulus_bits size.
Proof.
  intros v size. unfold key_size_try_from. split.
  - repeat (match goal with |- context [?a =? ?b] => destruct (Z.eqb_spec a b) as [->|] end; [intros E; injection E as <-; reflexivity|]). discriminate.
  - intros ->. destruct size; reflexivity.
Qed.
Print Assumptions C26_sizes.
Theorem C26_sizes_only : forall v, key_size_try_from v = Err OutOfRange <-> ~ In v [2048; 3072; 4096; 6144; 8192].
Proof.
  intros v. unfold key_size_try_from. cbn [In].
  repeat (match goal with |- context [?a =? ?b] => destruct (Z.eqb_spec a b) as [->|] end; [split; [discriminate|intros H; exfalso; apply H; tauto]|]).
  split; [intros _; intuition lia|reflexivity].
Qed.
Print Assumptions C26_sizes_only.

(** *** the candidate's bits *)
Lemma lor_split k a b x y : 0 <= k -> 0 <= x < 2 ^ k -> 0 <= y < 2 ^ k ->
  Z.lor (a * 2 ^ k + x) (b * 2 ^ k + y) = Z.lor a b * 2 ^ k + Z.lor x y.
Proof.
  intros Hk Hx Hy. rewrite <- !lor_add by (assumption || (apply lor_range; assumption)).
  rewrite Z.shiftl_lor. rewrite <- !Z.lor_assoc. f_equal. rewrite (Z.lor_comm x). rewrite <- Z.lor_assoc. f_equal. apply Z.lor_comm.
Qed.
Lemma upd_last (mid : list Z) x v : upd (mid ++ [x]) (length mid) v = mid ++ [v].
Proof. induction mid; cbn; [reflexivity|now rewrite IHmid]. Qed.
Lemma p256 n : 0 <= n -> 256 ^ n = 2 ^ (8 * n). Proof. intros. change 256 with (2 ^ 8). rewrite <- Z.pow_mul_r by lia. reflexivity. Qed.
Lemma shape_ok buf L : bytes buf -> zlen buf = L -> 2 <= L ->
  bytes (shape_candidate buf) /\ zlen (shape_candidate buf) = L /\
  be_val (shape_candidate buf) = Z.lor (be_val buf) (3 * 2 ^ (8 * L - 2) + 1).
Proof.
  intros Hb HL H2. destruct buf as [|b0 rest]; [change (zlen (@nil Z)) with 0 in HL; lia|]. rewrite zlen_cons in HL.
  destruct (exists_last (l := rest)) as (mid & bl & ->); [intros ->; change (zlen (@nil Z)) with 0 in HL; lia|].
  inversion Hb as [|? ? B0 Hr]; subst. apply Forall_app in Hr. destruct Hr as [Hm Hl]. inversion Hl as [|? ? Bl _]; subst.
  rewrite zlen_app in *. change (zlen [bl]) with 1 in *. set (m := zlen mid) in *. pose proof (zlen_nonneg mid) as M0. fold m in M0.
  assert (E : shape_candidate (b0 :: mid ++ [bl]) = Z.lor b0 192 :: mid ++ [Z.lor bl 1]).
  { unfold shape_candidate. cbv zeta. cbn [upd znth nth]. rewrite zlen_cons, zlen_app. change (zlen [bl]) with 1. fold m.
    replace (Z.to_nat (1 + (m + 1) - 1)) with (S (length mid)) by (unfold m, zlen; lia). cbn [upd]. f_equal.
    unfold znth. cbn [nth]. rewrite app_nth2, Nat.sub_diag by lia. cbn [nth]. apply upd_last. }
  rewrite E. red in B0, Bl.
  assert (R0 : 0 <= Z.lor b0 192 < 2 ^ 8) by (apply lor_range; lia). assert (Rl : 0 <= Z.lor bl 1 < 2 ^ 8) by (apply lor_range; lia).
  split; [constructor; [exact R0|]; apply Forall_app; split; [exact Hm|constructor; [exact Rl|constructor]]|].
  split; [rewrite zlen_cons, zlen_app; change (zlen [Z.lor bl 1]) with 1; fold m; lia|].
  rewrite !be_val_cons, !zlen_app, !be_val_app. change (zlen [bl]) with 1. change (zlen [Z.lor bl 1]) with 1. fold m.
  change (be_val [bl]) with (0 * 256 + bl) || (replace (be_val [bl]) with bl by (cbn; lia)).
  replace (be_val [Z.lor bl 1]) with (Z.lor bl 1) by (unfold be_val; cbn [rev app le_val]; lia).
  replace (be_val [bl]) with bl by (unfold be_val; cbn [rev app le_val]; lia).
  change (256 ^ 1) with (2 ^ 8). pose proof (be_val_bound mid Hm) as Bm. fold m in Bm. rewrite p256 in * by lia.
  replace (8 * (1 + (m + 1)) - 2) with (6 + 8 * (m + 1)) by lia. rewrite (Z.pow_add_r 2 6) by lia.
  replace (3 * (2 ^ 6 * 2 ^ (8 * (m + 1))) + 1) with (192 * 2 ^ (8 * (m + 1)) + (0 * 2 ^ 8 + 1)) by (change (2 ^ 6) with 64; lia).
  assert (S8 : 2 ^ (8 * (m + 1)) = 2 ^ (8 * m) * 2 ^ 8) by (rewrite <- Z.pow_add_r by lia; f_equal; lia).
  assert (P8 : 0 < 2 ^ (8 * m)) by (apply Z.pow_pos_nonneg; lia).
  rewrite lor_split; [|lia| |].
  - rewrite lor_split by lia. rewrite Z.lor_0_r. reflexivity.
  - rewrite S8. change (2 ^ 8) with 256 in *. nia.
  - rewrite S8. change (2 ^ 8) with 256 in *. nia.
Qed.
Lemma lor_shape h v : 2 < h -> 0 <= v < 2 ^ h -> prime_shape h (Z.lor v (3 * 2 ^ (h - 2) + 1)).
Proof.
  intros Hh Hv. assert (P : 2 ^ h = 4 * 2 ^ (h - 2)) by (replace h with (2 + (h - 2)) at 1 by lia; rewrite Z.pow_add_r by lia; reflexivity).
  assert (P2 : 2 <= 2 ^ (h - 2)) by (change 2 with (2 ^ 1) at 1; apply Z.pow_le_mono_r; lia).
  split.
  - split.
    + apply Z.le_trans with (3 * 2 ^ (h - 2) + 1); [lia|]. apply Z.ldiff_le; [apply Z.lor_nonneg; lia|].
      apply Z.bits_inj'. intros i Hi. rewrite Z.ldiff_spec, Z.lor_spec, Z.bits_0. destruct (Z.testbit (3 * 2 ^ (h - 2) + 1) i), (Z.testbit v i); reflexivity.
    + apply lor_range; lia.
  - rewrite <- Z.bit0_odd, Z.lor_spec. assert (Z.testbit (3 * 2 ^ (h - 2) + 1) 0 = true) as ->; [|apply Bool.orb_true_r].
    rewrite Z.bit0_odd, Z.odd_add, Z.odd_mul, Z.odd_pow by lia. reflexivity.
Qed.

(** *** the constant used for trial division *)
Definition small_primes_list : list Z := [
  3; 5; 7; 11; 13; 17; 19; 23; 29; 31; 37; 41; 43; 47; 53; 59; 61; 67; 71; 73; 79; 83; 89; 97; 101; 103; 107;
  109; 113; 127; 131; 137; 139; 149; 151; 157; 163; 167; 173; 179; 181; 191; 193; 197; 199; 211; 223; 227;
  229; 233; 239; 241; 251; 257; 263; 269; 271; 277; 281; 283; 293; 307; 311; 313; 317; 331; 337; 347; 349;
  353; 359; 367; 373; 379; 383; 389; 397; 401; 409; 419; 421; 431; 433; 439; 443; 449; 457; 461; 463; 467;
  479; 487; 491; 499; 503; 509; 521; 523; 541; 547; 557; 563; 569; 571; 577; 587; 593; 599; 601; 607; 613;
  617; 619; 631; 641; 643; 647; 653; 659; 661; 673; 677; 683; 691; 701; 709; 719; 727; 733; 739].
Lemma small_primes_product : fold_right Z.mul 1 small_primes_list = be_val PRODUCT_OF_SMALL_PRIMES.
Proof. vm_compute. reflexivity. Qed.
Lemma small_primes_all : forallb (fun i => let r := Z.of_nat i in existsb (Z.eqb r) small_primes_list ||
  existsb (fun d => (d <? r) && (r mod d =? 0)) [2; 3; 5; 7; 11; 13; 17; 19; 23]) (seq 3 740) = true.
Proof. vm_compute. reflexivity. Qed.
Lemma in_product r l : In r l -> (r | fold_right Z.mul 1 l).
Proof.
  induction l as [|a l IH]; intros []; cbn [fold_right]; [subst; exists (fold_right Z.mul 1 l); ring|].
  destruct (IH H) as [k ->]. exists (a * k). ring.
Qed.
Lemma small_prime_divides r : prime r -> 2 < r < 743 -> (r | be_val PRODUCT_OF_SMALL_PRIMES).
Proof.
  intros P H. rewrite <- small_primes_product. apply in_product. pose proof small_primes_all as Q. rewrite forallb_forall in Q.
  specialize (Q (Z.to_nat r)). cbv beta zeta in Q. rewrite Z2Nat.id in Q by lia. specialize (Q ltac:(apply in_seq; lia)).
  apply Bool.orb_true_iff in Q. destruct Q as [Q|Q]; apply existsb_exists in Q as (d & Hd & E).
  - apply Z.eqb_eq in E. now subst.
  - exfalso. apply andb_prop in E. destruct E as [E1 E2]. apply Z.ltb_lt in E1. apply Z.eqb_eq in E2.
    assert (1 < d) by (cbn in Hd; intuition lia). apply Z.mod_divide in E2; [|lia].
    apply prime_divisors in E2; [|exact P]. lia.
Qed.
Lemma product_bound : 0 < be_val PRODUCT_OF_SMALL_PRIMES < 2 ^ 1020. Proof. vm_compute. split; reflexivity. Qed.
Lemma product_bytes : bytes PRODUCT_OF_SMALL_PRIMES. Proof. apply bytesb_ok. vm_compute. reflexivity. Qed.

(** *** Miller-Rabin *)
Lemma top_mod b P V t : 0 <= V < P -> 0 < t -> (b * P + V) mod (P * t) = b mod t * P + V.
Proof.
  intros HV Ht. rewrite (Z.add_comm (b * P) V). rewrite Z.rem_mul_r by lia.
  rewrite Z_mod_plus_full, Z.div_add by lia. rewrite (Z.mod_small V), (Z.div_small V) by lia. rewrite Z.add_0_l. lia.
Qed.
Lemma mask_ok w_len buf : 0 < w_len -> bytes buf -> zlen buf = (w_len + 7) / 8 ->
  bytes (mask_base w_len buf) /\ be_val (mask_base w_len buf) = be_val buf mod 2 ^ w_len.
Proof.
  intros Hw Hb HL. unfold mask_base. assert (E7 : Z.land w_len 7 = w_len mod 8) by (change 7 with (Z.ones 3); rewrite Z.land_ones by lia; reflexivity). rewrite E7. clear E7.
  pose proof (be_val_bound buf Hb) as Bd. pose proof (zlen_nonneg buf) as L0. rewrite p256 in Bd by lia.
  destruct (Z.eqb_spec (w_len mod 8) 0) as [E|E].
  - split; [exact Hb|]. symmetry. apply Z.mod_small. replace (8 * zlen buf) with w_len in Bd by (rewrite HL; Z.div_mod_to_equations; lia). exact Bd.
  - destruct buf as [|b0 rest]; [exfalso; change (zlen (@nil Z)) with 0 in HL; Z.div_mod_to_equations; lia|]. rewrite zlen_cons in *.
    inversion Hb as [|? ? B0 Hr]; subst. cbn [upd znth nth].
    set (t := w_len mod 8) in *. assert (Ht : 0 < t < 8) by (unfold t in *; Z.div_mod_to_equations; lia).
    assert (Ew : w_len = 8 * zlen rest + t) by (unfold t in *; Z.div_mod_to_equations; lia).
    assert (Pt : 1 <= 2 ^ t) by (pose proof (Z.pow_pos_nonneg 2 t); lia).
    rewrite Z.shiftl_1_l, Z.max_r by lia. rewrite land_ones_mod by lia.
    pose proof (be_val_bound rest Hr) as Br. pose proof (zlen_nonneg rest) as R0. rewrite p256 in Br by lia.
    pose proof (Z.mod_pos_bound b0 (2 ^ t) ltac:(lia)) as Bm. red in B0.
    assert (T8 : 2 ^ t <= 2 ^ 7) by (apply Z.pow_le_mono_r; lia). change (2 ^ 7) with 128 in T8.
    split; [constructor; [red; lia|exact Hr]|]. rewrite !be_val_cons. rewrite p256 by lia. rewrite Ew, Z.pow_add_r by lia.
    rewrite (top_mod b0 _ (be_val rest)) by lia. reflexivity.
Qed.

Section Test.
Variable bn : bignum.
Hypothesis BN : bignum_ok bn.
Variable S : Type.
Variable fill : S -> Z -> res (list Z) * S.
Hypothesis FO : source_ok fill.
Variable w : posint.
Hypotheses (Ww : wf 64 w) (Ow : Z.odd (val w) = true) (W3 : 3 < val w).

Lemma mr_new_ok : exists mr, mr_new bn w = Ok mr.
Proof. unfold mr_new. change (pword MAX_PRIVATE_MODULUS_WORDS 1) with (Ok (pone 64)). cbn [bind]. cbv zeta. eexists. reflexivity. Qed.
Lemma w_len : len_bits w = Z.log2 (val w) + 1.
Proof. rewrite len_bits_val. destruct (Z.eqb_spec (val w) 0); lia. Qed.
Lemma base_ok buf s s1 : fill s ((len_bits w + 7) / 8) = (Ok buf, s1) ->
  exists b, pfrom_bytes MAX_PRIVATE_MODULUS_WORDS (mask_base (len_bits w) buf) = Ok b /\ wf 64 b /\ draw_base fill (val w) s (val b) s1.
Proof.
  intros E. destruct (FO _ _ _ _ E) as [L B]. rewrite w_len in *. pose proof (Z.log2_nonneg (val w)).
  destruct (mask_ok (Z.log2 (val w) + 1) buf ltac:(lia) B L) as [MB MV]. change MAX_PRIVATE_MODULUS_WORDS with 64.
  destruct (from_bytes_spec 64 _ ltac:(lia) MB) as [A _].
  destruct A as (b & Eb & Wb & Vb & _).
  - rewrite MV. apply Z.lt_le_trans with (2 ^ (Z.log2 (val w) + 1)).
    + apply Z.mod_pos_bound. apply Z.pow_pos_nonneg; lia.
    + apply Z.pow_le_mono_r; [lia|]. assert (Z.log2 (val w) < 64 * 64); [|lia]. apply Z.log2_lt_pow2; [lia|]. apply (val_boundN 64 w Ww).
  - exists b. split; [exact Eb|]. split; [exact Wb|]. exists buf. split; [exact E|]. congruence.
Qed.
Lemma mr_sound mr : mr_new bn w = Ok mr -> forall fuel left s r s', 0 <= left ->
  mr_loop bn S fill fuel mr (len_bits w) left s = Some (Ok r, s') -> mr_run fill (val w) (left + 1) s r s'.
Proof.
  intros HM. induction fuel as [|f IH]; intros left s r s' HL E; [discriminate|]. cbn [mr_loop] in E. cbv zeta in E.
  destruct (fill s ((len_bits w + 7) / 8)) as [[buf| |] s1] eqn:EF; try discriminate.
  destruct (base_ok buf s s1 EF) as (b & Eb & Wb & DB). rewrite Eb in E. cbn [bind] in E.
  destruct (check_base_ok bn BN w Ww Ow W3 mr HM b Wb) as (v & Ec & Hv). rewrite Ec in E. destruct v.
  - apply run_skip with (2 := DB); [lia|exact Hv|]. now apply IH.
  - destruct Hv as [H1 H2]. apply run_pass with (2 := DB); [lia|exact H1|exact H2|].
    destruct (Z.eqb_spec left 0) as [->|].
    + injection E as <- <-. apply run_done.
    + replace (left + 1 - 1) with (left - 1 + 1) by lia. apply IH; [lia|exact E].
  - destruct Hv as [H1 H2]. injection E as <- <-. apply run_fail with (2 := DB); [lia|exact H1|exact H2].
Qed.
Lemma mr_complete mr : mr_new bn w = Ok mr -> forall k s r s', mr_run fill (val w) k s r s' -> 1 <= k ->
  exists f0, forall fuel, (f0 <= fuel)%nat -> mr_loop bn S fill fuel mr (len_bits w) (k - 1) s = Some (Ok r, s').
Proof.
  intros HM k s r s' R.
  assert (ST : forall s b s1, draw_base fill (val w) s b s1 -> exists buf pb, fill s ((len_bits w + 7) / 8) = (Ok buf, s1) /\
    pfrom_bytes MAX_PRIVATE_MODULUS_WORDS (mask_base (len_bits w) buf) = Ok pb /\ wf 64 pb /\ val pb = b).
  { intros s0 b s1 (buf & EF & Eb). rewrite <- w_len in EF. destruct (base_ok buf s0 s1 EF) as (pb & E & Wb & (buf' & EF' & Eb')).
    exists buf, pb. split; [exact EF|]. split; [exact E|]. split; [exact Wb|]. rewrite <- w_len in EF'. rewrite EF in EF'. injection EF' as <-. congruence. }
  induction R as [s|k s b s1 r s2 Hk DB HB R IH|k s b s1 r s2 Hk DB HB SP R IH|k s b s1 Hk DB HB SP]; intros K1; [lia| | |];
    destruct (ST _ _ _ DB) as (buf & pb & EF & Eb & Wb & Vb); destruct (check_base_ok bn BN w Ww Ow W3 mr HM pb Wb) as (v & Ec & Hv); rewrite Vb in Hv.
  - destruct (IH K1) as (f0 & F). exists (Datatypes.S f0). intros [|fuel] Hf; [lia|]. cbn [mr_loop]. cbv zeta. rewrite EF, Eb. cbn [bind]. rewrite Ec.
    destruct v; [apply F; lia|destruct Hv; lia|destruct Hv; lia].
  - destruct v; [lia| |destruct Hv; contradiction].
    destruct (Z.eq_dec k 1) as [->|].
    + exists 1%nat. intros [|fuel] Hf; [lia|]. cbn [mr_loop]. cbv zeta. rewrite EF, Eb. cbn [bind]. rewrite Ec. cbn.
      inversion R; try lia. subst. reflexivity.
    + destruct (IH ltac:(lia)) as (f0 & F). exists (Datatypes.S f0). intros [|fuel] Hf; [lia|]. cbn [mr_loop]. cbv zeta. rewrite EF, Eb. cbn [bind]. rewrite Ec.
      destruct (Z.eqb_spec (k - 1) 0); [lia|]. apply F. lia.
  - destruct v; [lia|destruct Hv; contradiction|]. exists 1%nat. intros [|fuel] Hf; [lia|]. cbn [mr_loop]. cbv zeta. rewrite EF, Eb. cbn [bind]. rewrite Ec. reflexivity.
Qed.
End Test.

(** The primality test is exactly the Miller-Rabin test of FIPS 186-5 B.3.1, with [bases] bases taken from the source. *)
Theorem C26_miller_rabin : forall bn, bignum_ok bn -> forall S (fill : S -> Z -> res (list Z) * S), source_ok fill ->
  forall w size s r s', wf 64 w -> Z.odd (val w) = true -> 3 < val w ->
  (exists fuel, miller_rabin bn S fill fuel w size s = Some (Ok r, s')) <-> mr_run fill (val w) (bases size) s r s'.
Proof.
  intros bn BN S fill FO w size s r s' Ww Ow W3. destruct (mr_new_ok bn w) as (mr & HM). destruct (bases_rounds size) as [EB B0].
  unfold miller_rabin. rewrite HM, EB. split.
  - intros (fuel & E). eapply mr_sound; eauto.
  - intros R. destruct (mr_complete bn BN S fill FO w Ww Ow W3 mr HM _ _ _ _ R ltac:(lia)) as (f0 & F). exists f0.
    rewrite <- (F f0 ltac:(lia)). f_equal. lia.
Qed.
Print Assumptions C26_miller_rabin.

(** A prime always passes, whatever the bases. *)
Theorem C26_prime_never_rejected : forall S (fill : S -> Z -> res (list Z) * S) w k s r s', prime w -> 2 < w ->
  mr_run fill w k s r s' -> r = true.
Proof.
  intros S fill w k s r s' P W R. induction R as [| | |? ? ? ? ? ? HB SP]; auto. exfalso. apply SP. apply prime_strong; [exact P|exact W|lia].
Qed.
Print Assumptions C26_prime_never_rejected.

