(** C18: byte conversion and comparison of big integers (low/posint.rs). *)
Require Import Verif.Base Verif.L_Base Verif.L_Blocks Verif.M_Util Verif.L_Util Verif.T_Util Verif.M_PosInt Verif.S_Bignum Verif.L_PosInt.
Require Import ZifyNat.

Lemma trim_bytes b : bytes b -> bytes (trim_leading_zeroes b).
Proof. induction b as [|x b IH]; intros H; cbn; [assumption|]. inversion H; subst. destruct (x =? 0); auto. Qed.
Lemma be_val_cons x b : be_val (x :: b) = x * 256 ^ zlen b + be_val b.
Proof. unfold be_val. cbn [rev]. rewrite le_val_app. rewrite zlen_rev. cbn [le_val]. ring. Qed.
Lemma trim_val b : be_val (trim_leading_zeroes b) = be_val b.
Proof.
  induction b as [|x b IH]; cbn [trim_leading_zeroes]; [reflexivity|]. destruct (Z.eqb_spec x 0); [|reflexivity].
  subst. rewrite be_val_cons. lia.
Qed.
(** after trimming, the number is at least 256^(len-1) *)
Lemma trim_lower b : bytes b -> trim_leading_zeroes b <> [] -> 256 ^ (zlen (trim_leading_zeroes b) - 1) <= be_val b.
Proof.
  intros H. rewrite <- trim_val. induction b as [|x b IH]; intros Hn; cbn [trim_leading_zeroes] in *; [congruence|].
  inversion H as [|? ? Hx Hb]; subst. destruct (Z.eqb_spec x 0); [now apply IH|].
  rewrite be_val_cons, zlen_cons. pose proof (be_val_bound b Hb). red in Hx.
  replace (1 + zlen b - 1) with (zlen b) by lia.
  pose proof (zlen_nonneg b). assert (0 < 256 ^ zlen b) by (apply Z.pow_pos_nonneg; lia). nia.
Qed.

(** pushing words one by one *)
Lemma upd_app_here {A} (l r : list A) x y : upd (l ++ x :: r) (length l) y = l ++ y :: r.
Proof. induction l; cbn; congruence. Qed.
Lemma push_word_fill N k w y : words k w -> k < N -> push_word (pfill N k w) y = Ok (pfill N (k + 1) (w ++ [y])).
Proof.
  intros [L U] H. pose proof (zlen_nonneg w). unfold push_word, pcap, pfill. cbn [p_used p_words]. rewrite zlen_app, zlen_zeros.
  destruct (Z.eqb_spec k (zlen w + Z.of_nat (Z.to_nat (N - k)))); [lia|]. f_equal. f_equal.
  replace (Z.to_nat (N - k)) with (S (Z.to_nat (N - (k + 1)))) by lia. cbn [repeat].
  replace (Z.to_nat k) with (length w) by (unfold zlen in L; lia). rewrite upd_app_here, <- app_assoc. reflexivity.
Qed.
Lemma push_word_full N w y : words N w -> push_word (pfill N N w) y = Err OutOfRange.
Proof.
  intros [L U]. unfold push_word, pcap, pfill. cbn [p_used p_words]. rewrite zlen_app, zlen_zeros.
  destruct (Z.eqb_spec N (zlen w + Z.of_nat (Z.to_nat (N - N)))); [reflexivity|lia].
Qed.
Lemma push_words_fill N cs : forall k w, words k w -> k + zlen cs <= N -> Forall (fun c => u64 (be_val c)) cs ->
  push_words (pfill N k w) cs = Ok (pfill N (k + zlen cs) (w ++ map be_val cs)).
Proof.
  induction cs as [|c cs IH]; intros k w W H F.
  - change (zlen (@nil (list Z))) with 0 in *. cbn. now rewrite Z.add_0_r, app_nil_r.
  - rewrite zlen_cons in *. pose proof (zlen_nonneg cs). cbn [push_words]. rewrite push_word_fill by (assumption || lia).
    cbn [bind]. inversion F; subst. rewrite IH; [|split|lia|assumption].
    + rewrite <- app_assoc. cbn [app map]. do 2 f_equal. lia.
    + destruct W. rewrite zlen_app, zlen_cons. change (zlen (@nil Z)) with 0. lia.
    + destruct W. apply Forall_app. split; [assumption|]. constructor; [assumption|constructor].
Qed.
Lemma pzero_fill N : 0 <= N -> pzero N = pfill N 0 [].
Proof. intros. unfold pzero, pfill. now rewrite Z.sub_0_r. Qed.
Lemma be_app a b : be_val (a ++ b) = be_val a * 256 ^ zlen b + be_val b.
Proof. unfold be_val. rewrite rev_app_distr, le_val_app, zlen_rev. ring. Qed.

(** What [pfrom_bytes] returns: the words of the number, as many as it needs *)
Lemma from_bytes_spec N b : 0 <= N -> bytes b ->
  (be_val b < 2 ^ (64 * N) -> exists x, pfrom_bytes N b = Ok x /\ wf N x /\ val x = be_val b /\ p_used x = bn_digitsize (as_words x)) /\
  (2 ^ (64 * N) <= be_val b -> pfrom_bytes N b = Err OutOfRange).
Proof.
  intros HN Hb. set (t := trim_leading_zeroes b). pose proof (trim_bytes b Hb) as Bt. fold t in Bt.
  assert (Vt : be_val t = be_val b) by apply trim_val. pose proof (be_val_bound t Bt) as Bd. pose proof (zlen_nonneg t) as L0.
  assert (P64 : 2 ^ (64 * N) = 256 ^ (N * 8)) by (change 256 with (2 ^ 8); rewrite <- Z.pow_mul_r by lia; f_equal; lia).
  assert (Hlow : zlen t = 0 \/ 256 ^ (zlen t - 1) <= be_val b).
  { destruct (list_eq_dec Z.eq_dec t []) as [->|n]; [now left|right; now apply trim_lower]. }
  split; intros HV.
  - assert (HL : zlen t <= N * 8).
    { destruct Hlow as [->|Hlow]; [lia|]. rewrite P64 in HV. assert (256 ^ (zlen t - 1) < 256 ^ (N * 8)) as Q by lia.
      apply Z.pow_lt_mono_r_iff in Q; lia. }
    unfold pfrom_bytes. fold t. destruct (Z.ltb_spec (N * 8) (zlen t)) as [|_]; [lia|].
    set (r := zlen t mod 8). assert (Hr : 0 <= r < 8) by (apply Z.mod_pos_bound; lia).
    set (q := zlen t / 8). assert (Hq : zlen t = 8 * q + r) by (apply Z.div_mod; lia).
    assert (0 <= q) by (apply Z.div_pos; lia).
    assert (Ld : zlen (zdrop r t) = 8 * q) by (rewrite zlen_zdrop; lia).
    assert (Lt : zlen (ztake r t) = r) by (rewrite zlen_ztake; lia).
    assert (Bdr : bytes (zdrop r t)) by (apply Forall_zdrop; exact Bt). assert (Btk : bytes (ztake r t)) by (apply Forall_ztake; exact Bt).
    destruct (C48_be_value q (zdrop r t) ltac:(lia) Ld Bdr) as (Vw & Uw & Lw). unfold be_to_u64s in Vw, Uw, Lw.
    assert (Lc : zlen (rev (chunks_exact 8 (zdrop r t))) = q) by (unfold zlen in *; now rewrite map_length in Lw).
    rewrite (pzero_fill N) by lia. rewrite push_words_fill.
    2:{ split; [reflexivity|constructor]. } 2:{ lia. } 2:{ rewrite Forall_map in Uw. exact Uw. }
    cbn [bind app]. rewrite Lc, Z.add_0_l. set (ws := map be_val (rev (chunks_exact 8 (zdrop r t)))) in *.
    assert (VB : be_val b = be_val (ztake r t) * 2 ^ (64 * q) + limbs_val ws).
    { rewrite <- Vt, <- (ztake_zdrop r t) at 1. rewrite be_app, Ld, Vw. do 2 f_equal.
      change 256 with (2 ^ 8). rewrite <- Z.pow_mul_r by lia. f_equal; lia. }
    pose proof (be_val_bound _ Btk) as BF. rewrite Lt in BF. pose proof (limbs_val_bound ws Uw) as BW. rewrite Lw in BW.
    assert (Pr : 256 ^ r <= 2 ^ 64) by (change (2 ^ 64) with (256 ^ 8); apply Z.pow_le_mono_r; lia).
    pose proof (pow64 q ltac:(lia)) as Pq.
    assert (DS : forall k w, words k w -> k <= N -> limbs_val w = be_val b -> (k = 0 \/ 2 ^ (64 * (k - 1)) <= be_val b) ->
               exists x, Ok (pfill N k w) = Ok x /\ wf N x /\ val x = be_val b /\ p_used x = bn_digitsize (as_words x)).
    { intros k w W Hk Hv Hlo. destruct (pfill_ok N k w W Hk) as (WF & V & U). exists (pfill N k w).
      split; [reflexivity|]. split; [assumption|]. split; [congruence|]. rewrite U, (pfill_as_words N k w W).
      pose proof (words_nonneg _ _ W). pose proof (words_bound _ _ W) as [_ Bu]. destruct W as [_ Uf].
      pose proof (proj1 (digitsize_spec w k Uf ltac:(lia)) Bu) as D1. pose proof (digitsize_nonneg w).
      destruct Hlo as [->|Hlo]; [lia|]. destruct (Z.eq_dec k 0) as [->|]; [lia|].
      destruct (Z.le_gt_cases (bn_digitsize w) (k - 1)) as [D2|]; [|lia].
      apply (digitsize_spec w (k - 1) Uf ltac:(lia)) in D2. lia. }
    destruct (Z.eqb_spec (be_val (ztake r t)) 0) as [F0|F0].
    + apply DS; [split; assumption|lia|rewrite VB, F0; lia|].
      assert (r = 0) as R0.
      { destruct Hlow as [Q|Hlow]; [lia|]. destruct (Z.eq_dec r 0); [assumption|exfalso].
        assert (256 ^ (8 * q) <= 256 ^ (zlen t - 1)) by (apply Z.pow_le_mono_r; lia).
        assert (256 ^ (8 * q) = 2 ^ (64 * q)) by (change 256 with (2 ^ 8); rewrite <- Z.pow_mul_r by lia; f_equal; lia). lia. }
      destruct Hlow as [Q|Hlow]; [left; lia|]. destruct (Z.eq_dec q 0); [now left|right].
      apply Z.le_trans with (256 ^ (zlen t - 1)); [|assumption]. change 256 with (2 ^ 8). rewrite <- Z.pow_mul_r by lia.
      apply Z.pow_le_mono_r; lia.
    + assert (r <> 0) by (intros E; rewrite E in F0; apply F0; reflexivity).
      rewrite push_word_fill; [|split; assumption|lia].
      apply DS; [|lia| |].
      * split; [rewrite zlen_app, zlen_cons; change (zlen (@nil Z)) with 0; lia|].
        apply Forall_app. split; [assumption|]. constructor; [red; lia|constructor].
      * rewrite limbs_val_app, Lw. cbn [limbs_val]. rewrite VB. lia.
      * right. replace (q + 1 - 1) with q by lia. nia.
  - unfold pfrom_bytes. fold t. destruct (Z.ltb_spec (N * 8) (zlen t)); [reflexivity|exfalso].
    assert (256 ^ zlen t <= 256 ^ (N * 8)) by (apply Z.pow_le_mono_r; lia). lia.
Qed.

(** Reading a byte string gives the integer it denotes in big-endian order (leading zeros ignored, because
    [be_val] is the value); it fails exactly when the value needs more than N words; no panic. *)
Theorem C18_from_bytes : forall N b, 0 <= N -> bytes b ->
  (exists x, pfrom_bytes N b = Ok x /\ wf N x /\ val x = be_val b /\ be_val b < 2 ^ (64 * N)) \/
  (pfrom_bytes N b = Err OutOfRange /\ 2 ^ (64 * N) <= be_val b).
Proof.
  intros N b HN Hb. destruct (from_bytes_spec N b HN Hb) as [A B]. destruct (Z.lt_ge_cases (be_val b) (2 ^ (64 * N))) as [L|G].
  - left. destruct (A L) as (x & E & W & V & _). exists x. repeat split; auto; apply W.
  - right. split; [auto|lia].
Qed.

(** Writing: big-endian, fixed width of 8 bytes per word in use, an error if the buffer is smaller. *)
Theorem C18_to_bytes : forall N x out_len, wf N x ->
  (8 * p_used x <= out_len -> exists b, pto_bytes x out_len = Ok b /\ bytes b /\ zlen b = 8 * p_used x /\ be_val b = val x) /\
  (out_len < 8 * p_used x -> pto_bytes x out_len = Err OutOfRange).
Proof.
  intros N x n H. pose proof (as_words_ok N x H) as [L U]. unfold pto_bytes. split; intros HL.
  - destruct (Z.ltb_spec n (p_used x * 8)); [lia|]. eexists. split; [reflexivity|].
    destruct (C48_be_round_trip_words (as_words x) U) as [_ Z8]. split; [|split].
    + unfold u64s_to_be. apply Forall_concat. apply Forall_rev, Forall_map, Forall_forall. intros; apply be_bytes_bytes.
    + rewrite Z8, L. reflexivity.
    + now apply C48_be_to_bytes_value.
  - destruct (Z.ltb_spec n (p_used x * 8)); [reflexivity|lia].
Qed.

(** Writing for ASN.1: the same with one leading zero byte, so the encoded integer is never negative *)
Theorem C18_to_bytes_asn1 : forall N x out_len, wf N x ->
  (8 * p_used x + 1 <= out_len -> exists b, pto_bytes_asn1 x out_len = Ok (0 :: b) /\ bytes b /\ zlen b = 8 * p_used x /\ be_val (0 :: b) = val x) /\
  (out_len < 8 * p_used x + 1 -> pto_bytes_asn1 x out_len = Err OutOfRange).
Proof.
  intros N x n H. destruct (C18_to_bytes N x (8 * p_used x) H) as [A _]. destruct (A ltac:(lia)) as (b & E & B & L & V).
  unfold pto_bytes in E. destruct (Z.ltb_spec (8 * p_used x) (p_used x * 8)); [lia|]. injection E as <-.
  unfold pto_bytes_asn1. split; intros HL.
  - destruct (Z.ltb_spec n (p_used x * 8 + 1)); [lia|]. eexists. split; [reflexivity|]. repeat split; auto.
    rewrite be_val_cons. lia.
  - destruct (Z.ltb_spec n (p_used x * 8 + 1)); [reflexivity|lia].
Qed.

(** Read then write: the output is the input without its leading zeros, padded with zeros to whole words. In
    particular an input of 8 k bytes whose first word is not zero is reproduced exactly. *)
Theorem C18_read_write : forall N b x, 0 <= N -> bytes b -> pfrom_bytes N b = Ok x ->
  exists out, pto_bytes x (8 * N) = Ok out /\ be_val out = be_val b /\
  (forall k, zlen b = 8 * k -> 2 ^ (64 * (k - 1)) <= be_val b -> out = b).
Proof.
  intros N b x HN Hb E. destruct (from_bytes_spec N b HN Hb) as [A B].
  destruct (Z.lt_ge_cases (be_val b) (2 ^ (64 * N))) as [L|G]; [|rewrite B in E by lia; discriminate].
  destruct (A L) as (x' & E' & W & V & U). assert (x' = x) by congruence. subst x'.
  pose proof (wf_used N x W) as UB. destruct (C18_to_bytes N x (8 * N) W) as [T _]. destruct (T ltac:(lia)) as (o & Eo & Bo & Lo & Vo).
  exists o. split; [assumption|]. split; [congruence|]. intros k Hk Hlo.
  pose proof (be_val_bound b Hb) as BB. pose proof (zlen_nonneg b).
  assert (BK : be_val b < 2 ^ (64 * k)).
  { replace (2 ^ (64 * k)) with (256 ^ zlen b); [lia|]. rewrite Hk. change 256 with (2 ^ 8). rewrite <- Z.pow_mul_r by lia. f_equal; lia. }
  assert (UK : p_used x = k).
  { pose proof (as_words_ok N x W) as [_ F]. pose proof (digitsize_nonneg (as_words x)).
    assert (bn_digitsize (as_words x) <= k) by (apply digitsize_spec; [assumption|lia|fold (val x); lia]).
    destruct (Z.eq_dec k 0); [lia|].
    destruct (Z.le_gt_cases (bn_digitsize (as_words x)) (k - 1)) as [D|]; [|lia].
    apply digitsize_spec in D; [|assumption|lia]. fold (val x) in D. lia. }
  apply be_val_inj; auto; [unfold zlen in *; lia|congruence].
Qed.

(** Write then read: nothing is lost. *)
Theorem C18_write_read : forall N x b, wf N x -> pto_bytes x (8 * N) = Ok b ->
  exists y, pfrom_bytes N b = Ok y /\ val y = val x.
Proof.
  intros N x b W E. pose proof (wf_used N x W). destruct (C18_to_bytes N x (8 * N) W) as [A _].
  destruct (A ltac:(lia)) as (b' & E' & B & L & V). assert (b' = b) by congruence. subst b'.
  destruct (from_bytes_spec N b ltac:(lia) B) as [F _]. destruct F as (y & Ey & Wy & Vy & _).
  - rewrite V. apply val_boundN with (1 := W).
  - exists y. split; [assumption|congruence].
Qed.

(** Comparisons agree with the order of integers, whatever the widths of the operands. *)
Theorem C18_compare : forall N x y, wf N x -> wf N y ->
  (less_than x y = true <-> val x < val y) /\ (pequals x y = true <-> val x = val y) /\
  (is_zero x = true <-> val x = 0) /\ (0 < N -> (is_even x = true <-> (2 | val x))) /\
  len_bits x = (if val x =? 0 then 0 else Z.log2 (val x) + 1).
Proof.
  intros N x y Hx Hy. rewrite less_than_val, pequals_val, (is_zero_val N x Hx).
  split; [lia|]. split; [lia|]. split; [lia|]. split; [|reflexivity].
  intros HN. rewrite (is_even_val N x Hx) by lia. split.
  - intros E. apply Z.even_spec in E. destruct E as [k ->]. exists k. lia.
  - intros [k ->]. rewrite Z.even_mul. now rewrite orb_true_r.
Qed.

(** Non-trivial instances *)
Example from_bytes_ex : exists x, pfrom_bytes 2 [0; 0; 1; 0; 0; 0; 0; 0; 0; 0; 2] = Ok x /\ as_words x = [2; 1].
Proof. eexists. split; reflexivity. Qed.
Example from_bytes_ex_too_long : pfrom_bytes 1 [0; 1; 1; 1; 1; 1; 1; 1; 1; 1] = Err OutOfRange.
Proof. reflexivity. Qed.
Example read_write_ex : bytes [0x11; 0x22; 0x33; 0x44; 0x55; 0x66; 0x77; 0x88] /\
  exists x, pfrom_bytes 4 [0x11; 0x22; 0x33; 0x44; 0x55; 0x66; 0x77; 0x88] = Ok x /\
    pto_bytes x 32 = Ok [0x11; 0x22; 0x33; 0x44; 0x55; 0x66; 0x77; 0x88].
Proof. split; [repeat constructor; unfold byte_ok; lia|]. eexists. split; reflexivity. Qed.

Print Assumptions C18_from_bytes.
Print Assumptions C18_to_bytes.
Print Assumptions C18_to_bytes_asn1.
Print Assumptions C18_read_write.
Print Assumptions C18_write_read.
Print Assumptions C18_compare.
