(** Lemmas: the sponge model against FIPS 202. *)
Require Import Verif.Base Verif.L_Base Verif.L_Blocks Verif.L_Bits Verif.L_Util Verif.L_Hmac Verif.M_Blockwise Verif.M_Util
  Verif.L_Poly1305 Verif.M_Sha3 Verif.S_Sha3.
Require Import ZifyNat.
Ltac sp := repeat match goal with |- _ /\ _ => split end.

Lemma RC_ok : RC = round_constants. Proof. vm_compute. reflexivity. Qed.
Lemma RC_len : length RC = 24%nat. Proof. reflexivity. Qed.
Lemma RC_u64 : Forall (fun w => 0 <= w < 2 ^ 64) RC.
Proof.
  assert (H : forallb (fun w => (0 <=? w) && (w <? 2 ^ 64)) RC = true) by (vm_compute; reflexivity).
  rewrite forallb_forall in H. apply Forall_forall. intros x Hx. specialize (H x Hx). lia.
Qed.

(** ** The permutation keeps states well formed *)
Lemma lane_range A x y : state_ok A -> 0 <= lane A x y < 2 ^ 64.
Proof.
  intros [L F]. unfold lane. rewrite Forall_forall in F.
  pose proof (Z.mod_pos_bound x 5 ltac:(lia)). pose proof (Z.mod_pos_bound y 5 ltac:(lia)).
  apply F, nth_In. lia.
Qed.
Lemma by_lanes_ok f : (forall x y, 0 <= f x y < 2 ^ 64) -> state_ok (by_lanes f).
Proof.
  intros H. unfold by_lanes. split. { rewrite !map_length, seq_length. reflexivity. }
  apply Forall_forall. intros w Hw. apply in_map_iff in Hw as (i & <- & _). apply H.
Qed.
Lemma rot64_range x n : 0 <= n < 64 -> 0 <= x < 2 ^ 64 -> 0 <= rot64 x n < 2 ^ 64.
Proof.
  intros Hn Hx. unfold rot64. apply lor_range. { apply Z.mod_pos_bound. lia. }
  rewrite Z.shiftr_div_pow2 by lia. split; [apply Z.div_pos; lia|]. apply Z.div_lt_upper_bound; [lia|].
  nia.
Qed.
Lemma theta_ok A : state_ok A -> state_ok (theta A).
Proof.
  intros HA. apply by_lanes_ok. intros x y.
  apply lxor_range; [apply lane_range; auto|].
  assert (C : forall x, 0 <= Z.lxor (lane A x 0) (Z.lxor (lane A x 1) (Z.lxor (lane A x 2) (Z.lxor (lane A x 3) (lane A x 4)))) < 2 ^ 64)
    by (intros; repeat apply lxor_range; apply lane_range; auto).
  remember (fun x : Z => Z.lxor (lane A x 0) (Z.lxor (lane A x 1) (Z.lxor (lane A x 2) (Z.lxor (lane A x 3) (lane A x 4))))) as Cf.
  assert (C' : forall x, 0 <= Cf x < 2 ^ 64) by (intros; subst; apply C).
  match goal with |- 0 <= nth ?n ?l 0 < _ => destruct (nth_in_or_default n l 0) as [I|E] end; [|rewrite E; lia].
  apply in_map_iff in I as (z & <- & _). apply lxor_range; auto. apply rot64_range; auto; lia.
Qed.
Lemma rho_offset_range x y : 0 <= rho_offset x y < 64.
Proof.
  unfold rho_offset. destruct (find _ _) as [[[a b] o]|] eqn:E; [|lia].
  apply find_some in E as [I _].
  assert (H : forallb (fun '(_, _, o) => (0 <=? o) && (o <? 64)) (rho_offsets 24 0 1 0) = true) by (vm_compute; reflexivity).
  rewrite forallb_forall in H. specialize (H _ I). cbn in H. lia.
Qed.
Lemma rho_ok A : state_ok A -> state_ok (rho A).
Proof. intros. apply by_lanes_ok. intros. apply rot64_range; [apply rho_offset_range|apply lane_range; auto]. Qed.
Lemma pi_ok A : state_ok A -> state_ok (pi A).
Proof. intros. apply by_lanes_ok. intros. apply lane_range; auto. Qed.
Lemma chi_ok A : state_ok A -> state_ok (chi A).
Proof. intros. apply by_lanes_ok. intros. apply lxor_range; [apply lane_range; auto|]. apply land_range_r, lane_range; auto. Qed.
Lemma iota_ok c A : 0 <= c < 2 ^ 64 -> state_ok A -> state_ok (iota c A).
Proof.
  intros Hc [L F]. destruct A as [|a r]; cbn [iota]; [split; auto|]. inversion_clear F. split; auto.
  constructor; auto. apply lxor_range; auto.
Qed.
Lemma Rnd_ok c A : 0 <= c < 2 ^ 64 -> state_ok A -> state_ok (Rnd c A).
Proof. intros. unfold Rnd. apply iota_ok, chi_ok, pi_ok, rho_ok, theta_ok; auto. Qed.
Lemma keccak_p_ok rcs : forall A, Forall (fun w => 0 <= w < 2 ^ 64) rcs -> state_ok A -> state_ok (keccak_p rcs A).
Proof.
  induction rcs as [|c r IH]; intros A F HA; cbn [keccak_p fold_left]; auto.
  inversion_clear F. apply IH; auto. apply Rnd_ok; auto.
Qed.
Lemma keccak_f_ok A : state_ok A -> state_ok (keccak_f A).
Proof. intros. unfold keccak_f. rewrite <- RC_ok. apply keccak_p_ok; auto. apply RC_u64. Qed.
Lemma zero_state : state_ok (repeat 0 25).
Proof. split; [reflexivity|]. apply Forall_forall. intros x Hx. apply repeat_spec in Hx. lia. Qed.

Lemma keccak_f_RC A : keccak_p RC A = keccak_f A.
Proof. unfold keccak_f. rewrite RC_ok. reflexivity. Qed.
Local Opaque keccak_f keccak_p RC round_constants.

(** ** Lanes and bytes *)
Lemma lanes_bytes A : Forall (fun w => 0 <= w < 2 ^ 64) A -> lanes_of_bytes (bytes_of_lanes A) = A.
Proof.
  unfold lanes_of_bytes, bytes_of_lanes. induction A as [|a A IH]; intros F; [reflexivity|].
  inversion_clear F. cbn [map concat]. rewrite chunks8_app by apply zlen_le_bytes. cbn [map].
  rewrite IH by auto. f_equal. rewrite le_val_le_bytes. apply Z.mod_small. auto.
Qed.
Lemma bytes_of_lanes_len A : zlen (bytes_of_lanes A) = 8 * zlen A.
Proof. unfold bytes_of_lanes. induction A; cbn [map concat]; [reflexivity|]. rewrite zlen_app, IHA, zlen_le_bytes, zlen_cons. lia. Qed.
Lemma bytes_of_lanes_bytes A : bytes (bytes_of_lanes A).
Proof. unfold bytes_of_lanes. apply bytes_concat. apply Forall_forall. intros x Hx. apply in_map_iff in Hx as (? & <- & _). apply le_bytes_bytes. Qed.
Lemma keccak_bytes_lanes A : state_ok A -> keccak_bytes (bytes_of_lanes A) = bytes_of_lanes (keccak_f A).
Proof. intros [_ F]. unfold keccak_bytes. rewrite lanes_bytes; auto. Qed.

(** ** Xor of words is xor of bytes *)
Lemma testbit_byte_cons x a n : byte_ok x -> 0 <= n -> Z.testbit (x + 256 * a) n = if n <? 8 then Z.testbit x n else Z.testbit a (n - 8).
Proof.
  intros Hx Hn. assert (E : x + 256 * a = Z.lor (Z.shiftl a 8) x) by (rewrite lor_add by (unfold byte_ok in Hx; lia); lia).
  rewrite E, Z.lor_spec, Z.shiftl_spec by lia. destruct (n <? 8) eqn:C.
  - rewrite (Z.testbit_neg_r a) by lia. reflexivity.
  - rewrite (testbit_small 8 x n) by (unfold byte_ok in Hx; lia). apply orb_false_r.
Qed.
Lemma lxor_byte_cons x y a b : byte_ok x -> byte_ok y -> Z.lxor (x + 256 * a) (y + 256 * b) = Z.lxor x y + 256 * Z.lxor a b.
Proof.
  intros Hx Hy. apply Z.bits_inj'. intros n Hn.
  rewrite Z.lxor_spec, !testbit_byte_cons; auto; [|apply lxor_byte; auto].
  destruct (n <? 8); rewrite Z.lxor_spec; reflexivity.
Qed.
Definition xorb_list (a b : list Z) : list Z := map (fun '(x, y) => Z.lxor x y) (combine a b).
Lemma le_val_xor a : forall b, bytes a -> bytes b -> length a = length b -> le_val (xorb_list a b) = Z.lxor (le_val a) (le_val b).
Proof.
  induction a as [|x a IH]; intros [|y b] Ha Hb L; cbn in L; try discriminate; [reflexivity|].
  apply bytes_cons in Ha as [? ?]. apply bytes_cons in Hb as [? ?].
  unfold xorb_list in *. cbn [combine map le_val]. rewrite IH by auto. rewrite lxor_byte_cons; auto.
Qed.
Lemma xorb_list_len a b : length a = length b -> length (xorb_list a b) = length a.
Proof. intros. unfold xorb_list. rewrite map_length, combine_length. lia. Qed.
Lemma xorb_list_bytes a b : bytes a -> bytes b -> bytes (xorb_list a b).
Proof.
  intros Ha Hb. unfold xorb_list. apply Forall_forall. intros z Hz. apply in_map_iff in Hz as ([x y] & <- & I).
  apply lxor_byte. { eapply Forall_forall; [apply Ha|]. eapply in_combine_l; eauto. } { eapply Forall_forall; [apply Hb|]. eapply in_combine_r; eauto. }
Qed.
Lemma le_bytes_xor w c : 0 <= w < 2 ^ 64 -> bytes c -> zlen c = 8 -> le_bytes 8 (Z.lxor w (le_val c)) = xorb_list (le_bytes 8 w) c.
Proof.
  intros Hw Hc L. assert (Lc : length c = 8%nat) by (unfold zlen in L; lia).
  assert (LL : length (xorb_list (le_bytes 8 w) c) = 8%nat) by (rewrite xorb_list_len; rewrite le_bytes_length; auto).
  rewrite <- (le_bytes_le_val (xorb_list (le_bytes 8 w) c)) by (apply xorb_list_bytes; auto; apply le_bytes_bytes).
  rewrite LL. f_equal. rewrite le_val_xor; [|apply le_bytes_bytes|auto|rewrite le_bytes_length; auto].
  rewrite le_val_le_bytes, Z.mod_small; auto.
Qed.
Lemma combine_app {A B} (a a' : list A) (b b' : list B) : length a = length b -> combine (a ++ a') (b ++ b') = combine a b ++ combine a' b'.
Proof. revert b. induction a; intros [|y b] H; cbn in *; try discriminate; auto. f_equal. auto. Qed.
Lemma xorb_list_app a a' b b' : length a = length b -> xorb_list (a ++ a') (b ++ b') = xorb_list a b ++ xorb_list a' b'.
Proof. intros. unfold xorb_list. rewrite combine_app, map_app; auto. Qed.
Lemma xorb_zeros a n : bytes a -> length a = n -> xorb_list a (repeat 0 n) = a.
Proof.
  intros _ <-. unfold xorb_list. induction a; cbn; auto. rewrite Z.lxor_0_r. f_equal. auto.
Qed.
Lemma xor_words_bytes k : forall blk A, Forall (fun w => 0 <= w < 2 ^ 64) A -> bytes blk -> zlen blk = 8 * Z.of_nat k -> (k <= length A)%nat ->
  bytes_of_lanes (xor_words A (le_words blk)) = xorb_list (bytes_of_lanes A) (blk ++ repeat 0 (8 * length A - length blk)) /\
  Forall (fun w => 0 <= w < 2 ^ 64) (xor_words A (le_words blk)) /\ length (xor_words A (le_words blk)) = length A.
Proof.
  induction k as [|k IH]; intros blk A F B L K.
  - assert (blk = []) by (apply zlen_0_nil; lia). subst blk.
    assert (E : xor_words A (le_words []) = A) by (destruct A; reflexivity). rewrite E. sp; auto.
    cbn [app length]. symmetry. apply xorb_zeros. apply bytes_of_lanes_bytes.
    pose proof (bytes_of_lanes_len A). unfold zlen in *. lia.
  - rewrite <- (ztake_zdrop 8 blk) in *. assert (Hc : zlen (ztake 8 blk) = 8).
    { rewrite ztake_zdrop in L. apply zlen_ztake. lia. }
    set (c := ztake 8 blk) in *. set (b := zdrop 8 blk) in *. clearbody c b. clear blk.
    apply bytes_app in B as [Bc Bb]. rewrite zlen_app in L.
    destruct A as [|w A]; [cbn in K; lia|]. inversion_clear F as [|? ? Hw F'].
    destruct (IH b A F' Bb ltac:(lia) ltac:(cbn in K; lia)) as (E & Fo & Lo).
    unfold le_words in *. rewrite chunks8_app by auto. cbn [map xor_words].
    pose proof (le_val_bound c Bc) as Bd. rewrite Hc in Bd. change (256 ^ 8) with (2 ^ 64) in Bd.
    sp.
    + unfold bytes_of_lanes in *. cbn [map concat]. rewrite E, le_bytes_xor by auto. rewrite <- app_assoc, xorb_list_app.
      2:{ rewrite le_bytes_length. unfold zlen in Hc. lia. }
      do 4 f_equal. rewrite app_length. unfold zlen in Hc. cbn [length]. lia.
    + constructor; auto. apply lxor_range; auto.
    + cbn [length]. lia.
Qed.

(** ** Padding *)
Lemma bits_of_byte_len b : length (bits_of_byte b) = 8%nat. Proof. reflexivity. Qed.
Lemma byte_bits b : byte_ok b -> byte_of_bits (bits_of_byte b) = b.
Proof.
  intros Hb. assert (H : forallb (fun b => byte_of_bits (bits_of_byte b) =? b) (map Z.of_nat (seq 0 256)) = true) by (vm_compute; reflexivity).
  rewrite forallb_forall in H. apply Z.eqb_eq, H. apply in_map_iff. exists (Z.to_nat b). unfold byte_ok in Hb. split; [lia|]. apply in_seq. lia.
Qed.
Lemma firstn_app_exact {A} n (a b : list A) : length a = n -> firstn n (a ++ b) = a.
Proof. intros <-. rewrite firstn_app, Nat.sub_diag, firstn_all. apply app_nil_r. Qed.
Lemma skipn_app_exact {A} n (a b : list A) : length a = n -> skipn n (a ++ b) = b.
Proof. intros <-. rewrite skipn_app, Nat.sub_diag, skipn_all. reflexivity. Qed.
Lemma bytes_of_bits_bytes m : bytes m -> bytes_of_bits (bits_of_bytes m) = m.
Proof.
  intros Hm. unfold bytes_of_bits.
  assert (L : (length (bits_of_bytes m) / 8)%nat = length m).
  { unfold bits_of_bytes. clear. assert (length (concat (map bits_of_byte m)) = length m * 8)%nat as ->.
    { induction m; cbn [map concat length]; auto. rewrite app_length, bits_of_byte_len, IHm. lia. } apply Nat.div_mul. lia. }
  rewrite L. clear L. unfold bits_of_bytes. induction Hm as [|b m Hb Hm IH]; [reflexivity|].
  cbn [map concat length bytes_of_bits_n]. rewrite firstn_app_exact, skipn_app_exact by reflexivity. rewrite byte_bits, IH; auto.
Qed.
Lemma bits_of_bytes_app a b : bits_of_bytes (a ++ b) = bits_of_bytes a ++ bits_of_bytes b.
Proof. unfold bits_of_bytes. rewrite map_app, concat_app. reflexivity. Qed.
Lemma bits_of_bytes_len m : Z.of_nat (length (bits_of_bytes m)) = 8 * zlen m.
Proof. unfold bits_of_bytes, zlen. induction m; cbn [map concat length]; auto. rewrite app_length, bits_of_byte_len. lia. Qed.
Lemma bits_zero n : bits_of_bytes (repeat 0 n) = repeat false (8 * n).
Proof.
  induction n as [|n IH]; [reflexivity|]. cbn [repeat]. change (0 :: repeat 0 n) with ([0] ++ repeat 0 n).
  rewrite bits_of_bytes_app, IH. replace (8 * S n)%nat with (8 + 8 * n)%nat by lia. rewrite repeat_app. reflexivity.
Qed.

(** the suffix (with the first padding bit) that a pad byte stands for *)
Definition pad_bytes (PAD k : Z) : list Z := if k =? 1 then [Z.lor PAD 0x80] else [PAD] ++ repeat 0 (Z.to_nat (k - 2)) ++ [0x80].
Definition pad_is (PAD : Z) (suf : list bool) : Prop :=
  byte_ok PAD /\ byte_ok (Z.lor PAD 0x80) /\ (length suf < 7)%nat /\
  bits_of_byte PAD = suf ++ [true] ++ repeat false (7 - length suf) /\
  bits_of_byte (Z.lor PAD 0x80) = suf ++ [true] ++ repeat false (6 - length suf) ++ [true].
Lemma pad_sha : pad_is SHA_PAD_BYTE [false; true].
Proof. unfold pad_is, byte_ok, SHA_PAD_BYTE. cbn. sp; auto; lia. Qed.
Lemma pad_shake : pad_is SHAKE_PAD_BYTE [true; true; true; true].
Proof. unfold pad_is, byte_ok, SHAKE_PAD_BYTE. cbn. sp; auto; lia. Qed.
Lemma pad_bits PAD suf R m : pad_is PAD suf -> bytes m -> 2 <= R ->
  let k := R - zlen m mod R in
  bytes_of_bits ((bits_of_bytes m ++ suf) ++ pad10star1 (8 * R) (Z.of_nat (length (bits_of_bytes m ++ suf)))) = m ++ pad_bytes PAD k.
Proof.
  intros (B1 & B2 & Ls & P1 & P2) Hm HR k. unfold pad10star1.
  assert (Hk : 1 <= k <= R) by (pose proof (Z.mod_pos_bound (zlen m) R ltac:(lia)); unfold k; lia).
  rewrite app_length, Nat2Z.inj_add, bits_of_bytes_len.
  assert (J : (- (8 * zlen m + Z.of_nat (length suf)) - 2) mod (8 * R) = 8 * k - Z.of_nat (length suf) - 2).
  { symmetry. apply Z.mod_unique_pos with (q := - (zlen m / R) - 1); [lia|].
    pose proof (Z.div_mod (zlen m) R ltac:(lia)). unfold k. lia. }
  rewrite J. rewrite <- (bytes_of_bits_bytes (m ++ pad_bytes PAD k)).
  2:{ apply bytes_app. split; auto. unfold pad_bytes. destruct (k =? 1). { apply bytes_cons. split; auto. apply bytes_nil. }
      apply bytes_app. split. { apply bytes_cons. split; auto. apply bytes_nil. } apply bytes_app. split. { apply bytes_repeat. unfold byte_ok; lia. } bytes_tac. }
  f_equal. rewrite bits_of_bytes_app, <- app_assoc. f_equal. unfold pad_bytes. destruct (k =? 1) eqn:E.
  - unfold bits_of_bytes. cbn [map concat]. rewrite P2, app_nil_r. do 4 f_equal. lia.
  - rewrite !bits_of_bytes_app, bits_zero. unfold bits_of_bytes. cbn [map concat]. rewrite !app_nil_r, P1.
    rewrite <- !app_assoc. do 2 f_equal.
    change (bits_of_byte 128) with (repeat false 7 ++ [true]).
    rewrite !app_assoc. f_equal. rewrite <- !repeat_app. f_equal. lia.
Qed.

(** ** The sponge *)
Definition bw_le (N : Z) (r : list Z) (bw : blockwise) : Prop :=
  zlen r <= N /\ bw_used bw = zlen r /\ zlen (bw_buffer bw) = N /\ ztake (zlen r) (bw_buffer bw) = r.
Lemma bw_le_add N r bw x : bw_le N r bw -> r <> [] -> zlen r + zlen x <= N -> bw_le N (r ++ x) (fst (bw_add_leading N bw x)).
Proof.
  intros (H1 & H2 & H3 & H4) Hr HN. unfold bw_add_leading. rewrite H2. pose proof (zlen_nonneg r). pose proof (zlen_nonneg x).
  destruct (zlen r =? 0) eqn:E. { exfalso. apply Hr, zlen_0_nil. lia. }
  cbn [fst]. rewrite Z.min_l by lia. rewrite (ztake_all (zlen x) x) by lia. unfold bw_le. cbn [bw_used bw_buffer]. rewrite zlen_app.
  sp; try lia. - rewrite zlen_splice; lia. - rewrite ztake_splice by lia. rewrite H4. reflexivity.
Qed.
Lemma bw_le_add1 N r bw x : bw_le N r bw -> zlen r + zlen x <= N -> exists bw', bw_add N bw x = Ok bw' /\ bw_le N (r ++ x) bw'.
Proof.
  intros H HN. pose proof H as (H1 & H2 & H3 & H4). unfold bw_add. rewrite H2. pose proof (zlen_nonneg x). pose proof (zlen_nonneg r).
  destruct (zlen r =? 0) eqn:E.
  - assert (r = []) by (apply zlen_0_nil; lia). subst r. change (zlen (@nil Z)) with 0 in *. unfold bw_add_trailing.
    destruct (N <? zlen x) eqn:E2; [lia|]. eexists; split; [reflexivity|]. cbn [app]. unfold bw_le. cbn [bw_used bw_buffer]. rewrite H2.
    sp; try lia. + rewrite zlen_splice; lia. + pose proof (ztake_splice (bw_buffer bw) 0 x ltac:(lia) ltac:(lia)) as X. exact X.
  - eexists; split; [reflexivity|]. apply bw_le_add; auto. intros ->. change (zlen (@nil Z)) with 0 in E. lia.
Qed.
Lemma bw_le_take N r bw : bw_le N r bw -> zlen r = N -> exists bw', bw_take N bw = (Some r, bw').
Proof.
  intros (H1 & H2 & H3 & H4) E. unfold bw_take. rewrite H2, E, Z.eqb_refl. eexists. f_equal. f_equal.
  rewrite <- H4. symmetry. apply ztake_all. lia.
Qed.

Section Sponge.
Variable kf : list Z -> list Z -> list Z.
Hypothesis Hkf : keccak_asm_ok kf.

Definition step (S block : list Z) : list Z := keccak_bytes (xor_into S block).

Definition rate (R : Z) : Prop := exists k : nat, R = 8 * Z.of_nat k /\ (1 <= k <= 25)%nat.

Lemma kf_RC A : state_ok A -> kf A RC = keccak_f A.
Proof using Hkf. intros H. rewrite (Hkf A RC H RC_len). apply keccak_f_RC. Qed.

Lemma absorb_block_ok R A blk : rate R -> state_ok A -> bytes blk -> zlen blk = R ->
  state_ok (absorb_block kf A blk) /\ bytes_of_lanes (absorb_block kf A blk) = step (bytes_of_lanes A) blk.
Proof using Hkf.
  intros (k & -> & Hk) HA Hb Hl. pose proof HA as [L F].
  destruct (xor_words_bytes k blk A F Hb Hl ltac:(lia)) as (E & F' & L').
  assert (OK : state_ok (xor_words A (le_words blk))) by (split; [lia|auto]).
  unfold absorb_block. rewrite kf_RC by auto. split; [apply keccak_f_ok; auto|].
  rewrite <- keccak_bytes_lanes by auto. unfold step, xor_into. f_equal. rewrite E, L. reflexivity.
Qed.
Lemma absorb_blocks_ok R bs : forall A, rate R -> state_ok A -> Forall bytes bs -> Forall (fun c => zlen c = R) bs ->
  state_ok (fold_left (absorb_block kf) bs A) /\ bytes_of_lanes (fold_left (absorb_block kf) bs A) = fold_left step bs (bytes_of_lanes A).
Proof using Hkf.
  induction bs as [|b bs IH]; intros A HR HA Hb Hl; cbn [fold_left]; auto.
  inversion_clear Hb. inversion_clear Hl. destruct (absorb_block_ok R A b HR HA H H1) as [S1 S2].
  destruct (IH _ HR S1 H0 H2) as [S3 S4]. split; auto. rewrite S4, S2. reflexivity.
Qed.

Definition SInv (R : Z) (m : list Z) (sp : sponge) : Prop :=
  exists a r q, m = a ++ r /\ 0 <= q /\ zlen a = q * R /\ bw_holds R r (sp_buffer sp) /\
    state_ok (sp_s sp) /\ bytes_of_lanes (sp_s sp) = fold_left step (chunks_exact R a) (repeat 0 200).
Lemma SInv_new R : rate R -> SInv R [] (sponge_new R).
Proof using All.
  intros (k & -> & Hk). exists [], [], 0. sp; auto; try lia. apply bw_holds_new; lia. apply zero_state.
Qed.
Lemma SInv_absorb R m sp b : rate R -> bytes m -> bytes b -> SInv R m sp -> exists sp', absorb kf R sp b = Ok sp' /\ SInv R (m ++ b) sp'.
Proof using Hkf.
  intros HR Hm Hb (a & r & q & -> & Hq & Ha & Hbw & HS & HE). pose proof HR as (k & HRk & Hk).
  apply bytes_app in Hm as [Hba Hbr].
  destruct (bw_stream R r (sp_buffer sp) b ltac:(lia) Hbw) as (bw1 & rest & blk & bw2 & bw3 & a2 & r2 & q2 & E1 & E2 & E3 & E4 & Hq2 & Ha2 & H3 & E5).
  assert (Hb2 : bytes (a2 ++ r2)) by (rewrite <- E4; apply bytes_app; auto). apply bytes_app in Hb2 as [Hba2 Hbr2].
  pose proof (chunks_exact_bytes R a2 ltac:(lia) Hba2) as CB. pose proof (chunks_exact_len R a2 ltac:(lia)) as CL.
  unfold absorb. rewrite E1, E2, E3. cbn [bind]. eexists; split; [reflexivity|].
  destruct (absorb_blocks_ok R (chunks_exact R a2) (sp_s sp) HR HS CB CL) as [S1 S2].
  exists (a ++ a2), r2, (q + q2). cbn [sp_s sp_buffer]. split; [rewrite <- !app_assoc, E4; reflexivity|]. split; [lia|]. split; [zl; lia|]. split; [exact H3|].
  assert (X : fold_left (absorb_block kf) (chunks_exact R rest) (match blk with Some block => absorb_block kf (sp_s sp) block | None => sp_s sp end)
     = fold_left (absorb_block kf) (chunks_exact R a2) (sp_s sp)) by (rewrite E5; destruct blk; reflexivity).
  rewrite X. split; auto. rewrite S2, HE, (chunks_exact_app R q), fold_left_app; auto; lia.
Qed.
Lemma SInv_absorbs R ms : forall m sp, rate R -> bytes m -> Forall bytes ms -> SInv R m sp ->
  exists sp', absorbs kf R sp ms = Ok sp' /\ SInv R (m ++ concat ms) sp'.
Proof using Hkf.
  induction ms as [|x ms IH]; intros m sp HR Hm Hms I; cbn [absorbs concat].
  - rewrite app_nil_r. eauto.
  - inversion_clear Hms. destruct (SInv_absorb R m sp x HR Hm H I) as (p1 & -> & I1). cbn [bind]. rewrite app_assoc.
    apply IH; auto. apply bytes_app; auto.
Qed.

Lemma zeroes_take n : 0 <= n <= 168 -> ztake n R_ZEROES = repeat 0 (Z.to_nat n).
Proof using All.
  intros Hn. unfold R_ZEROES, ztake. change (Z.to_nat SHAKE_128_R_BYTES) with 168%nat.
  assert (forall a b, firstn a (repeat 0 (a + b)) = repeat 0 a) as X.
  { intros a b. rewrite repeat_app. apply firstn_app_exact, repeat_length. }
  rewrite <- (X (Z.to_nat n) (168 - Z.to_nat n)%nat). do 2 f_equal. lia.
Qed.

Lemma SInv_final R PAD suf m sp : rate R -> 24 <= R <= 168 -> pad_is PAD suf -> bytes m -> SInv R m sp ->
  exists A, absorb_final kf R PAD sp = Ok A /\ state_ok A /\ bytes_of_lanes A = sponge_absorb R (bits_of_bytes m ++ suf).
Proof using Hkf.
  intros HR HRR Hpad Hm (a & r & q & -> & Hq & Ha & Hbw & HS & HE). apply bytes_app in Hm as [Hba Hbr].
  destruct Hbw as (Hr & Hu & Hbuf & Htk). pose proof (zlen_nonneg r).
  unfold sponge_absorb. rewrite (pad_bits PAD suf R (a ++ r) Hpad) by (try lia; apply bytes_app; auto). cbv zeta.
  assert (K : zlen (a ++ r) mod R = zlen r).
  { rewrite zlen_app, Ha. rewrite Z.add_comm, Z.mod_add, Z.mod_small; lia. }
  rewrite K. pose proof Hpad as (B1 & B2 & _).
  assert (PB : bytes (r ++ pad_bytes PAD (R - zlen r)) /\ zlen (r ++ pad_bytes PAD (R - zlen r)) = R).
  { unfold pad_bytes. destruct (R - zlen r =? 1) eqn:E.
    - split. + apply bytes_app; split; auto. apply bytes_cons; split; auto. apply bytes_nil. + zl. change (zlen (@nil Z)) with 0. lia.
    - split. + apply bytes_app; split; auto. apply bytes_app; split. { apply bytes_cons; split; auto. apply bytes_nil. }
        apply bytes_app; split. { apply bytes_repeat. unfold byte_ok; lia. } bytes_tac.
      + rewrite !zlen_app, zlen_repeat. change (zlen [PAD]) with 1. change (zlen [128]) with 1. lia. }
  destruct PB as [PB1 PB2].
  assert (BL : bw_le R r (sp_buffer sp)) by (unfold bw_le; sp; auto; lia).
  assert (X : exists bw, (if R - zlen r =? 1 then Ok (fst (bw_add_leading R (sp_buffer sp) [Z.lor PAD 128]))
       else if R - zlen r =? 2 then Ok (fst (bw_add_leading R (sp_buffer sp) [PAD; 128]))
       else let! bw := bw_add R (sp_buffer sp) [PAD] in
         if (R - zlen r - 2 <? 0) || (zlen R_ZEROES <? R - zlen r - 2) then Panic
         else let bw := fst (bw_add_leading R bw (ztake (R - zlen r - 2) R_ZEROES)) in Ok (fst (bw_add_leading R bw [128]))) = Ok bw
       /\ bw_le R (r ++ pad_bytes PAD (R - zlen r)) bw).
  { unfold pad_bytes. destruct (R - zlen r =? 1) eqn:E1; [|destruct (R - zlen r =? 2) eqn:E2].
    - eexists; split; [reflexivity|]. apply bw_le_add; auto. + intros ->. change (zlen (@nil Z)) with 0 in E1. lia.
      + change (zlen [Z.lor PAD 128]) with 1. lia.
    - eexists; split; [reflexivity|]. replace (Z.to_nat (R - zlen r - 2)) with 0%nat by lia. cbn [repeat app].
      apply bw_le_add; auto. + intros ->. change (zlen (@nil Z)) with 0 in E2. lia.
      + change (zlen [PAD; 128]) with 2. lia.
    - destruct (bw_le_add1 R r (sp_buffer sp) [PAD] BL ltac:(change (zlen [PAD]) with 1; lia)) as (bw1 & -> & BL1). cbn [bind].
      destruct ((R - zlen r - 2 <? 0) || _) eqn:E3. { exfalso. change (zlen R_ZEROES) with 168 in E3. lia. }
      eexists; split; [reflexivity|]. rewrite zeroes_take by lia.
      pose proof (bw_le_add R _ bw1 (repeat 0 (Z.to_nat (R - zlen r - 2))) BL1) as X1.
      rewrite zlen_app, zlen_repeat in X1. change (zlen [PAD]) with 1 in X1.
      specialize (X1 ltac:(destruct r; discriminate) ltac:(lia)).
      pose proof (bw_le_add R _ _ [128] X1) as X2. rewrite !zlen_app, zlen_repeat in X2. change (zlen [PAD]) with 1 in X2. change (zlen [128]) with 1 in X2.
      specialize (X2 ltac:(destruct r; discriminate) ltac:(lia)). rewrite <- !app_assoc in X2. exact X2. }
  destruct X as (bw & X1 & X2). unfold absorb_final. rewrite Hu. cbv zeta in X1 |- *. rewrite X1. cbn [bind].
  destruct (bw_le_take R _ bw X2 PB2) as (bw' & ->).
  destruct (absorb_block_ok R (sp_s sp) _ HR HS PB1 PB2) as [S1 S2].
  eexists; split; [reflexivity|]. split; auto. rewrite S2, HE.
  rewrite <- app_assoc, (chunks_exact_app R q), fold_left_app by (auto; lia).
  rewrite (chunks_exact_cons R (r ++ _)) by lia. rewrite (ztake_all R) by lia. rewrite (zdrop_all R) by lia. reflexivity.
Qed.

(** ** Squeezing *)
Lemma squeeze_current_ok s : forall n, n <= 8 * zlen s -> squeeze_current s n = Ok (ztake n (bytes_of_lanes s)).
Proof using All.
  induction s as [|w s IH]; intros n Hn; unfold bytes_of_lanes in *; cbn [squeeze_current].
  - change (zlen (@nil Z)) with 0 in Hn. destruct (n <=? 0) eqn:E; [|lia]. cbn. unfold ztake. rewrite firstn_nil. reflexivity.
  - rewrite zlen_cons in Hn. destruct (n <=? 0) eqn:E.
    + unfold ztake. replace (Z.to_nat n) with 0%nat by lia. reflexivity.
    + rewrite IH by lia. cbn [bind map concat]. f_equal. destruct (Z.le_gt_cases n 8).
      * rewrite Z.min_r by lia. rewrite ztake_app_le by (rewrite zlen_le_bytes; lia).
        unfold ztake at 2. replace (Z.to_nat (n - 8)) with 0%nat by lia. apply app_nil_r.
      * rewrite Z.min_l by lia. rewrite ztake_app_ge by (rewrite zlen_le_bytes; lia). rewrite zlen_le_bytes.
        rewrite (ztake_all 8) by (rewrite zlen_le_bytes; lia). reflexivity.
Qed.
Definition reps (S0 : list Z) (q : nat) (s : list Z) : Prop := state_ok s /\ bytes_of_lanes s = Nat.iter q keccak_bytes S0.
Lemma state_len s : state_ok s -> zlen s = 25. Proof using All. intros [L _]. unfold zlen. lia. Qed.
Lemma bytes_len s : state_ok s -> zlen (bytes_of_lanes s) = 200.
Proof using All. intros H. rewrite bytes_of_lanes_len, state_len; auto. Qed.
Lemma iter_r {A} (f : A -> A) n x : Nat.iter n f (f x) = f (Nat.iter n f x).
Proof using All. induction n; cbn; auto. f_equal. auto. Qed.
Lemma blocks_app R a : forall b S, squeeze_blocks R (a + b) S = squeeze_blocks R a S ++ squeeze_blocks R b (Nat.iter a keccak_bytes S).
Proof using All.
  induction a as [|a IH]; intros; cbn [squeeze_blocks Nat.add]; [reflexivity|].
  rewrite IH, <- app_assoc. do 3 f_equal. cbn. apply iter_r.
Qed.
Lemma reps_kf S0 q s : reps S0 q s -> reps S0 (S q) (kf s RC).
Proof using Hkf.
  intros [H1 H2]. rewrite kf_RC by auto. split; [apply keccak_f_ok; auto|]. rewrite <- keccak_bytes_lanes, H2; auto.
Qed.
Lemma squeeze_whole R S0 k : 8 <= R <= 200 -> forall q s fuel, reps S0 q s -> (k <= fuel)%nat ->
  exists s', squeeze_loop kf fuel R s (Z.of_nat k * R) = Ok (squeeze_blocks R k (Nat.iter q keccak_bytes S0), s') /\ reps S0 (q + k) s'.
Proof using Hkf.
  intros HR. induction k as [|k IH]; intros q s fuel Hs Hf.
  - exists s. rewrite Nat.add_0_r. split; auto. destruct fuel; reflexivity.
  - destruct fuel as [|fuel]; [lia|]. cbn [squeeze_loop]. destruct (_ <=? 0) eqn:E; [lia|].
    pose proof Hs as [H1 H2]. rewrite Z.min_l by lia. rewrite squeeze_current_ok by (rewrite state_len; auto; lia). cbn [bind].
    replace (Z.of_nat (S k) * R - R) with (Z.of_nat k * R) by lia.
    destruct (IH (S q) (kf s RC) fuel (reps_kf _ _ _ Hs) ltac:(lia)) as (s' & -> & Hs'). cbn [bind]. exists s'.
    split; [|replace (q + S k)%nat with (S q + k)%nat by lia; auto]. cbn [squeeze_blocks]. rewrite H2. reflexivity.
Qed.
Lemma squeeze_ok R S0 k q s : 8 <= R <= 200 -> 0 <= k -> reps S0 q s ->
  exists s', squeeze kf R s (k * R) = Ok (squeeze_blocks R (Z.to_nat k) (Nat.iter q keccak_bytes S0), s') /\ reps S0 (q + Z.to_nat k) s'.
Proof using Hkf.
  intros HR Hk Hs. unfold squeeze. replace (k * R) with (Z.of_nat (Z.to_nat k) * R) by lia. apply squeeze_whole; auto. nia.
Qed.

Definition is_block (R : Z) (S : list Z) : Prop := forall q, R <= zlen (Nat.iter q keccak_bytes S).
Lemma blocks_len R S k : 0 <= R -> is_block R S -> zlen (squeeze_blocks R k S) = Z.of_nat k * R.
Proof using All.
  intros H0. revert S. induction k as [|k IH]; intros S HS; cbn [squeeze_blocks]; [reflexivity|].
  rewrite zlen_app, IH. - rewrite zlen_ztake; [lia|]. specialize (HS 0%nat). cbn in HS. lia.
  - intros q. rewrite iter_r. apply (HS (Datatypes.S q)).
Qed.
Lemma reps_block R S0 s : 0 <= R <= 200 -> reps S0 0 s -> is_block R S0.
Proof using Hkf.
  intros HR Hs q. assert (exists s', reps S0 q s') as (s' & H1 & H2).
  { induction q as [|q (s' & IH)]; eauto using reps_kf. } rewrite <- H2, bytes_len; auto; lia.
Qed.

(** invariant of a SHAKE reader: [E] is everything read so far *)
Definition KInv (R : Z) (S0 E : list Z) (k : shake) : Prop :=
  exists q, reps S0 q (sk_s k) /\ zlen (sk_buffer k) = R /\ 0 <= sk_offset k <= R /\
    E ++ zdrop (sk_offset k) (sk_buffer k) = squeeze_blocks R q S0.
Lemma zdrop_blocks (R o : Z) (b : list Z) : zlen b = R -> o = R -> zdrop o b = [].
Proof using All. intros. apply zdrop_all. lia. Qed.
Lemma read_rest R S0 E k n : 8 <= R <= 200 -> 0 < n -> KInv R S0 E k -> sk_offset k = R ->
  exists o k', (let! (whole, s) := squeeze kf R (sk_s k) (n / R * R) in
    if n - n / R * R =? 0 then Ok (whole, {| sk_s := s; sk_buffer := sk_buffer k; sk_offset := sk_offset k |})
    else let! (buffer, s) := squeeze kf R s R in
      Ok (whole ++ ztake (Z.min R (n - n / R * R)) buffer, {| sk_s := s; sk_buffer := buffer; sk_offset := Z.min R (n - n / R * R) |})) = Ok (o, k')
    /\ zlen o = n /\ KInv R S0 (E ++ o) k'.
Proof using Hkf.
  intros HR Hn (q & Hs & Hb & Ho & HE) Hoff.
  rewrite (zdrop_blocks R) in HE by auto. rewrite app_nil_r in HE.
  pose proof (Z.div_mod n R ltac:(lia)). pose proof (Z.mod_pos_bound n R ltac:(lia)). pose proof (Z.div_pos n R ltac:(lia) ltac:(lia)).
  destruct (squeeze_ok R S0 (n / R) q (sk_s k) HR H1 Hs) as (s1 & -> & Hs1). cbn [bind].
  assert (BL : is_block R (Nat.iter q keccak_bytes S0)).
  { intros j. destruct Hs as [Hs2 Hs3]. rewrite <- Hs3. apply (reps_block R (bytes_of_lanes (sk_s k)) (sk_s k)); [lia|]. split; auto. }
  destruct (n - n / R * R =? 0) eqn:E0.
  - eexists _, _. split; [reflexivity|]. split. { rewrite blocks_len by (auto; lia). lia. }
    exists (q + Z.to_nat (n / R))%nat. cbn [sk_s sk_buffer sk_offset]. sp; auto; try lia.
    rewrite (zdrop_blocks R) by auto. rewrite app_nil_r, blocks_app, HE. reflexivity.
  - destruct (squeeze_ok R S0 1 _ s1 HR ltac:(lia) Hs1) as (s2 & X & Hs2). rewrite Z.mul_1_l in X. rewrite X. cbn [bind].
    change (Z.to_nat 1) with 1%nat in *. cbn [squeeze_blocks] in *. rewrite app_nil_r in *.
    set (blk := ztake R (Nat.iter (q + Z.to_nat (n / R)) keccak_bytes S0)) in *.
    assert (Lb : zlen blk = R).
    { unfold blk. apply zlen_ztake. destruct Hs1 as [S1 S2]. rewrite <- S2, bytes_len; auto; lia. }
    eexists _, _. split; [reflexivity|]. rewrite Z.min_r by lia. split.
    { rewrite zlen_app, blocks_len by (auto; lia). rewrite zlen_ztake by lia. lia. }
    exists (q + Z.to_nat (n / R) + 1)%nat. cbn [sk_s sk_buffer sk_offset]. sp; auto; try lia.
    rewrite <- !app_assoc, ztake_zdrop. rewrite <- !Nat.add_assoc, blocks_app, HE. f_equal.
    rewrite blocks_app. f_equal. cbn [squeeze_blocks]. rewrite app_nil_r. unfold blk. f_equal.
    clear. rewrite (Nat.add_comm q). induction (Z.to_nat (n / R)); cbn; auto. f_equal; auto.
Qed.
Lemma KInv_read R S0 E k n : 8 <= R <= 200 -> 0 <= n -> KInv R S0 E k ->
  exists o k', shake_read kf R k n = Ok (o, k') /\ zlen o = n /\ KInv R S0 (E ++ o) k'.
Proof using Hkf.
  intros HR Hn HI. pose proof HI as (q & Hs & Hb & Ho & HE). unfold shake_read. rewrite Hb.
  destruct (sk_offset k =? R) eqn:E0.
  - destruct (n =? 0) eqn:E1.
    + exists [], k. rewrite app_nil_r. sp; auto. change (zlen (@nil Z)) with 0. lia.
    + destruct (read_rest R S0 E k n HR ltac:(lia) HI ltac:(lia)) as (o & k' & X & L & I').
      exists o, k'. split; auto.
  - cbv zeta. set (chunk := Z.min (R - sk_offset k) n).
    assert (LS : zlen (ztake chunk (zdrop (sk_offset k) (sk_buffer k))) = chunk).
    { apply zlen_ztake. rewrite zlen_zdrop; unfold chunk; lia. }
    set (k1 := {| sk_s := sk_s k; sk_buffer := sk_buffer k; sk_offset := sk_offset k + chunk |}).
    assert (I1 : KInv R S0 (E ++ ztake chunk (zdrop (sk_offset k) (sk_buffer k))) k1).
    { exists q. cbn [k1 sk_s sk_buffer sk_offset]. sp; auto; try (unfold chunk; lia).
      rewrite <- HE, <- app_assoc. f_equal.
      replace (sk_offset k + chunk) with (chunk + sk_offset k) by lia. 
      rewrite <- zdrop_zdrop by (unfold chunk; lia). apply ztake_zdrop. }
    destruct (n - chunk =? 0) eqn:E1.
    + eexists _, _. split; [reflexivity|]. split; auto. rewrite LS. lia.
    + destruct (read_rest R S0 _ k1 (n - chunk) HR ltac:(unfold chunk in *; lia) I1 ltac:(cbn [k1 sk_offset]; unfold chunk in *; lia)) as (o & k' & X & L & I').
      exists (ztake chunk (zdrop (sk_offset k) (sk_buffer k)) ++ o), k'. split; [|split; [rewrite zlen_app, LS; lia|rewrite app_assoc; auto]].
      destruct (squeeze kf R (sk_s k1) _) as [[w s]| |]; cbn [bind] in *; try discriminate.
      destruct (n - chunk - (n - chunk) / R * R =? 0). { inversion X; subst. reflexivity. }
      destruct (squeeze kf R s R) as [[w' s']| |]; cbn [bind] in *; try discriminate. inversion X; subst. reflexivity.
Qed.
Lemma KInv_reads R S0 ns : forall E k, 8 <= R <= 200 -> Forall (fun n => 0 <= n) ns -> KInv R S0 E k ->
  exists os k', shake_reads kf R k ns = Ok (os, k') /\ map zlen os = ns /\ KInv R S0 (E ++ concat os) k'.
Proof using Hkf.
  induction ns as [|n ns IH]; intros E k HR Hn HI; cbn [shake_reads].
  - exists [], k. cbn. rewrite app_nil_r. auto.
  - inversion_clear Hn. destruct (KInv_read R S0 E k n HR H HI) as (o & k1 & -> & L & I1). cbn [bind].
    destruct (IH _ _ HR H0 I1) as (os & k2 & -> & L2 & I2). cbn [bind]. exists (o :: os), k2.
    cbn [map concat]. rewrite L, L2, app_assoc. auto.
Qed.
Lemma prefix_blocks R S a b d : 0 < R -> is_block R S -> 0 <= d -> d <= Z.of_nat a * R -> d <= Z.of_nat b * R ->
  ztake d (squeeze_blocks R a S) = ztake d (squeeze_blocks R b S).
Proof using All.
  intros HR HB Hd Ha Hb.
  assert (X : forall a c, d <= Z.of_nat a * R -> ztake d (squeeze_blocks R (a + c) S) = ztake d (squeeze_blocks R a S)).
  { intros a' c H. rewrite blocks_app, ztake_app_le; auto. rewrite blocks_len; auto. lia. }
  rewrite <- (X a b), <- (X b a) by auto. rewrite Nat.add_comm. reflexivity.
Qed.
Lemma KInv_sponge R m E k s : 8 <= R <= 200 -> reps (sponge_absorb R m) 0 s -> KInv R (sponge_absorb R m) E k -> E = SPONGE R m (zlen E).
Proof using Hkf.
  intros HR Hs (q & _ & Hb & Ho & HE). pose proof (reps_block R _ _ ltac:(lia) Hs) as HB. pose proof (zlen_nonneg E).
  unfold SPONGE. pose proof (Z.div_mod (zlen E) R ltac:(lia)). pose proof (Z.mod_pos_bound (zlen E) R ltac:(lia)). pose proof (Z.div_pos (zlen E) R ltac:(lia) ltac:(lia)).
  assert (L : zlen E <= Z.of_nat q * R).
  { rewrite <- (blocks_len R (sponge_absorb R m) q) by (auto; lia). rewrite <- HE, zlen_app. pose proof (zlen_nonneg (zdrop (sk_offset k) (sk_buffer k))). lia. }
  rewrite (prefix_blocks R _ _ q) by (auto; lia). rewrite <- HE. symmetry. apply ztake_app.
Qed.
End Sponge.

(** ** Multi-way one-block variants *)
Lemma le_words_bytes i k : bytes i -> zlen i = 8 * Z.of_nat k -> bytes_of_lanes (le_words i) = i /\ length (le_words i) = k /\ Forall (fun w => 0 <= w < 2 ^ 64) (le_words i).
Proof.
  unfold le_words, bytes_of_lanes. revert i. induction k as [|k IH]; intros i Hb L.
  - assert (i = []) by (apply zlen_0_nil; lia). subst. cbn. auto.
  - rewrite <- (ztake_zdrop 8 i) in *. assert (Hc : zlen (ztake 8 i) = 8) by (rewrite ztake_zdrop in L; apply zlen_ztake; lia).
    set (c := ztake 8 i) in *. set (b := zdrop 8 i) in *. clearbody c b. apply bytes_app in Hb as [Bc Bb]. rewrite zlen_app in L.
    destruct (IH b Bb ltac:(lia)) as (E1 & E2 & E3). rewrite chunks8_app by auto. cbn [map concat length]. rewrite E1, E2. sp; auto.
    + f_equal. pose proof (le_bytes_le_val c Bc) as X. replace (length c) with 8%nat in X by (unfold zlen in Hc; lia). exact X.
    + constructor; auto. pose proof (le_val_bound c Bc) as Bd. rewrite Hc in Bd. change (256 ^ 8) with (2 ^ 64) in Bd. exact Bd.
Qed.
Lemma set_words_spec ws : forall s, (length ws <= length s)%nat -> set_words s ws = ws ++ skipn (length ws) s.
Proof. induction ws as [|w ws IH]; intros [|x s] H; cbn in *; auto; try lia. f_equal. apply IH. lia. Qed.
Lemma xorb_list_comm a b : length a = length b -> xorb_list a b = xorb_list b a.
Proof. revert b. induction a as [|x a IH]; intros [|y b] H; cbn in H; try discriminate; auto. unfold xorb_list in *. cbn. rewrite Z.lxor_comm. f_equal. apply IH. lia. Qed.
Lemma one_block PAD suf R m : pad_is PAD suf -> bytes m -> zlen m < R -> 2 <= R <= 200 ->
  sponge_absorb R (bits_of_bytes m ++ suf) = keccak_bytes (m ++ pad_bytes PAD (R - zlen m) ++ repeat 0 (Z.to_nat (200 - R))).
Proof.
  intros Hp Hb Hl HR. pose proof (zlen_nonneg m). pose proof Hp as (B1 & B2 & _).
  unfold sponge_absorb. rewrite (pad_bits PAD suf R m Hp) by (auto; lia). cbv zeta. rewrite Z.mod_small by lia.
  assert (PL : zlen (m ++ pad_bytes PAD (R - zlen m)) = R).
  { unfold pad_bytes. rewrite zlen_app. destruct (R - zlen m =? 1) eqn:E.
    - change (zlen [Z.lor PAD 128]) with 1. lia.
    - rewrite !zlen_app, zlen_repeat. change (zlen [PAD]) with 1. change (zlen [128]) with 1. lia. }
  rewrite chunks_exact_cons, (ztake_all R), (zdrop_all R) by lia. change (chunks_exact R (@nil Z)) with (@nil (list Z)).
  cbn [fold_left]. f_equal. rewrite app_assoc. set (p := m ++ _) in *. unfold xor_into.
  match goal with |- map _ (combine ?a ?b) = ?c => change (xorb_list a b = c) end.
  set (p2 := p ++ repeat 0 (200 - length p)).
  assert (L2 : length p2 = 200%nat) by (unfold p2; rewrite app_length, repeat_length; unfold zlen in PL; lia).
  rewrite xorb_list_comm by (rewrite repeat_length; auto).
  transitivity p2. 2:{ unfold p2. do 2 f_equal. unfold zlen in PL. lia. }
  clearbody p2. rewrite <- L2. clear. unfold xorb_list. induction p2; cbn; auto. rewrite Z.lxor_0_r. f_equal; auto.
Qed.

(** the 40-byte inputs: message, pad byte, zeroes *)
Definition pad40 (m : list Z) : list Z := m ++ [SHAKE_PAD_BYTE] ++ repeat 0 (Z.to_nat (39 - zlen m)).
Definition loaded (R : Z) (s m : list Z) : Prop := state_ok s /\
  bytes_of_lanes s = m ++ pad_bytes SHAKE_PAD_BYTE (R - zlen m) ++ repeat 0 (Z.to_nat (200 - R)).
Definition tail_ok (R : Z) (s : list Z) : Prop := state_ok s /\
  bytes_of_lanes (skipn 5 s) = repeat 0 (Z.to_nat (R - 41)) ++ [0x80] ++ repeat 0 (Z.to_nat (200 - R)).
Lemma sextet_s0_ok : tail_ok SHAKE_256_R_BYTES sextet_s0.
Proof.
  split; [|vm_compute; reflexivity]. split; [reflexivity|]. apply Forall_forall. intros x Hx.
  assert (H : forallb (fun w => (0 <=? w) && (w <? 2 ^ 64)) sextet_s0 = true) by (vm_compute; reflexivity).
  rewrite forallb_forall in H. specialize (H x Hx). lia.
Qed.
Lemma four_s0_ok : tail_ok SHAKE_128_R_BYTES four_s0.
Proof.
  split; [|vm_compute; reflexivity]. split; [reflexivity|]. apply Forall_forall. intros x Hx.
  assert (H : forallb (fun w => (0 <=? w) && (w <? 2 ^ 64)) four_s0 = true) by (vm_compute; reflexivity).
  rewrite forallb_forall in H. specialize (H x Hx). lia.
Qed.
Lemma bytes_of_lanes_app a b : bytes_of_lanes (a ++ b) = bytes_of_lanes a ++ bytes_of_lanes b.
Proof. unfold bytes_of_lanes. rewrite map_app, concat_app. reflexivity. Qed.
Lemma load_ok R s m : 48 <= R <= 200 -> tail_ok R s -> bytes m -> zlen m <= 39 ->
  let s' := set_words s (le_words (pad40 m)) in tail_ok R s' /\ loaded R s' m.
Proof.
  intros HR [[Ls Fs] Ht] Hm Hl s'. pose proof (zlen_nonneg m).
  assert (Bp : bytes (pad40 m)).
  { unfold pad40. apply bytes_app; split; auto. apply bytes_app; split. bytes_tac. apply bytes_repeat. unfold byte_ok; lia. }
  assert (Lp : zlen (pad40 m) = 8 * Z.of_nat 5).
  { unfold pad40. rewrite !zlen_app, zlen_repeat. change (zlen [SHAKE_PAD_BYTE]) with 1. lia. }
  destruct (le_words_bytes (pad40 m) 5 Bp Lp) as (E1 & E2 & E3).
  assert (S' : s' = le_words (pad40 m) ++ skipn 5 s).
  { unfold s'. rewrite set_words_spec by lia. rewrite E2. reflexivity. }
  assert (OK : state_ok s').
  { split. - rewrite S', app_length, skipn_length. lia. - rewrite S'. apply Forall_app. split; auto. apply Forall_forall. intros x Hx.
      rewrite Forall_forall in Fs. apply Fs. rewrite <- (firstn_skipn 5 s). apply in_app_iff. auto. }
  split; split; auto.
  - rewrite S', skipn_app_exact by auto. auto.
  - rewrite S', bytes_of_lanes_app, E1, Ht. unfold pad40. rewrite <- !app_assoc. f_equal.
    unfold pad_bytes. destruct (R - zlen m =? 1) eqn:E; [lia|]. rewrite <- !app_assoc. f_equal.
    rewrite !app_assoc. f_equal. f_equal. rewrite <- repeat_app. f_equal. lia.
Qed.
Lemma loaded_sponge R s m : 48 <= R <= 200 -> loaded R s m -> bytes m -> zlen m <= 39 ->
  reps (sponge_absorb R (bits_of_bytes m ++ [true; true; true; true])) 0 (keccak_f s).
Proof.
  intros HR [OK E] Hm Hl. split; [apply keccak_f_ok; auto|]. cbn [Nat.iter nat_rect].
  rewrite (one_block SHAKE_PAD_BYTE _ R m pad_shake) by (auto; lia). rewrite <- E. rewrite keccak_bytes_lanes; auto.
Qed.
