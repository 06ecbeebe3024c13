(** The windowed compression function is the FIPS 180-4 one. *)
Require Import Verif.Base Verif.L_Base Verif.M_Blockwise Verif.L_Blocks Verif.M_Sha2 Verif.S_Sha2.
Require Import ZifyNat.

Definition word (w x : Z) : Prop := 0 <= x < 2 ^ w.

Lemma rotr_ROTR w x n : 0 <= n <= w -> word w x -> rotr w x n = ROTR w n x.
Proof.
  intros Hn Hx. unfold rotr, ROTR, word in *.
  assert (E : 2 ^ w = 2 ^ n * 2 ^ (w - n)) by (rewrite <- Z.pow_add_r by lia; f_equal; lia).
  rewrite Z.shiftr_div_pow2, Z.shiftl_mul_pow2 by lia.
  assert (0 < 2 ^ n) by (apply Z.pow_pos_nonneg; lia).
  assert (0 < 2 ^ (w - n)) by (apply Z.pow_pos_nonneg; lia).
  rewrite E at 1. rewrite Zmult_mod_distr_r.
  rewrite Z.lor_comm. rewrite <- Z.shiftl_mul_pow2 by lia. rewrite lor_add; try lia.
  - rewrite Z.shiftl_mul_pow2 by lia. lia.
  - split. + apply Z.div_pos; lia. + apply Z.div_lt_upper_bound; lia.
Qed.

Lemma wnot_sub w x : 0 <= w -> word w x -> wnot w x = 2 ^ w - 1 - x.
Proof.
  intros Hw Hx. unfold wnot, word in *. rewrite Z.sub_1_r, <- Z.ones_equiv.
  assert (L : Z.ldiff x (Z.ones w) = 0).
  { rewrite Z.ldiff_ones_r by lia. rewrite Z.shiftr_div_pow2, Z.div_small by lia. apply Z.shiftl_0_l. }
  rewrite Z.sub_nocarry_ldiff by exact L.
  apply Z.bits_inj'. intros i Hi. rewrite Z.lxor_spec, Z.ldiff_spec.
  pose proof (f_equal (fun z => Z.testbit z i) L) as Li. cbn beta in Li.
  rewrite Z.ldiff_spec, Z.bits_0 in Li.
  destruct (Z.testbit x i), (Z.testbit (Z.ones w) i); auto; discriminate.
Qed.

Lemma Ch_eq w x y z : 0 <= w -> word w x -> CH w x y z = Ch w x y z.
Proof. intros. unfold CH, Ch. rewrite wnot_sub; auto. Qed.

Lemma wadd_word w x y : 0 <= w -> word w (wadd w x y).
Proof. intros. apply Z.mod_pos_bound. apply Z.pow_pos_nonneg; lia. Qed.

Lemma wadd_assoc w a b c : wadd w (wadd w a b) c = wadd w a (wadd w b c).
Proof. unfold wadd. rewrite Zplus_mod_idemp_l, Zplus_mod_idemp_r. f_equal. lia. Qed.

(** words of a block *)
Lemma words_length wb n l : length (words wb n l) = n.
Proof. revert l; induction n; cbn; auto. Qed.
Lemma words_nth wb n l t : (t < n)%nat ->
  nth t (words wb n l) 0 = be_val (firstn wb (skipn (t * wb) l)).
Proof.
  revert l t; induction n; intros l t H; [lia|]. destruct t; cbn; [reflexivity|].
  rewrite IHn by lia. f_equal. f_equal.
  replace (wb + t * wb)%nat with (t * wb + wb)%nat by lia.
  pose proof (zdrop_zdrop (Z.of_nat (t * wb)) (Z.of_nat wb) l ltac:(lia) ltac:(lia)) as X.
  unfold zdrop in X. rewrite !Nat2Z.id in *. rewrite X. f_equal. lia.
Qed.

Section Sched.
  Context (F : fips).
  Let w := f_w F.
  Definition rec_at (W : list Z) (t : nat) : Z :=
    add F (add F (f_s1 F (nth (t - 2) W 0)) (nth (t - 7) W 0))
          (add F (f_s0 F (nth (t - 15) W 0)) (nth (t - 16) W 0)).

  Lemma extend_spec n : forall W, (16 <= length W)%nat ->
    length (extend F W n) = (length W + n)%nat /\
    (forall t, (t < length W)%nat -> nth t (extend F W n) 0 = nth t W 0) /\
    (forall t, (length W <= t < length W + n)%nat -> nth t (extend F W n) 0 = rec_at (extend F W n) t).
  Proof.
    induction n; intros W HW; cbn [extend].
    - repeat split; auto; intros; lia.
    - set (x := add F _ _).
      destruct (IHn (W ++ [x])) as (H1 & H2 & H3). { rewrite app_length; cbn; lia. }
      rewrite app_length in *; cbn [length] in *.
      repeat split.
      + lia.
      + intros. rewrite H2 by lia. apply app_nth1; lia.
      + intros t Ht. destruct (Nat.eq_dec t (length W)) as [->|].
        * rewrite H2 by lia. rewrite app_nth2, Nat.sub_diag by lia. cbn [nth].
          unfold rec_at. rewrite !H2 by lia. rewrite !app_nth1 by lia. reflexivity.
        * apply H3. lia.
  Qed.
End Sched.

Definition rl (s : regs) : list Z :=
  let '(a, b, c, d, e, f, g, h) := s in [a; b; c; d; e; f; g; h].
Definition regs_ok (w : Z) (s : regs) : Prop := Forall (word w) (rl s).

Section Compress.
  Context (P : sha2_params) (F : fips).
  Let w := p_w P.
  Context (Hw : f_w F = p_w P) (Hwb : 0 < p_w P) (Hw8 : p_w P = 8 * (p_w P / 8)).
  Context (Hr : f_rounds F = p_rounds P) (Hr16 : (16 <= p_rounds P)%nat).
  Context (HK : p_K P = f_K F) (HKl : length (p_K P) = p_rounds P).
  Context (HS0 : forall x, word w x -> p_bsig0 P x = f_S0 F x).
  Context (HS1 : forall x, word w x -> p_bsig1 P x = f_S1 F x).
  Context (Hs0 : forall x, word w x -> p_ssig0 P x = f_s0 F x).
  Context (Hs1 : forall x, word w x -> p_ssig1 P x = f_s1 F x).

  Lemma add_wadd x y : add F x y = wadd w x y.
  Proof using All. unfold add, wadd. rewrite Hw. reflexivity. Qed.

  Lemma round_ok s k x : regs_ok w s -> regs_ok w (round_step P s k x) /\
    rl (round_step P s k x) = fips_round F (rl s) (k, x).
  Proof using All.
    destruct s as [[[[[[[a b] c] d] e] f] g] h]. unfold regs_ok. cbn [rl]. intros H.
    repeat match goal with H : Forall _ (_ :: _) |- _ => inversion H; clear H; subst end.
    unfold round_step. cbn [rl fips_round fst snd]. rewrite !add_wadd, Hw.
    fold w. rewrite Ch_eq, HS1, HS0 by (auto; unfold w; lia). unfold MAJ, Maj, xor3.
    split; [|reflexivity].
    repeat (apply Forall_cons || apply Forall_nil); auto; apply wadd_word; unfold w; lia.
  Qed.

  Context (block : list Z) (Hblk : bytes block) (Hlen : zlen block = 16 * (p_w P / 8)).
  Let W := schedule F block.

  Lemma W_first t : (t < 16)%nat ->
    nth t W 0 = be_val (ztake (p_w P / 8) (zdrop (Z.of_nat t * (p_w P / 8)) block)).
  Proof using All.
    intros Ht. unfold W, schedule. rewrite Hw.
    destruct (extend_spec F (f_rounds F - 16) (words (Z.to_nat (p_w P / 8)) 16 block)) as (_ & H & _).
    { rewrite words_length. lia. }
    rewrite H by (rewrite words_length; lia). rewrite words_nth by lia.
    unfold ztake, zdrop. do 3 f_equal. lia.
  Qed.
  Lemma W_rec t : (16 <= t < p_rounds P)%nat -> nth t W 0 = rec_at F W t.
  Proof using All.
    intros Ht. unfold W, schedule.
    destruct (extend_spec F (f_rounds F - 16) (words (Z.to_nat (f_w F / 8)) 16 block)) as (_ & _ & H).
    { rewrite words_length. lia. }
    rewrite words_length in H. apply H. lia.
  Qed.
  Lemma W_length : length W = p_rounds P.
  Proof using All.
    unfold W, schedule.
    destruct (extend_spec F (f_rounds F - 16) (words (Z.to_nat (f_w F / 8)) 16 block)) as (H & _ & _).
    { rewrite words_length. lia. }
    rewrite H, words_length. lia.
  Qed.
  Lemma W_word t : (t < p_rounds P)%nat -> word w (nth t W 0).
  Proof using All.
    intros Ht. destruct (Nat.lt_ge_cases t 16).
    - rewrite W_first by lia.
      set (l := ztake _ _). assert (Hl : bytes l) by (apply bytes_ztake, bytes_zdrop, Hblk).
      pose proof (be_val_bound l Hl) as B. unfold word.
      replace (2 ^ w) with (256 ^ zlen l); [exact B|].
      unfold l. rewrite zlen_ztake. 2:{ rewrite zlen_zdrop; nia. }
      change 256 with (2 ^ 8). rewrite <- Z.pow_mul_r by lia. f_equal. unfold w. lia.
    - rewrite W_rec by lia. unfold rec_at. rewrite add_wadd. apply wadd_word. unfold w; lia.
  Qed.

  Definition win_ok (win : list Z) (t : nat) : Prop :=
    length win = 16%nat /\ forall j, (j < t)%nat -> (t <= j + 16)%nat -> nth (j mod 16) win 0 = nth j W 0.

  Lemma sched_ok win t : (t < p_rounds P)%nat -> win_ok win t ->
    fst (sched_step P block win t) = nth t W 0 /\ win_ok (snd (sched_step P block win t)) (S t).
  Proof using All.
    intros Ht [Hl Hwin].
    assert (U : forall v, v = nth t W 0 -> win_ok (upd win (t mod 16) v) (S t)).
    { intros v ->. split. - rewrite upd_length. exact Hl.
      - intros j H1 H2. destruct (Nat.eq_dec j t) as [->|Hne].
        + apply upd_nth_same. rewrite Hl. apply Nat.mod_upper_bound. lia.
        + rewrite upd_nth_other. * apply Hwin; lia.
          * intros E. pose proof (Nat.div_mod t 16). pose proof (Nat.div_mod j 16). lia. }
    unfold sched_step. destruct (Nat.ltb_spec t 16).
    - cbn [fst snd]. rewrite <- W_first by lia. split; [reflexivity|].
      rewrite <- (Nat.mod_small t 16) at 1 by lia. apply U. reflexivity.
    - cbn [fst snd]. unfold znth. rewrite !Hwin by lia.
      fold w. rewrite Hs1, Hs0 by (apply W_word; lia).
      assert (E : wadd w (wadd w (wadd w (f_s1 F (nth (t - 2) W 0)) (nth (t - 7) W 0)) (f_s0 F (nth (t - 15) W 0))) (nth (t - 16) W 0) = nth t W 0).
      { rewrite (W_rec t) by lia. unfold rec_at. rewrite !add_wadd, !wadd_assoc. reflexivity. }
      rewrite E. split; [reflexivity|]. apply U. reflexivity.
  Qed.

  Lemma combine_seq (K V : list Z) : length K = length V ->
    combine K V = map (fun t => (nth t K 0, nth t V 0)) (seq 0 (length V)).
  Proof.
    revert K; induction V as [|v V IH]; intros [|k K] H; cbn in H; try lia; [reflexivity|].
    cbn. f_equal. rewrite <- seq_shift, map_map. apply IH. lia.
  Qed.

  Lemma loop_ok s n : (n <= p_rounds P)%nat -> regs_ok w s ->
    let r := fold_left (loop_step P block) (seq 0 n) (s, repeat 0 16) in
    regs_ok w (fst r) /\ win_ok (snd r) n /\
    rl (fst r) = fold_left (fips_round F) (map (fun t => (nth t (p_K P) 0, nth t W 0)) (seq 0 n)) (rl s).
  Proof using All.
    intros Hn Hs. induction n.
    - cbn. repeat split; auto; intros; lia.
    - rewrite seq_S, map_app, !fold_left_app. cbn [fold_left map plus].
      destruct IHn as (I1 & I2 & I3); [lia|].
      destruct (fold_left (loop_step P block) (seq 0 n) (s, repeat 0 16)) as [s1 win1].
      cbn [fst snd] in *. cbv zeta.
      destruct (sched_ok win1 n) as [J1 J2]; auto; try lia.
      unfold loop_step. destruct (sched_step P block win1 n) as [x win2]. cbn [fst snd] in *.
      destruct (round_ok s1 (znth (p_K P) n) x I1) as [R1 R2].
      split; [exact R1|]. split; [exact J2|]. rewrite R2, I3, J1. reflexivity.
  Qed.

  Lemma compress_block_ok s : regs_ok w s ->
    regs_ok w (compress_block P s block) /\ rl (compress_block P s block) = fips_block F (rl s) block.
  Proof using All.
    intros Hs. unfold compress_block, fips_block.
    rewrite <- HK. fold W. rewrite (combine_seq (p_K P) W) by (rewrite W_length; exact HKl).
    rewrite W_length.
    destruct (loop_ok s (p_rounds P)) as (I1 & _ & I3); auto.
    rewrite <- I3.
    destruct (fold_left (loop_step P block) (seq 0 (p_rounds P)) (s, repeat 0 16)) as [s1 win].
    cbn [fst] in *.
    destruct s1 as [[[[[[[a b] c] d] e] f] g] h].
    destruct s as [[[[[[[a0 b0] c0] d0] e0] f0] g0] h0].
    cbn [rl combine map]. rewrite !add_wadd. fold w. split; [|reflexivity].
    unfold regs_ok; cbn [rl]. repeat (apply Forall_cons || apply Forall_nil); apply wadd_word; unfold w; lia.
  Qed.
End Compress.

Section Blocks.
  Context (P : sha2_params) (F : fips).
  Context (bs : Z) (Hbs : 0 < bs).
  Context (Hblock : forall s b, bytes b -> zlen b = bs -> regs_ok (p_w P) s ->
     regs_ok (p_w P) (compress_block P s b) /\ rl (compress_block P s b) = fips_block F (rl s) b).
  Lemma blocks_ok q : 0 <= q -> forall s m, bytes m -> zlen m = q * bs -> regs_ok (p_w P) s ->
    rl (fold_left (compress_block P) (chunks_exact bs m) s)
      = fips_blocks F (Z.to_nat bs) (Z.to_nat q) (rl s) m.
  Proof using All.
    intros Hq. pattern q. apply natlike_ind; [| |exact Hq]; clear q Hq.
    - intros s m _ H _. rewrite (zlen_0_nil m) by lia. reflexivity.
    - intros q Hq IH s m Hm Hl Hs.
      rewrite chunks_exact_cons by nia. rewrite Z2Nat.inj_succ by lia. cbn [fold_left fips_blocks].
      change (firstn (Z.to_nat bs) m) with (ztake bs m). change (skipn (Z.to_nat bs) m) with (zdrop bs m).
      destruct (Hblock s (ztake bs m)) as [H1 H2]; auto using bytes_ztake.
      { apply zlen_ztake. nia. }
      rewrite <- H2. apply IH; auto using bytes_zdrop. rewrite zlen_zdrop; nia.
  Qed.
End Blocks.

Lemma compress_blocks_nil P s : 0 < p_w P / 8 -> compress_blocks P s [] = s.
Proof. intros. unfold compress_blocks. rewrite chunks_exact_short; [reflexivity|unfold block_sz; lia|]. change (zlen (@nil Z)) with 0. unfold block_sz; lia. Qed.
Lemma compress_blocks_app P s a b q : 0 < p_w P / 8 -> 0 <= q -> zlen a = q * block_sz P ->
  compress_blocks P s (a ++ b) = compress_blocks P (compress_blocks P s a) b.
Proof.
  intros. unfold compress_blocks. rewrite (chunks_exact_app (block_sz P) q) by (auto; unfold block_sz; lia).
  apply fold_left_app.
Qed.

(** instances *)
Ltac rots := intros x Hx; cbn [sha256_params sha512_params fips256 fips512 p_bsig0 p_bsig1 p_ssig0 p_ssig1 f_S0 f_S1 f_s0 f_s1];
  unfold xor3, SHR; rewrite !rotr_ROTR by (lia || exact Hx); rewrite ?Z.shiftr_div_pow2 by lia; reflexivity.


Lemma compress256 s b : bytes b -> zlen b = 64 -> regs_ok 32 s ->
  regs_ok 32 (compress_block sha256_params s b) /\ rl (compress_block sha256_params s b) = fips_block fips256 (rl s) b.
Proof.
  intros Hb Hl Hs.
  refine (compress_block_ok sha256_params fips256 eq_refl _ eq_refl eq_refl _ eq_refl eq_refl _ _ _ _ b Hb Hl s Hs);
    try (cbn; lia); rots.
Qed.
Lemma compress512 s b : bytes b -> zlen b = 128 -> regs_ok 64 s ->
  regs_ok 64 (compress_block sha512_params s b) /\ rl (compress_block sha512_params s b) = fips_block fips512 (rl s) b.
Proof.
  intros Hb Hl Hs.
  refine (compress_block_ok sha512_params fips512 eq_refl _ eq_refl eq_refl _ eq_refl eq_refl _ _ _ _ b Hb Hl s Hs);
    try (cbn; lia); rots.
Qed.
