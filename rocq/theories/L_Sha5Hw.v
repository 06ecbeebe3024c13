(** The AVX2 SHA-512 block functions agree with the generic one. *)
Require Import Verif.Base Verif.L_Base Verif.M_Blockwise Verif.L_Blocks Verif.M_Sha2 Verif.S_Sha2 Verif.L_Sha2
  Verif.S_Simd Verif.M_Sha2Hw Verif.L_Sha2Hw.
Require Import ZifyNat.

Notation P5 := sha512_params.

Lemma bsig0_ok x : bsig0 x = p_bsig0 P5 x.
Proof. unfold bsig0. cbn [p_bsig0 sha512_params]. rewrite (Z.lxor_comm (rotr 64 x 34)). reflexivity. Qed.
Lemma bsig1_ok x : bsig1 x = p_bsig1 P5 x.
Proof. unfold bsig1. cbn [p_bsig1 sha512_params]. rewrite (Z.lxor_comm (rotr 64 x 18)). reflexivity. Qed.

Lemma rotr_xor x n : word 64 x -> 0 < n < 64 -> rotr 64 x n = Z.lxor (x / 2 ^ n) ((x * 2 ^ (64 - n)) mod 2 ^ 64).
Proof.
  intros Hx Hn. unfold rotr. rewrite Z.shiftr_div_pow2, Z.shiftl_mul_pow2 by lia. symmetry. apply Z.lxor_lor.
  apply Z.bits_inj'. intros i Hi. rewrite Z.land_spec, Z.bits_0.
  rewrite <- Z.shiftr_div_pow2, <- Z.shiftl_mul_pow2 by lia. rewrite Z.shiftr_spec by lia.
  destruct (Z.ltb_spec i 64).
  - rewrite Z.mod_pow2_bits_low by lia. rewrite Z.shiftl_spec by lia.
    destruct (Z.ltb_spec i (64 - n)).
    + rewrite (Z.testbit_neg_r x (i - (64 - n))) by lia. apply andb_false_r.
    + rewrite (word_high 64 x (i + n)) by (assumption || lia). reflexivity.
  - rewrite Z.mod_pow2_bits_high by lia. apply andb_false_r.
Qed.

Lemma sigma_0_ok v : word4 64 v -> sigma_0 v = map1 (p_ssig0 P5) v.
Proof.
  destruct v as [a b c d]. intros (A & B & C & D). cbn [l0 l1 l2 l3] in *.
  unfold sigma_0, vxor, srli_epi64, slli_epi64, map2, map1. cbn [l0 l1 l2 l3 p_ssig0 sha512_params].
  assert (G : forall x, word 64 x -> Z.lxor (Z.lxor (Z.lxor (x / 2 ^ 7) (x / 2 ^ 8)) (Z.lxor (x / 2 ^ 1) (x * 2 ^ 56 mod 2 ^ 64))) (x * 2 ^ 63 mod 2 ^ 64)
    = Z.lxor (Z.lxor (rotr 64 x 1) (rotr 64 x 8)) (Z.shiftr x 7)).
  { intros x Hx. rewrite !rotr_xor by (assumption || lia). rewrite Z.shiftr_div_pow2 by lia.
    change (64 - 1) with 63. change (64 - 8) with 56.
    generalize (x / 2 ^ 7), (x / 2 ^ 8), (x / 2 ^ 1), (x * 2 ^ 56 mod 2 ^ 64), (x * 2 ^ 63 mod 2 ^ 64). intros.
    apply Z.bits_inj'. intros i Hi. rewrite !Z.lxor_spec.
    repeat match goal with |- context [Z.testbit ?x i] => destruct (Z.testbit x i) end; reflexivity. }
  rewrite !G by assumption. reflexivity.
Qed.
Lemma sigma_1_ok v : word4 64 v -> sigma_1 v = map1 (p_ssig1 P5) v.
Proof.
  destruct v as [a b c d]. intros (A & B & C & D). cbn [l0 l1 l2 l3] in *.
  unfold sigma_1, vxor, srli_epi64, slli_epi64, map2, map1. cbn [l0 l1 l2 l3 p_ssig1 sha512_params].
  assert (G : forall x, word 64 x -> Z.lxor (Z.lxor (Z.lxor (x / 2 ^ 6) (x / 2 ^ 61)) (Z.lxor (x / 2 ^ 19) (x * 2 ^ 3 mod 2 ^ 64))) (x * 2 ^ 45 mod 2 ^ 64)
    = Z.lxor (Z.lxor (rotr 64 x 19) (rotr 64 x 61)) (Z.shiftr x 6)).
  { intros x Hx. rewrite !rotr_xor by (assumption || lia). rewrite Z.shiftr_div_pow2 by lia.
    change (64 - 19) with 45. change (64 - 61) with 3.
    generalize (x / 2 ^ 6), (x / 2 ^ 61), (x / 2 ^ 19), (x * 2 ^ 3 mod 2 ^ 64), (x * 2 ^ 45 mod 2 ^ 64). intros.
    apply Z.bits_inj'. intros i Hi. rewrite !Z.lxor_spec.
    repeat match goal with |- context [Z.testbit ?x i] => destruct (Z.testbit x i) end; reflexivity. }
  rewrite !G by assumption. reflexivity.
Qed.

(** ** rounds *)
Lemma avx_round_ok a b c d e f g h w k d' h' : avx_round a b c d e f g h (wadd 64 w k) = (d', h') ->
  round_step P5 (a, b, c, d, e, f, g, h) k w = (h', a, b, c, d', e, f, g).
Proof.
  unfold avx_round, round_step. cbv zeta. change (p_w P5) with 64. rewrite bsig0_ok, bsig1_ok.
  change (ch e f g) with (CH 64 e f g). change (maj a b c) with (MAJ a b c).
  intros E. pose proof (f_equal fst E) as E1. pose proof (f_equal snd E) as E2. cbn [fst snd] in E1, E2. subst d' h'.
  repeat match goal with |- (_, _) = (_, _) => apply f_equal2 end; try reflexivity; sums.
Qed.

Definition swap (s : regs) : regs := let '(a, b, c, d, e, f, g, h) := s in (e, f, g, h, a, b, c, d).

Section Rounds.
  Context (W : nat -> Z) (s : regs).
  Let S t := st P5 W s t.
  Definition wk (t : nat) : Z := wadd 64 (W t) (nth t (p_K P5) 0).

  Lemma rounds_a_ok t : rounds_a (S t) (wk t) (wk (1 + t)) (wk (2 + t)) (wk (3 + t)) = swap (S (4 + t)).
  Proof using All.
    change (S (4 + t)) with (round_step P5 (round_step P5 (round_step P5 (round_step P5 (S t)
      (nth t (p_K P5) 0) (W t)) (nth (1 + t) (p_K P5) 0) (W (1 + t)%nat)) (nth (2 + t) (p_K P5) 0) (W (2 + t)%nat))
      (nth (3 + t) (p_K P5) 0) (W (3 + t)%nat)).
    generalize (S t). intros r. regs8 r. unfold rounds_a, wk.
    destruct (avx_round a b c d e f g h _) as [d1 h1] eqn:E1. rewrite (avx_round_ok _ _ _ _ _ _ _ _ _ _ _ _ E1).
    destruct (avx_round h1 a b c d1 e f g _) as [c1 g1] eqn:E2. rewrite (avx_round_ok _ _ _ _ _ _ _ _ _ _ _ _ E2).
    destruct (avx_round g1 h1 a b c1 d1 e f _) as [b1 f1] eqn:E3. rewrite (avx_round_ok _ _ _ _ _ _ _ _ _ _ _ _ E3).
    destruct (avx_round f1 g1 h1 a b1 c1 d1 e _) as [a1 e1] eqn:E4. rewrite (avx_round_ok _ _ _ _ _ _ _ _ _ _ _ _ E4).
    reflexivity.
  Qed.
  Lemma rounds_e_ok t : rounds_e (swap (S t)) (wk t) (wk (1 + t)) (wk (2 + t)) (wk (3 + t)) = S (4 + t).
  Proof using All.
    change (S (4 + t)) with (round_step P5 (round_step P5 (round_step P5 (round_step P5 (S t)
      (nth t (p_K P5) 0) (W t)) (nth (1 + t) (p_K P5) 0) (W (1 + t)%nat)) (nth (2 + t) (p_K P5) 0) (W (2 + t)%nat))
      (nth (3 + t) (p_K P5) 0) (W (3 + t)%nat)).
    generalize (S t). intros r. regs8 r. unfold rounds_e, swap, wk.
    destruct (avx_round a b c d e f g h _) as [d1 h1] eqn:E1. rewrite (avx_round_ok _ _ _ _ _ _ _ _ _ _ _ _ E1).
    destruct (avx_round h1 a b c d1 e f g _) as [c1 g1] eqn:E2. rewrite (avx_round_ok _ _ _ _ _ _ _ _ _ _ _ _ E2).
    destruct (avx_round g1 h1 a b c1 d1 e f _) as [b1 f1] eqn:E3. rewrite (avx_round_ok _ _ _ _ _ _ _ _ _ _ _ _ E3).
    destruct (avx_round f1 g1 h1 a b1 c1 d1 e _) as [a1 e1] eqn:E4. rewrite (avx_round_ok _ _ _ _ _ _ _ _ _ _ _ _ E4).
    reflexivity.
  Qed.
End Rounds.

(** ** reading message words *)
Lemma le_bytes_8 a b c d e f g h : byte_ok a -> byte_ok b -> byte_ok c -> byte_ok d -> byte_ok e -> byte_ok f -> byte_ok g -> byte_ok h ->
  le_bytes 8 (le_val [a; b; c; d; e; f; g; h]) = [a; b; c; d; e; f; g; h].
Proof. intros. apply (le_bytes_le_val [a; b; c; d; e; f; g; h]). repeat (apply Forall_cons || apply Forall_nil); assumption. Qed.

Lemma bswap_ok p0 p1 p2 p3 : bytes p0 -> bytes p1 -> bytes p2 -> bytes p3 ->
  length p0 = 8%nat -> length p1 = 8%nat -> length p2 = 8%nat -> length p3 = 8%nat ->
  mm256_shuffle_epi8 (V4 (le_val p0) (le_val p1) (le_val p2) (le_val p3)) BSWAP_SHUFFLE
    = V4 (be_val p0) (be_val p1) (be_val p2) (be_val p3).
Proof.
  intros B0 B1 B2 B3 L0 L1 L2 L3.
  explode p0 8%nat. explode p1 8%nat. explode p2 8%nat. explode p3 8%nat.
  destruct p0; [|discriminate]. destruct p1; [|discriminate]. destruct p2; [|discriminate]. destruct p3; [|discriminate].
  clear L0 L1 L2 L3. split_bytes.
  unfold mm256_shuffle_epi8, to_mem, lanes. cbn [l0 l1 l2 l3 flat_map].
  rewrite !le_bytes_8 by assumption. cbn [app]. reflexivity.
Qed.

Lemma input_load l : bytes l -> (32 <= length l)%nat -> mm256_shuffle_epi8 (of_mem 8 l) BSWAP_SHUFFLE = words4 8 l.
Proof.
  intros Hl H. unfold of_mem, words4. cbn [mult plus].
  assert (Bf : forall i, bytes (firstn 8 (skipn i l))).
  { intros i. pose proof (bytes_ztake 8 _ (bytes_zdrop (Z.of_nat i) l Hl)) as X. unfold ztake, zdrop in X. rewrite Nat2Z.id in X. exact X. }
  rewrite bswap_ok; try apply Bf; try (rewrite firstn_length, skipn_length; lia). reflexivity.
Qed.

Lemma le_val8 x : word 64 x -> le_val (le_bytes 8 x) = x.
Proof. intros Hx. rewrite le_val_le_bytes. apply Z.mod_small. exact Hx. Qed.

Lemma alignr256_8 a b : word4 64 a -> word4 64 b -> mm256_alignr_epi8 a b 8 = V4 (l1 b) (l0 a) (l3 b) (l2 a).
Proof.
  destruct a as [a0 a1 a2 a3], b as [b0 b1 b2 b3]. intros (A0 & A1 & A2 & A3) (B0 & B1 & B2 & B3). cbn [l0 l1 l2 l3] in *.
  unfold mm256_alignr_epi8, palignr, to_mem, lanes, of_mem.
  cbn [l0 l1 l2 l3 flat_map].
  assert (L : forall x, length (le_bytes 8 x) = 8%nat) by (intros; apply le_bytes_length).
  transitivity (V4 (le_val (le_bytes 8 b1)) (le_val (le_bytes 8 a0)) (le_val (le_bytes 8 b3)) (le_val (le_bytes 8 a2)));
    [|rewrite !le_val8 by assumption; reflexivity].
  generalize (le_bytes 8 a0) (L a0) (le_bytes 8 a1) (L a1) (le_bytes 8 a2) (L a2) (le_bytes 8 a3) (L a3)
    (le_bytes 8 b0) (L b0) (le_bytes 8 b1) (L b1) (le_bytes 8 b2) (L b2) (le_bytes 8 b3) (L b3).
  clear. intros p0 P0 p1 P1 p2 P2 p3 P3 q0 Q0 q1 Q1 q2 Q2 q3 Q3.
  explode p0 8%nat. explode p1 8%nat. explode p2 8%nat. explode p3 8%nat.
  explode q0 8%nat. explode q1 8%nat. explode q2 8%nat. explode q3 8%nat.
  destruct p0; [|discriminate]. destruct p1; [|discriminate]. destruct p2; [|discriminate]. destruct p3; [|discriminate].
  destruct q0; [|discriminate]. destruct q1; [|discriminate]. destruct q2; [|discriminate]. destruct q3; [|discriminate].
  reflexivity.
Qed.

(** ** one block *)
Section One.
  Context (b : list Z) (W : nat -> Z) (HS : sched P5 b W) (s : regs).
  Let S t := st P5 W s t.

  Lemma quad_a_ok t v : v = vadd 64 (vec W t) (k_at AVX_K t) -> quad_a (S t) v = swap (S (4 + t)).
  Proof using All. intros ->. rewrite k_at_ok. apply (rounds_a_ok W s t). Qed.
  Lemma quad_e_ok t v : v = vadd 64 (vec W t) (k_at AVX_K t) -> quad_e (swap (S t)) v = S (4 + t).
  Proof using All. intros ->. rewrite k_at_ok. apply (rounds_e_ok W s t). Qed.

  Lemma vec_word5 t : (3 + t < 80)%nat -> word4 64 (vec W t).
  Proof using All.
    intros. pose proof (s_word _ _ _ HS) as X. cbn [p_rounds sha512_params p_w] in X.
    unfold vec. refine (conj _ (conj _ (conj _ _))); apply X; lia.
  Qed.
  Lemma rec512 t : (t < 64)%nat -> W (16 + t)%nat = wadd 64 (wadd 64 (p_ssig1 P5 (W (14 + t)%nat)) (W (9 + t)%nat))
    (wadd 64 (p_ssig0 P5 (W (1 + t)%nat)) (W t)).
  Proof using All.
    intros Ht. rewrite (s_rec _ _ _ HS) by (cbn [p_rounds sha512_params]; lia).
    change (p_w P5) with 64.
    replace (16 + t - 2)%nat with (14 + t)%nat by lia. replace (16 + t - 7)%nat with (9 + t)%nat by lia.
    replace (16 + t - 15)%nat with (1 + t)%nat by lia. replace (16 + t - 16)%nat with t by lia. reflexivity.
  Qed.

  Lemma schedule4_ok t k : (19 + t < 80)%nat ->
    schedule4 (vec W t) (vec W (4 + t)) (vec W (8 + t)) (vec W (12 + t)) k = (vec W (16 + t), vadd 64 (vec W (16 + t)) k).
  Proof using All.
    intros Ht. unfold schedule4. cbv zeta.
    pose proof (s_word _ _ _ HS) as X. cbn [p_rounds sha512_params p_w] in X.
    assert (A : mm256_alignr_epi8 (permute2x128 (vec W t) (vec W (4 + t)) 33) (vec W t) 8 = vec W (1 + t)).
    { change (permute2x128 (vec W t) (vec W (4 + t)) 33) with (vec W (2 + t)).
      rewrite alignr256_8 by (apply vec_word5; lia). reflexivity. }
    assert (B : mm256_alignr_epi8 (permute2x128 (vec W (8 + t)) (vec W (12 + t)) 33) (vec W (8 + t)) 8 = vec W (9 + t)).
    { change (permute2x128 (vec W (8 + t)) (vec W (12 + t)) 33) with (vec W (10 + t)).
      rewrite alignr256_8 by (apply vec_word5; lia). reflexivity. }
    rewrite A, B. clear A B.
    change (permute4 (vec W (12 + t)) 238) with (V4 (W (14 + t)%nat) (W (15 + t)%nat) (W (14 + t)%nat) (W (15 + t)%nat)).
    rewrite (sigma_0_ok (vec W (1 + t))) by (apply vec_word5; lia).
    rewrite (sigma_1_ok (V4 _ _ _ _)) by (refine (conj _ (conj _ (conj _ _))); apply X; lia).
    set (tmp := vadd 64 (vec W (9 + t)) _).
    assert (T : forall i x, (i <= 3)%nat -> nth i (lanes tmp) 0 = x -> (p_ssig1 P5 (W (14 + i + t)%nat) + x) mod 2 ^ 64 = W (16 + i + t)%nat).
    { intros i x Hi <-. replace (16 + i + t)%nat with (16 + (i + t))%nat by lia. rewrite rec512 by lia.
      unfold tmp, vadd, map2, map1, vec, lanes. cbn [l0 l1 l2 l3].
      do 4 (destruct i as [|i]; [cbn [nth plus]; sums|]). lia. }
    clearbody tmp.
    set (w01 := vadd 64 (map1 _ (V4 _ _ _ _)) tmp).
    assert (E0 : l0 w01 = W (16 + t)%nat) by (apply (T 0%nat); [lia|reflexivity]).
    assert (E1 : l1 w01 = W (17 + t)%nat) by (apply (T 1%nat); [lia|reflexivity]).
    change (permute4 w01 68) with (V4 (l0 w01) (l1 w01) (l0 w01) (l1 w01)).
    match goal with |- context [permute2x128 w01 ?v 48] => change (permute2x128 w01 v 48) with (V4 (l0 w01) (l1 w01) (l2 v) (l3 v)) end.
    rewrite E0, E1.
    rewrite (sigma_1_ok (V4 _ _ _ _)) by (refine (conj _ (conj _ (conj _ _))); apply X; lia).
    pose proof (T 2%nat (l2 tmp) ltac:(lia) eq_refl) as T2. pose proof (T 3%nat (l3 tmp) ltac:(lia) eq_refl) as T3.
    change (14 + 2 + t)%nat with (16 + t)%nat in T2. change (14 + 3 + t)%nat with (17 + t)%nat in T3.
    match goal with |- (?x, _) = _ => assert (E : x = vec W (16 + t)) end.
    { unfold vadd, map1, map2. cbn [l0 l1 l2 l3]. rewrite T2, T3. reflexivity. }
    rewrite E. reflexivity.
  Qed.

  Lemma avx_body_ok u : (23 + u < 80)%nat ->
    avx_loop_body (S (16 + u), (vec W u, vec W (4 + u), vec W (8 + u), vec W (12 + u))) (16 + u)
      = (S (24 + u), (vec W (8 + u), vec W (12 + u), vec W (16 + u), vec W (20 + u))).
  Proof using All.
    intros Hu. unfold avx_loop_body. rewrite schedule4_ok by lia.
    rewrite (schedule4_ok (4 + u)) by lia.
    rewrite (quad_a_ok (16 + u)) by reflexivity.
    change (4 + (16 + u))%nat with (20 + u)%nat. change (16 + (4 + u))%nat with (20 + u)%nat.
    rewrite (quad_e_ok (20 + u)). - reflexivity. - do 2 f_equal. lia.
  Qed.

  Lemma input_ok i : (i < 4)%nat -> bytes b -> zlen b = 128 ->
    input b i = (vec W (i * 4), vadd 64 (vec W (i * 4)) (k_at AVX_K (i * 4))).
  Proof using All.
    intros Hi Hb Hl. unfold input. rewrite input_load.
    - replace (i * 32)%nat with (i * 4 * 8)%nat by lia. rewrite (words4_vec _ _ _ 8 i HS) by (reflexivity || exact Hi). reflexivity.
    - pose proof (bytes_zdrop (Z.of_nat (i * 32)) b Hb) as X. unfold zdrop in X. rewrite Nat2Z.id in X. exact X.
    - rewrite skipn_length. unfold zlen in Hl. lia.
  Qed.

  Ltac step E := let H := fresh in pose proof E as H; cbn [Nat.add Nat.mul] in H; rewrite H by lia; clear H; cbv beta iota.

  Lemma avx_block_ok : bytes b -> zlen b = 128 -> avx_compress_block s b = compress_block P5 s b.
  Proof using All.
    intros Hb Hl. unfold avx_compress_block.
    rewrite !input_ok by (assumption || lia). cbn [Nat.mul Nat.add].
    change s with (S 0) at 1.
    step (quad_a_ok 0 _ eq_refl). step (quad_e_ok 4 _ eq_refl).
    step (quad_a_ok 8 _ eq_refl). step (quad_e_ok 12 _ eq_refl). rewrite !fold_cons. cbn [Nat.mul Nat.add].
    step (avx_body_ok 0). step (avx_body_ok 8). step (avx_body_ok 16). step (avx_body_ok 24).
    step (avx_body_ok 32). step (avx_body_ok 40). step (avx_body_ok 48). step (avx_body_ok 56).
    cbn [fold_left]. rewrite (s_block _ _ _ HS s). change (p_rounds P5) with 80%nat. change (p_w P5) with 64.
    fold (S 80). generalize (S 80). intros r. regs8 r. regs8 s. reflexivity.
  Qed.
End One.

(** ** four blocks at a time *)
(** writing a table in order *)
Definition fill (f : nat -> v4) (l : list v4) (a n : nat) : list v4 := fold_left (fun l t => upd l t (f t)) (seq a n) l.
Lemma upd_app_at {A} (x : list A) : forall y v w, upd (x ++ y :: w) (length x) v = x ++ v :: w.
Proof. induction x; intros; cbn; [reflexivity|]. f_equal. apply IHx. Qed.
Lemma fill_ok f n : forall l, (n <= length l)%nat -> fill f l 0 n = map f (seq 0 n) ++ skipn n l.
Proof.
  induction n; intros l Hn; [reflexivity|].
  unfold fill in *. rewrite seq_S, fold_left_app, map_app, IHn by lia. cbn [fold_left plus map].
  assert (E : exists y w, skipn n l = y :: w /\ skipn (S n) l = w).
  { destruct (skipn n l) as [|y w] eqn:E; [apply (f_equal (@length v4)) in E; rewrite skipn_length in E; cbn in E; lia|].
    exists y, w. split; [reflexivity|]. replace (S n) with (n + 1)%nat by lia. rewrite <- skipn_skipn', E. reflexivity. }
  destruct E as (y & w & -> & ->). rewrite <- app_assoc. cbn [app].
  pose proof (upd_app_at (map f (seq 0 n)) y (f n) w) as U. rewrite map_length, seq_length in U. exact U.
Qed.
Lemma fill_fill f l a n m : fill f (fill f l a n) (a + n) m = fill f l a (n + m).
Proof. unfold fill. rewrite seq_app, fold_left_app. reflexivity. Qed.

Lemma chunks80 (f : nat -> v4) : chunks_exact 8 (map f (seq 0 80)) = map (fun i => map f (seq (8 * i) 8)) (seq 0 10).
Proof. vm_compute. reflexivity. Qed.

Section Lane.
  Context (b : list Z) (W : nat -> Z) (HS : sched P5 b W) (lane : v4 -> Z) (f : nat -> v4).
  Context (Hf : forall t, (t < 80)%nat -> lane (f t) = wk W t).

  Lemma lane_rounds_ok s t : (t + 8 <= 80)%nat -> lane_rounds lane (st P5 W s t) (map f (seq t 8)) = st P5 W s (8 + t).
  Proof using All.
    intros Ht. unfold lane_rounds. cbn [seq map nth]. rewrite !Hf by lia.
    pose proof (rounds_a_ok W s t) as A. cbn [Nat.add] in A. rewrite A.
    pose proof (rounds_e_ok W s (4 + t)) as B. cbn [Nat.add] in B. rewrite B. reflexivity.
  Qed.

  Lemma lane_block_ok s : lane_block lane (map f (seq 0 80)) (lo_hi s) = lo_hi (compress_block P5 s b).
  Proof using All.
    unfold lane_block. rewrite (surjective_pairing (lo_hi s)). rewrite chunks80.
    replace (of_lo_hi (fst (lo_hi s)) (snd (lo_hi s))) with (st P5 W s 0) by (regs8 s; reflexivity).
    assert (G : forall n, (n <= 10)%nat -> fold_left (lane_rounds lane) (map (fun i => map f (seq (8 * i) 8)) (seq 0 n)) (st P5 W s 0) = st P5 W s (8 * n)).
    { induction n; intros Hn; [reflexivity|].
      rewrite seq_S, map_app, fold_left_app, IHn by lia. cbn [map fold_left plus].
      rewrite lane_rounds_ok by lia. f_equal. lia. }
    rewrite G by lia. rewrite (s_block _ _ _ HS s). change (8 * 10)%nat with 80%nat. change (p_rounds P5) with 80%nat. change (p_w P5) with 64.
    generalize (st P5 W s 80). intros r. regs8 r. regs8 s. reflexivity.
  Qed.
End Lane.

Section Quad.
  Context (b0 b1 b2 b3 : list Z) (W0 W1 W2 W3 : nat -> Z).
  Context (H0 : sched P5 b0 W0) (H1 : sched P5 b1 W1) (H2 : sched P5 b2 W2) (H3 : sched P5 b3 W3).
  Context (B0 : bytes b0) (B1 : bytes b1) (B2 : bytes b2) (B3 : bytes b3).
  Context (L0 : zlen b0 = 128) (L1 : zlen b1 = 128) (L2 : zlen b2 = 128) (L3 : zlen b3 = 128).
  Let m := b0 ++ b1 ++ b2 ++ b3.
  Definition qv (t : nat) : v4 := V4 (W0 t) (W1 t) (W2 t) (W3 t).
  Definition qk (t : nat) : v4 := vadd 64 (qv t) (k_all t).

  Lemma qv_word t : (t < 80)%nat -> word4 64 (qv t).
  Proof using All.
    intros. pose proof (s_word _ _ _ H0) as X0. pose proof (s_word _ _ _ H1) as X1. pose proof (s_word _ _ _ H2) as X2.
    pose proof (s_word _ _ _ H3) as X3. cbn [p_rounds sha512_params p_w] in *.
    refine (conj _ (conj _ (conj _ _))); cbn [qv l0 l1 l2 l3]; auto.
  Qed.

  Lemma read8 (x y : list Z) t : (t < 16)%nat -> zlen x = 128 -> ztake 8 (zdrop (Z.of_nat t * 8) (x ++ y)) = ztake 8 (zdrop (Z.of_nat t * 8) x).
  Proof using All.
    intros Ht Hx. rewrite zdrop_app_le by lia. apply ztake_app_le. rewrite zlen_zdrop; lia.
  Qed.

  Lemma gather_ok t : (t < 16)%nat -> gather_word m (Z.of_nat t) = qv t.
  Proof using All.
    intros Ht. unfold gather_word, i64gather, map1. cbn [l0 l1 l2 l3].
    assert (R0 : ztake 8 (zdrop (8 * (Z.of_nat t + 0)) m) = ztake 8 (zdrop (Z.of_nat t * 8) b0)).
    { replace (8 * (Z.of_nat t + 0)) with (Z.of_nat t * 8) by lia. apply read8; assumption. }
    assert (R1 : ztake 8 (zdrop (8 * (Z.of_nat t + 16)) m) = ztake 8 (zdrop (Z.of_nat t * 8) b1)).
    { unfold m. rewrite zdrop_app_ge by lia. rewrite L0. replace (8 * (Z.of_nat t + 16) - 128) with (Z.of_nat t * 8) by lia. apply read8; assumption. }
    assert (R2 : ztake 8 (zdrop (8 * (Z.of_nat t + 32)) m) = ztake 8 (zdrop (Z.of_nat t * 8) b2)).
    { unfold m. rewrite zdrop_app_ge by lia. rewrite zdrop_app_ge by lia. rewrite L0, L1.
      replace (8 * (Z.of_nat t + 32) - 128 - 128) with (Z.of_nat t * 8) by lia. apply read8; assumption. }
    assert (R3 : ztake 8 (zdrop (8 * (Z.of_nat t + 48)) m) = ztake 8 (zdrop (Z.of_nat t * 8) b3)).
    { unfold m. rewrite !zdrop_app_ge by lia. rewrite L0, L1, L2.
      replace (8 * (Z.of_nat t + 48) - 128 - 128 - 128) with (Z.of_nat t * 8) by lia. reflexivity. }
    rewrite R0, R1, R2, R3.
    assert (Len : forall x : list Z, zlen x = 128 -> length (ztake 8 (zdrop (Z.of_nat t * 8) x)) = 8%nat).
    { intros x Hx. apply Nat2Z.inj. change (zlen (ztake 8 (zdrop (Z.of_nat t * 8) x)) = 8). apply zlen_ztake. rewrite zlen_zdrop; lia. }
    rewrite bswap_ok; try (apply bytes_ztake, bytes_zdrop; assumption); try (apply Len; assumption).
    unfold qv. rewrite (s_first _ _ _ H0), (s_first _ _ _ H1), (s_first _ _ _ H2), (s_first _ _ _ H3) by exact Ht. reflexivity.
  Qed.

  Lemma qround sch t : (t < 64)%nat ->
    schedule_round sch t (qv (1 + t)) (qv (14 + t)) (qv t) (qv (9 + t)) = (upd sch t (qk t), qv (16 + t)).
  Proof using All.
    intros Ht. unfold schedule_round. rewrite sigma_0_ok, sigma_1_ok by (apply qv_word; lia).
    apply f_equal2; [reflexivity|]. unfold qv, vadd, map1, map2. cbn [l0 l1 l2 l3].
    rewrite (rec512 b0 W0 H0 sha512_iv), (rec512 b1 W1 H1 sha512_iv), (rec512 b2 W2 H2 sha512_iv), (rec512 b3 W3 H3 sha512_iv) by exact Ht.
    f_equal; sums.
  Qed.

  Definition win t : win16 := (qv t, qv (1 + t), qv (2 + t), qv (3 + t), qv (4 + t), qv (5 + t), qv (6 + t), qv (7 + t),
    qv (8 + t), qv (9 + t), qv (10 + t), qv (11 + t), qv (12 + t), qv (13 + t), qv (14 + t), qv (15 + t)).

  Lemma qbody sch t : (t < 49)%nat -> quad_loop_body (sch, win t) t = (fill qk sch t 16, win (16 + t)).
  Proof using All.
    intros Ht. unfold quad_loop_body, win.
    replace (t + 0)%nat with t by lia.
    repeat match goal with |- context [(t + ?k)%nat] => progress replace (t + k)%nat with (k + t)%nat by lia end.
    pose proof (fun sc => qround sc t ltac:(lia)) as E0. rewrite E0. cbv beta iota.
    pose proof (fun sc => qround sc (1 + t) ltac:(lia)) as E1. cbn [Nat.add] in *. rewrite E1. cbv beta iota.
    pose proof (fun sc => qround sc (2 + t) ltac:(lia)) as E2. cbn [Nat.add] in *. rewrite E2. cbv beta iota.
    pose proof (fun sc => qround sc (3 + t) ltac:(lia)) as E3. cbn [Nat.add] in *. rewrite E3. cbv beta iota.
    pose proof (fun sc => qround sc (4 + t) ltac:(lia)) as E4. cbn [Nat.add] in *. rewrite E4. cbv beta iota.
    pose proof (fun sc => qround sc (5 + t) ltac:(lia)) as E5. cbn [Nat.add] in *. rewrite E5. cbv beta iota.
    pose proof (fun sc => qround sc (6 + t) ltac:(lia)) as E6. cbn [Nat.add] in *. rewrite E6. cbv beta iota.
    pose proof (fun sc => qround sc (7 + t) ltac:(lia)) as E7. cbn [Nat.add] in *. rewrite E7. cbv beta iota.
    pose proof (fun sc => qround sc (8 + t) ltac:(lia)) as E8. cbn [Nat.add] in *. rewrite E8. cbv beta iota.
    pose proof (fun sc => qround sc (9 + t) ltac:(lia)) as E9. cbn [Nat.add] in *. rewrite E9. cbv beta iota.
    pose proof (fun sc => qround sc (10 + t) ltac:(lia)) as E10. cbn [Nat.add] in *. rewrite E10. cbv beta iota.
    pose proof (fun sc => qround sc (11 + t) ltac:(lia)) as E11. cbn [Nat.add] in *. rewrite E11. cbv beta iota.
    pose proof (fun sc => qround sc (12 + t) ltac:(lia)) as E12. cbn [Nat.add] in *. rewrite E12. cbv beta iota.
    pose proof (fun sc => qround sc (13 + t) ltac:(lia)) as E13. cbn [Nat.add] in *. rewrite E13. cbv beta iota.
    pose proof (fun sc => qround sc (14 + t) ltac:(lia)) as E14. cbn [Nat.add] in *. rewrite E14. cbv beta iota.
    pose proof (fun sc => qround sc (15 + t) ltac:(lia)) as E15. cbn [Nat.add] in *. rewrite E15. cbv beta iota.
    reflexivity.
  Qed.

  Lemma quad_schedule_ok : quad_message_schedule m = map qk (seq 0 80).
  Proof using All.
    unfold quad_message_schedule.
    pose proof (gather_ok 0) as G0. pose proof (gather_ok 1) as G1. pose proof (gather_ok 2) as G2. pose proof (gather_ok 3) as G3.
    pose proof (gather_ok 4) as G4. pose proof (gather_ok 5) as G5. pose proof (gather_ok 6) as G6. pose proof (gather_ok 7) as G7.
    pose proof (gather_ok 8) as G8. pose proof (gather_ok 9) as G9. pose proof (gather_ok 10) as G10. pose proof (gather_ok 11) as G11.
    pose proof (gather_ok 12) as G12. pose proof (gather_ok 13) as G13. pose proof (gather_ok 14) as G14. pose proof (gather_ok 15) as G15.
    cbn [Z.of_nat Pos.of_succ_nat Pos.succ] in *.
    rewrite G0, G1, G2, G3, G4, G5, G6, G7, G8, G9, G10, G11, G12, G13, G14, G15 by lia.
    clear G0 G1 G2 G3 G4 G5 G6 G7 G8 G9 G10 G11 G12 G13 G14 G15.
    cbv zeta. rewrite !fold_cons.
    change (qv 0, qv 1, qv 2, qv 3, qv 4, qv 5, qv 6, qv 7, qv 8, qv 9, qv 10, qv 11, qv 12, qv 13, qv 14, qv 15) with (win 0).
    rewrite qbody by lia. change (16 + 0)%nat with 16%nat. rewrite qbody by lia. change (16 + 16)%nat with 32%nat.
    rewrite qbody by lia. change (16 + 32)%nat with 48%nat. rewrite qbody by lia. change (16 + 48)%nat with 64%nat.
    rewrite (fill_fill qk _ 0 16 16), (fill_fill qk _ 0 32 16), (fill_fill qk _ 0 48 16).
    change (48 + 16)%nat with 64%nat. cbn [fold_left win].
    transitivity (fill qk (fill qk (repeat (V4 0 0 0 0) 80) 0 64) (0 + 64) 16).
    - generalize (fill qk (repeat (V4 0 0 0 0) 80) 0 64). intros sch. reflexivity.
    - rewrite fill_fill, fill_ok by (cbn; lia). rewrite skipn_all2 by (rewrite repeat_length; cbn; lia). rewrite app_nil_r. reflexivity.
  Qed.

  Lemma compress_4_ok s : compress_4_blocks s (b0 ++ b1 ++ b2 ++ b3)
    = compress_block P5 (compress_block P5 (compress_block P5 (compress_block P5 s b0) b1) b2) b3.
  Proof using All.
    unfold compress_4_blocks. fold m. rewrite quad_schedule_ok. cbv zeta.
    rewrite (lane_block_ok b0 W0 H0 l0 qk) by (intros; reflexivity).
    rewrite (lane_block_ok b1 W1 H1 l1 qk) by (intros; reflexivity).
    rewrite (lane_block_ok b2 W2 H2 l2 qk) by (intros; reflexivity).
    rewrite (lane_block_ok b3 W3 H3 l3 qk) by (intros; reflexivity).
    match goal with |- context [lo_hi ?r] => generalize r end. intros r. regs8 r. reflexivity.
  Qed.
End Quad.

Lemma fold4 {A B} (f : A -> B -> A) a b c d s : fold_left f [a; b; c; d] s = f (f (f (f s a) b) c) d.
Proof. reflexivity. Qed.
Lemma compress_4_blocks_ok s m : bytes m -> zlen m = 512 ->
  compress_4_blocks s m = fold_left (compress_block P5) (chunks_exact 128 m) s.
Proof.
  intros Hm Hl.
  set (b0 := ztake 128 m). set (r0 := zdrop 128 m). set (b1 := ztake 128 r0). set (r1 := zdrop 128 r0).
  set (b2 := ztake 128 r1). set (b3 := zdrop 128 r1).
  assert (R0 : zlen r0 = 384) by (unfold r0; rewrite zlen_zdrop; lia).
  assert (R1 : zlen r1 = 256) by (unfold r1; rewrite zlen_zdrop; lia).
  assert (L0 : zlen b0 = 128) by (apply zlen_ztake; lia). assert (L1 : zlen b1 = 128) by (apply zlen_ztake; lia).
  assert (L2 : zlen b2 = 128) by (apply zlen_ztake; lia). assert (L3 : zlen b3 = 128) by (unfold b3; rewrite zlen_zdrop; lia).
  assert (B0 : bytes b0) by apply bytes_ztake, Hm. assert (B1 : bytes b1) by apply bytes_ztake, bytes_zdrop, Hm.
  assert (B2 : bytes b2) by apply bytes_ztake, bytes_zdrop, bytes_zdrop, Hm.
  assert (B3 : bytes b3) by apply bytes_zdrop, bytes_zdrop, bytes_zdrop, Hm.
  assert (E : m = b0 ++ b1 ++ b2 ++ b3).
  { unfold b2, b3. rewrite (ztake_zdrop 128 r1). unfold r1, b1. rewrite (ztake_zdrop 128 r0). unfold r0, b0. rewrite ztake_zdrop. reflexivity. }
  rewrite E. clearbody b0 b1 b2 b3. clear m r0 r1 Hm Hl R0 R1 E.
  assert (C : chunks_exact 128 (b0 ++ b1 ++ b2 ++ b3) = [b0; b1; b2; b3]).
  { assert (One : forall x r : list Z, zlen x = 128 -> chunks_exact 128 (x ++ r) = x :: chunks_exact 128 r).
    { intros x r Hx. rewrite chunks_exact_cons by (rewrite ?zlen_app; pose proof (zlen_nonneg r); lia).
      rewrite ztake_app_eq, zdrop_app_eq by lia. reflexivity. }
    rewrite !One by assumption. rewrite <- (app_nil_r b3), One by assumption. rewrite chunks_exact_short by (cbn; lia).
    rewrite app_nil_r. reflexivity. }
  rewrite C. destruct (sched512 b0 B0 L0) as [W0 H0]. destruct (sched512 b1 B1 L1) as [W1 H1].
  destruct (sched512 b2 B2 L2) as [W2 H2]. destruct (sched512 b3 B3 L3) as [W3 H3].
  rewrite fold4. exact (compress_4_ok b0 b1 b2 b3 W0 W1 W2 W3 H0 H1 H2 H3 B0 B1 B2 B3 L0 L1 L2 L3 s).
Qed.

Lemma quads_ok q : forall s m, bytes m -> zlen m = Z.of_nat q * 512 ->
  fold_left compress_4_blocks (chunks_exact 512 m) s = fold_left (compress_block P5) (chunks_exact 128 m) s.
Proof.
  induction q; intros s m Hm Hl.
  - rewrite !chunks_exact_short by lia. reflexivity.
  - rewrite (chunks_exact_cons 512) by lia. rewrite fold_cons.
    rewrite compress_4_blocks_ok; [|apply bytes_ztake, Hm|apply zlen_ztake; lia].
    rewrite IHq; [|apply bytes_zdrop, Hm|rewrite zlen_zdrop; lia].
    rewrite <- fold_left_app, <- (chunks_exact_app 128 4); [rewrite ztake_zdrop; reflexivity|lia|lia|].
    rewrite zlen_ztake; lia.
Qed.
Lemma singles_ok q : forall s m, bytes m -> zlen m = Z.of_nat q * 128 ->
  fold_left avx_compress_block (chunks_exact 128 m) s = fold_left (compress_block P5) (chunks_exact 128 m) s.
Proof.
  induction q; intros s m Hm Hl.
  - rewrite !chunks_exact_short by lia. reflexivity.
  - rewrite (chunks_exact_cons 128) by lia. rewrite !fold_cons.
    destruct (sched512 (ztake 128 m)) as [W HS]; [apply bytes_ztake, Hm|apply zlen_ztake; lia|].
    rewrite (avx_block_ok _ W HS s); [|apply bytes_ztake, Hm|apply zlen_ztake; lia].
    apply IHq; [apply bytes_zdrop, Hm|rewrite zlen_zdrop; lia].
Qed.

Lemma avx_sha512_ok s m : bytes m -> avx_sha512 s m = compress_blocks P5 s m.
Proof.
  intros Hm. unfold avx_sha512, compress_blocks. change (block_sz P5) with 128. cbv zeta.
  pose proof (zlen_nonneg m). pose proof (Z.div_mod (zlen m) 512 ltac:(lia)). pose proof (Z.mod_pos_bound (zlen m) 512 ltac:(lia)).
  assert (0 <= zlen m / 512) by (apply Z.div_pos; lia).
  rewrite (chunks_whole 512 m) by lia.
  set (k := zlen m / 512 * 512) in *.
  rewrite (quads_ok (Z.to_nat (zlen m / 512))); [|apply bytes_ztake, Hm|rewrite zlen_ztake; lia].
  set (s1 := fold_left (compress_block P5) (chunks_exact 128 (ztake k m)) s).
  set (r := zdrop k m). assert (Lr : zlen r = zlen m - k) by (apply zlen_zdrop; lia).
  assert (Br : bytes r) by apply bytes_zdrop, Hm.
  pose proof (zlen_nonneg r). pose proof (Z.div_mod (zlen r) 128 ltac:(lia)). pose proof (Z.mod_pos_bound (zlen r) 128 ltac:(lia)).
  assert (0 <= zlen r / 128) by (apply Z.div_pos; lia).
  rewrite (chunks_whole 128 r) by lia.
  rewrite (singles_ok (Z.to_nat (zlen r / 128))); [|apply bytes_ztake, Br|rewrite zlen_ztake; lia].
  rewrite <- (chunks_whole 128 r) by lia. unfold s1.
  rewrite <- fold_left_app, <- (chunks_exact_app 128 (zlen m / 512 * 4)); [unfold r; rewrite ztake_zdrop; reflexivity|lia|lia|].
  rewrite zlen_ztake; lia.
Qed.
