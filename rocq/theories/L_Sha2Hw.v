(** The hardware SHA-2 block functions agree with the generic one. *)
Require Import Verif.Base Verif.L_Base Verif.M_Blockwise Verif.L_Blocks Verif.M_Sha2 Verif.S_Sha2 Verif.L_Sha2
  Verif.S_Simd Verif.M_Sha2Hw.
Require Import ZifyNat.

(** the working variables after [n] rounds *)
Fixpoint st (P : sha2_params) (W : nat -> Z) (s : regs) (n : nat) : regs :=
  match n with O => s | S k => round_step P (st P W s k) (nth k (p_K P) 0) (W k) end.

Definition radd (w : Z) (x y : regs) : regs :=
  let '(a, b, c, d, e, f, g, h) := y in
  let '(a0, b0, c0, d0, e0, f0, g0, h0) := x in
  (wadd w a0 a, wadd w b0 b, wadd w c0 c, wadd w d0 d, wadd w e0 e, wadd w f0 f, wadd w g0 g, wadd w h0 h).

(** what the rest needs to know about the message schedule of a block *)
Record sched (P : sha2_params) (b : list Z) (W : nat -> Z) : Prop := {
  s_first : forall t, (t < 16)%nat -> W t = be_val (ztake (p_w P / 8) (zdrop (Z.of_nat t * (p_w P / 8)) b));
  s_rec : forall t, (16 <= t < p_rounds P)%nat ->
    W t = wadd (p_w P) (wadd (p_w P) (p_ssig1 P (W (t - 2)%nat)) (W (t - 7)%nat))
                       (wadd (p_w P) (p_ssig0 P (W (t - 15)%nat)) (W (t - 16)%nat));
  s_word : forall t, (t < p_rounds P)%nat -> word (p_w P) (W t);
  s_block : forall s, compress_block P s b = radd (p_w P) s (st P W s (p_rounds P)) }.

Section Gen.
  Context (P : sha2_params) (F : fips).
  Let w := p_w P.
  Context (Hw : f_w F = p_w P) (Hwb : 0 < p_w P) (Hw8 : p_w P = 8 * (p_w P / 8)).
  Context (Hr : f_rounds F = p_rounds P) (Hr16 : (16 <= p_rounds P)%nat).
  Context (HK : p_K P = f_K F) (HKl : length (p_K P) = p_rounds P).
  Context (HS0 : forall x, word w x -> p_bsig0 P x = f_S0 F x).
  Context (HS1 : forall x, word w x -> p_bsig1 P x = f_S1 F x).
  Context (Hs0 : forall x, word w x -> p_ssig0 P x = f_s0 F x).
  Context (Hs1 : forall x, word w x -> p_ssig1 P x = f_s1 F x).
  Context (b : list Z) (Hb : bytes b) (Hl : zlen b = 16 * (p_w P / 8)).

  Lemma sched_gen : sched P b (fun t => nth t (schedule F b) 0).
  Proof using All.
    assert (Word : forall t, (t < p_rounds P)%nat -> word (p_w P) (nth t (schedule F b) 0)).
    { intros t Ht. apply (W_word P F); assumption. }
    constructor.
    - intros t Ht. apply (W_first P F); assumption.
    - intros t Ht. rewrite (W_rec P F) by assumption. unfold rec_at.
      rewrite !(add_wadd P F) by assumption. rewrite Hs1, Hs0 by (apply Word; lia). reflexivity.
    - exact Word.
    - intros s. unfold compress_block.
      assert (G : forall n, (n <= p_rounds P)%nat -> exists win,
        fold_left (loop_step P b) (seq 0 n) (s, repeat 0 16) = (st P (fun t => nth t (schedule F b) 0) s n, win) /\
        win_ok F b win n).
      { induction n; intros Hn.
        - exists (repeat 0 16). split; [reflexivity|]. split; [reflexivity|]. intros; lia.
        - destruct IHn as (win & E & Hwin); [lia|].
          rewrite seq_S, fold_left_app, E. cbn [fold_left plus loop_step].
          destruct (sched_ok P F) with (block := b) (win := win) (t := n) as [J1 J2]; try assumption; try lia.
          destruct (sched_step P b win n) as [x win2]. cbn [fst snd] in *. exists win2. split; [|exact J2].
          rewrite J1. reflexivity. }
      destruct (G (p_rounds P) ltac:(lia)) as (win & -> & _).
      unfold radd. destruct (st P (fun t => nth t (schedule F b) 0) s (p_rounds P)) as [[[[[[[x1 x2] x3] x4] x5] x6] x7] x8].
      destruct s as [[[[[[[y1 y2] y3] y4] y5] y6] y7] y8]. reflexivity.
  Qed.
End Gen.

Lemma sched256 b : bytes b -> zlen b = 64 -> exists W, sched sha256_params b W.
Proof.
  intros Hb Hl. eexists.
  refine (sched_gen sha256_params fips256 eq_refl _ eq_refl eq_refl _ eq_refl eq_refl _ _ _ _ b Hb Hl);
    try (cbn; lia); rots.
Qed.
Lemma sched512 b : bytes b -> zlen b = 128 -> exists W, sched sha512_params b W.
Proof.
  intros Hb Hl. eexists.
  refine (sched_gen sha512_params fips512 eq_refl _ eq_refl eq_refl _ eq_refl eq_refl _ _ _ _ b Hb Hl);
    try (cbn; lia); rots.
Qed.

Lemma round256_ok s k y : regs_ok 32 s -> regs_ok 32 (round_step sha256_params s k y).
Proof.
  intros Hs. refine (proj1 (round_ok sha256_params fips256 eq_refl _ eq_refl eq_refl _ eq_refl eq_refl _ _ _ _ s k y Hs));
    try (cbn; lia); rots.
Qed.
Lemma round512_ok s k y : regs_ok 64 s -> regs_ok 64 (round_step sha512_params s k y).
Proof.
  intros Hs. refine (proj1 (round_ok sha512_params fips512 eq_refl _ eq_refl eq_refl _ eq_refl eq_refl _ _ _ _ s k y Hs));
    try (cbn; lia); rots.
Qed.
Lemma st256_ok W s n : regs_ok 32 s -> regs_ok 32 (st sha256_params W s n).
Proof. intros Hs. induction n; [exact Hs|]. apply round256_ok, IHn. Qed.
Lemma st512_ok W s n : regs_ok 64 s -> regs_ok 64 (st sha512_params W s n).
Proof. intros Hs. induction n; [exact Hs|]. apply round512_ok, IHn. Qed.
Lemma radd_ok w x y : 0 <= w -> regs_ok w (radd w x y).
Proof.
  intros Hw. destruct x as [[[[[[[? ?] ?] ?] ?] ?] ?] ?], y as [[[[[[[? ?] ?] ?] ?] ?] ?] ?].
  unfold regs_ok; cbn [radd rl]. repeat (apply Forall_cons || apply Forall_nil); apply wadd_word, Hw.
Qed.

(** sums of words in any order *)
Lemma nf_add m a b a' b' : a mod m = a' mod m -> b mod m = b' mod m -> (a + b) mod m = (a' + b') mod m.
Proof. intros A B. rewrite Zplus_mod, A, B, <- Zplus_mod. reflexivity. Qed.
Lemma nf_mod m a a' : a mod m = a' mod m -> a mod m mod m = a' mod m.
Proof. rewrite Zmod_mod. auto. Qed.
Ltac nf := lazymatch goal with
  | |- (_ + _) mod _ = _ => eapply nf_add; [nf|nf]
  | |- _ mod _ mod _ = _ => apply nf_mod; nf
  | |- _ => reflexivity end.
Ltac sums := unfold add32, wadd; eapply eq_trans; [nf|]; symmetry; eapply eq_trans; [nf|];
  match goal with |- ?x mod _ = ?y mod _ => replace x with y by ring; reflexivity end.

Lemma nth_skipn0 (l : list Z) : forall i j, nth j (skipn i l) 0 = nth (i + j) l 0.
Proof. induction l as [|x l IH]; intros [|i] j; cbn [skipn plus nth]; try reflexivity. - destruct j; reflexivity. - apply IH. Qed.

Lemma k_at_ok K i : k_at K i = V4 (nth i K 0) (nth (1 + i) K 0) (nth (2 + i) K 0) (nth (3 + i) K 0).
Proof. unfold k_at, of_lanes. rewrite !nth_skipn0. f_equal; f_equal; lia. Qed.

Lemma le_bytes_4 a b c d : byte_ok a -> byte_ok b -> byte_ok c -> byte_ok d -> le_bytes 4 (le_val [a; b; c; d]) = [a; b; c; d].
Proof. intros. apply (le_bytes_le_val [a; b; c; d]). repeat (apply Forall_cons || apply Forall_nil); assumption. Qed.

(** reading message words *)
Definition words4 (wb : nat) (l : list Z) : v4 :=
  V4 (be_val (firstn wb l)) (be_val (firstn wb (skipn wb l)))
     (be_val (firstn wb (skipn (2 * wb) l))) (be_val (firstn wb (skipn (3 * wb) l))).

Ltac explode l n := match n with O => idtac | S ?k => destruct l as [|? l]; [cbn [length] in *; lia|]; explode l k end.
Ltac split_bytes := repeat match goal with H : bytes (_ :: _) |- _ =>
  let A := fresh in let B := fresh in apply bytes_cons in H; destruct H as [A B] end.

Lemma ni_load l : bytes l -> (16 <= length l)%nat -> mm_shuffle_epi8 (of_mem 4 l) little_endian_shuffle = words4 4 l.
Proof.
  intros Hl H. explode l 16%nat. split_bytes.
  unfold mm_shuffle_epi8, to_mem, lanes, of_mem at 2 3 4 5.
  cbn [l0 l1 l2 l3 flat_map mult plus firstn skipn].
  rewrite !le_bytes_4 by assumption. cbn [app].
  change little_endian_shuffle with [3; 2; 1; 0; 7; 6; 5; 4; 11; 10; 9; 8; 15; 14; 13; 12].
  reflexivity.
Qed.
Lemma arm_load l : bytes l -> (16 <= length l)%nat -> vrev32 (of_mem 4 l) = words4 4 l.
Proof.
  intros Hl H. explode l 16%nat. split_bytes.
  unfold vrev32, map1, of_mem. cbn [l0 l1 l2 l3 mult plus firstn skipn].
  rewrite !le_bytes_4 by assumption. reflexivity.
Qed.

(** four consecutive message words *)
Definition vec (W : nat -> Z) (t : nat) : v4 := V4 (W t) (W (1 + t)%nat) (W (2 + t)%nat) (W (3 + t)%nat).

Lemma skipn_skipn' {A} (l : list A) : forall i j, skipn i (skipn j l) = skipn (j + i) l.
Proof.
  induction l as [|x l IH]; intros i [|j]; cbn [skipn plus]; try reflexivity.
  - destruct i; reflexivity.
  - apply IH.
Qed.

Lemma words4_vec P b W wb i : sched P b W -> p_w P / 8 = Z.of_nat wb -> (i < 4)%nat ->
  words4 wb (skipn (i * 4 * wb) b) = vec W (i * 4).
Proof.
  intros HS Hwb Hi. unfold words4, vec. rewrite !(s_first _ _ _ HS) by lia. rewrite Hwb, !skipn_skipn'.
  unfold ztake, zdrop. rewrite <- !Nat2Z.inj_mul, !Nat2Z.id.
  f_equal; f_equal; f_equal; f_equal; lia.
Qed.

(** ** SHA extensions *)
Definition abef (s : regs) : v4 := let '(a, b, c, d, e, f, g, h) := s in V4 f e b a.
Definition cdgh (s : regs) : v4 := let '(a, b, c, d, e, f, g, h) := s in V4 h g d c.

Ltac regs8 s := destruct s as [[[[[[[?a ?b] ?c] ?d] ?e] ?f] ?g] ?h].
Ltac words8 H := unfold regs_ok in H; cbn [rl] in H;
  repeat match type of H with Forall _ (_ :: _) => let A := fresh in let B := fresh in inversion H as [|? ? A B]; subst; clear H; rename B into H end; clear H.

Lemma S0_256 x : word 32 x -> f_S0 fips256 x = p_bsig0 sha256_params x.
Proof. intros Hx. symmetry. revert x Hx. rots. Qed.
Lemma S1_256 x : word 32 x -> f_S1 fips256 x = p_bsig1 sha256_params x.
Proof. intros Hx. symmetry. revert x Hx. rots. Qed.
Lemma s0_256 x : word 32 x -> f_s0 fips256 x = p_ssig0 sha256_params x.
Proof. intros Hx. symmetry. revert x Hx. rots. Qed.
Lemma s1_256 x : word 32 x -> f_s1 fips256 x = p_ssig1 sha256_params x.
Proof. intros Hx. symmetry. revert x Hx. rots. Qed.

Lemma rnds_step_ok s k x : regs_ok 32 s -> rnds_step s (wadd 32 x k) = round_step sha256_params s k x.
Proof.
  intros H. regs8 s. words8 H. unfold rnds_step, round_step.
  rewrite S0_256, S1_256 by assumption. rewrite <- Ch_eq by (lia || assumption).
  change (p_w sha256_params) with 32. change (Maj a b c) with (MAJ a b c).
  repeat match goal with |- (_, _) = (_, _) => apply f_equal2 end; try reflexivity; sums.
Qed.

Lemma rnds2_ok s k0 k1 w0 w1 x y : regs_ok 32 s ->
  let s2 := round_step sha256_params (round_step sha256_params s k0 w0) k1 w1 in
  sha256rnds2 (cdgh s) (abef s) (V4 (wadd 32 w0 k0) (wadd 32 w1 k1) x y) = abef s2 /\ cdgh s2 = abef s.
Proof.
  intros H. cbv zeta. unfold sha256rnds2.
  replace (l3 (abef s), l2 (abef s), l3 (cdgh s), l2 (cdgh s), l1 (abef s), l0 (abef s), l1 (cdgh s), l0 (cdgh s)) with s
    by (regs8 s; reflexivity).
  cbn [l0 l1]. rewrite (rnds_step_ok s) by exact H. rewrite rnds_step_ok by (apply round256_ok, H).
  split; [reflexivity|]. regs8 s. reflexivity.
Qed.

Lemma le_val4 x : word 32 x -> le_val [x mod 256; x / 256 mod 256; x / 256 / 256 mod 256; x / 256 / 256 / 256 mod 256] = x.
Proof. intros Hx. change (le_val (le_bytes 4 x) = x). rewrite le_val_le_bytes. apply Z.mod_small. exact Hx. Qed.

Definition word4 (w : Z) (v : v4) : Prop := word w (l0 v) /\ word w (l1 v) /\ word w (l2 v) /\ word w (l3 v).

Lemma alignr4 a b : word4 32 a -> word4 32 b -> mm_alignr_epi8 a b 4 = V4 (l1 b) (l2 b) (l3 b) (l0 a).
Proof.
  destruct a as [a0 a1 a2 a3], b as [b0 b1 b2 b3]. intros (A0 & A1 & A2 & A3) (B0 & B1 & B2 & B3). cbn [l0 l1 l2 l3] in *.
  unfold mm_alignr_epi8, palignr, to_mem, lanes, of_mem.
  cbn [l0 l1 l2 l3 flat_map le_bytes app mult plus firstn skipn]. rewrite !le_val4 by assumption. reflexivity.
Qed.
Lemma alignr8 a b : word4 32 a -> word4 32 b -> mm_alignr_epi8 a b 8 = V4 (l2 b) (l3 b) (l0 a) (l1 a).
Proof.
  destruct a as [a0 a1 a2 a3], b as [b0 b1 b2 b3]. intros (A0 & A1 & A2 & A3) (B0 & B1 & B2 & B3). cbn [l0 l1 l2 l3] in *.
  unfold mm_alignr_epi8, palignr, to_mem, lanes, of_mem.
  cbn [l0 l1 l2 l3 flat_map le_bytes app mult plus firstn skipn]. rewrite !le_val4 by assumption. reflexivity.
Qed.
Lemma blend_f0 a b : mm_blend_epi16 a b 0xf0 = V4 (l0 a) (l1 a) (l2 b) (l3 b).
Proof.
  assert (G : forall x, x mod 2 ^ 16 + 2 ^ 16 * (x / 2 ^ 16) = x) by (intros; pose proof (Z.div_mod x (2 ^ 16)); lia).
  unfold mm_blend_epi16. cbn [Z.testbit Pos.testbit Z.mul Z.add Pos.mul Pos.add Pos.succ Pos.pred_N Pos.pred_double Pos.of_succ_nat]. rewrite !G. reflexivity.
Qed.

Section Ni.
  Context (b : list Z) (W : nat -> Z) (HS : sched sha256_params b W) (s : regs) (Hs : regs_ok 32 s).
  Let S t := st sha256_params W s t.

  Lemma ni4 t : ni_round4 (vec W t) (abef (S t)) (cdgh (S t)) (k_at NI_K t) = (abef (S (4 + t)), cdgh (S (4 + t))).
  Proof using All.
    unfold ni_round4. rewrite k_at_ok. change NI_K with (p_K sha256_params).
    unfold vec, vadd, map2. cbn [l0 l1 l2 l3].
    assert (Ht : regs_ok 32 (S t)) by apply st256_ok, Hs.
    destruct (rnds2_ok (S t) (nth t (p_K sha256_params) 0) (nth (1 + t) (p_K sha256_params) 0) (W t) (W (1 + t)%nat)
      ((W (2 + t)%nat + nth (2 + t) (p_K sha256_params) 0) mod 2 ^ 32) ((W (3 + t)%nat + nth (3 + t) (p_K sha256_params) 0) mod 2 ^ 32) Ht) as [E1 E2].
    unfold wadd in E1 at 1 2. rewrite E1. rewrite <- E2.
    match goal with |- context [permute4 ?v 14] => change (permute4 v 14) with (V4 (l2 v) (l3 v) (l0 v) (l0 v)) end.
    cbn [l0 l1 l2 l3].
    set (S2 := round_step sha256_params (round_step sha256_params (S t) _ _) _ _) in *.
    assert (Ht2 : regs_ok 32 S2) by apply round256_ok, round256_ok, Ht.
    match goal with |- context [sha256rnds2 (cdgh S2) (abef S2) (V4 _ _ ?x ?y)] =>
      destruct (rnds2_ok S2 (nth (2 + t) (p_K sha256_params) 0) (nth (3 + t) (p_K sha256_params) 0) (W (2 + t)%nat) (W (3 + t)%nat) x y Ht2) as [E3 E4] end.
    unfold wadd in E3 at 1 2. rewrite E3, <- E4. reflexivity.
  Qed.

  Lemma vec_word t : (3 + t < 64)%nat -> word4 32 (vec W t).
  Proof using All. intros. unfold word4, vec. cbn [l0 l1 l2 l3]. pose proof (s_word _ _ _ HS) as X. cbn [p_rounds sha256_params p_w] in X. repeat split; apply X; lia. Qed.

  Lemma rec256 t : (t < 48)%nat -> W (16 + t)%nat = wadd 32 (wadd 32 (f_s1 fips256 (W (14 + t)%nat)) (W (9 + t)%nat))
    (wadd 32 (f_s0 fips256 (W (1 + t)%nat)) (W t)).
  Proof using All.
    intros Ht. pose proof (s_word _ _ _ HS) as X. cbn [p_rounds sha256_params p_w] in X.
    rewrite (s_rec _ _ _ HS) by (cbn [p_rounds sha256_params]; lia).
    change (p_w sha256_params) with 32.
    replace (16 + t - 2)%nat with (14 + t)%nat by lia. replace (16 + t - 7)%nat with (9 + t)%nat by lia.
    replace (16 + t - 15)%nat with (1 + t)%nat by lia. replace (16 + t - 16)%nat with t by lia.
    rewrite s0_256, s1_256 by (apply X; lia). reflexivity.
  Qed.

  Definition pre t := sha256msg1 (vec W t) (vec W (4 + t)).

  Lemma ni_next t : (19 + t < 64)%nat ->
    sha256msg2 (vadd 32 (pre t) (mm_alignr_epi8 (vec W (12 + t)) (vec W (8 + t)) 4)) (vec W (12 + t)) = vec W (16 + t).
  Proof using All.
    intros Ht. rewrite alignr4 by (apply vec_word; lia).
    unfold pre, sha256msg1, sha256msg2, vadd, map2, vec. cbn [l0 l1 l2 l3].
    replace (add32 _ (f_s1 fips256 (W (2 + (12 + t))%nat))) with (W (16 + t)%nat) by (rewrite rec256 by lia; cbn [plus]; sums).
    replace (add32 _ (f_s1 fips256 (W (3 + (12 + t))%nat))) with (W (1 + (16 + t))%nat)
      by (replace (1 + (16 + t))%nat with (16 + (1 + t))%nat by lia; rewrite rec256 by lia; cbn [plus]; sums).
    f_equal.
    - replace (2 + (16 + t))%nat with (16 + (2 + t))%nat by lia. rewrite (rec256 (2 + t)) by lia. cbn [plus]. sums.
    - replace (3 + (16 + t))%nat with (16 + (3 + t))%nat by lia. rewrite (rec256 (3 + t)) by lia. cbn [plus]. sums.
  Qed.

  Lemma ni6 t : (19 + t < 64)%nat ->
    ni_round6 (vec W (12 + t)) (vec W (8 + t)) (pre t) (abef (S (12 + t))) (cdgh (S (12 + t))) (k_at NI_K (12 + t))
      = (abef (S (16 + t)), cdgh (S (16 + t)), pre (8 + t), vec W (16 + t)).
  Proof using All.
    intros Ht. unfold ni_round6. rewrite ni_next by exact Ht.
    pose proof (ni4 (12 + t)) as E. unfold ni_round4 in E. cbv zeta in E.
    pose proof (f_equal fst E) as E1. pose proof (f_equal snd E) as E2. cbn [fst snd] in E1, E2. clear E.
    rewrite E1, E2. unfold pre. reflexivity.
  Qed.

  Lemma ni_first i : (i < 4)%nat -> bytes b -> zlen b = 64 ->
    mm_shuffle_epi8 (of_mem 4 (skipn (i * 4 * 4) b)) little_endian_shuffle = vec W (i * 4).
  Proof using All.
    intros Hi Hb Hl. rewrite ni_load.
    - apply (words4_vec _ _ _ 4 i HS); [reflexivity|exact Hi].
    - pose proof (bytes_zdrop (Z.of_nat (i * 4 * 4)) b Hb) as X. unfold zdrop in X. rewrite Nat2Z.id in X. exact X.
    - rewrite skipn_length. unfold zlen in Hl. lia.
  Qed.

  Ltac step E := let H := fresh in pose proof E as H; cbn [Nat.add Nat.mul] in H; rewrite H by lia; clear H; cbv beta iota.

  Lemma ni_block_ok : bytes b -> zlen b = 64 ->
    ni_block (abef s, cdgh s) b = (abef (compress_block sha256_params s b), cdgh (compress_block sha256_params s b)).
  Proof using All.
    intros Hb Hl. unfold ni_block. cbv beta iota zeta.
    pose proof (ni_first 0 ltac:(lia) Hb Hl) as F0. pose proof (ni_first 1 ltac:(lia) Hb Hl) as F1.
    pose proof (ni_first 2 ltac:(lia) Hb Hl) as F2. pose proof (ni_first 3 ltac:(lia) Hb Hl) as F3.
    cbn [Nat.mul Nat.add] in F0, F1, F2, F3. change (skipn 0 b) with b in F0. rewrite F0, F1, F2, F3. clear F0 F1 F2 F3.
    cbn [Nat.mul Nat.add].
    change (abef s) with (abef (S 0)) at 1. change (cdgh s) with (cdgh (S 0)) at 1.
    step (ni4 0).
    unfold ni_round5 at 1. step (ni4 4). change (sha256msg1 (vec W 0) (vec W 4)) with (pre 0).
    unfold ni_round5 at 1. step (ni4 8). change (sha256msg1 (vec W 4) (vec W 8)) with (pre 4).
    step (ni6 0). step (ni6 4). step (ni6 8). step (ni6 12). step (ni6 16). step (ni6 20). step (ni6 24).
    step (ni6 28). step (ni6 32). step (ni6 36). step (ni6 40). step (ni6 44). step (ni4 60).
    rewrite (s_block _ _ _ HS s). change (p_rounds sha256_params) with 64%nat. change (p_w sha256_params) with 32.
    fold (S 64). generalize (S 64). intros r. regs8 r. regs8 s.
    unfold abef, cdgh, radd, vadd, map2. cbn [l0 l1 l2 l3].
    f_equal; f_equal; unfold wadd; f_equal; lia.
  Qed.
End Ni.

Lemma fold_cons {A B} (f : A -> B -> A) x l s : fold_left f (x :: l) s = fold_left f l (f s x).
Proof. reflexivity. Qed.

Lemma ni_blocks_ok q : forall s m r, bytes m -> zlen m = Z.of_nat q * 64 -> regs_ok 32 s ->
  fold_left (compress_block sha256_params) (chunks_exact 64 m) s = r ->
  regs_ok 32 r /\ fold_left ni_block (chunks_exact 64 m) (abef s, cdgh s) = (abef r, cdgh r).
Proof.
  induction q; intros s m r Hm Hl Hs.
  - rewrite (chunks_exact_short 64 m) by lia. intros <-. split; [exact Hs|reflexivity].
  - rewrite chunks_exact_cons by lia.
    destruct (sched256 (ztake 64 m)) as [W HS]; [apply bytes_ztake, Hm|apply zlen_ztake; lia|].
    pose proof (ni_block_ok _ W HS s Hs (bytes_ztake 64 m Hm) ltac:(apply zlen_ztake; lia)) as E.
    assert (R : regs_ok 32 (compress_block sha256_params s (ztake 64 m))).
    { rewrite (s_block _ _ _ HS s). apply radd_ok. cbn. lia. }
    remember (compress_block sha256_params s (ztake 64 m)) as s1 eqn:E1.
    rewrite !fold_cons.
    rewrite E, <- E1. apply IHq; [apply bytes_zdrop, Hm|rewrite zlen_zdrop; lia|exact R].
Qed.

Lemma chunks_whole {A} n (m : list A) : 0 < n -> chunks_exact n m = chunks_exact n (ztake (zlen m / n * n) m).
Proof.
  intros Hn. pose proof (zlen_nonneg m). pose proof (Z.div_mod (zlen m) n ltac:(lia)). pose proof (Z.mod_pos_bound (zlen m) n Hn).
  assert (0 <= zlen m / n) by (apply Z.div_pos; lia).
  rewrite <- (ztake_zdrop (zlen m / n * n) m) at 1.
  rewrite (chunks_exact_app n (zlen m / n)); [|lia|lia|apply zlen_ztake; lia].
  rewrite (chunks_exact_short n (zdrop _ m)); [apply app_nil_r|lia|rewrite zlen_zdrop; lia].
Qed.

Lemma ni_sha256_ok s m : bytes m -> regs_ok 32 s -> ni_sha256 s m = compress_blocks sha256_params s m.
Proof.
  intros Hm Hs. unfold ni_sha256, compress_blocks. change (block_sz sha256_params) with 64.
  rewrite (chunks_whole 64 m) by lia.
  set (m' := ztake (zlen m / 64 * 64) m).
  pose proof (zlen_nonneg m). pose proof (Z.div_mod (zlen m) 64 ltac:(lia)). pose proof (Z.mod_pos_bound (zlen m) 64 ltac:(lia)).
  assert (0 <= zlen m / 64) by (apply Z.div_pos; lia).
  destruct (ni_blocks_ok (Z.to_nat (zlen m / 64)) s m' _ (bytes_ztake _ _ Hm) ltac:(unfold m'; rewrite zlen_ztake; lia) Hs eq_refl) as [R1 R2].
  assert (L : let '(x, y) := lo_hi s in
    (mm_alignr_epi8 (permute4 x 177) (permute4 y 27) 8, mm_blend_epi16 (permute4 y 27) (permute4 x 177) 240) = (abef s, cdgh s)).
  { clear - Hs. regs8 s. words8 Hs. cbn [lo_hi].
    change (permute4 (V4 a b c d) 177) with (V4 b a d c). change (permute4 (V4 e f g h) 27) with (V4 h g f e).
    rewrite alignr8 by (refine (conj _ (conj _ (conj _ _))); assumption). rewrite blend_f0. reflexivity. }
  destruct (lo_hi s) as [x y]. cbv beta iota zeta. rewrite L, R2.
  set (r := fold_left (compress_block sha256_params) (chunks_exact 64 m') s) in *. clearbody r. clear - R1.
  regs8 r. words8 R1. cbn [abef cdgh].
  change (permute4 (V4 f e b a) 27) with (V4 a b e f). change (permute4 (V4 h g d c) 177) with (V4 g h c d).
  rewrite alignr8 by (refine (conj _ (conj _ (conj _ _))); assumption). rewrite blend_f0. reflexivity.
Qed.

(** ** aarch64 *)
Lemma word_high w x n : word w x -> w <= n -> 0 <= w -> Z.testbit x n = false.
Proof.
  intros Hx Hn Hw. destruct (Z.eq_dec x 0) as [->|]; [apply Z.bits_0|]. unfold word in Hx.
  apply Z.bits_above_log2; [lia|]. assert (Z.log2 x < w); [|lia]. apply Z.log2_lt_pow2; lia.
Qed.
Lemma choose_ok x y z : word 32 x -> word 32 y -> word 32 z -> SHAchoose x y z = CH 32 x y z.
Proof.
  intros Hx Hy Hz. unfold SHAchoose, CH, wnot. apply Z.bits_inj'. intros n Hn.
  rewrite !Z.lxor_spec, !Z.land_spec, !Z.lxor_spec.
  change (2 ^ 32 - 1) with (Z.pred (2 ^ 32)). rewrite <- Z.ones_equiv, Z.testbit_ones_nonneg by lia.
  destruct (Z.ltb_spec n 32).
  - destruct (Z.testbit x n), (Z.testbit y n), (Z.testbit z n); reflexivity.
  - rewrite (word_high 32 x), (word_high 32 y), (word_high 32 z) by (assumption || lia). reflexivity.
Qed.
Lemma majority_ok x y z : SHAmajority x y z = MAJ x y z.
Proof.
  unfold SHAmajority, MAJ. apply Z.bits_inj'. intros n Hn.
  rewrite !Z.lxor_spec, !Z.lor_spec, !Z.land_spec, !Z.lor_spec.
  destruct (Z.testbit x n), (Z.testbit y n), (Z.testbit z n); reflexivity.
Qed.

Definition abcd (s : regs) : v4 := fst (lo_hi s).
Definition efgh (s : regs) : v4 := snd (lo_hi s).

Lemma hash_step_ok s k x : regs_ok 32 s ->
  sha256hash_step (abcd s, efgh s) (wadd 32 x k) = (abcd (round_step sha256_params s k x), efgh (round_step sha256_params s k x)).
Proof.
  intros H. regs8 s. words8 H. unfold sha256hash_step, round_step, abcd, efgh.
  cbn [lo_hi fst snd l0 l1 l2 l3].
  rewrite S0_256, S1_256 by assumption. rewrite choose_ok, majority_ok by assumption.
  change (p_w sha256_params) with 32.
  apply f_equal2; [apply (f_equal (fun z => V4 z a b c))|apply (f_equal (fun z => V4 z e f g))]; sums.
Qed.

Section Arm.
  Context (b : list Z) (W : nat -> Z) (HS : sched sha256_params b W) (s : regs) (Hs : regs_ok 32 s).
  Let S t := st sha256_params W s t.

  Lemma arm_hash t : sha256hash (abcd (S t)) (efgh (S t)) (vadd 32 (vec W t) (k_at ARM_K t)) = (abcd (S (4 + t)), efgh (S (4 + t))).
  Proof using All.
    rewrite k_at_ok. change ARM_K with (p_K sha256_params).
    unfold sha256hash, lanes, vec, vadd, map2. cbn [l0 l1 l2 l3]. rewrite !fold_cons.
    assert (Hn : forall n, regs_ok 32 (S n)) by (intros n; apply st256_ok, Hs).
    change ((W t + nth t (p_K sha256_params) 0) mod 2 ^ 32) with (wadd 32 (W t) (nth t (p_K sha256_params) 0)).
    rewrite (hash_step_ok _ _ _ (Hn t)).
    change (round_step sha256_params (S t) (nth t (p_K sha256_params) 0) (W t)) with (S (1 + t)).
    change ((W (1 + t)%nat + nth (1 + t) (p_K sha256_params) 0) mod 2 ^ 32) with (wadd 32 (W (1 + t)%nat) (nth (1 + t) (p_K sha256_params) 0)).
    rewrite (hash_step_ok _ _ _ (Hn (1 + t)%nat)).
    change (round_step sha256_params (S (1 + t)) (nth (1 + t) (p_K sha256_params) 0) (W (1 + t)%nat)) with (S (2 + t)).
    change ((W (2 + t)%nat + nth (2 + t) (p_K sha256_params) 0) mod 2 ^ 32) with (wadd 32 (W (2 + t)%nat) (nth (2 + t) (p_K sha256_params) 0)).
    rewrite (hash_step_ok _ _ _ (Hn (2 + t)%nat)).
    change (round_step sha256_params (S (2 + t)) (nth (2 + t) (p_K sha256_params) 0) (W (2 + t)%nat)) with (S (3 + t)).
    change ((W (3 + t)%nat + nth (3 + t) (p_K sha256_params) 0) mod 2 ^ 32) with (wadd 32 (W (3 + t)%nat) (nth (3 + t) (p_K sha256_params) 0)).
    rewrite (hash_step_ok _ _ _ (Hn (3 + t)%nat)). reflexivity.
  Qed.

  Lemma arm4 t : arm_round4 (vec W t) (abcd (S t)) (efgh (S t)) (k_at ARM_K t) = (abcd (S (4 + t)), efgh (S (4 + t))).
  Proof using All. unfold arm_round4, vsha256h, vsha256h2. rewrite arm_hash. reflexivity. Qed.

  Lemma arm_next t : (19 + t < 64)%nat ->
    vsha256su1 (vsha256su0 (vec W t) (vec W (4 + t))) (vec W (8 + t)) (vec W (12 + t)) = vec W (16 + t).
  Proof using All.
    intros Ht. pose proof (rec256 b W HS s Hs) as R.
    unfold vsha256su1, vsha256su0, vadd, map2, map1, vec. cbn [l0 l1 l2 l3].
    replace (add32 (add32 (f_s1 fips256 (W (2 + (12 + t))%nat)) _) _) with (W (16 + t)%nat) by (rewrite R by lia; cbn [plus]; sums).
    replace (add32 (add32 (f_s1 fips256 (W (3 + (12 + t))%nat)) _) _) with (W (1 + (16 + t))%nat)
      by (replace (1 + (16 + t))%nat with (16 + (1 + t))%nat by lia; rewrite R by lia; cbn [plus]; sums).
    f_equal.
    - replace (2 + (16 + t))%nat with (16 + (2 + t))%nat by lia. rewrite (R (2 + t)%nat) by lia. cbn [plus]. sums.
    - replace (3 + (16 + t))%nat with (16 + (3 + t))%nat by lia. rewrite (R (3 + t)%nat) by lia. cbn [plus]. sums.
  Qed.

  Lemma arm7 t : (19 + t < 64)%nat ->
    arm_round7 (vec W t) (vec W (4 + t)) (vec W (8 + t)) (vec W (12 + t)) (abcd (S t)) (efgh (S t)) (k_at ARM_K t)
      = (abcd (S (4 + t)), efgh (S (4 + t)), vec W (16 + t)).
  Proof using All. intros Ht. unfold arm_round7, vsha256h, vsha256h2. rewrite arm_hash, arm_next by exact Ht. reflexivity. Qed.

  Lemma arm_first i : (i < 4)%nat -> bytes b -> zlen b = 64 -> vrev32 (of_mem 4 (skipn (i * 4 * 4) b)) = vec W (i * 4).
  Proof using All.
    intros Hi Hb Hl. rewrite arm_load.
    - apply (words4_vec _ _ _ 4 i HS); [reflexivity|exact Hi].
    - pose proof (bytes_zdrop (Z.of_nat (i * 4 * 4)) b Hb) as X. unfold zdrop in X. rewrite Nat2Z.id in X. exact X.
    - rewrite skipn_length. unfold zlen in Hl. lia.
  Qed.

  Ltac step E := let H := fresh in pose proof E as H; cbn [Nat.add Nat.mul] in H; rewrite H by lia; clear H; cbv beta iota.

  Lemma arm_block_ok : bytes b -> zlen b = 64 ->
    arm_block (abcd s, efgh s) b = (abcd (compress_block sha256_params s b), efgh (compress_block sha256_params s b)).
  Proof using All.
    intros Hb Hl. unfold arm_block. cbv beta iota zeta.
    pose proof (arm_first 0 ltac:(lia) Hb Hl) as F0. pose proof (arm_first 1 ltac:(lia) Hb Hl) as F1.
    pose proof (arm_first 2 ltac:(lia) Hb Hl) as F2. pose proof (arm_first 3 ltac:(lia) Hb Hl) as F3.
    cbn [Nat.mul Nat.add] in F0, F1, F2, F3. change (skipn 0 b) with b in F0. rewrite F0, F1, F2, F3. clear F0 F1 F2 F3.
    cbn [Nat.mul Nat.add].
    change (abcd s) with (abcd (S 0)) at 1. change (efgh s) with (efgh (S 0)) at 1.
    step (arm7 0). step (arm7 4). step (arm7 8). step (arm7 12). step (arm7 16). step (arm7 20). step (arm7 24).
    step (arm7 28). step (arm7 32). step (arm7 36). step (arm7 40). step (arm7 44).
    step (arm4 48). step (arm4 52). step (arm4 56). step (arm4 60).
    rewrite (s_block _ _ _ HS s). change (p_rounds sha256_params) with 64%nat. change (p_w sha256_params) with 32.
    fold (S 64). generalize (S 64). intros r. regs8 r. regs8 s.
    unfold abcd, efgh, lo_hi, radd, vadd, map2. cbn [l0 l1 l2 l3 fst snd].
    f_equal; f_equal; unfold wadd; f_equal; lia.
  Qed.
End Arm.

Lemma arm_blocks_ok q : forall s m r, bytes m -> zlen m = Z.of_nat q * 64 -> regs_ok 32 s ->
  fold_left (compress_block sha256_params) (chunks_exact 64 m) s = r ->
  fold_left arm_block (chunks_exact 64 m) (abcd s, efgh s) = (abcd r, efgh r).
Proof.
  induction q; intros s m r Hm Hl Hs.
  - rewrite (chunks_exact_short 64 m) by lia. intros <-. reflexivity.
  - rewrite chunks_exact_cons by lia.
    destruct (sched256 (ztake 64 m)) as [W HS]; [apply bytes_ztake, Hm|apply zlen_ztake; lia|].
    pose proof (arm_block_ok _ W HS s Hs (bytes_ztake 64 m Hm) ltac:(apply zlen_ztake; lia)) as E.
    assert (R : regs_ok 32 (compress_block sha256_params s (ztake 64 m))).
    { rewrite (s_block _ _ _ HS s). apply radd_ok. cbn. lia. }
    remember (compress_block sha256_params s (ztake 64 m)) as s1 eqn:E1.
    rewrite !fold_cons.
    rewrite E, <- E1. apply IHq; [apply bytes_zdrop, Hm|rewrite zlen_zdrop; lia|exact R].
Qed.

Lemma arm_sha256_ok s m : bytes m -> regs_ok 32 s -> arm_sha256 s m = compress_blocks sha256_params s m.
Proof.
  intros Hm Hs. unfold arm_sha256, compress_blocks. change (block_sz sha256_params) with 64.
  rewrite (chunks_whole 64 m) by lia.
  set (m' := ztake (zlen m / 64 * 64) m).
  pose proof (zlen_nonneg m). pose proof (Z.div_mod (zlen m) 64 ltac:(lia)). pose proof (Z.mod_pos_bound (zlen m) 64 ltac:(lia)).
  assert (0 <= zlen m / 64) by (apply Z.div_pos; lia).
  pose proof (arm_blocks_ok (Z.to_nat (zlen m / 64)) s m' _ (bytes_ztake _ _ Hm) ltac:(unfold m'; rewrite zlen_ztake; lia) Hs eq_refl) as R2.
  replace (lo_hi s) with (abcd s, efgh s) by (symmetry; apply surjective_pairing).
  rewrite R2. generalize (fold_left (compress_block sha256_params) (chunks_exact 64 m') s). intros r. regs8 r. reflexivity.
Qed.
