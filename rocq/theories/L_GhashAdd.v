(** The 8-wide and 16-wide products and Ghash::add are the GHASH iteration. *)
Require Import Verif.Base Verif.L_Base Verif.L_Blocks Verif.L_Bits Verif.M_Ghash Verif.L_Clmul Verif.S_Gcm Verif.L_Ghash.
Require Import ZifyNat.

Lemma M_eq a b : M a b = rn 128 (clmul a b). Proof. reflexivity. Qed.
Local Opaque gcm_mul M rn clmul gf128_big_endian mul1.

Definition xsum (l : list Z) : Z := fold_right Z.lxor 0 l.

Lemma fold_gen {A B C} (f : A -> B -> A) (k : A -> C -> A) (ld : B -> C) :
  (forall c b, f c b = k c (ld b)) -> forall bs c, fold_left f bs c = fold_left k (map ld bs) c.
Proof. intros E. induction bs as [|b bs IH]; intros c; cbn [fold_left map]; [reflexivity|]. rewrite E. apply IH. Qed.

(** byte-level facts *)
Lemma load_be_val b : load_be b = be_val b. Proof. reflexivity. Qed.
Lemma load_be_r128 b : bytes b -> zlen b = 16 -> r128 (load_be b).
Proof. intros Hb Hl. pose proof (be_val_bound b Hb) as X. rewrite Hl in X. exact X. Qed.
Definition blocks_ok (bs : list (list Z)) : Prop := Forall (fun b => bytes b /\ zlen b = 16) bs.
Lemma blocks_r128 bs : blocks_ok bs -> Forall r128 (map load_be bs).
Proof. induction 1 as [|b bs [Hb Hl] _ IH]; cbn; constructor; auto using load_be_r128. Qed.
Lemma chunks_blocks_ok l : bytes l -> blocks_ok (chunks_exact 16 l).
Proof.
  intros Hl. pose proof (chunks_exact_len 16 l ltac:(lia)) as A. pose proof (chunks_exact_bytes 16 l ltac:(lia) Hl) as B.
  unfold blocks_ok. rewrite Forall_forall in *. auto.
Qed.
Lemma chunks_group k (l : list Z) : 0 < k ->
  concat (map (chunks_exact 16) (chunks_exact (16 * k) l)) = chunks_exact 16 (ztake (16 * k * (zlen l / (16 * k))) l).
Proof.
  intros Hk. remember (length l) as n eqn:En. revert l En. induction n as [n IH] using lt_wf_ind. intros l ->.
  pose proof (zlen_nonneg l).
  destruct (Z.lt_ge_cases (zlen l) (16 * k)).
  - rewrite chunks_exact_short by lia. rewrite Z.div_small by lia. rewrite Z.mul_0_r. reflexivity.
  - rewrite chunks_exact_cons by lia. cbn [map concat].
    assert (Ld : zlen (zdrop (16 * k) l) = zlen l - 16 * k) by (rewrite zlen_zdrop; lia).
    rewrite (IH (length (zdrop (16 * k) l))) by (unfold zlen in *; lia).
    rewrite Ld. set (q := (zlen l - 16 * k) / (16 * k)).
    assert (Eq : zlen l / (16 * k) = q + 1) by (unfold q; rewrite <- Z.div_add by lia; f_equal; lia).
    rewrite Eq. assert (Hq : 0 <= q) by (apply Z.div_pos; lia).
    rewrite <- (chunks_exact_app 16 k) by (try lia; rewrite zlen_ztake; lia). f_equal.
    replace (16 * k * (q + 1)) with (16 * k + 16 * k * q) by lia.
    transitivity (ztake (16 * k + 16 * k * q) (ztake (16 * k) l ++ zdrop (16 * k) l)); [|now rewrite ztake_zdrop].
    assert (0 <= 16 * k * q) by nia.
    rewrite ztake_app_ge; rewrite zlen_ztake by lia; [|lia]. f_equal. f_equal. lia.
Qed.
Lemma fold_concat {A B} (f : A -> B -> A) (ls : list (list B)) : forall a,
  fold_left f (concat ls) a = fold_left (fun a l => fold_left f l a) ls a.
Proof. induction ls as [|l ls IH]; intros; cbn; auto. now rewrite fold_left_app, IH. Qed.
Definition tail16 (l : list Z) : list (list Z) :=
  let r := zdrop (16 * (zlen l / 16)) l in
  if zlen r =? 0 then [] else [r ++ repeat 0 (Z.to_nat (16 - zlen r))].
Lemma zdrop_mod n (l : list Z) : 0 < n -> zlen (zdrop (n * (zlen l / n)) l) = zlen l mod n.
Proof.
  intros. pose proof (zlen_nonneg l). assert (0 <= zlen l / n) by (apply Z.div_pos; lia).
  assert (n * (zlen l / n) <= zlen l) by (apply Z.mul_div_le; lia).
  rewrite zlen_zdrop by nia. pose proof (Z.div_mod (zlen l) n). lia.
Qed.
Lemma ztake_mod n (l : list Z) : 0 < n -> zlen (ztake (n * (zlen l / n)) l) = n * (zlen l / n).
Proof.
  intros. pose proof (zlen_nonneg l). assert (0 <= zlen l / n) by (apply Z.div_pos; lia).
  assert (n * (zlen l / n) <= zlen l) by (apply Z.mul_div_le; lia). rewrite zlen_ztake; nia.
Qed.
Lemma chunks_pad16 l : chunks_exact 16 (pad16 l) = chunks_exact 16 (ztake (16 * (zlen l / 16)) l) ++ tail16 l.
Proof.
  unfold pad16, tail16. pose proof (zlen_nonneg l). set (q := zlen l / 16).
  assert (0 <= q) by (apply Z.div_pos; lia). assert (Hq : 16 * q <= zlen l) by (apply Z.mul_div_le; lia).
  assert (Lr : zlen (zdrop (16 * q) l) = zlen l mod 16) by (apply zdrop_mod; lia).
  assert (Lt : zlen (ztake (16 * q) l) = 16 * q) by (apply ztake_mod; lia).
  rewrite <- (ztake_zdrop (16 * q) l) at 1. rewrite <- app_assoc.
  rewrite (chunks_exact_app 16 q) by lia. f_equal. rewrite Lr.
  destruct (zlen l mod 16 =? 0) eqn:E.
  - replace ((- zlen l) mod 16) with 0 by lia. cbn [Z.to_nat repeat]. rewrite app_nil_r.
    apply chunks_exact_short; lia.
  - replace ((- zlen l) mod 16) with (16 - zlen l mod 16) by lia.
    set (x := zdrop (16 * q) l ++ _).
    assert (Lx : zlen x = 16) by (unfold x; rewrite zlen_app, zlen_repeat; lia).
    rewrite chunks_exact_cons by lia. rewrite ztake_all, zdrop_all by lia. reflexivity.
Qed.
Lemma pad16_split n l : 0 <= n <= zlen l -> n mod 16 = 0 ->
  chunks_exact 16 (pad16 l) = chunks_exact 16 (ztake n l) ++ chunks_exact 16 (pad16 (zdrop n l)).
Proof.
  intros Hn Hm. assert (Lt : zlen (ztake n l) = n) by (rewrite zlen_ztake; lia).
  rewrite <- (chunks_exact_app 16 (n / 16)) by lia. f_equal. unfold pad16.
  rewrite app_assoc, ztake_zdrop. do 2 f_equal. rewrite zlen_zdrop by lia. f_equal.
  replace (- zlen l) with (- (zlen l - n) + (- (n / 16)) * 16) by lia. now rewrite Z.mod_add by lia.
Qed.
Lemma chunks_Forall w l : 0 < w -> bytes l -> Forall (fun ch => bytes ch /\ zlen ch = w) (chunks_exact w l).
Proof.
  intros Hw Hl. pose proof (chunks_exact_len w l Hw) as A. pose proof (chunks_exact_bytes w l Hw Hl) as B.
  rewrite Forall_forall in *. auto.
Qed.
Lemma chunk_count n w (l : list Z) : 0 < w -> zlen l = Z.of_nat n * w -> length (chunks_exact w l) = n.
Proof.
  revert l. induction n as [|n IH]; intros l Hw Hl.
  - rewrite chunks_exact_short by lia. reflexivity.
  - rewrite chunks_exact_cons by lia. cbn [length]. f_equal. apply IH; auto. rewrite zlen_zdrop by lia. lia.
Qed.
Lemma load512_split (ch : list Z) : zlen ch = 256 ->
  chunks_exact 16 ch = chunks_exact 16 (ztake 64 (zdrop 0 ch)) ++ chunks_exact 16 (ztake 64 (zdrop 64 ch)) ++
    chunks_exact 16 (ztake 64 (zdrop 128 ch)) ++ chunks_exact 16 (ztake 64 (zdrop 192 ch)) /\
  forall o, In o [0; 64; 128; 192] -> length (chunks_exact 16 (ztake 64 (zdrop o ch))) = 4%nat.
Proof.
  intros HL.
  assert (HZ : forall o, In o [0; 64; 128; 192] -> zlen (ztake 64 (zdrop o ch)) = 64).
  { intros o Ho. cbn [In] in Ho. assert (zlen (zdrop o ch) = 256 - o) by (rewrite zlen_zdrop; lia). rewrite zlen_ztake; lia. }
  split.
  - rewrite <- !(chunks_exact_app 16 4) by (lia || (rewrite HZ; [lia|cbn; auto])).
    f_equal. change (zdrop 0 ch) with ch.
    rewrite <- (ztake_zdrop 64 ch) at 1. f_equal.
    rewrite <- (ztake_zdrop 64 (zdrop 64 ch)) at 1. f_equal. rewrite zdrop_zdrop by lia.
    rewrite <- (ztake_zdrop 64 (zdrop (64 + 64) ch)) at 1. f_equal. rewrite zdrop_zdrop by lia.
    symmetry. apply ztake_all. rewrite zlen_zdrop by lia. lia.
  - intros o Ho. apply chunk_count; [lia|]. rewrite HZ by auto. reflexivity.
Qed.

Section H.
Variable h : Z.
Hypothesis Hh : r128 h.

(** [g] is multiplication by [h]; kept abstract so that the kernel does not unfold it *)
Variable g : Z -> Z.
Hypothesis Hg : forall a, g a = gcm_mul a h.
Definition h' : Z := gf128_big_endian h.
Lemma h'_r128 : r128 h'. Proof using Hh Hg. now apply gf128_be_r128. Qed.
Lemma g_M a : r128 a -> g a = M a h'.
Proof using Hh Hg. intros. rewrite Hg. symmetry. now apply M_is_gcm_mul. Qed.
Lemma g_r128 a : r128 a -> r128 (g a).
Proof using Hh Hg. intros. rewrite g_M by auto. apply M_r128; auto using h'_r128. Qed.
Lemma g_lxor a b : r128 a -> r128 b -> g (Z.lxor a b) = Z.lxor (g a) (g b).
Proof using Hh Hg. intros. rewrite !g_M by auto using r128_lxor. apply M_lxor. apply h'_r128. Qed.
Fixpoint gi (k : nat) (a : Z) : Z := match k with O => a | S k => gi k (g a) end.
Lemma gi_r128 k : forall a, r128 a -> r128 (gi k a).
Proof using Hh Hg. induction k; intros; cbn [gi]; auto using g_r128. Qed.
Lemma gi_lxor k : forall a b, r128 a -> r128 b -> gi k (Z.lxor a b) = Z.lxor (gi k a) (gi k b).
Proof using Hh Hg. induction k as [|k IH]; intros; cbn [gi]; auto. rewrite g_lxor by auto. auto using g_r128. Qed.
Lemma gi_S k : forall a, gi (S k) a = g (gi k a).
Proof. induction k as [|k IH]; intros; [reflexivity|]. cbn [gi] in *. apply IH. Qed.

(** the GHASH iteration *)
Definition gstep (Y B : Z) : Z := g (Z.lxor Y B).
Definition gfold (c : Z) (xs : list Z) : Z := fold_left gstep xs c.
Lemma gfold_r128 xs : forall c, r128 c -> Forall r128 xs -> r128 (gfold c xs).
Proof using Hh Hg.
  induction xs as [|x r IH]; intros c Hc HF; cbn; auto. inversion HF; subst. apply IH; auto.
  apply g_r128. auto using r128_lxor.
Qed.
Fixpoint hs (xs : list Z) : Z := match xs with [] => 0 | x :: r => Z.lxor (gi (length xs) x) (hs r) end.
Lemma gfold_hs xs : forall c, r128 c -> Forall r128 xs -> gfold c xs = Z.lxor (gi (length xs) c) (hs xs).
Proof using Hh Hg.
  induction xs as [|x r IH]; intros c Hc HF; [cbn; now rewrite Z.lxor_0_r|]. inversion HF; subst.
  change (gfold c (x :: r)) with (gfold (gstep c x) r).
  rewrite IH by (auto; apply g_r128; auto using r128_lxor).
  unfold gstep. rewrite g_lxor by auto. rewrite gi_lxor by auto using g_r128. cbn [length hs gi]. now rewrite Z.lxor_assoc.
Qed.
Lemma gfold_first x xs c : r128 c -> Forall r128 (x :: xs) -> gfold c (x :: xs) = hs (Z.lxor c x :: xs).
Proof using Hh Hg.
  intros Hc HF. rewrite gfold_hs by auto. inversion HF; subst. cbn [hs length].
  rewrite gi_lxor by auto. now rewrite Z.lxor_assoc.
Qed.

(** powers of the subkey *)
Definition ispow (k : nat) (p : Z) : Prop := r128 p /\ forall a, r128 a -> M a p = gi k a.
Lemma ispow_1 : ispow 1 h'.
Proof using Hh Hg. split; [apply h'_r128|]. intros. cbn. symmetry. now apply g_M. Qed.
Lemma ispow_S k p : ispow k p -> ispow (S k) (mul1 p h').
Proof using Hh Hg.
  intros [Hp HM]. destruct (mul1_M p h' Hp h'_r128) as [E R]. split; auto.
  intros a Ha. rewrite E, <- M_assoc by auto using h'_r128. rewrite HM by auto. rewrite gi_S.
  symmetry. apply g_M. now apply gi_r128.
Qed.
Lemma more_powers_ok n : forall k p, ispow k p -> Forall2 ispow (seq (S k) n) (more_powers n p h').
Proof using Hh Hg.
  induction n as [|n IH]; intros k p Hp; cbn [seq more_powers]; constructor.
  - now apply ispow_S.
  - apply IH. now apply ispow_S.
Qed.
Lemma avx_powers_ok : Forall2 ispow (seq 1 8) (powers (avx_new h)).
Proof using Hh Hg.
  cbn [avx_new powers]. change (seq 1 8) with (1%nat :: seq 2 7). constructor; [apply ispow_1|].
  apply more_powers_ok, ispow_1.
Qed.

(** accumulating a list of products *)
Definition prods (l : list (Z * Z)) : list Z := map (fun '(x, p) => M x p) l.
Lemma fold_mul_acc l : forall acc, accok acc -> Forall (fun '(x, p) => r128 x /\ r128 p) l ->
  let acc' := fold_left (fun acc '(x, (p, px)) => mul_acc acc x p px) (map (fun '(x, p) => (x, (p, xor_halves p))) l) acc in
  accok acc' /\ rn 128 (accval acc') = Z.lxor (rn 128 (accval acc)) (xsum (prods l)).
Proof.
  induction l as [|[x p] l IH]; intros acc Ha HF; cbn [map fold_left prods xsum fold_right].
  - split; auto. now rewrite Z.lxor_0_r.
  - pose proof (Forall_inv HF) as Hxp. cbv beta iota in Hxp. destruct Hxp as [Hx Hp]. pose proof (Forall_inv_tail HF) as HF'. destruct (mul_acc_ok acc x p Ha Hx Hp) as [A B].
    pose proof (IH _ A HF') as X. cbv zeta in X. destruct X as [C D]. split; [exact C|]. rewrite D, B, rn_lxor, <- M_eq. apply Z.lxor_assoc.
Qed.
Lemma combine_xor (xs : list Z) : forall ps : list Z, combine xs (combine ps (map xor_halves ps)) = map (fun '(x, p) => (x, (p, xor_halves p))) (combine xs ps).
Proof. induction xs as [|x xs IH]; intros [|p ps]; cbn; auto. now rewrite IH. Qed.

Lemma prods_hs (xs : list Z) : forall ps : list Z, Forall r128 xs -> length ps = length xs ->
  Forall2 ispow (rev (seq 1 (length xs))) ps -> xsum (prods (combine xs ps)) = hs xs.
Proof using Hh Hg.
  induction xs as [|x xs IH]; intros ps HF HL HP; [reflexivity|].
  destruct ps as [|p ps]; [discriminate|]. inversion HF; subst.
  change (length (x :: xs)) with (S (length xs)) in HP. rewrite seq_S, rev_app_distr in HP. cbn [rev app] in HP.
  inversion HP as [|? ? ? ? Hp HP']; subst. cbn [combine prods map xsum fold_right hs]. f_equal.
  - apply Hp. auto.
  - apply IH; auto.
Qed.
Lemma Forall2_rev {A B} (P : A -> B -> Prop) l1 l2 : Forall2 P l1 l2 -> Forall2 P (rev l1) (rev l2).
Proof. induction 1; cbn; auto. apply Forall2_app; auto. Qed.
Lemma Forall_combine (xs ps : list Z) : Forall r128 xs -> Forall r128 ps -> Forall (fun '(x, p) => r128 x /\ r128 p) (combine xs ps).
Proof.
  revert ps. induction xs as [|x xs IH]; intros [|p ps] H1 H2; cbn [combine]; constructor; inversion H1; inversion H2; subst; auto.
Qed.
Lemma Forall2_r128 ks ps : Forall2 ispow ks ps -> Forall r128 ps.
Proof. induction 1; constructor; auto. apply H. Qed.

Lemma mul8_hs xs : length xs = 8%nat -> Forall r128 xs -> mul8 (avx_new h) xs = hs xs.
Proof using Hh Hg.
  intros HL HF. unfold mul8. pose proof avx_powers_ok as HP.
  assert (Ex : powers_xor (avx_new h) = map xor_halves (powers (avx_new h))) by reflexivity.
  rewrite Ex, <- map_rev, combine_xor.
  set (ps := rev (powers (avx_new h))) in *.
  apply Forall2_rev in HP. fold ps in HP.
  assert (Lp : length ps = 8%nat) by reflexivity.
  destruct (fold_mul_acc (combine xs ps) (0, 0, 0)) as [A B].
  - repeat split; cbv; congruence.
  - apply Forall_combine; auto. eapply Forall2_r128; eauto.
  - cbv zeta in A, B. rewrite reduce_ok, B by auto. change (accval (0, 0, 0)) with 0. rewrite rn_0, Z.lxor_0_l.
    apply prods_hs; auto; rewrite HL; auto.
Qed.

(** one 128-bit lane of _mul16 *)
Definition lane16 (x0 p0 x1 p1 x2 p2 x3 p3 : Z) : Z :=
  let X3 a b c := Z.lxor (Z.lxor a b) c in
  let lo := X3 (clmulepi64 x2 p2 0) (clmulepi64 x3 p3 0) (Z.lxor (clmulepi64 x0 p0 0) (clmulepi64 x1 p1 0)) in
  let mi := Z.lxor (clmulepi64 x3 p3 0x10)
    (X3 (X3 (X3 (clmulepi64 x0 p0 1) (clmulepi64 x1 p1 1) (clmulepi64 x2 p2 1)) (clmulepi64 x3 p3 1) (clmulepi64 x0 p0 0x10))
        (clmulepi64 x1 p1 0x10) (clmulepi64 x2 p2 0x10)) in
  let mi := X3 (clmulepi64 GF128_POLY_LO lo 1) (swap64 lo) mi in
  let hi := Z.lxor (X3 (clmulepi64 x0 p0 0x11) (clmulepi64 x1 p1 0x11) (clmulepi64 x2 p2 0x11)) (clmulepi64 x3 p3 0x11) in
  X3 (clmulepi64 GF128_POLY_LO mi 1) (swap64 mi) hi.
Lemma clmul_half_r128 b c x p : r128 x -> r128 p -> r128 (clmul (half b x) (half c p)).
Proof. intros. apply r128_clmul; [destruct b|destruct c]; auto using half_hi_range, half_lo_range. Qed.
Lemma M_halves x p : r128 x -> r128 p ->
  M x p = rn 128 (Z.lxor (clmul (half false x) (half false p))
    (Z.lxor (Z.shiftl (Z.lxor (clmul (half true x) (half false p)) (clmul (half false x) (half true p))) 64)
       (Z.shiftl (clmul (half true x) (half true p)) 128))).
Proof. intros. rewrite M_eq. now rewrite clmul_halves. Qed.
(** the two folding steps, schoolbook middle term *)
Lemma two_folds lo mi hi : r128 lo -> r128 mi -> r128 hi ->
  let mi' := Z.lxor (Z.lxor (clmul C64 (half false lo)) (swap64 lo)) mi in
  Z.lxor (Z.lxor (clmul C64 (half false mi')) (swap64 mi')) hi =
  rn 128 (Z.lxor lo (Z.lxor (Z.shiftl mi 64) (Z.shiftl hi 128))).
Proof.
  intros Hlo Hmi Hhi mi'.
  assert (Hmi' : r128 mi').
  { unfold mi'. repeat apply r128_lxor; auto using r128_swap. apply r128_clmul; [unfold C64; lia|apply half_lo_range]. }
  replace (Z.lxor (Z.shiftl mi 64) (Z.shiftl hi 128)) with (Z.shiftl (Z.lxor mi (Z.shiftl hi 64)) 64)
    by (rewrite Z.shiftl_lxor, Z.shiftl_shiftl by lia; reflexivity).
  change 128%nat with (64 + 64)%nat. rewrite rn_add.
  rewrite fold_step; auto.
  2:{ apply lxor_nonneg'; [apply Hmi|]. apply Z.shiftl_nonneg, Hhi. }
  replace (Z.lxor (Z.lxor mi (Z.shiftl hi 64)) (Z.lxor (swap64 lo) (clmul C64 (half false lo)))) with (Z.lxor mi' (Z.shiftl hi 64))
    by (unfold mi'; xac).
  rewrite fold_step by (auto; apply Hhi). xac.
Qed.
Lemma lane16_M x0 p0 x1 p1 x2 p2 x3 p3 : Forall r128 [x0; p0; x1; p1; x2; p2; x3; p3] ->
  lane16 x0 p0 x1 p1 x2 p2 x3 p3 = Z.lxor (M x0 p0) (Z.lxor (M x1 p1) (Z.lxor (M x2 p2) (M x3 p3))).
Proof.
  intros HF. repeat match goal with H : Forall r128 (_ :: _) |- _ => inversion H; clear H; subst end.
  unfold lane16. rewrite !clmulepi64_00, !clmulepi64_01, !clmulepi64_10, !clmulepi64_11.
  change (half true GF128_POLY_LO) with C64.
  rewrite two_folds by (repeat apply r128_lxor; apply clmul_half_r128; auto).
  rewrite !M_halves, <- !rn_lxor by auto. f_equal. rewrite !Z.shiftl_lxor. xac.
Qed.

Lemma mul16_lanes t a0 a1 a2 a3 b0 b1 b2 b3 c0 c1 c2 c3 d0 d1 d2 d3
    p0 p1 p2 p3 q0 q1 q2 q3 r0 r1 r2 r3 s0 s1 s2 s3 :
  powers512 t = [[s0; s1; s2; s3]; [r0; r1; r2; r3]; [q0; q1; q2; q3]; [p0; p1; p2; p3]] ->
  mul16 t [a0; a1; a2; a3] [b0; b1; b2; b3] [c0; c1; c2; c3] [d0; d1; d2; d3] =
  Z.lxor (Z.lxor (Z.lxor (lane16 a0 p0 b0 q0 c0 r0 d0 s0) (lane16 a1 p1 b1 q1 c1 r1 d1 s1))
    (lane16 a2 p2 b2 q2 c2 r2 d2 s2)) (lane16 a3 p3 b3 q3 c3 r3 d3 s3).
Proof. intros E. unfold mul16. rewrite E. reflexivity. Qed.

Lemma avx512_powers_ok : exists p, Forall2 ispow (seq 1 16) p /\
  avx512_new h = mkAvx512 [join512 (nth 0 p 0) (nth 1 p 0) (nth 2 p 0) (nth 3 p 0); join512 (nth 4 p 0) (nth 5 p 0) (nth 6 p 0) (nth 7 p 0);
    join512 (nth 8 p 0) (nth 9 p 0) (nth 10 p 0) (nth 11 p 0); join512 (nth 12 p 0) (nth 13 p 0) (nth 14 p 0) (nth 15 p 0)] (avx_new h).
Proof using Hh Hg.
  exists (powers (avx_new h) ++ more_powers 8 (nth 7 (powers (avx_new h)) 0) (nth 0 (powers (avx_new h)) 0)).
  split; [|reflexivity].
  change (seq 1 16) with (seq 1 8 ++ seq 9 8). pose proof avx_powers_ok as HP. apply Forall2_app; auto.
  change (nth 0 (powers (avx_new h)) 0) with h'. apply more_powers_ok.
  change (seq 1 8) with [1; 2; 3; 4; 5; 6; 7; 8]%nat in HP.
  set (l := powers (avx_new h)) in *. clearbody l.
  repeat match goal with H : Forall2 _ (_ :: _) _ |- _ => inversion H; clear H; subst end. cbn [nth]. auto.
Qed.
Lemma mul16_hs xs a b c d : Forall r128 xs -> xs = a ++ b ++ c ++ d -> length a = 4%nat -> length b = 4%nat -> length c = 4%nat -> length d = 4%nat ->
  mul16 (avx512_new h) a b c d = hs xs.
Proof using Hh Hg.
  intros HF -> La Lb Lc Ld. destruct avx512_powers_ok as (p & HP & E). rewrite E. clear E.
  change (seq 1 16) with [1; 2; 3; 4; 5; 6; 7; 8; 9; 10; 11; 12; 13; 14; 15; 16]%nat in HP.
  repeat match goal with H : Forall2 _ (_ :: _) _ |- _ => inversion H; clear H; subst end.
  match goal with H : Forall2 _ [] _ |- _ => inversion H; clear H; subst end.
  destruct a as [|a0 [|a1 [|a2 [|a3 [|]]]]]; try discriminate. destruct b as [|b0 [|b1 [|b2 [|b3 [|]]]]]; try discriminate.
  destruct c as [|c0 [|c1 [|c2 [|c3 [|]]]]]; try discriminate. destruct d as [|d0 [|d1 [|d2 [|d3 [|]]]]]; try discriminate.
  cbn [nth]. unfold join512. cbn [app] in HF.
  repeat match goal with H : Forall _ (_ :: _) |- _ => inversion H; clear H; subst end.
  repeat match goal with H : ispow _ _ |- _ => destruct H end.
  erewrite mul16_lanes by reflexivity.
  rewrite !lane16_M by (repeat (apply Forall_cons; [assumption|]); apply Forall_nil). cbn [hs app length].
  repeat match goal with H : forall a, r128 a -> M a ?p = _ |- _ => rewrite !H by assumption; clear H end.
  rewrite Z.lxor_0_r. xac.
Qed.

(** byte level *)
Definition gblocks (c : Z) (bs : list (list Z)) : Z := gfold c (map load_be bs).
Lemma gblocks_r128 c bs : r128 c -> blocks_ok bs -> r128 (gblocks c bs).
Proof using Hh Hg. intros. apply gfold_r128; auto using blocks_r128. Qed.
Lemma gblocks_app c a b : gblocks c (a ++ b) = gblocks (gblocks c a) b.
Proof. unfold gblocks, gfold. now rewrite map_app, fold_left_app. Qed.

Lemma mul8_step c bs : length bs = 8%nat -> blocks_ok bs -> r128 c ->
  mul8 (avx_new h) (xor_first c (map load_be bs)) = gblocks c bs.
Proof using Hh Hg.
  intros HL HB Hc. pose proof (blocks_r128 bs HB) as HF. unfold gblocks.
  destruct (map load_be bs) as [|x r] eqn:E; [destruct bs; discriminate|].
  rewrite gfold_first by auto. cbn [xor_first]. apply mul8_hs.
  - apply (f_equal (@length Z)) in E. rewrite map_length, HL in E. cbn in E |- *. lia.
  - inversion HF; subst. constructor; auto using r128_lxor.
Qed.
Lemma mul16_step c b0 b1 b2 b3 : length b0 = 4%nat -> length b1 = 4%nat -> length b2 = 4%nat -> length b3 = 4%nat ->
  blocks_ok (b0 ++ b1 ++ b2 ++ b3) -> r128 c ->
  mul16 (avx512_new h) (xor512 (map load_be b0) (lane0_512 c)) (map load_be b1) (map load_be b2) (map load_be b3) =
  gblocks c (b0 ++ b1 ++ b2 ++ b3).
Proof using Hh Hg.
  intros L0 L1 L2 L3 HB Hc. pose proof (blocks_r128 _ HB) as HF. unfold gblocks.
  destruct b0 as [|x0 [|x1 [|x2 [|x3 [|]]]]]; try discriminate. rewrite !map_app in *. cbn [map app] in *.
  rewrite gfold_first by auto. unfold xor512, lane0_512. cbn [combine map]. rewrite !Z.lxor_0_r, (Z.lxor_comm (load_be x0)).
  inversion HF; subst.
  apply mul16_hs; rewrite ?map_length; auto.
  constructor; auto using r128_lxor.
Qed.

(** grouping 16-byte blocks into wide chunks *)

Definition tbl (b : bool) : ghash_table := ghash_table_new b h.



Lemma one_block_ok b c x : r128 c -> r128 x -> one_block (tbl b) c x = gstep c x.
Proof using Hh Hg.
  intros Hc Hx. unfold one_block.
  replace (nth 0 (powers (table_avx (tbl b))) 0) with h' by (destruct b; reflexivity).
  destruct (mul1_M (Z.lxor c x) h' (r128_lxor _ _ Hc Hx) h'_r128) as [-> _]. unfold gstep. symmetry. apply g_M. auto using r128_lxor.
Qed.
Lemma fold_one_block b bs : forall c, r128 c -> blocks_ok bs ->
  fold_left (fun c b' => one_block (tbl b) c (load_be b')) bs c = gblocks c bs.
Proof using Hh Hg.
  induction bs as [|x bs IH]; intros c Hc HB; [reflexivity|]. inversion HB as [|? ? [Hb Hl] HB']; subst.
  cbn [fold_left]. rewrite one_block_ok by auto using load_be_r128.
  rewrite IH; auto. apply g_r128, r128_lxor; auto using load_be_r128.
Qed.
Lemma wide_fold w (f : Z -> list Z -> Z) (chunksl : list (list Z)) :
  (forall c ch, r128 c -> bytes ch -> zlen ch = w -> f c ch = gblocks c (chunks_exact 16 ch)) ->
  forall c, r128 c -> Forall (fun ch => bytes ch /\ zlen ch = w) chunksl ->
  fold_left f chunksl c = gblocks c (concat (map (chunks_exact 16) chunksl)).
Proof using Hh Hg.
  intros Hf. induction chunksl as [|ch r IH]; intros c Hc HF; [reflexivity|]. inversion HF as [|? ? [Hb Hl] HF']; subst.
  cbn [fold_left map concat]. rewrite gblocks_app, Hf by auto. apply IH; auto.
  apply gblocks_r128; auto using chunks_blocks_ok.
Qed.


Lemma ghash_add_ok b c l : r128 c -> bytes l -> ghash_add (tbl b) c l = gblocks c (chunks_exact 16 (pad16 l)).
Proof using Hh Hg.
  intros Hc Hl. pose proof (zlen_nonneg l).
  assert (G : forall w, 0 < w -> w mod 16 = 0 ->
    forall cur rest, cur = gblocks c (chunks_exact 16 (ztake (w * (zlen l / w)) l)) -> rest = zdrop (w * (zlen l / w)) l ->
    (let current := fold_left (fun c b' => one_block (tbl b) c (load_be b')) (chunks_exact 16 rest) cur in
     let bytes := zdrop (16 * (zlen rest / 16)) rest in
     if zlen bytes =? 0 then current
     else one_block (tbl b) current (load_be (bytes ++ repeat 0 (Z.to_nat (16 - zlen bytes))))) =
    gblocks c (chunks_exact 16 (pad16 l))).
  { intros w Hw Hm cur rest -> ->. set (k := w * (zlen l / w)).
    assert (0 <= zlen l / w) by (apply Z.div_pos; lia).
    assert (Hk : 0 <= k <= zlen l) by (unfold k; split; [nia|apply Z.mul_div_le; lia]).
    assert (Hk16 : k mod 16 = 0) by (unfold k; rewrite Z.mul_mod, Hm by lia; reflexivity).
    rewrite (pad16_split k l) by lia. rewrite gblocks_app.
    set (cur := gblocks c (chunks_exact 16 (ztake k l))).
    assert (Hcur : r128 cur) by (apply gblocks_r128; auto; apply chunks_blocks_ok; now apply bytes_ztake).
    set (rest := zdrop k l). assert (Brest : bytes rest) by (now apply bytes_zdrop).
    rewrite chunks_pad16, gblocks_app. cbv zeta.
    rewrite fold_one_block by auto using chunks_blocks_ok.
    replace (chunks_exact 16 (ztake (16 * (zlen rest / 16)) rest)) with (chunks_exact 16 rest).
    2:{ pose proof (zlen_nonneg rest). rewrite <- (ztake_zdrop (16 * (zlen rest / 16)) rest) at 1.
        rewrite (chunks_exact_app 16 (zlen rest / 16)); [|lia|apply Z.div_pos; lia|rewrite ztake_mod; lia].
        rewrite (chunks_exact_short 16 (zdrop _ _)); [now rewrite app_nil_r|lia|]. rewrite zdrop_mod by lia. lia. }
    unfold tail16. destruct (zlen (zdrop (16 * (zlen rest / 16)) rest) =? 0) eqn:E; [reflexivity|].
    assert (Lr := zdrop_mod 16 rest ltac:(lia)).
    rewrite one_block_ok; [reflexivity| |].
    - apply gblocks_r128; auto using chunks_blocks_ok.
    - apply load_be_r128.
      + apply bytes_app. split; [now apply bytes_zdrop|]. apply Forall_forall. intros x Hx. apply repeat_spec in Hx. subst. unfold byte_ok. lia.
      + rewrite zlen_app, zlen_repeat; lia. }
  unfold ghash_add. destruct b; cbn [tbl ghash_table_new].
  - unfold add_wide_avx512. apply (G 256); [lia|reflexivity| |reflexivity].
    rewrite (wide_fold 256) by (auto; try (apply chunks_Forall; [lia|auto]);
      intros c' ch Hc' Hch Lch; destruct (load512_split ch Lch) as [E Ls]; rewrite E at 1; unfold load512; apply mul16_step; auto; try (apply Ls; cbn; auto);
      rewrite <- E; now apply chunks_blocks_ok).
    f_equal. apply (chunks_group 16). lia.
  - unfold add_wide_avx. apply (G 128); [lia|reflexivity| |reflexivity].
    rewrite (wide_fold 128) by (auto; try (apply chunks_Forall; [lia|auto]);
      intros c' ch Hc' Hch Lch; apply mul8_step; auto using chunks_blocks_ok; apply chunk_count; lia).
    f_equal. apply (chunks_group 8). lia.
Qed.

Lemma GHASH_gblocks X : GHASH h X = gblocks 0 (chunks_exact 16 X).
Proof using Hg.
  unfold GHASH, gblocks, gfold. apply fold_gen. intros c b. unfold gstep. rewrite Hg. reflexivity.
Qed.
End H.
