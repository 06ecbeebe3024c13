(** Portable GHASH, and the number of subkeys under which two messages have a given difference of hashes.  (Proof only.) *)
Require Import Verif.Base Verif.L_Base Verif.L_Blocks Verif.L_Bits Verif.M_Ghash Verif.L_Clmul Verif.S_Gcm Verif.L_Ghash Verif.L_GhashAdd Verif.M_AesGcm Verif.L_Gcm Verif.L_GhashField Verif.M_GhashGen.
Require Import ZifyNat.

(** portable multiplication *)
Lemma neg128_bit y b : 0 <= b -> neg128 (Z.land (Z.shiftr y b) 1) = bz (Z.testbit y b) (Z.ones 128).
Proof.
  intros Hb. change 1 with (Z.ones 1) at 1. rewrite Z.land_ones by lia. change (2 ^ 1) with 2. rewrite Zmod_odd.
  replace (Z.odd (Z.shiftr y b)) with (Z.testbit y b) by (rewrite <- Z.bit0_odd, Z.shiftr_spec by lia; f_equal; lia).
  destruct (Z.testbit y b); reflexivity.
Qed.
Lemma land_ones128 z : r128 z -> Z.land z (Z.ones 128) = z.
Proof. intros. rewrite Z.land_ones by lia. now apply Z.mod_small. Qed.
Lemma gen_double_ok v : gen_double v = gcm_V v.
Proof.
  unfold gen_double, gcm_V. pose proof (neg128_bit v 0 ltac:(lia)) as E. rewrite Z.shiftr_0_r, Z.bit0_odd in E. rewrite E.
  destruct (Z.odd v); cbn [bz]; [f_equal; reflexivity|]. now rewrite Z.land_0_l, Z.lxor_0_r.
Qed.
Lemma gcm_V_r128 v : r128 v -> r128 (gcm_V v).
Proof.
  intros Hv. assert (R : r128 (Z.shiftr v 1)).
  { unfold r128 in *. rewrite Z.shiftr_div_pow2 by lia. change (2 ^ 1) with 2. lia. }
  unfold gcm_V. destruct (Z.odd v); auto. apply r128_lxor; auto. now unfold r128, gcm_R.
Qed.
Lemma gen_mul_loop y : forall n k z v, (k + n = 128)%nat -> r128 z -> r128 v ->
  fst (fold_left (gen_mul_step y) (seq k n) (z, v)) = gcm_loop n (Z.of_nat k) y z v.
Proof.
  induction n as [|n IH]; intros k z v Hk Hz Hv; [reflexivity|].
  cbn [seq fold_left gcm_loop]. unfold gen_mul_step at 2. rewrite neg128_bit, gen_double_ok by lia.
  set (z' := Z.lor _ _). assert (E : z' = if Z.testbit y (127 - Z.of_nat k) then Z.lxor z v else z).
  { unfold z'. destruct (Z.testbit y (127 - Z.of_nat k)); cbn [bz].
    - rewrite Z.lxor_nilpotent, Z.land_0_r, Z.lor_0_l. apply land_ones128. now apply r128_lxor.
    - rewrite Z.lxor_0_l, Z.land_0_r, Z.lor_0_r. now apply land_ones128. }
  rewrite E. rewrite IH; [f_equal; lia | lia | | now apply gcm_V_r128].
  destruct (Z.testbit y (127 - Z.of_nat k)); auto using r128_lxor.
Qed.
Lemma gen_mul_ok x y : r128 x -> r128 y -> gen_mul x y = gcm_mul x y.
Proof.
  intros Hx Hy. rewrite gcm_mul_comm by auto. unfold gen_mul, gcm_mul. rewrite gen_mul_loop by (auto using r128_0; lia). reflexivity.
Qed.
Local Opaque gcm_mul G rn clmul gf128_big_endian M.
Lemma zero_splice (b : list Z) : zlen b <= 16 -> splice (repeat 0 16) 0 b = b ++ repeat 0 (Z.to_nat (16 - zlen b)).
Proof.
  intros L. pose proof (zlen_nonneg b). unfold splice. rewrite Z.add_0_l. change (ztake 0 (repeat 0 16)) with (@nil Z). cbn [app]. f_equal.
  unfold zdrop. assert (E : forall n m : nat, skipn n (repeat 0 m) = repeat 0 (m - n)).
  { induction n as [|n IH]; intros [|m]; cbn [skipn repeat Nat.sub]; auto. }
  rewrite E. f_equal. lia.
Qed.
Section H.
Variable h : Z.
Hypothesis Hh : r128 h.
Variable g : Z -> Z.
Hypothesis Hg : forall a, g a = gcm_mul a h.
Lemma gen_one_ok c x : r128 c -> r128 x -> gen_one_block h c x = g (Z.lxor c x).
Proof using Hh Hg. intros. unfold gen_one_block. rewrite gen_mul_ok, Hg by auto using r128_lxor. reflexivity. Qed.
(** [f] stands for the step of the portable code *)
Variable f : Z -> Z -> Z.
Hypothesis Hf : forall c x, r128 c -> r128 x -> f c x = g (Z.lxor c x).
Lemma step_blocks_ok bs : forall c, r128 c -> blocks_ok bs -> fold_left (fun c chunk => f c (be_val chunk)) bs c = gblocks g c bs.
Proof using Hh Hg Hf.
  induction bs as [|b bs IH]; intros c Hc F; [reflexivity|]. inversion F as [|? ? [Bb Lb] F']; subst. cbn [fold_left].
  pose proof (load_be_r128 b Bb Lb) as Rb. rewrite load_be_val in Rb. rewrite Hf by assumption.
  change (b :: bs) with ([b] ++ bs). rewrite gblocks_app.
  assert (E : gblocks g c [b] = g (Z.lxor c (be_val b))) by reflexivity. rewrite E. apply IH; [|assumption].
  rewrite Hg. apply gcm_mul_r128; [|assumption]. now apply r128_lxor.
Qed.
Lemma step_add_ok c l : r128 c -> bytes l ->
  (let current := fold_left (fun c chunk => f c (be_val chunk)) (chunks_exact 16 l) c in
   let bytes := zdrop (16 * (zlen l / 16)) l in
   if zlen bytes =? 0 then current else f current (be_val (splice (repeat 0 16) 0 bytes))) = gblocks g c (chunks_exact 16 (pad16 l)).
Proof using Hh Hg Hf.
  intros Hc Bl. pose proof (zlen_nonneg l). rewrite chunks_pad16, gblocks_app.
  assert (Bt : bytes (ztake (16 * (zlen l / 16)) l)) by now apply bytes_ztake.
  replace (chunks_exact 16 l) with (chunks_exact 16 (ztake (16 * (zlen l / 16)) l)).
  2:{ symmetry. rewrite <- (ztake_zdrop (16 * (zlen l / 16)) l) at 1.
      rewrite (chunks_exact_app 16 (zlen l / 16)); [|lia|apply Z.div_pos; lia|rewrite ztake_mod; lia].
      rewrite (chunks_exact_short 16 (zdrop _ _)); [now rewrite app_nil_r|lia|]. rewrite zdrop_mod by lia. lia. }
  rewrite step_blocks_ok by auto using chunks_blocks_ok. cbv zeta. unfold tail16.
  pose proof (zdrop_mod 16 l ltac:(lia)) as Lr. set (r := zdrop (16 * (zlen l / 16)) l) in *.
  destruct (zlen r =? 0) eqn:E; [reflexivity|]. rewrite zero_splice by lia.
  rewrite Hf; [reflexivity| |].
  - apply (gblocks_r128 h Hh g Hg); auto using chunks_blocks_ok.
  - apply load_be_r128; [|rewrite zlen_app, zlen_repeat; lia]. apply bytes_app. split; [now apply bytes_zdrop|].
    apply bytes_repeat. unfold byte_ok. lia.
Qed.
End H.
Lemma gen_add_ok h : r128 h -> forall g, (forall a, g a = gcm_mul a h) -> forall c l, r128 c -> bytes l ->
  gen_ghash_add h c l = gblocks g c (chunks_exact 16 (pad16 l)).
Proof. intros Hh g Hg c l Hc Bl. exact (step_add_ok h Hh g Hg (gen_one_block h) (gen_one_ok h Hh g Hg) c l Hc Bl). Qed.

(** the hash as a polynomial in the subkey, the last block the constant coefficient *)
Lemma fold_ev H xs : r128 H -> Forall r128 xs -> fold_left (fun y b => G (Z.lxor y b) H) xs 0 = G H (ev (rev xs) H).
Proof.
  intros HH. induction xs as [|x xs IH] using rev_ind; intros F.
  - cbn [fold_left rev ev]. symmetry. now apply G_0_r.
  - apply Forall_app in F. destruct F as [F Fx]. inversion Fx; subst. rewrite fold_left_app, rev_app_distr. cbn [fold_left rev app ev].
    rewrite IH by auto. assert (r128 (ev (rev xs) H)) by (apply ev_r128; auto; now apply Forall_rev).
    rewrite G_comm by auto using r128_lxor, G_r128. f_equal. apply Z.lxor_comm.
Qed.
Fixpoint padd (a b : list Z) : list Z :=
  match a, b with
  | [], _ => b
  | _, [] => a
  | x :: a, y :: b => Z.lxor x y :: padd a b
  end.
Lemma padd_r128 : forall a b, Forall r128 a -> Forall r128 b -> Forall r128 (padd a b).
Proof.
  induction a as [|x a IH]; intros [|y b] Fa Fb; cbn [padd]; auto. inversion Fa; inversion Fb; subst. constructor; auto using r128_lxor.
Qed.
Lemma padd_length : forall a b, length (padd a b) = Nat.max (length a) (length b).
Proof. induction a as [|x a IH]; intros [|y b]; cbn [padd length]; auto; try lia. rewrite IH. lia. Qed.
Lemma padd_ev x : r128 x -> forall a b, Forall r128 a -> Forall r128 b -> ev (padd a b) x = Z.lxor (ev a x) (ev b x).
Proof.
  intros Hx. induction a as [|c a IH]; intros [|d b] Fa Fb; cbn [padd ev]; rewrite ?Z.lxor_0_l, ?Z.lxor_0_r; auto.
  inversion Fa; inversion Fb; subst. rewrite IH by auto. rewrite G_lxor_r by auto using ev_r128. xac.
Qed.
Lemma padd_zero : forall a b, length a = length b -> Forall (eq 0) (padd a b) -> a = b.
Proof.
  induction a as [|x a IH]; intros [|y b] L F; try discriminate; auto. cbn [padd] in F. inversion F as [|? ? E F']; subst.
  symmetry in E. apply Z.lxor_eq in E. f_equal; auto.
Qed.

(** the input of the hash: 7.1 steps 4 and 5 *)
Definition enc (A C : list Z) : list Z := pad16 A ++ pad16 C ++ be_bytes 8 (8 * zlen A) ++ be_bytes 8 (8 * zlen C).
Definition eblocks (A C : list Z) : list Z := map be_val (chunks_exact 16 (enc A C)).
Definition lenblock (A C : list Z) : Z := 2 ^ 64 * (8 * zlen A) + 8 * zlen C.
Lemma enc_bytes A C : bytes A -> bytes C -> bytes (enc A C).
Proof. intros. unfold enc. rewrite !bytes_app. repeat split; auto using bytes_pad16, be_bytes_bytes. Qed.
Lemma enc_len A C : zlen (enc A C) = 16 * ((zlen A + 15) / 16 + (zlen C + 15) / 16 + 1).
Proof.
  unfold enc. rewrite !zlen_app, !zlen_be_bytes. unfold pad16. rewrite !zlen_app, !zlen_repeat. pose proof (zlen_nonneg A). pose proof (zlen_nonneg C). lia.
Qed.
Lemma eblocks_r128 A C : bytes A -> bytes C -> Forall r128 (eblocks A C).
Proof. intros. apply (blocks_r128 (chunks_exact 16 (enc A C))). apply chunks_blocks_ok. now apply enc_bytes. Qed.
Lemma eblocks_len A C : zlen (eblocks A C) = (zlen A + 15) / 16 + (zlen C + 15) / 16 + 1.
Proof. unfold eblocks. replace (zlen (map be_val (chunks_exact 16 (enc A C)))) with (zlen (chunks_exact 16 (enc A C))) by (unfold zlen; now rewrite map_length). rewrite zlen_chunks_exact, enc_len by lia. rewrite Z.mul_comm, Z.div_mul by lia. reflexivity. Qed.
Lemma eblocks_last A C : zlen A < 2 ^ 61 -> zlen C < 2 ^ 61 -> exists r, rev (eblocks A C) = lenblock A C :: r.
Proof.
  intros LA LC. pose proof (zlen_nonneg A). pose proof (zlen_nonneg C). unfold eblocks, enc. rewrite !chunks16_pad_app.
  set (l := be_bytes 8 (8 * zlen A) ++ be_bytes 8 (8 * zlen C)).
  assert (Ll : zlen l = 16) by (unfold l; rewrite zlen_app, !zlen_be_bytes; lia).
  rewrite (chunks_exact_cons 16 l), (chunks_exact_short 16 (zdrop 16 l)), ztake_all by (rewrite ?zdrop_all by lia; unfold zlen in *; cbn [length]; lia).
  rewrite app_assoc, map_app, rev_app_distr. cbn [map rev app]. eexists. f_equal.
  unfold l, lenblock. rewrite be_val_app, !be_val_be_bytes, zlen_be_bytes. change (256 ^ Z.of_nat 8) with (2 ^ 64). rewrite !Z.mod_small by lia. lia.
Qed.
Lemma app_len_inj : forall (a a' r r' : list Z), length a = length a' -> a ++ r = a' ++ r' -> a = a' /\ r = r'.
Proof.
  induction a as [|x a IH]; intros [|y a'] r r' L E; try discriminate; auto. cbn [app] in E. injection E as -> E.
  destruct (IH a' r r') as [-> ->]; auto.
Qed.
Lemma pad16_inj A A' : zlen A = zlen A' -> forall r r', pad16 A ++ r = pad16 A' ++ r' -> A = A' /\ r = r'.
Proof.
  intros L r r' E. unfold pad16 in E. rewrite L, <- !app_assoc in E.
  apply app_len_inj in E; [|unfold zlen in L; lia]. destruct E as [-> E]. split; auto. now apply app_inv_head in E.
Qed.
Lemma map_be_inj : forall a b, blocks_ok a -> blocks_ok b -> map be_val a = map be_val b -> a = b.
Proof.
  induction a as [|x a IH]; intros [|y b] Fa Fb E; try discriminate; auto. inversion Fa as [|? ? [Bx Lx] Fa']; inversion Fb as [|? ? [By Ly] Fb']; subst.
  cbn [map] in E. injection E as E1 E2. f_equal; auto. apply be_val_inj; auto. unfold zlen in *. lia.
Qed.
Lemma eblocks_inj A C A' C' : bytes A -> bytes C -> bytes A' -> bytes C' -> zlen A = zlen A' -> zlen C = zlen C' ->
  eblocks A C = eblocks A' C' -> (A, C) = (A', C').
Proof.
  intros BA BC BA' BC' LA LC E. apply map_be_inj in E; [|apply chunks_blocks_ok; now apply enc_bytes..].
  assert (X : enc A C = enc A' C').
  { pose proof (enc_len A C). pose proof (enc_len A' C'). pose proof (zlen_nonneg A). pose proof (zlen_nonneg C).
    rewrite <- (chunks_exact_concat 16 ((zlen A + 15) / 16 + (zlen C + 15) / 16 + 1) (enc A C)) by lia.
    rewrite <- (chunks_exact_concat 16 ((zlen A' + 15) / 16 + (zlen C' + 15) / 16 + 1) (enc A' C')) by lia. now rewrite E. }
  unfold enc in X. apply pad16_inj in X; auto. destruct X as [-> X]. apply pad16_inj in X; auto. destruct X as [-> _]. reflexivity.
Qed.
Lemma GHASH_ev H A C : r128 H -> bytes A -> bytes C -> GHASH H (enc A C) = G H (ev (rev (eblocks A C)) H).
Proof.
  intros HH BA BC. rewrite <- fold_ev by auto using eblocks_r128. unfold GHASH, eblocks. apply fold_gen. intros c b. apply gcm_mul_G.
Qed.
Lemma GHASH_r128 H A C : r128 H -> bytes A -> bytes C -> r128 (GHASH H (enc A C)).
Proof. intros. rewrite GHASH_ev by auto. apply G_r128; auto. apply ev_r128; auto. apply Forall_rev. now apply eblocks_r128. Qed.

Theorem collision_bound A C A' C' D Hs :
  bytes A -> bytes C -> bytes A' -> bytes C' -> zlen A < 2 ^ 61 -> zlen C < 2 ^ 61 -> zlen A' < 2 ^ 61 -> zlen C' < 2 ^ 61 ->
  (A, C) <> (A', C') -> r128 D -> NoDup Hs -> Forall (fun H => r128 H /\ Z.lxor (GHASH H (enc A C)) (GHASH H (enc A' C')) = D) Hs ->
  zlen Hs <= Z.max (zlen (eblocks A C)) (zlen (eblocks A' C')).
Proof.
  intros BA BC BA' BC' LA LC LA' LC' N HD ND F.
  pose proof (eblocks_r128 A C BA BC) as R. pose proof (eblocks_r128 A' C' BA' BC') as R'.
  apply Forall_rev in R, R'.
  set (p := D :: padd (rev (eblocks A C)) (rev (eblocks A' C'))).
  assert (Lp : length p = S (Nat.max (length (eblocks A C)) (length (eblocks A' C')))) by (unfold p; cbn [length]; now rewrite padd_length, !rev_length).
  enough (length Hs < length p)%nat by (unfold zlen; lia).
  apply (root_bound (length p) p Hs); auto.
  - constructor; auto. now apply padd_r128.
  - intros Z0. inversion Z0 as [|? ? _ Z1]; subst. apply N.
    destruct (eblocks_last A C LA LC) as [r E]. destruct (eblocks_last A' C' LA' LC') as [r' E'].
    assert (El : lenblock A C = lenblock A' C').
    { pose proof Z1 as Z2. rewrite E, E' in Z2. cbn [padd] in Z2. inversion Z2 as [|? ? X _]; subst. symmetry in X. now apply Z.lxor_eq in X. }
    assert (EL : zlen A = zlen A' /\ zlen C = zlen C') by (unfold lenblock in El; pose proof (zlen_nonneg C); pose proof (zlen_nonneg C'); lia).
    destruct EL as [EA EC]. apply eblocks_inj; auto.
    rewrite <- (rev_involutive (eblocks A C)), <- (rev_involutive (eblocks A' C')). f_equal. apply padd_zero; auto.
    rewrite !rev_length. pose proof (eblocks_len A C). pose proof (eblocks_len A' C'). rewrite <- EA, <- EC in *. unfold zlen in *. lia.
  - eapply Forall_impl; [|exact F]. intros H [HH _]. exact HH.
  - eapply Forall_impl; [|exact F]. intros H [HH E]. unfold p. cbn [ev]. rewrite padd_ev by auto.
    rewrite G_lxor_r by auto using ev_r128. rewrite <- !GHASH_ev by auto. rewrite E. apply Z.lxor_nilpotent.
Qed.
