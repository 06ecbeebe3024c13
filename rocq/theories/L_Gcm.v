(** The counter-mode and GHASH loops of AES-GCM compute SP 800-38D. *)
Require Import Verif.Base Verif.L_Base Verif.L_Asn1 Verif.L_Blocks Verif.L_Bits Verif.L_Poly1305 Verif.M_Ct Verif.L_Hmac Verif.S_Aes Verif.M_Aes Verif.L_Aes
  Verif.M_Ghash Verif.S_Gcm Verif.L_Clmul Verif.L_Ghash Verif.L_GhashAdd Verif.M_AesGcm.
Require Import ZifyNat.
Local Opaque gcm_mul M rn clmul gf128_big_endian mul1 mul8 mul16 avx_new avx512_new ghash_add.

Lemma map_add_mod i : ((2 + i) mod 2 ^ 32 + 1) mod 2 ^ 32 = (2 + (i + 1)) mod 2 ^ 32.
Proof. rewrite Zplus_mod_idemp_l. f_equal. lia. Qed.
Lemma xor_min_comm : forall a b, mm_xor a b = xor_min b a.
Proof. unfold mm_xor, xor_min. induction a as [|x a IH]; intros [|y b]; cbn [combine map]; auto. rewrite IH. f_equal. apply Z.lxor_comm. Qed.
Lemma zlen_xor_min a b : zlen (xor_min a b) = Z.min (zlen a) (zlen b).
Proof. unfold xor_min, zlen. rewrite map_length, combine_length. lia. Qed.
Lemma bytes_xor_min a b : bytes a -> bytes b -> bytes (xor_min a b).
Proof. intros. rewrite <- xor_min_comm. now apply bytes_xor. Qed.
Lemma xor_min_pad : forall a z k, ztake (zlen a) (xor_min (a ++ z) k) = xor_min a k.
Proof.
  induction a as [|x a IH]; intros z k. { change (zlen (@nil Z)) with 0. apply ztake_0. }
  destruct k as [|y k]. { unfold ztake, xor_min. cbn [app combine map]. apply firstn_nil. }
  rewrite zlen_cons. unfold xor_min in *. cbn [app combine map]. unfold ztake in *. pose proof (zlen_nonneg a).
  replace (Z.to_nat (1 + zlen a)) with (S (Z.to_nat (zlen a))) by lia. cbn [firstn]. now rewrite IH.
Qed.
Lemma xor_min_twice : forall a k, zlen a <= zlen k -> xor_min (xor_min a k) k = a.
Proof.
  unfold xor_min. induction a as [|x a IH]; intros [|y k] H; cbn [combine map]; auto.
  - rewrite zlen_cons in H. change (zlen (@nil Z)) with 0 in H. pose proof (zlen_nonneg a). lia.
  - rewrite !zlen_cons in H. rewrite IH by lia. f_equal. rewrite Z.lxor_assoc, Z.lxor_nilpotent, Z.lxor_0_r. auto.
Qed.

Lemma y0_list (l : list Z) : length l = 12%nat -> nonce_to_y0 l = l ++ [0; 0; 0; 1].
Proof.
  intros L. unfold nonce_to_y0. do 12 (destruct l as [|? l]; [discriminate|]). destruct l as [|]; [reflexivity|discriminate].
Qed.

Lemma chunks_concat_blocks : forall X, blocks_ok X -> chunks_exact 16 (concat X) = X.
Proof.
  induction X as [|B r IH]; intros HX; [reflexivity|]. inversion HX as [|? ? [HB HL] HX']; subst. cbn [concat].
  rewrite (chunks_exact_app 16 1) by lia. rewrite (IH HX').
  rewrite chunks_exact_cons by lia. rewrite ztake_all, zdrop_all by lia. reflexivity.
Qed.
Lemma bytes_concat_blocks X : blocks_ok X -> bytes (concat X).
Proof. induction 1 as [|B r [HB HL] _ IH]; cbn [concat]. constructor. apply bytes_app; auto. Qed.
Lemma zlen_concat_blocks X : blocks_ok X -> zlen (concat X) = 16 * zlen X.
Proof. induction 1 as [|B r [HB HL] _ IH]; [reflexivity|]. cbn [concat]. rewrite zlen_app, zlen_cons. lia. Qed.

Lemma bytes_pad16 l : bytes l -> bytes (pad16 l).
Proof. intros. apply bytes_app. split; auto. apply bytes_repeat. unfold byte_ok. lia. Qed.
Lemma zlen_chunks_exact n (l : list Z) : 0 < n -> zlen (chunks_exact n l) = zlen l / n.
Proof.
  intros Hn. pose proof (zlen_nonneg l). assert (0 <= zlen l / n) by (apply Z.div_pos; lia).
  assert (Lt : zlen (ztake (n * (zlen l / n)) l) = n * (zlen l / n)) by (apply ztake_mod; lia).
  pose proof (zdrop_mod n l Hn) as Lr. pose proof (Z.mod_pos_bound (zlen l) n Hn).
  rewrite <- (ztake_zdrop (n * (zlen l / n)) l) at 1. rewrite (chunks_exact_app n (zlen l / n)) by lia.
  rewrite (chunks_exact_short n (zdrop _ _)) by lia. rewrite app_nil_r. unfold zlen at 1.
  rewrite (chunk_count (Z.to_nat (zlen l / n)) n); lia.
Qed.
Lemma table_avx_tbl h b : table_avx (tbl h b) = avx_new h.
Proof. destruct b; reflexivity. Qed.

Section G.
Variable h : Z.
Hypothesis Hh : r128 h.
Variable g : Z -> Z.
Hypothesis Hg : forall a, g a = gcm_mul a h.
Variable key : aes_key.
Variable E : list Z -> list Z.
Hypothesis HEr : forall b, aes_rounds (round_keys key) b = E b.
Hypothesis HE : forall b, b16 (E b).
Variable iv : list Z.
Hypothesis Biv : bytes iv.
Hypothesis Liv : zlen iv = 12.

Definition lo64 : Z := be_val (ztake 8 iv).
Definition hi32 : Z := be_val (zdrop 8 iv).
Definition CB (i : Z) : list Z := iv ++ be_bytes 4 ((2 + i) mod 2 ^ 32).
Definition J0 : list Z := iv ++ [0; 0; 0; 1].
Lemma zlen_CB i : zlen (CB i) = 16. Proof. unfold CB. rewrite zlen_app, zlen_be_bytes, Liv. reflexivity. Qed.
Lemma inc32_J0 : inc32 J0 = CB 0.
Proof. unfold inc32, J0, CB. rewrite ztake_app_eq, zdrop_app_eq by auto. reflexivity. Qed.
Lemma inc32_CB i : inc32 (CB i) = CB (i + 1).
Proof.
  unfold inc32, CB. rewrite ztake_app_eq, zdrop_app_eq by auto. rewrite be_val_be_bytes.
  change (256 ^ Z.of_nat 4) with (2 ^ 32). rewrite Z.mod_mod by lia. now rewrite map_add_mod.
Qed.
Lemma hi32_range : 0 <= hi32 < 2 ^ 32.
Proof.
  unfold hi32. assert (L : zlen (zdrop 8 iv) = 4) by (rewrite zlen_zdrop; lia).
  pose proof (be_val_bound (zdrop 8 iv) (bytes_zdrop _ _ Biv)) as X. rewrite L in X. exact X.
Qed.

(** the 128-bit counter standing for counter block i *)
Definition Rep (c : counter) (i : Z) : Prop := c = (lo64, hi32 * 2 ^ 32 + (2 + i) mod 2 ^ 32).
Lemma block_of x : 0 <= x < 2 ^ 32 -> counter_block (lo64, hi32 * 2 ^ 32 + x) = iv ++ be_bytes 4 x.
Proof.
  intros Hx. unfold counter_block, lo64, hi32. cbn [fst snd].
  assert (L1 : zlen (ztake 8 iv) = 8) by (rewrite zlen_ztake; lia).
  assert (L2 : zlen (zdrop 8 iv) = 4) by (rewrite zlen_zdrop; lia).
  assert (E1 : be_bytes 8 (be_val (ztake 8 iv)) = ztake 8 iv).
  { replace 8%nat with (length (ztake 8 iv)) by (unfold zlen in L1; lia). apply be_bytes_be_val. now apply bytes_ztake. }
  assert (E2 : be_bytes 8 (be_val (zdrop 8 iv) * 2 ^ 32 + x) = zdrop 8 iv ++ be_bytes 4 x).
  { set (r := zdrop 8 iv ++ be_bytes 4 x).
    assert (Lr : length r = 8%nat) by (unfold r; rewrite app_length, be_bytes_length; unfold zlen in L2; lia).
    rewrite <- (be_bytes_be_val r) at 1 by (apply bytes_app; split; [now apply bytes_zdrop|apply be_bytes_bytes]).
    rewrite Lr. f_equal. unfold r. rewrite be_val_app, zlen_be_bytes, be_val_be_bytes.
    change (256 ^ Z.of_nat 4) with (2 ^ 32). rewrite Z.mod_small by lia. reflexivity. }
  rewrite E1, E2, app_assoc, ztake_zdrop. reflexivity.
Qed.
Lemma Rep_block c i : Rep c i -> counter_block c = CB i.
Proof. intros ->. apply block_of. apply Z.mod_pos_bound. lia. Qed.
Lemma Rep_add c i : Rep c i -> Rep (add_counter_1 c) (i + 1).
Proof.
  intros ->. unfold Rep, add_counter_1. pose proof (Z.mod_pos_bound (2 + i) (2 ^ 32) ltac:(lia)).
  rewrite (Z.add_comm (hi32 * _)), Z.div_add, Z.div_small, Z.add_0_l by lia. rewrite Z.mod_add, Z.mod_mod by lia. now rewrite map_add_mod.
Qed.
Lemma y0_J0 : nonce_to_y0 iv = J0.
Proof.
  apply y0_list. unfold zlen in Liv. lia.
Qed.
Lemma counter_load_J0 : counter_load J0 = (lo64, hi32 * 2 ^ 32 + 1).
Proof.
  unfold counter_load, J0, lo64, hi32. rewrite !ztake_app_le by lia. f_equal.
  rewrite zdrop_app_le by lia.
  assert (L2 : zlen (zdrop 8 iv) = 4) by (rewrite zlen_zdrop; lia).
  rewrite ztake_all by (rewrite zlen_app, L2; reflexivity). rewrite be_val_app. reflexivity.
Qed.
Lemma counter_new_ok : Rep (counter_new J0) 0.
Proof.
  unfold counter_new. change (be_val (ztake 8 J0), be_val (ztake 8 (zdrop 8 J0))) with (counter_load J0).
  rewrite counter_load_J0. unfold Rep, add_counter_1.
  rewrite (Z.add_comm (hi32 * _)), Z.div_add, Z.div_small, Z.add_0_l by lia. rewrite Z.mod_add by lia. reflexivity.
Qed.
Definition CBs (n : nat) (i : Z) : list (list Z) := map (fun j => CB (i + Z.of_nat j)) (seq 0 n).
Lemma CBs_S n i : CBs (S n) i = CB i :: CBs n (i + 1).
Proof.
  unfold CBs. cbn [seq map]. f_equal. { f_equal. lia. } rewrite <- seq_shift, map_map. apply map_ext. intros. f_equal. lia.
Qed.
Lemma nexts_ok n : forall c i, Rep c i -> exists c', counter_nexts n c = (CBs n i, c') /\ Rep c' (i + Z.of_nat n).
Proof.
  induction n as [|n IH]; intros c i Hc.
  - exists c. split; [reflexivity|]. replace (i + Z.of_nat 0) with i by lia. exact Hc.
  - destruct (IH _ _ (Rep_add c i Hc)) as (c' & E1 & R1). exists c'. cbn [counter_nexts counter_next]. unfold m128 in *. rewrite E1.
    rewrite CBs_S, (Rep_block c i) by auto. split; [reflexivity|]. replace (i + Z.of_nat (S n)) with (i + 1 + Z.of_nat n) by lia. exact R1.
Qed.

(** the 512-bit counter *)
Definition Rep512 (s : counter512) (i : Z) : Prop :=
  s = map (fun j => (lo64, (hi32 * 2 ^ 32 + 2 + i + j) mod 2 ^ 64)) [0; 1; 2; 3].
Lemma load_block x : 0 <= x < 2 ^ 64 -> counter_load (counter_block (lo64, x)) = (lo64, x).
Proof.
  intros Hx. unfold counter_load, counter_block. cbn [fst snd].
  assert (Hl : 0 <= lo64 < 2 ^ 64).
  { unfold lo64. assert (L1 : zlen (ztake 8 iv) = 8) by (rewrite zlen_ztake; lia).
    pose proof (be_val_bound (ztake 8 iv) (bytes_ztake _ _ Biv)) as X. rewrite L1 in X. exact X. }
  rewrite ztake_app_eq, zdrop_app_eq by (rewrite zlen_be_bytes; reflexivity). rewrite ztake_all by (rewrite zlen_be_bytes; lia).
  rewrite !be_val_be_bytes. change (256 ^ Z.of_nat 8) with (2 ^ 64). rewrite !Z.mod_small by lia. reflexivity.
Qed.
Lemma counter512_new_ok : Rep512 (counter512_new J0) 0.
Proof.
  unfold counter512_new, Rep512. pose proof hi32_range. pose proof counter_new_ok as R. unfold Rep in R. rewrite R.
  change ((2 + 0) mod 2 ^ 32) with 2. cbn [counter_nexts counter_next fst map].
  assert (A : forall x, 2 <= x <= 6 -> add_counter_1 (lo64, hi32 * 2 ^ 32 + x) = (lo64, hi32 * 2 ^ 32 + (x + 1))).
  { intros x Hx. unfold add_counter_1. rewrite (Z.add_comm (hi32 * _)), Z.div_add, Z.div_small, Z.add_0_l by lia.
    rewrite Z.mod_add by lia. rewrite !Z.mod_small by (rewrite ?Z.mod_small; lia). reflexivity. }
  rewrite !A by lia. rewrite !load_block by lia.
  rewrite !Z.add_0_r, <- !Z.add_assoc, !Z.mod_small by lia. reflexivity.
Qed.
Lemma next4_ok s i : Rep512 s i -> 0 <= i -> i + 4 <= 2 ^ 32 - 2 ->
  fst (next4 s) = CBs 4 i /\ Rep512 (snd (next4 s)) (i + 4).
Proof.
  intros -> H0 H1. pose proof hi32_range. unfold next4. cbn [fst snd]. split.
  - unfold CBs. rewrite !map_map. change (seq 0 4) with (map Z.to_nat [0; 1; 2; 3]). rewrite map_map.
    apply map_ext_in. intros j Hj. cbn [In] in Hj.
    rewrite Z.mod_small by nia.
    replace (hi32 * 2 ^ 32 + 2 + i + j) with (hi32 * 2 ^ 32 + (2 + i + j)) by lia. rewrite block_of by lia. unfold CB. f_equal. f_equal.
    rewrite Z.mod_small by lia. lia.
  - unfold Rep512. rewrite map_map. apply map_ext. intros j. f_equal. rewrite Zplus_mod_idemp_l. f_equal. lia.
Qed.
Lemma into_128_ok s i : Rep512 s i -> 0 <= i -> i + 2 < 2 ^ 32 -> Rep (into_128 s) i.
Proof. intros -> H0 H1. pose proof hi32_range. cbn [map into_128 hd]. unfold Rep. rewrite !Z.mod_small by nia. f_equal. lia. Qed.

(** block-wise encryption *)
Fixpoint encs (i : Z) (X : list (list Z)) : list (list Z) :=
  match X with [] => [] | B :: r => xor_min B (E (CB i)) :: encs (i + 1) r end.
Lemma gctr_encs : forall X i, gctr_blocks E (CB i) X = concat (encs i X).
Proof. induction X as [|B r IH]; intros i; cbn [gctr_blocks encs concat]; auto. rewrite inc32_CB, IH. auto. Qed.
Lemma encs_app : forall X Y i, encs i (X ++ Y) = encs i X ++ encs (i + zlen X) Y.
Proof.
  induction X as [|B r IH]; intros Y i; cbn [app encs]. { f_equal. change (zlen (@nil (list Z))) with 0. lia. }
  rewrite IH. f_equal. f_equal. f_equal. rewrite zlen_cons. lia.
Qed.
Lemma encs_ok : forall X i, blocks_ok X -> blocks_ok (encs i X).
Proof.
  induction X as [|B r IH]; intros i HX; cbn [encs]. constructor. inversion HX as [|? ? [HB HL] HX']; subst. constructor; [|now apply IH].
  destruct (HE (CB i)) as [A1 A2]. split. now apply bytes_xor_min. rewrite zlen_xor_min. unfold zlen in *. lia.
Qed.
Lemma encs_len : forall X i, length (encs i X) = length X.
Proof. induction X; intros i; cbn [encs length]; auto. Qed.
Lemma map2_encs : forall X i, map2 mm_xor (map (aes_rounds (round_keys key)) (CBs (length X) i)) X = encs i X.
Proof.
  induction X as [|B r IH]; intros i; [reflexivity|]. change (length (B :: r)) with (S (length r)). rewrite CBs_S. cbn [map encs].
  rewrite <- IH. unfold map2. cbn [combine map]. rewrite HEr, xor_min_comm. reflexivity.
Qed.

Definition gsel (enc : bool) (i : Z) (X : list (list Z)) : list (list Z) := if enc then encs i X else X.
Lemma gsel_ok enc i X : blocks_ok X -> blocks_ok (gsel enc i X).
Proof. destruct enc; cbn [gsel]; auto. apply encs_ok. Qed.
Lemma gsel_app enc X Y i : gsel enc i (X ++ Y) = gsel enc i X ++ gsel enc (i + zlen X) Y.
Proof. destruct enc; cbn [gsel]; auto. apply encs_app. Qed.

(** the wide loops, for any step that advances the counter by [n] blocks while [lim] allows *)
Lemma wide_loop {S} (R : S -> Z -> Prop) (enc : bool) (n : Z) (lim : Z) (step : S * Z * list Z -> list Z -> S * Z * list Z) :
  0 < n ->
  (forall s cur out ch i, R s i -> r128 cur -> bytes ch -> zlen ch = 16 * n -> 0 <= i -> i + n <= lim ->
     exists s', R s' (i + n) /\ step (s, cur, out) ch =
       (s', gblocks g cur (gsel enc i (chunks_exact 16 ch)), out ++ concat (encs i (chunks_exact 16 ch)))) ->
  forall chs s cur out i, R s i -> r128 cur -> Forall (fun ch => bytes ch /\ zlen ch = 16 * n) chs -> 0 <= i -> i + n * zlen chs <= lim ->
  let X := concat (map (chunks_exact 16) chs) in
  exists s', R s' (i + n * zlen chs) /\ fold_left step chs (s, cur, out) = (s', gblocks g cur (gsel enc i X), out ++ concat (encs i X)).
Proof.
  intros Hn Hs. induction chs as [|ch r IH]; intros s cur out i HR Hc HF H0 HL X.
  - exists s. split. { change (zlen (@nil (list Z))) with 0. replace (i + n * 0) with i by lia. exact HR. }
    subst X. cbn [map concat]. destruct enc; cbn [gsel encs concat fold_left]; rewrite app_nil_r; reflexivity.
  - inversion HF as [|? ? [Bch Lch] HF']; subst. rewrite zlen_cons in *. pose proof (zlen_nonneg r).
    destruct (Hs s cur out ch i HR Hc Bch Lch H0 ltac:(nia)) as (s1 & R1 & E1).
    cbn [fold_left]. rewrite E1.
    assert (BX : blocks_ok (chunks_exact 16 ch)) by now apply chunks_blocks_ok.
    destruct (IH s1 (gblocks g cur (gsel enc i (chunks_exact 16 ch))) (out ++ concat (encs i (chunks_exact 16 ch))) (i + n) R1
      (gblocks_r128 h Hh g Hg _ _ Hc (gsel_ok enc i _ BX)) HF' ltac:(lia) ltac:(lia)) as (s2 & R2 & E2).
    exists s2. split. { replace (i + n * (1 + zlen r)) with (i + n + n * zlen r) by lia. exact R2. }
    rewrite E2. subst X. cbn [map concat].
    assert (LX : zlen (chunks_exact 16 ch) = n).
    { unfold zlen. rewrite (chunk_count (Z.to_nat n) 16) by lia. lia. }
    rewrite gsel_app, encs_app, LX, gblocks_app, concat_app, <- app_assoc. reflexivity.
Qed.

Lemma step8_ok enc t s cur out ch i : table_avx t = avx_new h -> Rep s i -> r128 cur -> bytes ch -> zlen ch = 16 * 8 ->
  exists s', Rep s' (i + 8) /\ step8 enc key (table_avx t) (s, cur, out) ch =
       (s', gblocks g cur (gsel enc i (chunks_exact 16 ch)), out ++ concat (encs i (chunks_exact 16 ch))).
Proof.
  intros Et HR Hc Bch Lch. destruct (nexts_ok 8 s i HR) as (s' & E1 & R1). exists s'. split; [exact R1|].
  unfold step8. rewrite E1, Et.
  assert (L8 : length (chunks_exact 16 ch) = 8%nat) by (apply chunk_count; lia).
  assert (BX : blocks_ok (chunks_exact 16 ch)) by now apply chunks_blocks_ok.
  pose proof (map2_encs (chunks_exact 16 ch) i) as EE. unfold m128 in *. rewrite L8 in EE. rewrite EE.
  f_equal. f_equal. fold (gsel enc i (chunks_exact 16 ch)).
  apply (mul8_step h Hh g Hg).
  - destruct enc; cbn [gsel]; rewrite ?encs_len; exact L8.
  - now apply gsel_ok.
  - exact Hc.
Qed.

Lemma step16_ok enc s cur out ch i : Rep512 s i -> r128 cur -> bytes ch -> zlen ch = 16 * 16 -> 0 <= i -> i + 16 <= 2 ^ 32 - 2 ->
  exists s', Rep512 s' (i + 16) /\ step16 enc key (avx512_new h) (s, cur, out) ch =
       (s', gblocks g cur (gsel enc i (chunks_exact 16 ch)), out ++ concat (encs i (chunks_exact 16 ch))).
Proof.
  intros HR Hc Bch Lch H0 H1. destruct (load512_split ch Lch) as [E0 Ls].
  destruct (next4_ok s i HR H0 ltac:(lia)) as [A1 R1]. destruct (next4 s) as [c0 s1] eqn:NN. cbn [fst snd] in A1, R1.
  destruct (next4_ok s1 _ R1 ltac:(lia) ltac:(lia)) as [A2 R2]. destruct (next4 s1) as [c1 s2] eqn:N1. cbn [fst snd] in A2, R2.
  destruct (next4_ok s2 _ R2 ltac:(lia) ltac:(lia)) as [A3 R3]. destruct (next4 s2) as [c2 s3] eqn:N2. cbn [fst snd] in A3, R3.
  destruct (next4_ok s3 _ R3 ltac:(lia) ltac:(lia)) as [A4 R4]. destruct (next4 s3) as [c3 s4] eqn:N3. cbn [fst snd] in A4, R4.
  exists s4. split. { replace (i + 16) with (i + 4 + 4 + 4 + 4) by lia. exact R4. }
  assert (Bs : forall o, blocks_ok (chunks_exact 16 (ztake 64 (zdrop o ch)))) by (intros o; apply chunks_blocks_ok, bytes_ztake, bytes_zdrop, Bch).
  assert (EE : forall o j c, In o [0; 64; 128; 192] -> c = CBs 4 j ->
    map2 mm_xor (map (aes_rounds (round_keys key)) c) (chunks_exact 16 (ztake 64 (zdrop o ch))) = encs j (chunks_exact 16 (ztake 64 (zdrop o ch)))).
  { intros o j c Ho ->. rewrite <- (Ls o Ho). apply map2_encs. }
  assert (Lz : forall o, In o [0; 64; 128; 192] -> zlen (chunks_exact 16 (ztake 64 (zdrop o ch))) = 4) by (intros o Ho; unfold zlen; rewrite (Ls o Ho); reflexivity).
  unfold step16. rewrite NN, N1, N2, N3. unfold m128 in *.
  rewrite (EE 0 i c0), (EE 64 (i + 4) c1), (EE 128 (i + 4 + 4) c2), (EE 192 (i + 4 + 4 + 4) c3) by (cbn; auto).
  rewrite E0 at 1 2. rewrite gsel_app, encs_app, Lz by (cbn; auto).
  rewrite (gsel_app enc (chunks_exact 16 (ztake 64 (zdrop 64 ch)))), (encs_app (chunks_exact 16 (ztake 64 (zdrop 64 ch)))), Lz by (cbn; auto).
  rewrite (gsel_app enc (chunks_exact 16 (ztake 64 (zdrop 128 ch)))), (encs_app (chunks_exact 16 (ztake 64 (zdrop 128 ch)))), Lz by (cbn; auto).
  rewrite !concat_app. f_equal. f_equal.
  change (if enc then ?a else ?b) with (if enc then a else b).
  fold (gsel enc i (chunks_exact 16 (ztake 64 (zdrop 0 ch)))). fold (gsel enc (i + 4) (chunks_exact 16 (ztake 64 (zdrop 64 ch)))).
  fold (gsel enc (i + 4 + 4) (chunks_exact 16 (ztake 64 (zdrop 128 ch)))). fold (gsel enc (i + 4 + 4 + 4) (chunks_exact 16 (ztake 64 (zdrop 192 ch)))).
  assert (Lg : forall j o, In o [0; 64; 128; 192] -> length (gsel enc j (chunks_exact 16 (ztake 64 (zdrop o ch)))) = 4%nat)
    by (intros j o Ho; destruct enc; cbn [gsel]; rewrite ?encs_len; now apply Ls).
  apply (mul16_step h Hh g Hg); try (apply Lg; cbn; auto); auto.
  assert (Bg : forall j o, blocks_ok (gsel enc j (chunks_exact 16 (ztake 64 (zdrop o ch))))) by (intros; apply gsel_ok, Bs).
  unfold blocks_ok in *. repeat (apply Forall_app; split); apply Bg.
Qed.

(** the code after the wide loop *)
Lemma tail_loop : forall (X : list (list Z)) c out i, Rep c i -> exists c', Rep c' (i + zlen X) /\ fold_left (tail_block key) X (c, out) = (c', out ++ concat (encs i X)).
Proof.
  induction X as [|B r IH]; intros c out i HR.
  - exists c. split. { change (zlen (@nil (list Z))) with 0. now rewrite Z.add_0_r. } cbn [encs concat fold_left]. now rewrite app_nil_r.
  - cbn [fold_left]. unfold tail_block at 2. cbn [counter_next]. rewrite (Rep_block c i HR), HEr, xor_min_comm.
    destruct (IH (add_counter_1 c) (out ++ xor_min B (E (CB i))) (i + 1) (Rep_add c i HR)) as (c' & R' & E').
    exists c'. split. { rewrite zlen_cons, Z.add_assoc. exact R'. }
    rewrite E'. cbn [encs concat]. now rewrite <- app_assoc.
Qed.
Lemma chunks_tail (l : list Z) : chunks 16 l = chunks_exact 16 l ++ (if zlen (zdrop (16 * (zlen l / 16)) l) =? 0 then [] else [zdrop (16 * (zlen l / 16)) l]).
Proof.
  unfold chunks. f_equal. rewrite (Z.mul_comm 16). rewrite zlen_zdrop; [|pose proof (zlen_nonneg l); assert (0 <= zlen l / 16) by (apply Z.div_pos; lia); lia].
  destruct (zlen l =? zlen l / 16 * 16) eqn:A, (zlen l - zlen l / 16 * 16 =? 0) eqn:B; try reflexivity; lia.
Qed.
Lemma cipher_tail_ok b enc c cur l i : Rep c i -> r128 cur -> bytes l ->
  let out := gctr_blocks E (CB i) (chunks 16 l) in
  cipher_tail enc key (tbl h b) c cur l = (gblocks g cur (chunks_exact 16 (pad16 (if enc then out else l))), out) /\ bytes out /\ zlen out = zlen l.
Proof.
  intros HR Hc Bl out.
  assert (Eo : out = concat (encs i (chunks_exact 16 l)) ++
    (if zlen (zdrop (16 * (zlen l / 16)) l) =? 0 then [] else xor_min (zdrop (16 * (zlen l / 16)) l) (E (CB (i + zlen (chunks_exact 16 l)))))).
  { unfold out. rewrite gctr_encs, chunks_tail, encs_app, concat_app. f_equal.
    destruct (_ =? 0); cbn [encs concat]; rewrite ?app_nil_r; reflexivity. }
  set (r := zdrop (16 * (zlen l / 16)) l) in *.
  assert (Br : bytes r) by now apply bytes_zdrop.
  pose proof (zlen_nonneg l). assert (Lr : zlen r = zlen l mod 16) by (apply zdrop_mod; lia).
  assert (BX : blocks_ok (chunks_exact 16 l)) by now apply chunks_blocks_ok.
  assert (LX : zlen (chunks_exact 16 l) = zlen l / 16).
  { assert (0 <= zlen l / 16) by (apply Z.div_pos; lia).
    assert (Lt : zlen (ztake (16 * (zlen l / 16)) l) = 16 * (zlen l / 16)) by (apply ztake_mod; lia).
    rewrite <- (ztake_zdrop (16 * (zlen l / 16)) l) at 1. rewrite (chunks_exact_app 16 (zlen l / 16)) by lia.
    rewrite (chunks_exact_short 16 (zdrop _ _)) by (fold r; lia). rewrite app_nil_r. unfold zlen at 1.
    rewrite (chunk_count (Z.to_nat (zlen l / 16)) 16) by lia. lia. }
  pose proof (encs_ok _ i BX) as BE. pose proof (bytes_concat_blocks _ BE) as BC. pose proof (zlen_concat_blocks _ BE) as LC.
  replace (zlen (encs i (chunks_exact 16 l))) with (zlen l / 16) in LC by (rewrite <- LX; unfold zlen; now rewrite encs_len).
  destruct (HE (CB (i + zlen (chunks_exact 16 l)))) as [EB EL].
  assert (Bo : bytes out).
  { rewrite Eo. apply bytes_app. split; auto. destruct (_ =? 0); [constructor|]. now apply bytes_xor_min. }
  assert (Lo : zlen out = zlen l).
  { rewrite Eo, zlen_app, LC. destruct (zlen r =? 0) eqn:Z0.
    - change (zlen (@nil Z)) with 0. lia.
    - rewrite zlen_xor_min. assert (EL16 : zlen (E (CB (i + zlen (chunks_exact 16 l)))) = 16) by (unfold zlen at 1; lia). lia. }
  split; [|auto].
  unfold cipher_tail. destruct (tail_loop (chunks_exact 16 l) c [] i HR) as (c' & R' & E'). rewrite E'. cbn [app]. fold r.
  assert (Eo' : (if zlen r =? 0 then concat (encs i (chunks_exact 16 l))
    else let '(c1, _) := counter_next c' in concat (encs i (chunks_exact 16 l)) ++ ztake (zlen r) (mm_xor (aes_rounds (round_keys key) c1) (r ++ repeat 0 (Z.to_nat (16 - zlen r))))) = out).
  { rewrite Eo. destruct (zlen r =? 0); [now rewrite app_nil_r|]. cbn [counter_next]. rewrite (Rep_block _ _ R'), HEr, xor_min_comm, xor_min_pad. reflexivity. }
  cbn [counter_next] in Eo' |- *. rewrite Eo'.
  destruct enc; f_equal; apply ghash_add_ok; auto.
Qed.

(** whole _cipher / _cipher_avx512 *)
Definition wide_len (n l : Z) : Z := 16 * n * (l / (16 * n)).
Lemma assemble enc n l cur : 0 < n -> r128 cur -> bytes l ->
  let k := wide_len n (zlen l) in
  let X := chunks_exact 16 (ztake k l) in
  let out1 := concat (encs 0 X) in
  let out2 := gctr_blocks E (CB (n * (zlen l / (16 * n)))) (chunks 16 (zdrop k l)) in
  bytes out2 -> zlen out2 = zlen (zdrop k l) ->
  let out := gctr_blocks E (CB 0) (chunks 16 l) in
  out1 ++ out2 = out /\ gblocks g (gblocks g cur (gsel enc 0 X)) (chunks_exact 16 (pad16 (if enc then out2 else zdrop k l))) =
  gblocks g cur (chunks_exact 16 (pad16 (if enc then out else l))).
Proof.
  intros Hn Hc Bl k X out1 out2 B2 L2 out. pose proof (zlen_nonneg l).
  assert (Hq : 0 <= zlen l / (16 * n)) by (apply Z.div_pos; lia).
  assert (Hk : 0 <= k <= zlen l) by (unfold k, wide_len; split; [nia|apply Z.mul_div_le; lia]).
  assert (Lk : zlen (ztake k l) = k) by (rewrite zlen_ztake; lia).
  assert (Ek : k = n * (zlen l / (16 * n)) * 16) by (unfold k, wide_len; lia).
  assert (BX : blocks_ok X) by (apply chunks_blocks_ok; now apply bytes_ztake).
  assert (LX : zlen X = n * (zlen l / (16 * n))).
  { unfold X, zlen at 1. rewrite (chunk_count (Z.to_nat (n * (zlen l / (16 * n)))) 16); nia. }
  pose proof (encs_ok _ 0 BX) as BE.
  assert (L1 : zlen out1 = k).
  { unfold out1. rewrite zlen_concat_blocks by auto. replace (zlen (encs 0 X)) with (zlen X) by (unfold zlen; now rewrite encs_len). lia. }
  assert (Eo : out1 ++ out2 = out).
  { transitivity (gctr_blocks E (CB 0) (chunks 16 (ztake k l ++ zdrop k l))); [|now rewrite ztake_zdrop].
    unfold out1, out2. rewrite (chunks_split 16 (n * (zlen l / (16 * n)))) by lia.
    rewrite !gctr_encs, encs_app, concat_app. fold X. rewrite LX. reflexivity. }
  split; [exact Eo|]. rewrite <- gblocks_app. f_equal. destruct enc; cbn [gsel].
  - rewrite <- Eo. rewrite (pad16_split k (out1 ++ out2)); [|rewrite zlen_app; pose proof (zlen_nonneg out2); lia|rewrite Ek; apply Z.mod_mul; lia].
    rewrite ztake_app_eq, zdrop_app_eq by lia. f_equal. unfold out1. symmetry. now apply chunks_concat_blocks.
  - rewrite (pad16_split k l); [reflexivity|lia|rewrite Ek; apply Z.mod_mul; lia].
Qed.

Lemma cipher_ok b enc cur aad l : r128 cur -> bytes aad -> bytes l ->
  let out := gctr_blocks E (CB 0) (chunks 16 l) in
  cipher enc key (tbl h b) cur J0 aad l =
    (gblocks g (gblocks g cur (chunks_exact 16 (pad16 aad))) (chunks_exact 16 (pad16 (if enc then out else l))), out).
Proof.
  intros Hc Ba Bl out. unfold cipher. rewrite (ghash_add_ok h Hh g Hg) by auto.
  assert (Bpad : blocks_ok (chunks_exact 16 (pad16 aad))) by (apply chunks_blocks_ok, bytes_pad16, Ba).
  set (cur1 := gblocks g cur _). assert (Hc1 : r128 cur1) by now apply (gblocks_r128 h Hh g Hg).
  pose proof (zlen_nonneg l) as Hl. assert (Hq : 0 <= zlen l / 128) by (apply Z.div_pos; lia).
  assert (Lq : zlen (chunks_exact 128 l) = zlen l / 128) by (apply zlen_chunks_exact; lia).
  destruct (wide_loop Rep enc 8 (8 * (zlen l / 128)) (step8 enc key (table_avx (tbl h b))) ltac:(lia)
    (fun s cur out ch i HR Hr Bc Lc _ _ => step8_ok enc (tbl h b) s cur out ch i (table_avx_tbl h b) HR Hr Bc Lc)
    (chunks_exact 128 l) (counter_new J0) cur1 [] 0 counter_new_ok Hc1 (chunks_Forall 128 l ltac:(lia) Bl) ltac:(lia) ltac:(lia)) as (s' & R' & E').
  rewrite E', Lq, Z.add_0_l in *. cbn [app].
  rewrite (chunks_group 8) in * by lia. change (16 * 8) with 128 in *.
  set (k := 128 * (zlen l / 128)) in *. set (X := chunks_exact 16 (ztake k l)) in *.
  assert (BX : blocks_ok X) by (apply chunks_blocks_ok; now apply bytes_ztake).
  destruct (cipher_tail_ok b enc s' (gblocks g cur1 (gsel enc 0 X)) (zdrop k l) (8 * (zlen l / 128)) R'
    (gblocks_r128 h Hh g Hg _ _ Hc1 (gsel_ok enc 0 X BX)) (bytes_zdrop _ _ Bl)) as (E2 & B2 & L2).
  rewrite E2.
  destruct (assemble enc 8 l cur1 ltac:(lia) Hc1 Bl) as [A1 A2]; [exact B2|exact L2|].
  f_equal; [exact A2|exact A1].
Qed.
Lemma cipher_avx512_ok enc cur aad l : r128 cur -> bytes aad -> bytes l -> zlen l <= gcm_max_bytes ->
  let out := gctr_blocks E (CB 0) (chunks 16 l) in
  cipher_avx512 enc key (avx512_new h) cur J0 aad l =
    (gblocks g (gblocks g cur (chunks_exact 16 (pad16 aad))) (chunks_exact 16 (pad16 (if enc then out else l))), out).
Proof.
  intros Hc Ba Bl HM out. unfold cipher_avx512. change (Avx512 (avx512_new h)) with (tbl h true).
  rewrite (ghash_add_ok h Hh g Hg) by auto.
  assert (Bpad : blocks_ok (chunks_exact 16 (pad16 aad))) by (apply chunks_blocks_ok, bytes_pad16, Ba).
  set (cur1 := gblocks g cur _). assert (Hc1 : r128 cur1) by now apply (gblocks_r128 h Hh g Hg).
  pose proof (zlen_nonneg l) as Hl. assert (Hq : 0 <= zlen l / 256) by (apply Z.div_pos; lia).
  unfold gcm_max_bytes in HM. assert (Hq2 : zlen l / 256 <= 2 ^ 28 - 1) by (apply Z.lt_succ_r; apply Z.div_lt_upper_bound; lia).
  assert (Lq : zlen (chunks_exact 256 l) = zlen l / 256) by (apply zlen_chunks_exact; lia).
  destruct (wide_loop Rep512 enc 16 (2 ^ 32 - 2) (step16 enc key (avx512_new h)) ltac:(lia)
    (fun s cur out ch i HR Hr Bc Lc H0 H1 => step16_ok enc s cur out ch i HR Hr Bc Lc H0 H1)
    (chunks_exact 256 l) (counter512_new J0) cur1 [] 0 counter512_new_ok Hc1 (chunks_Forall 256 l ltac:(lia) Bl) ltac:(lia) ltac:(lia)) as (s' & R' & E').
  rewrite E', Lq, Z.add_0_l in *. cbn [app].
  rewrite (chunks_group 16) in * by lia. change (16 * 16) with 256 in *.
  set (k := 256 * (zlen l / 256)) in *. set (X := chunks_exact 16 (ztake k l)) in *.
  assert (BX : blocks_ok X) by (apply chunks_blocks_ok; now apply bytes_ztake).
  destruct (cipher_tail_ok true enc (into_128 s') (gblocks g cur1 (gsel enc 0 X)) (zdrop k l) (16 * (zlen l / 256)) (into_128_ok _ _ R' ltac:(lia) ltac:(lia))
    (gblocks_r128 h Hh g Hg _ _ Hc1 (gsel_ok enc 0 X BX)) (bytes_zdrop _ _ Bl)) as (E2 & B2 & L2).
  rewrite E2.
  destruct (assemble enc 16 l cur1 ltac:(lia) Hc1 Bl) as [A1 A2]; [exact B2|exact L2|].
  f_equal; [exact A2|exact A1].
Qed.
Lemma low_cipher_ok b enc cur aad l : r128 cur -> bytes aad -> bytes l -> (b = false \/ zlen l <= gcm_max_bytes) ->
  let out := gctr_blocks E (CB 0) (chunks 16 l) in
  low_cipher enc key (tbl h b) cur J0 aad l =
    (gblocks g (gblocks g cur (chunks_exact 16 (pad16 aad))) (chunks_exact 16 (pad16 (if enc then out else l))), out).
Proof.
  intros Hc Ba Bl HM out. destruct b.
  - destruct HM as [|HM]; [discriminate|]. cbn [low_cipher tbl ghash_table_new].
    destruct (256 <=? zlen l); [now apply cipher_avx512_ok|]. change (Avx512 (avx512_new h)) with (tbl h true). now apply cipher_ok.
  - cbn [low_cipher tbl ghash_table_new]. change (Avx (avx_new h)) with (tbl h false). now apply cipher_ok.
Qed.
End G.

(** Ghash, tag and counter mode together *)
Lemma pad16_len l : zlen (pad16 l) mod 16 = 0.
Proof. unfold pad16. pose proof (zlen_nonneg l). rewrite zlen_app, zlen_repeat; lia. Qed.
Lemma chunks16_pad_app a b : chunks_exact 16 (pad16 a ++ b) = chunks_exact 16 (pad16 a) ++ chunks_exact 16 b.
Proof.
  pose proof (pad16_len a) as H. pose proof (zlen_nonneg (pad16 a)). apply (chunks_exact_app 16 (zlen (pad16 a) / 16)); try lia. 
Qed.
Lemma pad16_id l : zlen l mod 16 = 0 -> pad16 l = l.
Proof. intros H. unfold pad16. replace ((- zlen l) mod 16) with 0 by lia. apply app_nil_r. Qed.

Lemma GCTR_len E cb l : (forall b, b16 (E b)) -> zlen (GCTR E cb l) = zlen l.
Proof.
  intros HE. unfold GCTR. remember (length l) as n eqn:En. revert l cb En. induction n as [n IH] using lt_wf_ind. intros l cb ->.
  assert (L16 : forall b, zlen (E b) = 16) by (intros b; destruct (HE b); unfold zlen; lia).
  pose proof (zlen_nonneg l). destruct (Z.lt_ge_cases (zlen l) 16).
  - destruct (Z.eq_dec (zlen l) 0) as [Z0|]. { apply zlen_0_nil in Z0. subst. rewrite chunks_nil by lia. reflexivity. }
    rewrite chunks_short by lia. cbn [gctr_blocks]. rewrite app_nil_r, zlen_xor_min, L16. lia.
  - rewrite chunks_cons by lia. cbn [gctr_blocks]. rewrite zlen_app, zlen_xor_min, L16.
    rewrite (IH (length (zdrop 16 l))); auto; [|pose proof (zlen_zdrop 16 l); unfold zlen in *; lia].
    rewrite zlen_zdrop, zlen_ztake by lia. lia.
Qed.
Lemma GCTR_bytes E cb l : (forall b, b16 (E b)) -> bytes l -> bytes (GCTR E cb l).
Proof.
  intros HE. unfold GCTR. remember (length l) as n eqn:En. revert l cb En. induction n as [n IH] using lt_wf_ind. intros l cb -> Bl.
  pose proof (zlen_nonneg l). destruct (Z.lt_ge_cases (zlen l) 16).
  - destruct (Z.eq_dec (zlen l) 0) as [Z0|]. { apply zlen_0_nil in Z0. subst. rewrite chunks_nil by lia. constructor. }
    rewrite chunks_short by lia. cbn [gctr_blocks]. rewrite app_nil_r. apply bytes_xor_min; auto. apply HE.
  - rewrite chunks_cons by lia. cbn [gctr_blocks]. apply bytes_app. split.
    + apply bytes_xor_min; [now apply bytes_ztake|apply HE].
    + apply (IH (length (zdrop 16 l))); auto using bytes_zdrop. pose proof (zlen_zdrop 16 l); unfold zlen in *; lia.
Qed.
Lemma GCTR_twice E cb l : (forall b, b16 (E b)) -> GCTR E cb (GCTR E cb l) = l.
Proof.
  intros HE. unfold GCTR. remember (length l) as n eqn:En. revert l cb En. induction n as [n IH] using lt_wf_ind. intros l cb ->.
  assert (L16 : forall b, zlen (E b) = 16) by (intros b; destruct (HE b); unfold zlen; lia).
  pose proof (zlen_nonneg l). destruct (Z.lt_ge_cases (zlen l) 16).
  - destruct (Z.eq_dec (zlen l) 0) as [Z0|]. { apply zlen_0_nil in Z0. subst. rewrite !chunks_nil by lia. reflexivity. }
    rewrite (chunks_short 16 l) by lia. cbn [gctr_blocks]. rewrite app_nil_r.
    rewrite chunks_short by (rewrite zlen_xor_min, L16; lia). cbn [gctr_blocks]. rewrite app_nil_r. apply xor_min_twice. rewrite L16. lia.
  - rewrite (chunks_cons 16 l) by lia. cbn [gctr_blocks].
    rewrite chunks_app by (try lia; rewrite zlen_xor_min, L16, zlen_ztake; lia). cbn [gctr_blocks].
    rewrite (IH (length (zdrop 16 l))); auto; [|pose proof (zlen_zdrop 16 l); unfold zlen in *; lia].
    rewrite xor_min_twice by (rewrite L16, zlen_ztake; lia). apply ztake_zdrop.
Qed.
Lemma gctr_ext E E' : (forall b, zlen b = 16 -> E b = E' b) -> forall X cb, zlen cb = 16 -> gctr_blocks E cb X = gctr_blocks E' cb X.
Proof.
  intros HE. induction X as [|B r IH]; intros cb Hcb; cbn [gctr_blocks]; auto. rewrite HE by auto. f_equal. apply IH.
  unfold inc32. rewrite zlen_app, zlen_be_bytes, zlen_ztake; lia.
Qed.
Lemma tag_facts E iv C A : (forall b, b16 (E b)) -> zlen (gcm_tag E iv C A) = 16 /\ bytes (gcm_tag E iv C A).
Proof.
  intros HE. unfold gcm_tag. cbv zeta. split. { rewrite GCTR_len by auto. rewrite zlen_be_bytes. reflexivity. }
  apply GCTR_bytes; auto. apply be_bytes_bytes.
Qed.

Lemma gcm_run_ok w E b iv aad l enc :
  (forall x, aes_rounds (round_keys w) x = E x) -> (forall x, b16 (E x)) -> bytes iv -> zlen iv = 12 -> bytes aad -> bytes l ->
  (b = false \/ zlen l <= gcm_max_bytes) -> zlen aad < 2 ^ 61 -> zlen l < 2 ^ 61 ->
  let out := GCTR E (inc32 (iv ++ [0; 0; 0; 1])) l in
  gcm_run enc (mkGcm w (ghash_table_new b (be_val (E (repeat 0 16))))) iv aad l = (out, gcm_tag E iv (if enc then out else l) aad).
Proof.
  intros HEr HE Bi Li Ba Bl HM La Ll out. set (h := be_val (E (repeat 0 16))).
  assert (Hh : r128 h).
  { destruct (HE (repeat 0 16)) as [B0 L0]. apply load_be_r128; auto. unfold zlen. now rewrite L0. }
  pose (g := fun a => gcm_mul a h). assert (Hg : forall a, g a = gcm_mul a h) by reflexivity. clearbody g.
  unfold gcm_run. cbn [gcm_key gcm_gh]. rewrite y0_list by (unfold zlen in Li; lia). fold (J0 iv).
  change (ghash_table_new b h) with (tbl h b).
  assert (R0 : r128 ghash_new) by (split; reflexivity || discriminate).
  rewrite (low_cipher_ok h Hh g Hg w E HEr HE iv Bi Li) by assumption.
  rewrite <- (inc32_J0 iv Li). fold (GCTR E (inc32 (J0 iv)) l). change (GCTR E (inc32 (J0 iv)) l) with out.
  assert (Lo : zlen out = zlen l) by now apply GCTR_len. assert (Bo : bytes out) by now apply GCTR_bytes.
  set (C := if enc then out else l). assert (LC : zlen C = zlen l) by (destruct enc; auto). assert (BC : bytes C) by (destruct enc; auto).
  f_equal. unfold gcm_tag. cbv zeta. fold h. pose proof (zlen_nonneg l). pose proof (zlen_nonneg aad).
  assert (EL : lengths_block aad out = be_bytes 8 (8 * zlen aad) ++ be_bytes 8 (8 * zlen C)).
  { unfold lengths_block. rewrite Lo, LC. rewrite !Z.mod_small by lia. now rewrite !(Z.mul_comm 8). }
  set (lb := be_bytes 8 (8 * zlen aad) ++ be_bytes 8 (8 * zlen C)) in *. rewrite EL.
  assert (Blb : bytes lb) by (apply bytes_app; split; apply be_bytes_bytes).
  assert (Llb : zlen lb = 16) by (unfold lb; rewrite zlen_app, !zlen_be_bytes; reflexivity).
  assert (BP : forall x, bytes x -> blocks_ok (chunks_exact 16 (pad16 x))) by (intros; apply chunks_blocks_ok; now apply bytes_pad16).
  rewrite (ghash_add_ok h Hh g Hg); auto.
  2:{ apply (gblocks_r128 h Hh g Hg); auto. apply (gblocks_r128 h Hh g Hg); auto. }
  rewrite (pad16_id lb) by (rewrite Llb; reflexivity).
  rewrite <- !gblocks_app, <- !chunks16_pad_app. change ghash_new with 0.
  rewrite <- (GHASH_gblocks h g Hg).
  unfold ghash_into_bytes. fold (be_bytes 16 (GHASH h (pad16 aad ++ pad16 C ++ lb))).
  unfold GCTR. set (S := be_bytes 16 _). assert (LS : zlen S = 16) by (unfold S; rewrite zlen_be_bytes; reflexivity).
  rewrite chunks_cons by lia. rewrite ztake_all, zdrop_all, chunks_nil by lia. cbn [gctr_blocks]. rewrite app_nil_r.
  unfold encrypt_block. rewrite HEr. reflexivity.
Qed.
