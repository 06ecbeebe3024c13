(** Property C48: byte/word conversions. *)
Require Import Verif.Base Verif.L_Base Verif.L_Blocks Verif.M_Util Verif.L_Util.
Require Import ZifyNat.

(** ** little endian *)
Theorem C48_le_value : forall q b, 0 <= q -> zlen b = 8 * q -> bytes b ->
  limbs_val (le_to_u64s b) = le_val b /\ Forall u64 (le_to_u64s b) /\ zlen (le_to_u64s b) = q.
Proof.
  intros q b Hq Hl Hb. revert Hb.
  assert (G : bytes b -> limbs_val (le_to_u64s b) = le_val b /\ Forall u64 (le_to_u64s b) /\ 8 * zlen (le_to_u64s b) = zlen b).
  { pattern b. apply (chunk8_ind _) with (q := q); auto.
    - intros _. cbn. repeat split; constructor.
    - intros c r k Hk Hc Hr IH Hb. apply bytes_app in Hb. destruct Hb as [Bc Br]. destruct (IH Br) as (I1 & I2 & I3).
      unfold le_to_u64s in *. rewrite chunks8_app by auto. cbn [map limbs_val].
      rewrite le_val_app, Hc, I1. rewrite zlen_cons, zlen_app. repeat split; try lia.
      constructor; auto. pose proof (le_val_bound c Bc) as B. rewrite Hc, pow256 in B by lia. exact B. }
  intros Hb. destruct (G Hb) as (? & ? & ?). repeat split; auto. lia.
Qed.
Print Assumptions C48_le_value.

Theorem C48_le_round_trip_bytes : forall q b, 0 <= q -> zlen b = 8 * q -> bytes b -> u64s_to_le (le_to_u64s b) = b.
Proof.
  intros q b Hq Hl. pattern b. apply (chunk8_ind _) with (q := q); auto.
  intros c r k Hk Hc Hr IH Hb. apply bytes_app in Hb. destruct Hb as [Bc Br].
  unfold le_to_u64s, u64s_to_le in *. rewrite chunks8_app by auto. cbn [map flat_map]. rewrite IH by auto. f_equal.
  replace 8%nat with (length c) by (unfold zlen in Hc; lia). apply le_bytes_le_val, Bc.
Qed.
Print Assumptions C48_le_round_trip_bytes.

Theorem C48_le_round_trip_words : forall v, Forall u64 v -> le_to_u64s (u64s_to_le v) = v.
Proof.
  induction 1 as [|x v Hx Hv IH]; [reflexivity|].
  unfold le_to_u64s, u64s_to_le in *. cbn [flat_map]. rewrite chunks8_app by (rewrite zlen_le_bytes; reflexivity).
  cbn [map]. rewrite IH. f_equal. rewrite le_val_le_bytes, pow256 by lia. apply Z.mod_small, Hx.
Qed.
Print Assumptions C48_le_round_trip_words.

(** ** big endian *)
Lemma rev_chunks_last (b c : list Z) : zlen c = 8 -> forall q, 0 <= q -> zlen b = 8 * q ->
  rev (chunks_exact 8 (b ++ c)) = c :: rev (chunks_exact 8 b).
Proof.
  intros Hc q Hq Hb. rewrite (chunks_exact_app 8 q) by lia.
  rewrite (chunks_exact_cons 8 c) by lia. rewrite ztake_all, zdrop_all by lia.
  rewrite rev_app_distr. reflexivity.
Qed.

Lemma be_split q (b : list Z) : 0 < q -> zlen b = 8 * q -> exists a c, b = a ++ c /\ zlen a = 8 * (q - 1) /\ zlen c = 8.
Proof.
  intros. exists (ztake (8 * (q - 1)) b), (zdrop (8 * (q - 1)) b). rewrite ztake_zdrop, zlen_ztake, zlen_zdrop by lia.
  repeat split; lia.
Qed.

Lemma be_ind (P : list Z -> Prop) :
  P [] -> (forall a c q, 0 <= q -> zlen c = 8 -> zlen a = 8 * q -> P a -> P (a ++ c)) ->
  forall q b, 0 <= q -> zlen b = 8 * q -> P b.
Proof.
  intros H0 HS q b Hq. revert b. pattern q. apply natlike_ind; [| |exact Hq]; clear q Hq.
  - intros b Hb. rewrite (zlen_0_nil b) by lia. exact H0.
  - intros q Hq IH b Hb. destruct (be_split (Z.succ q) b) as (a & c & -> & Ha & Hc); try lia.
    apply (HS _ _ q); auto; try lia. apply IH; lia.
Qed.

Theorem C48_be_value : forall q b, 0 <= q -> zlen b = 8 * q -> bytes b ->
  limbs_val (be_to_u64s b) = be_val b /\ Forall u64 (be_to_u64s b) /\ zlen (be_to_u64s b) = q.
Proof.
  intros q b Hq Hl Hb. revert Hb.
  assert (G : bytes b -> limbs_val (be_to_u64s b) = be_val b /\ Forall u64 (be_to_u64s b) /\ 8 * zlen (be_to_u64s b) = zlen b).
  { pattern b. apply (be_ind _) with (q := q); auto.
    - intros _. cbn. repeat split; constructor.
    - intros a c k Hk Hc Ha IH Hb. apply bytes_app in Hb. destruct Hb as [Ba Bc]. destruct (IH Ba) as (I1 & I2 & I3).
      unfold be_to_u64s in *. rewrite (rev_chunks_last _ _ Hc k) by auto. cbn [map limbs_val].
      rewrite be_val_app, Hc, I1, pow256 by lia. rewrite zlen_cons, zlen_app. repeat split; try lia.
      constructor; auto. pose proof (be_val_bound c Bc) as B. rewrite Hc, pow256 in B by lia. exact B. }
  intros Hb. destruct (G Hb) as (? & ? & ?). repeat split; auto. lia.
Qed.
Print Assumptions C48_be_value.

Theorem C48_be_round_trip_bytes : forall q b, 0 <= q -> zlen b = 8 * q -> bytes b -> u64s_to_be (be_to_u64s b) = b.
Proof.
  intros q b Hq Hl. pattern b. apply (be_ind _) with (q := q); auto.
  intros a c k Hk Hc Ha IH Hb. apply bytes_app in Hb. destruct Hb as [Ba Bc].
  unfold be_to_u64s, u64s_to_be in *. rewrite (rev_chunks_last _ _ Hc k) by auto. cbn [map rev].
  rewrite concat_app, IH by auto. cbn [concat]. rewrite app_nil_r. f_equal.
  replace 8%nat with (length c) by (unfold zlen in Hc; lia). apply be_bytes_be_val, Bc.
Qed.
Print Assumptions C48_be_round_trip_bytes.

Theorem C48_be_round_trip_words : forall v, Forall u64 v ->
  be_to_u64s (u64s_to_be v) = v /\ zlen (u64s_to_be v) = 8 * zlen v.
Proof.
  induction 1 as [|x v Hx Hv [IH IL]]; [split; reflexivity|].
  unfold be_to_u64s, u64s_to_be in *. cbn [map rev]. rewrite concat_app. cbn [concat]. rewrite app_nil_r.
  assert (L8 : zlen (be_bytes 8 x) = 8) by (rewrite zlen_be_bytes; reflexivity).
  rewrite (rev_chunks_last _ _ L8 (zlen v)) by (auto using zlen_nonneg).
  cbn [map]. rewrite IH. rewrite zlen_app, zlen_cons, IL, L8. split; [|lia].
  f_equal. rewrite be_val_be_bytes, pow256 by lia. apply Z.mod_small, Hx.
Qed.
Print Assumptions C48_be_round_trip_words.

Theorem C48_be_to_bytes_value : forall v, Forall u64 v -> be_val (u64s_to_be v) = limbs_val v.
Proof.
  intros v Hv. destruct (C48_be_round_trip_words v Hv) as [E L].
  assert (B : bytes (u64s_to_be v)).
  { clear. unfold u64s_to_be. induction v; cbn [map rev]; [constructor|]. rewrite concat_app. apply bytes_app.
    split; auto. cbn [concat]. rewrite app_nil_r. apply be_bytes_bytes. }
  destruct (C48_be_value (zlen v) (u64s_to_be v) (zlen_nonneg _) L B) as (V & _ & _). rewrite <- V, E. reflexivity.
Qed.
Print Assumptions C48_be_to_bytes_value.

(** ** exact-length slice variants *)
Theorem C48_slice_exact : forall N b, 0 <= N ->
  (zlen b = 8 * N -> be_slice_to_u64s N b = Some (be_to_u64s b) /\ le_slice_to_u64s N b = Some (le_to_u64s b)) /\
  (zlen b <> 8 * N -> be_slice_to_u64s N b = None /\ le_slice_to_u64s N b = None).
Proof.
  intros N b HN. unfold be_slice_to_u64s, le_slice_to_u64s.
  split; intros H; destruct (zlen b =? N * 8) eqn:E; auto; lia.
Qed.
Print Assumptions C48_slice_exact.

(** ** the any-size variant: accepts exactly the byte strings whose value fits, and preserves it *)
Lemma remove_leading_zeroes_spec N : 0 < N -> forall b, bytes b -> 8 * N < zlen b ->
  match remove_leading_zeroes N b with
  | Some w => limbs_val w = be_val b /\ Forall u64 w /\ zlen w = N
  | None => 2 ^ (64 * N) <= be_val b
  end.
Proof.
  intros HN. induction b as [|f r IH]; intros Hb Hl. { change (zlen (@nil Z)) with 0 in Hl. lia. }
  apply bytes_cons in Hb. destruct Hb as [Bf Br]. rewrite zlen_cons in Hl. cbn [remove_leading_zeroes].
  rewrite be_val_cons. destruct (f =? 0) eqn:E.
  - replace f with 0 by lia. rewrite Z.mul_0_l, Z.add_0_l.
    destruct (zlen r =? N * 8) eqn:E2.
    + apply C48_be_value; auto; lia.
    + apply IH; auto; lia.
  - pose proof (be_val_bound r Br) as [B0 _]. unfold byte_ok in Bf.
    assert (2 ^ (64 * N) <= 256 ^ zlen r).
    { rewrite pow256 by lia. apply Z.pow_le_mono_r; lia. }
    nia.
Qed.

Theorem C48_any_size : forall N b, 0 < N -> bytes b ->
  match be_slice_any_size_to_u64s N b with
  | Some w => limbs_val w = be_val b /\ Forall u64 w /\ zlen w = N
  | None => 2 ^ (64 * N) <= be_val b
  end.
Proof.
  intros N b HN Hb. unfold be_slice_any_size_to_u64s.
  destruct (zlen b =? N * 8) eqn:E1. { apply C48_be_value; auto; lia. }
  destruct (zlen b <? N * 8) eqn:E2.
  - rewrite <- (be_val_zeros_app (Z.to_nat (N * 8 - zlen b)) b).
    apply C48_be_value; [lia| |].
    + zl. lia. + apply bytes_app. split; auto. apply bytes_repeat. unfold byte_ok; lia.
  - apply remove_leading_zeroes_spec; auto; lia.
Qed.
Print Assumptions C48_any_size.

(** hence: acceptance is exactly "the value fits in N words" *)
Corollary C48_any_size_accepts : forall N b, 0 < N -> bytes b ->
  ((exists w, be_slice_any_size_to_u64s N b = Some w) <-> be_val b < 2 ^ (64 * N)).
Proof.
  intros N b HN Hb. pose proof (C48_any_size N b HN Hb) as H. destruct (be_slice_any_size_to_u64s N b) as [w|].
  - destruct H as (V & U & L). split; intros; [|eauto]. rewrite <- V. pose proof (limbs_val_bound w U) as B. rewrite L in B. lia.
  - split; [intros [w E]; discriminate|lia].
Qed.
Print Assumptions C48_any_size_accepts.

Example any_size_long : be_slice_any_size_to_u64s 4 (0 :: 0 :: repeat 0xff 32) = Some (repeat (2 ^ 64 - 1) 4).
Proof. reflexivity. Qed.
Example any_size_short : be_slice_any_size_to_u64s 6 [1; 0; 0; 0; 0; 0; 0; 0; 2] = Some [2; 1; 0; 0; 0; 0].
Proof. reflexivity. Qed.
Example any_size_too_big : be_slice_any_size_to_u64s 4 (1 :: repeat 0 32) = None.
Proof. reflexivity. Qed.
Example le_words : le_to_u64s ([1; 2] ++ repeat 0 6 ++ repeat 255 8) = [513; 2 ^ 64 - 1].
Proof. reflexivity. Qed.
