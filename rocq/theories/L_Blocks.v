(** Lemmas about chunks, splices and Blockwise. *)
Require Import Verif.Base Verif.L_Base Verif.M_Blockwise.
Require Import ZifyNat.

Lemma zlen_S {A} (l : list A) : Z.to_nat (zlen l) = length l.
Proof. unfold zlen. lia. Qed.

Lemma ztake_app_le {A} n (a b : list A) : n <= zlen a -> ztake n (a ++ b) = ztake n a.
Proof.
  intros. unfold ztake. rewrite firstn_app.
  replace (Z.to_nat n - length a)%nat with 0%nat by (unfold zlen in *; lia).
  rewrite firstn_O, app_nil_r. reflexivity.
Qed.
Lemma zdrop_app_le {A} n (a b : list A) : n <= zlen a -> zdrop n (a ++ b) = zdrop n a ++ b.
Proof.
  intros. unfold zdrop. rewrite skipn_app.
  replace (Z.to_nat n - length a)%nat with 0%nat by (unfold zlen in *; lia).
  reflexivity.
Qed.
Lemma ztake_app_ge {A} n (a b : list A) : zlen a <= n -> ztake n (a ++ b) = a ++ ztake (n - zlen a) b.
Proof.
  intros. unfold ztake. rewrite firstn_app.
  rewrite firstn_all2 by (unfold zlen in *; lia).
  f_equal. f_equal. unfold zlen in *; lia.
Qed.
Lemma zdrop_app_ge {A} n (a b : list A) : zlen a <= n -> zdrop n (a ++ b) = zdrop (n - zlen a) b.
Proof.
  intros. unfold zdrop. rewrite skipn_app.
  rewrite skipn_all2 by (unfold zlen in *; lia).
  cbn. f_equal. unfold zlen in *; lia.
Qed.
Lemma zdrop_zdrop {A} a b (l : list A) : 0 <= a -> 0 <= b -> zdrop a (zdrop b l) = zdrop (a + b) l.
Proof.
  intros. unfold zdrop.
  replace (Z.to_nat (a + b)) with (Z.to_nat a + Z.to_nat b)%nat by lia.
  generalize (Z.to_nat a), (Z.to_nat b). clear. intros a b. revert l.
  induction b; intros; cbn.
  - rewrite Nat.add_0_r. reflexivity.
  - destruct l. + rewrite !skipn_nil. reflexivity.
    + rewrite Nat.add_succ_r. cbn. apply IHb.
Qed.
Lemma ztake_ztake {A} a b (l : list A) : a <= b -> ztake a (ztake b l) = ztake a l.
Proof. intros. unfold ztake. rewrite firstn_firstn. f_equal. lia. Qed.
Lemma ztake_zdrop_split {A} a b (l : list A) : 0 <= a -> 0 <= b ->
  ztake (a + b) l = ztake a l ++ ztake b (zdrop a l).
Proof.
  intros. rewrite <- (ztake_zdrop a l) at 1.
  destruct (Z_le_gt_dec a (zlen l)).
  - rewrite ztake_app_ge; rewrite zlen_ztake by lia; [|lia]. do 2 f_equal. lia.
  - rewrite (zdrop_all a l) by lia. rewrite app_nil_r, (ztake_all a l) by lia.
    rewrite ztake_all by lia. unfold ztake at 1. rewrite firstn_nil, app_nil_r. reflexivity.
Qed.

(** chunks_exact *)
Lemma chunks_fuel_enough {A} f1 n (l : list A) : 0 < n -> (length l <= f1)%nat ->
  chunks_fuel f1 n l = chunks_exact n l.
Proof.
  intros Hn. unfold chunks_exact.
  assert (G : forall f2 f1 l, (length l <= f1)%nat -> (length l <= f2)%nat ->
    chunks_fuel (A:=A) f1 n l = chunks_fuel f2 n l).
  { clear f1 l. induction f2; intros f1 l H1 H2.
    - destruct l; [|cbn in H2; lia]. destruct f1; cbn; [reflexivity|].
      unfold zlen; cbn. destruct (0 <? n) eqn:E; [reflexivity|lia].
    - destruct f1.
      + destruct l; [|cbn in H1; lia]. cbn. unfold zlen; cbn. destruct (0 <? n) eqn:E; [reflexivity|lia].
      + cbn. destruct (zlen l <? n) eqn:E; [reflexivity|]. f_equal.
        assert (length (zdrop n l) < length l)%nat.
        { pose proof (zlen_zdrop n l). unfold zlen in *. lia. }
        apply IHf2; lia. }
  intros. apply G; lia.
Qed.

Lemma chunks_exact_short {A} n (l : list A) : 0 < n -> zlen l < n -> chunks_exact n l = [].
Proof.
  intros. unfold chunks_exact. destruct (length l) eqn:E; cbn; [reflexivity|].
  destruct (zlen l <? n) eqn:E2; [reflexivity|lia].
Qed.
Lemma chunks_exact_cons {A} n (l : list A) : 0 < n -> n <= zlen l ->
  chunks_exact n l = ztake n l :: chunks_exact n (zdrop n l).
Proof.
  intros. pose proof (zlen_zdrop n l). unfold chunks_exact at 1. destruct (length l) eqn:E.
  - unfold zlen in *. lia.
  - cbn. destruct (zlen l <? n) eqn:E2; [lia|]. f_equal.
    apply chunks_fuel_enough; unfold zlen in *; lia.
Qed.
Lemma chunks_exact_app {A} n q (a b : list A) : 0 < n -> 0 <= q -> zlen a = q * n ->
  chunks_exact n (a ++ b) = chunks_exact n a ++ chunks_exact n b.
Proof.
  intros Hn Hq. revert a. pattern q. apply natlike_ind; [| |exact Hq]; clear q Hq.
  - intros a H. rewrite (zlen_0_nil a) by lia. rewrite (chunks_exact_short n []); [reflexivity|lia|].
    change (zlen (@nil A)) with 0. lia.
  - intros q Hq IH a H. assert (n <= zlen a) by nia.
    rewrite (chunks_exact_cons n (a ++ b)); [|lia|zl; pose proof (zlen_nonneg b); lia].
    rewrite (chunks_exact_cons n a) by lia.
    rewrite ztake_app_le, zdrop_app_le by lia. rewrite IH; [reflexivity|].
    rewrite zlen_zdrop by lia. lia.
Qed.
Lemma chunks_exact_concat {A} n q (l : list A) : 0 < n -> 0 <= q -> zlen l = q * n ->
  concat (chunks_exact n l) = l.
Proof.
  intros Hn Hq. revert l. pattern q. apply natlike_ind; [| |exact Hq]; clear q Hq.
  - intros a H. rewrite (zlen_0_nil a) by lia. rewrite chunks_exact_short; [reflexivity|lia|].
    change (zlen (@nil A)) with 0. lia.
  - intros q Hq IH a H. rewrite chunks_exact_cons by nia. cbn. rewrite IH, ztake_zdrop; [reflexivity|].
    rewrite zlen_zdrop; nia.
Qed.
Lemma chunks_exact_len {A} n (l : list A) : 0 < n -> Forall (fun c => zlen c = n) (chunks_exact n l).
Proof.
  intros Hn. remember (length l) as k. revert l Heqk.
  induction k as [k IH] using lt_wf_ind. intros l ->.
  destruct (Z_lt_ge_dec (zlen l) n).
  - rewrite chunks_exact_short by lia. constructor.
  - rewrite chunks_exact_cons by lia. constructor. + apply zlen_ztake. lia.
    + eapply IH; [|reflexivity]. pose proof (zlen_zdrop n l). unfold zlen in *. lia.
Qed.
Lemma chunks_exact_bytes n l : 0 < n -> bytes l -> Forall bytes (chunks_exact n l).
Proof.
  intros Hn. remember (length l) as k. revert l Heqk.
  induction k as [k IH] using lt_wf_ind. intros l -> Hl.
  destruct (Z_lt_ge_dec (zlen l) n).
  - rewrite chunks_exact_short by lia. constructor.
  - rewrite chunks_exact_cons by lia. constructor. + apply bytes_ztake, Hl.
    + eapply IH; [|reflexivity|apply bytes_zdrop, Hl]. pose proof (zlen_zdrop n l). unfold zlen in *. lia.
Qed.

(** splice *)
Lemma zlen_splice buf off src : 0 <= off -> off + zlen src <= zlen buf -> zlen (splice buf off src) = zlen buf.
Proof.
  intros. unfold splice. pose proof (zlen_nonneg src).
  zl. rewrite zlen_ztake, zlen_zdrop by lia. lia.
Qed.
Lemma ztake_splice buf off src : 0 <= off -> off + zlen src <= zlen buf ->
  ztake (off + zlen src) (splice buf off src) = ztake off buf ++ src.
Proof.
  intros. unfold splice. pose proof (zlen_nonneg src).
  rewrite app_assoc. apply ztake_app_eq. zl. rewrite zlen_ztake; lia.
Qed.

Lemma bytes_splice buf off src : bytes buf -> bytes src -> bytes (splice buf off src).
Proof.
  intros. unfold splice. rewrite !bytes_app. repeat split; auto using bytes_ztake, bytes_zdrop.
Qed.

(** upd *)
Lemma upd_length {A} (l : list A) i v : length (upd l i v) = length l.
Proof. revert i; induction l; intros [|i]; cbn; auto. Qed.
Lemma upd_nth_same {A} (l : list A) i v d : (i < length l)%nat -> nth i (upd l i v) d = v.
Proof. revert i; induction l; intros [|i]; cbn; intros; try lia; auto. apply IHl; lia. Qed.
Lemma upd_nth_other {A} (l : list A) i j v d : i <> j -> nth j (upd l i v) d = nth j l d.
Proof. revert i j; induction l; intros [|i] [|j]; cbn; intros; try congruence; auto. Qed.

(** the 0x80 / zeros / length padding *)
Lemma md_pad_spec N b lb :
  0 < N -> zlen (bw_buffer b) = N -> 0 <= bw_used b < N -> 0 < zlen lb < N ->
  exists b',
    bw_md_pad_with_length N b lb =
      Ok (ztake (bw_used b) (bw_buffer b) ++ [0x80]
            ++ repeat 0 (Z.to_nat ((- (bw_used b + 1 + zlen lb)) mod N)) ++ lb, b').
Proof.
  intros HN Hb Hu Hl. unfold bw_md_pad_with_length.
  set (u := bw_used b) in *. set (buf := bw_buffer b) in *.
  destruct (N - u <? 1 + zlen lb) eqn:E.
  - assert (Hu0 : u <> 0) by lia.
    unfold bw_add_leading. fold u. destruct (u =? 0) eqn:E0; [lia|].
    change (zlen [128]) with 1. rewrite (Z.min_l 1) by lia.
    change (ztake 1 [128]) with [128]. cbn [bw_used bw_buffer]. fold buf.
    destruct (u + 1 =? 0) eqn:E1; [lia|].
    rewrite zlen_repeat, Z2Nat.id by lia. rewrite Z.min_r by lia.
    unfold bw_take. cbn [bw_used]. replace (u + 1 + (N - (u + 1)) =? N) with true by lia.
    eexists. do 2 f_equal. cbn [bw_buffer].
    fold buf.
    assert (Hr : forall k (m:nat), 0 <= k <= Z.of_nat m -> zlen (ztake k (repeat 0 m)) = k).
    { intros. apply zlen_ztake. zl. lia. }
    unfold splice. change (zlen [128]) with 1.
    rewrite (app_assoc (ztake u buf)).
    rewrite ztake_app_eq by (zl; rewrite zlen_ztake by lia; reflexivity).
    rewrite Hr by lia. rewrite (zdrop_all (u + 1 + (N - (u + 1)))).
    2:{ zl. rewrite zlen_ztake, zlen_zdrop by lia. lia. }
    rewrite zdrop_all by (zl; lia). rewrite !app_nil_r, <- !app_assoc.
    f_equal. f_equal. rewrite app_assoc. f_equal.
    unfold ztake. 
    assert (F : forall (a m : nat), (a <= m)%nat -> firstn a (repeat 0 m) = repeat 0 a).
    { induction a; intros [|m]; cbn; intros; try lia; auto. f_equal. apply IHa. lia. }
    rewrite !F by lia. rewrite <- repeat_app. f_equal.
    replace ((- (u + 1 + zlen lb)) mod N) with (N - (u + 1) + (N - zlen lb)); [lia|].
    apply Z.mod_unique_pos with (-2); lia.
  - eexists. f_equal. f_equal. do 4 f_equal.
    replace ((- (u + 1 + zlen lb)) mod N) with (N - u - zlen lb - 1); [reflexivity|].
    apply Z.mod_unique_pos with (-1); lia.
Qed.
