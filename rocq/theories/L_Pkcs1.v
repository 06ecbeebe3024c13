(** Lemmas on the PKCS#1 encodings. *)
Require Import Verif.Base Verif.L_Base Verif.L_Blocks Verif.L_Bits Verif.M_Ct Verif.M_Sha2 Verif.L_Hash Verif.L_Hmac Verif.M_Pkcs1 Verif.S_Pkcs1.
Require Import ZifyNat.

Lemma xor_bytes_nil b : xor_bytes [] b = []. Proof. reflexivity. Qed.
Lemma xor_bytes_cons x a y b : xor_bytes (x :: a) (y :: b) = Z.lxor x y :: xor_bytes a b. Proof. reflexivity. Qed.
Lemma xor_zip_bytes a : forall b, zlen a <= zlen b -> xor_zip a b = xor_bytes a b.
Proof.
  induction a as [|x a IH]; intros [|y b] H; try reflexivity.
  - rewrite zlen_cons in H. change (zlen (@nil Z)) with 0 in H. pose proof (zlen_nonneg a). lia.
  - rewrite xor_bytes_cons. cbn [xor_zip]. f_equal. apply IH. rewrite !zlen_cons in H. lia.
Qed.
Lemma xor_bytes_app a : forall b c d, zlen a = zlen c -> xor_bytes (a ++ b) (c ++ d) = xor_bytes a c ++ xor_bytes b d.
Proof.
  induction a as [|x a IH]; intros b [|y c] d H; try reflexivity.
  - rewrite zlen_cons in H. change (zlen (@nil Z)) with 0 in H. pose proof (zlen_nonneg c). lia.
  - rewrite zlen_cons in H. change (zlen (@nil Z)) with 0 in H. pose proof (zlen_nonneg a). lia.
  - cbn [app]. rewrite !xor_bytes_cons. cbn [app]. f_equal. apply IH. rewrite !zlen_cons in H. lia.
Qed.
Lemma xor_bytes_ztake a : forall b, zlen a <= zlen b -> xor_bytes a (ztake (zlen a) b) = xor_bytes a b.
Proof.
  intros b H. rewrite <- (ztake_zdrop (zlen a) b) at 2. rewrite <- (app_nil_r a) at 3.
  pose proof (zlen_nonneg a). rewrite xor_bytes_app by (rewrite zlen_ztake; lia). now rewrite app_nil_r.
Qed.
Lemma xor_bytes_len a : forall b, zlen a <= zlen b -> zlen (xor_bytes a b) = zlen a.
Proof.
  intros b H. unfold xor_bytes, zlen in *. rewrite map_length, combine_length. lia.
Qed.
Lemma xor_bytes_bytes a : forall b, bytes a -> bytes b -> bytes (xor_bytes a b).
Proof.
  induction a as [|x a IH]; intros [|y b] Ha Hb; try constructor; inversion_clear Ha; inversion_clear Hb.
  - now apply lxor_byte.
  - now apply IH.
Qed.
Lemma xor_bytes_twice a : forall b, zlen a <= zlen b -> xor_bytes (xor_bytes a b) b = a.
Proof.
  induction a as [|x a IH]; intros [|y b] H; try reflexivity.
  - rewrite zlen_cons in H. change (zlen (@nil Z)) with 0 in H. pose proof (zlen_nonneg a). lia.
  - rewrite !xor_bytes_cons, Z.lxor_assoc, Z.lxor_nilpotent, Z.lxor_0_r. f_equal. apply IH. rewrite !zlen_cons in H. lia.
Qed.

Section Imp.
  Context (H : hash_alg) (Hs : list Z -> list Z) (lim : Z) (I : implements H Hs lim).
  Let hl := ha_out H.
  Lemma hl_pos : 0 < hl <= 2 ^ 16. Proof. pose proof (im_sizes _ _ _ I). unfold hl. lia. Qed.

  Lemma m_prime_ok a b : bytes a -> bytes b -> zlen a + zlen b + 8 < lim -> hash_m_prime H a b = Ok (Hs (M_prime a b)).
  Proof.
    intros Ha Hb L. destruct (im_feed _ _ _ I [repeat 0 8; a; b]) as (c & E & F).
    { apply bytes_concat. constructor; [|constructor; [assumption|constructor; [assumption|constructor]]]. bytes_tac. }
    unfold hash_m_prime. cbn [feed] in E.
    destruct (ha_update H (ha_new H) (repeat 0 8)) as [c1| |]; try discriminate. cbn [bind] in *.
    destruct (ha_update H c1 a) as [c2| |]; try discriminate. cbn [bind] in *.
    destruct (ha_update H c2 b) as [c3| |]; try discriminate. cbn [bind] in *. injection E as ->. rewrite F.
    cbn [concat]. rewrite app_nil_r. unfold M_prime. rewrite !zlen_app. change (zlen (repeat 0 8)) with 8.
    destruct (Z.leb_spec lim (8 + (zlen a + zlen b))); [lia|reflexivity].
  Qed.

  Lemma term_ok seed i : bytes seed -> zlen seed + 4 < lim -> forall A (k : list Z -> res A),
    (let! ctx := ha_update H (ha_new H) seed in let! ctx := ha_update H ctx (be_bytes 4 i) in
     let! t := ha_finish H ctx in k t) = k (Hs (seed ++ be_bytes 4 i)).
  Proof.
    intros Ha L A k. destruct (im_feed _ _ _ I [seed; be_bytes 4 i]) as (c & E & F).
    { apply bytes_concat. constructor; [assumption|constructor; [apply be_bytes_bytes|constructor]]. }
    cbn [feed] in E.
    destruct (ha_update H (ha_new H) seed) as [c1| |]; try discriminate. cbn [bind] in *.
    destruct (ha_update H c1 _) as [c2| |]; try discriminate. cbn [bind] in *. injection E as ->. rewrite F.
    cbn [concat]. rewrite app_nil_r. rewrite zlen_app. assert (zlen (be_bytes 4 i) = 4) as -> by (unfold zlen; now rewrite be_bytes_length).
    destruct (Z.leb_spec lim (zlen seed + 4)); [lia|reflexivity].
  Qed.

  Let f seed (i : nat) := Hs (seed ++ be_bytes 4 (Z.of_nat i)).
  Lemma blocks_len seed k : forall c, zlen (concat (map (f seed) (seq c k))) = hl * Z.of_nat k.
  Proof.
    induction k as [|k IH]; intros c; cbn [seq map concat]; [change (zlen (@nil Z)) with 0; lia|].
    rewrite zlen_app, IH. unfold f at 1. rewrite (im_len _ _ _ I). fold hl. lia.
  Qed.
  Lemma blocks_bytes seed k : forall c, bytes (concat (map (f seed) (seq c k))).
  Proof.
    intros c. apply bytes_concat. apply Forall_map, Forall_forall. intros. apply (im_bytes _ _ _ I).
  Qed.
  Definition nblk (n : Z) : nat := Z.to_nat ((n + hl - 1) / hl).
  Lemma nblk_enough n : 0 <= n -> n <= hl * Z.of_nat (nblk n).
  Proof.
    intros Hn. pose proof hl_pos. unfold nblk. rewrite Z2Nat.id by (apply Z.div_pos; lia).
    pose proof (Z.div_mod (n + hl - 1) hl ltac:(lia)). pose proof (Z.mod_pos_bound (n + hl - 1) hl ltac:(lia)). lia.
  Qed.
  Lemma mgf1_chunks_ok seed : bytes seed -> zlen seed + 4 < lim -> forall out c,
    mgf1_chunks H seed (Z.of_nat c) (chunks hl out) = Ok (xor_bytes out (concat (map (f seed) (seq c (nblk (zlen out)))))).
  Proof.
    intros Hs1 L out. pose proof hl_pos as Hp. revert out. refine (chunk_ind hl (fun out => forall c, mgf1_chunks H seed (Z.of_nat c) (chunks hl out) = Ok (xor_bytes out (concat (map (f seed) (seq c (nblk (zlen out))))))) _ _ _ _); [lia|intros c|intros l Hl c|intros a b Ha IH c].
    - rewrite chunks_nil by lia. reflexivity.
    - rewrite chunks_short by lia. cbn [mgf1_chunks]. rewrite (term_ok seed (Z.of_nat c) Hs1 L). cbn [bind]. rewrite app_nil_r.
      assert (nblk (zlen l) = 1%nat) as ->.
      { unfold nblk. replace (zlen l + hl - 1) with ((zlen l - 1) + 1 * hl) by lia. rewrite Z.div_add, Z.div_small by lia. reflexivity. }
      cbn [seq map concat]. rewrite app_nil_r. rewrite xor_zip_bytes; [reflexivity|]. rewrite (im_len _ _ _ I). fold hl. lia.
    - rewrite chunks_app by lia. cbn [mgf1_chunks]. rewrite (term_ok seed (Z.of_nat c) Hs1 L).
      replace (Z.of_nat c + 1) with (Z.of_nat (S c)) by lia. rewrite IH. cbn [bind].
      assert (nblk (zlen (a ++ b)) = S (nblk (zlen b))) as ->.
      { unfold nblk. rewrite zlen_app, Ha. replace (hl + zlen b + hl - 1) with ((zlen b + hl - 1) + 1 * hl) by lia. rewrite Z.div_add by lia.
        pose proof (zlen_nonneg b). pose proof (Z.div_pos (zlen b + hl - 1) hl ltac:(lia) ltac:(lia)). lia. }
      cbn [seq map concat]. rewrite xor_bytes_app by (unfold f; rewrite (im_len _ _ _ I); assumption).
      rewrite xor_zip_bytes; [reflexivity|]. rewrite (im_len _ _ _ I). fold hl. lia.
  Qed.
  Lemma mgf1_len seed n : 0 <= n -> zlen (MGF1 Hs hl seed n) = n.
  Proof.
    intros Hn. unfold MGF1. fold (nblk n). change (fun i : nat => Hs (seed ++ be_bytes 4 (Z.of_nat i))) with (f seed).
    pose proof (nblk_enough n Hn). rewrite zlen_ztake; [reflexivity|]. rewrite blocks_len. lia.
  Qed.
  Lemma mgf1_bytes seed n : bytes (MGF1 Hs hl seed n).
  Proof. unfold MGF1. apply bytes_ztake. apply (blocks_bytes seed). Qed.
  Lemma mgf1_xor_ok seed out : bytes seed -> zlen seed + 4 < lim ->
    mgf1_xor H seed hl out = Ok (xor_bytes out (MGF1 Hs hl seed (zlen out))).
  Proof.
    intros Hs1 L. pose proof hl_pos. unfold mgf1_xor. destruct (Z.eqb_spec hl 0); [lia|].
    change 0 with (Z.of_nat 0) at 1. rewrite mgf1_chunks_ok by assumption. f_equal. unfold MGF1. fold (nblk (zlen out)).
    change (fun i : nat => Hs (seed ++ be_bytes 4 (Z.of_nat i))) with (f seed). symmetry. apply xor_bytes_ztake.
    rewrite blocks_len. apply nblk_enough, zlen_nonneg.
  Qed.
End Imp.
