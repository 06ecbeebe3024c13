(** The incremental hashing context computes the same as hashing the concatenation. *)
Require Import Verif.Base Verif.L_Base Verif.M_Blockwise Verif.L_Blocks Verif.M_Sha2.
Require Import ZifyNat.

Section CtxLemmas.
  Context {S : Type} (compress : S -> list Z -> S) (N : Z) (iv : S).
  Context (lenbytes : nat) (limit : Z) (output : S -> list Z).
  Context (k : Z) (Hk : 0 <= k) (HN : N = 2 ^ k) (HN2 : 2 <= N <= 2 ^ 32).
  Context (Hlb : 0 < Z.of_nat lenbytes < N).
  Context (Hc0 : forall s, compress s [] = s).
  Context (Hcapp : forall s a b q, 0 <= q -> zlen a = q * N -> compress s (a ++ b) = compress (compress s a) b).

  Definition Inv (m : list Z) (c : sha_ctx S) : Prop :=
    exists a r q, m = a ++ r /\ 0 <= q /\ zlen a = q * N /\ zlen r < N /\
      sc_h c = compress iv a /\ bw_used (sc_bw c) = zlen r /\ zlen (bw_buffer (sc_bw c)) = N /\
      ztake (zlen r) (bw_buffer (sc_bw c)) = r /\
      sc_nblocks c = Z.min USIZE_MAX q.

  Lemma land_mask x : Z.land x (N - 1) = x mod N.
  Proof using All. rewrite HN, Z.sub_1_r, <- Z.ones_equiv. apply Z.land_ones, Hk. Qed.

  Lemma Inv_new : Inv [] (ctx_new N iv).
  Proof using All.
    exists [], [], 0. cbn. rewrite Hc0, zlen_repeat, Z2Nat.id by lia.
    change (zlen (@nil Z)) with 0. repeat split; try lia; auto.
  Qed.

  Lemma update_blocks_ok a q c b j :
    0 <= j -> zlen b = j * N -> sc_nblocks c = Z.min USIZE_MAX q -> 0 <= q -> zlen a = q * N ->
    sc_h c = compress iv a ->
    sc_h (ctx_update_blocks compress N c b) = compress iv (a ++ b) /\
    sc_nblocks (ctx_update_blocks compress N c b) = Z.min USIZE_MAX (q + j) /\
    sc_bw (ctx_update_blocks compress N c b) = sc_bw c.
  Proof using All.
    intros Hj Hb Hn Hq Ha Hh. unfold ctx_update_blocks.
    destruct (zlen b =? 0) eqn:E.
    - assert (b = []) by (apply zlen_0_nil; lia). subst b. rewrite app_nil_r.
      assert (j = 0) by nia. subst j. rewrite Z.add_0_r. auto.
    - cbn. rewrite (Hcapp _ _ _ q) by auto. rewrite Hh, Hn, Hb, Z.div_mul by lia.
      repeat split. unfold USIZE_MAX. lia.
  Qed.

  Lemma Inv_update m c b : Inv m c ->
    exists c', ctx_update compress N c b = Ok c' /\ Inv (m ++ b) c'.
  Proof using All.
    intros (a & r & q & -> & Hq & Ha & Hr & Hh & Hu & Hbuf & Htk & Hn).
    unfold ctx_update. rewrite Hu.
    pose proof (zlen_nonneg r) as Hr0. pose proof (zlen_nonneg b) as Hb0.
    destruct ((zlen r =? 0) && (zlen b mod N =? 0)) eqn:E.
    - assert (r = []) by (apply zlen_0_nil; lia). subst r.
      eexists; split; [reflexivity|]. rewrite app_nil_r.
      assert (Hbj : zlen b = (zlen b / N) * N) by (pose proof (Z.div_mod (zlen b) N); lia).
      assert (0 <= zlen b / N) by (apply Z.div_pos; lia).
      destruct (update_blocks_ok a q c b (zlen b / N)) as (H1 & H2 & H3); auto.
      exists (a ++ b), [], (q + zlen b / N). rewrite app_nil_r, H1, H2, H3. zl.
      change (zlen (@nil Z)) with 0 in *. repeat split; auto; try lia; nia.
    - unfold bw_add_leading. rewrite Hu.
      destruct (zlen r =? 0) eqn:E0.
      + assert (r = []) by (apply zlen_0_nil; lia). subst r. change (zlen (@nil Z)) with 0 in *.
        unfold bw_take. rewrite Hu. destruct (0 =? N) eqn:E1; [lia|]. cbv iota beta.
        change (with_bw c (sc_bw c)) with {| sc_h := sc_h c; sc_bw := sc_bw c; sc_nblocks := sc_nblocks c |}.
        set (c1 := {| sc_h := sc_h c; sc_bw := sc_bw c; sc_nblocks := sc_nblocks c |}).
        rewrite !land_mask.
        pose proof (Z.div_mod (zlen b) N ltac:(lia)) as Hdm.
        pose proof (Z.mod_pos_bound (zlen b) N ltac:(lia)) as Hmp.
        assert (0 <= zlen b / N) by (apply Z.div_pos; lia).
        set (wl := zlen b - zlen b mod N). assert (Hwl : wl = zlen b / N * N) by (unfold wl; lia).
        destruct (update_blocks_ok a q c1 (ztake wl b) (zlen b / N)) as (H1 & H2 & H3); auto.
        { rewrite zlen_ztake; lia. }
        rewrite H3. change (sc_bw c1) with (sc_bw c).
        unfold bw_add_trailing. rewrite zlen_zdrop by lia.
        destruct (N <? zlen b - wl) eqn:E2; [lia|]. cbn [bind].
        eexists; split; [reflexivity|].
        exists (a ++ ztake wl b), (zdrop wl b), (q + zlen b / N).
        cbn [with_bw sc_h sc_bw sc_nblocks bw_used bw_buffer]. rewrite H1, H2, Hu.
        rewrite app_nil_r, <- app_assoc, ztake_zdrop. zl. rewrite zlen_ztake, zlen_zdrop by lia.
        repeat split; auto; try lia; try nia.
        * rewrite zlen_splice; auto; try lia. rewrite zlen_zdrop; lia.
        * pose proof (ztake_splice (bw_buffer (sc_bw c)) 0 (zdrop wl b)) as X.
          rewrite zlen_zdrop in X by lia. apply X; lia.
      + set (tk := Z.min (zlen b) (N - zlen r)).
        assert (Htk0 : 0 <= tk <= zlen b) by lia.
        unfold bw_take. cbn [bw_used bw_buffer].
        set (buf1 := splice (bw_buffer (sc_bw c)) (zlen r) (ztake tk b)).
        assert (Hb1 : zlen buf1 = N).
        { unfold buf1. rewrite zlen_splice; auto; try lia. rewrite zlen_ztake; lia. }
        assert (Hb2 : ztake (zlen r + tk) buf1 = r ++ ztake tk b).
        { pose proof (ztake_splice (bw_buffer (sc_bw c)) (zlen r) (ztake tk b)) as X.
          rewrite zlen_ztake in X by lia. fold buf1 in X. rewrite X by lia. rewrite Htk. reflexivity. }
        destruct (zlen r + tk =? N) eqn:E1.
        * set (c1 := with_bw c {| bw_buffer := buf1; bw_used := 0 |}).
          assert (Hblk : buf1 = r ++ ztake tk b) by (rewrite <- Hb2; symmetry; apply ztake_all; lia).
          destruct (update_blocks_ok a q c1 buf1 1) as (H1 & H2 & H3); auto; try lia.
          set (c2 := ctx_update_blocks compress N c1 buf1) in *.
          set (b2 := zdrop tk b). assert (Hb2l : zlen b2 = zlen b - tk) by (apply zlen_zdrop; lia).
          rewrite !land_mask.
          pose proof (zlen_nonneg b2).
          pose proof (Z.div_mod (zlen b2) N ltac:(lia)) as Hdm.
          pose proof (Z.mod_pos_bound (zlen b2) N ltac:(lia)) as Hmp.
          assert (0 <= zlen b2 / N) by (apply Z.div_pos; lia).
          set (wl := zlen b2 - zlen b2 mod N). assert (Hwl : wl = zlen b2 / N * N) by (unfold wl; lia).
          destruct (update_blocks_ok (a ++ buf1) (q + 1) c2 (ztake wl b2) (zlen b2 / N)) as (H4 & H5 & H6); auto; try lia.
          { rewrite zlen_ztake; lia. }
          { zl. lia. }
          rewrite H6, H3. change (sc_bw c1) with {| bw_buffer := buf1; bw_used := 0 |}.
          unfold bw_add_trailing. rewrite zlen_zdrop by lia.
          destruct (N <? zlen b2 - wl) eqn:E2; [lia|]. cbn [bind].
          eexists; split; [reflexivity|].
          exists ((a ++ buf1) ++ ztake wl b2), (zdrop wl b2), (q + 1 + zlen b2 / N).
          cbn [with_bw sc_h sc_bw sc_nblocks bw_used bw_buffer].
          rewrite H4, H5. 
          assert (Hcat : (a ++ r) ++ b = ((a ++ buf1) ++ ztake wl b2) ++ zdrop wl b2).
          { rewrite <- !app_assoc, (ztake_zdrop wl b2). rewrite Hblk. unfold b2.
            rewrite <- !app_assoc. rewrite (ztake_zdrop tk b). reflexivity. }
          zl. rewrite zlen_ztake, zlen_zdrop by lia.
          repeat split; auto; try lia; try nia.
          -- rewrite zlen_splice; auto; try lia. rewrite zlen_zdrop; lia.
          -- pose proof (ztake_splice buf1 0 (zdrop wl b2)) as X.
             rewrite zlen_zdrop in X by lia. apply X; lia.
        * assert (Htb : tk = zlen b) by lia.
          rewrite (zdrop_all tk b) by lia.
          change (zlen (@nil Z)) with 0. rewrite Z.land_0_l.
          change (0 - 0) with 0. rewrite ztake_0, zdrop_0.
          unfold ctx_update_blocks. change (zlen (@nil Z) =? 0) with true. cbv iota.
          unfold bw_add_trailing. change (zlen (@nil Z)) with 0. destruct (N <? 0) eqn:E2; [lia|].
          cbn [bind]. eexists; split; [reflexivity|].
          exists a, (r ++ b), q. cbn [with_bw sc_h sc_bw sc_nblocks bw_used bw_buffer].
          unfold splice at 1 2. change (zlen (@nil Z)) with 0. change (0 + 0) with 0.
          rewrite ztake_0, zdrop_0. cbn [app].
          rewrite (ztake_all tk b) in Hb2 by lia. zl.
          rewrite app_assoc. rewrite Htb in *.
          repeat split; auto; try lia.
  Qed.

  (** hashing pieces one after the other *)
  Fixpoint updates (c : sha_ctx S) (bs : list (list Z)) : res (sha_ctx S) :=
    match bs with [] => Ok c | b :: r => let! c := ctx_update compress N c b in updates c r end.

  Lemma Inv_updates bs m c : Inv m c -> exists c', updates c bs = Ok c' /\ Inv (m ++ concat bs) c'.
  Proof using All.
    revert m c; induction bs as [|b bs IH]; intros m c H; cbn [updates concat].
    - rewrite app_nil_r. eauto.
    - destruct (Inv_update m c b H) as (c1 & -> & H1). cbn [bind].
      rewrite app_assoc. apply IH, H1.
  Qed.

  (** the finished value depends only on the bytes absorbed *)
  Definition padded (m : list Z) : list Z :=
    m ++ [0x80] ++ repeat 0 (Z.to_nat ((- (zlen m + 1 + Z.of_nat lenbytes)) mod N)) ++ be_bytes lenbytes (8 * zlen m).

  Lemma Inv_finish m c : Inv m c -> limit >= 2 ^ 64 ->
    ctx_finish compress N lenbytes limit output c =
      if (USIZE_MAX <? zlen m) || (limit <=? 8 * zlen m) then Panic
      else Ok (output (compress iv (padded m))).
  Proof using All.
    intros (a & r & q & -> & Hq & Ha & Hr & Hh & Hu & Hbuf & Htk & Hn) Hlim.
    unfold ctx_finish. rewrite Hu, Hn. zl. pose proof (zlen_nonneg r) as Hr0.
    destruct (USIZE_MAX <? Z.min USIZE_MAX q * N) eqn:E1.
    { destruct (USIZE_MAX <? zlen a + zlen r) eqn:E2; [reflexivity|]. unfold USIZE_MAX in *. exfalso. nia. }
    assert (Hq' : q < USIZE_MAX) by (unfold USIZE_MAX in *; nia).
    rewrite Z.min_r in * by lia. rewrite <- Ha.
    destruct (USIZE_MAX <? zlen a + zlen r) eqn:E2; [reflexivity|]. cbn [orb].
    rewrite (Z.mul_comm 8). destruct (limit <=? (zlen a + zlen r) * 8) eqn:E3; [reflexivity|].
    destruct (md_pad_spec N (sc_bw c) (be_bytes lenbytes ((zlen a + zlen r) * 8))) as [b' Hp]; try lia.
    { unfold zlen. rewrite be_bytes_length. lia. }
    rewrite Hp. cbn [bind]. rewrite Hu, Htk.
    assert (Hl : zlen (be_bytes lenbytes ((zlen a + zlen r) * 8)) = Z.of_nat lenbytes).
    { unfold zlen. rewrite be_bytes_length. lia. }
    rewrite Hl.
    assert (Hmod : (- (zlen (a ++ r) + 1 + Z.of_nat lenbytes)) mod N = (- (zlen r + 1 + Z.of_nat lenbytes)) mod N).
    { zl. rewrite Ha. replace (- (q * N + zlen r + 1 + Z.of_nat lenbytes)) with
        (- (zlen r + 1 + Z.of_nat lenbytes) + (- q) * N) by lia. apply Z.mod_add. lia. }
    unfold padded. rewrite Hmod. zl. rewrite (Z.mul_comm 8).
    set (tail := r ++ [128] ++ repeat 0 (Z.to_nat ((- (zlen r + 1 + Z.of_nat lenbytes)) mod N)) ++ be_bytes lenbytes ((zlen a + zlen r) * 8)).
    pose proof (Z.mod_pos_bound (- (zlen r + 1 + Z.of_nat lenbytes)) N ltac:(lia)) as Hmp.
    pose proof (Z.div_mod (- (zlen r + 1 + Z.of_nat lenbytes)) N ltac:(lia)) as Hdm.
    set (d := (- (zlen r + 1 + Z.of_nat lenbytes)) / N) in *.
    assert (Htail : zlen tail = (- d) * N).
    { unfold tail. zl. change (zlen [128]) with 1. rewrite Hl. lia. }
    assert (0 <= - d) by nia.
    destruct (update_blocks_ok a q (with_bw c b') tail (- d)) as (H1 & _ & _); auto.
    { cbn [with_bw sc_nblocks]. lia. }
    rewrite H1. rewrite <- app_assoc. reflexivity.
  Qed.

  Lemma padded_len m : exists q, 0 <= q /\ zlen (padded m) = q * N.
  Proof using All.
    unfold padded. set (x := zlen m + 1 + Z.of_nat lenbytes).
    pose proof (Z.mod_pos_bound (- x) N ltac:(lia)) as Hmp.
    pose proof (Z.div_mod (- x) N ltac:(lia)) as Hdm.
    exists (- (- x / N)). zl. change (zlen [128]) with 1.
    rewrite zlen_be_bytes. pose proof (zlen_nonneg m).
    rewrite Z2Nat.id by lia. assert (Hx : 0 <= x) by (unfold x; lia).
    revert Hmp Hdm Hx. generalize (- x / N) (- x mod N). unfold x. intros d r Hmp Hdm Hx. split; [nia|]. change (zlen (@nil Z)) with 0. lia.
  Qed.
End CtxLemmas.
