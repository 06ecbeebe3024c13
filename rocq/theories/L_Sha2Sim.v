(** Replacing the block function of a hashing context by one that agrees with it on honest states and bytes. *)
Require Import Verif.Base Verif.L_Base Verif.M_Blockwise Verif.L_Blocks Verif.M_Sha2 Verif.L_Sha2.
Require Import ZifyNat.

Section Sim.
  Context {S : Type} (ok : S -> Prop) (f g : S -> list Z -> S) (N : Z).
  Context (Hfg : forall s m, ok s -> bytes m -> f s m = g s m).
  Context (Hg : forall s m, ok s -> bytes m -> ok (g s m)).

  Definition good (c : sha_ctx S) : Prop := ok (sc_h c) /\ bytes (bw_buffer (sc_bw c)).

  Lemma blocks_sim c b : good c -> bytes b ->
    ctx_update_blocks f N c b = ctx_update_blocks g N c b /\ good (ctx_update_blocks g N c b).
  Proof using All.
    intros [H1 H2] Hb. unfold ctx_update_blocks. destruct (zlen b =? 0); [split; [reflexivity|split; assumption]|].
    rewrite Hfg by assumption. split; [reflexivity|]. split; cbn [sc_h sc_bw]; auto.
  Qed.

  Lemma good_with c w : good c -> bytes (bw_buffer w) -> good (with_bw c w).
  Proof using All. intros [H1 H2] H. split; assumption. Qed.

  Lemma leading_bytes w b : bytes (bw_buffer w) -> bytes b ->
    bytes (bw_buffer (fst (bw_add_leading N w b))) /\ bytes (snd (bw_add_leading N w b)).
  Proof using All.
    intros Hw Hb. unfold bw_add_leading. destruct (bw_used w =? 0); [split; assumption|].
    cbn [fst snd bw_buffer]. split; [apply bytes_splice; auto using bytes_ztake|auto using bytes_zdrop].
  Qed.

  Lemma update_sim c b : good c -> bytes b -> ctx_update f N c b = ctx_update g N c b
    /\ forall c', ctx_update g N c b = Ok c' -> good c'.
  Proof using All.
    intros Hc Hb. unfold ctx_update. destruct ((bw_used (sc_bw c) =? 0) && (zlen b mod N =? 0)).
    - destruct (blocks_sim c b Hc Hb) as [-> G]. split; [reflexivity|]. intros c' E. inversion E; subst. exact G.
    - destruct (leading_bytes (sc_bw c) b) as [L1 L2]; [apply Hc|exact Hb|].
      destruct (bw_add_leading N (sc_bw c) b) as [w r]. cbn [fst snd] in *.
      assert (T : bytes (bw_buffer (snd (bw_take N w))) /\ forall x, fst (bw_take N w) = Some x -> bytes x).
      { unfold bw_take. destruct (bw_used w =? N); cbn [fst snd bw_buffer]; split; try assumption; intros x E; inversion E; subst; assumption. }
      destruct (bw_take N w) as [blk w1]. cbn [fst snd] in T. destruct T as [T1 T2].
      pose proof (good_with c w1 Hc T1) as G1.
      assert (E : exists c1, match blk with Some x => ctx_update_blocks f N (with_bw c w1) x | None => with_bw c w1 end = c1
        /\ match blk with Some x => ctx_update_blocks g N (with_bw c w1) x | None => with_bw c w1 end = c1 /\ good c1).
      { destruct blk as [x|].
        - destruct (blocks_sim (with_bw c w1) x G1 (T2 x eq_refl)) as [E G]. eexists. split; [exact E|]. split; [reflexivity|exact G].
        - eexists. split; [reflexivity|]. split; [reflexivity|exact G1]. }
      destruct E as (c1 & -> & -> & G2).
      set (k := zlen r - Z.land (zlen r) (N - 1)).
      destruct (blocks_sim c1 (ztake k r) G2 (bytes_ztake _ _ L2)) as [-> G3].
      split; [reflexivity|]. intros c'.
      unfold bw_add_trailing. destruct (N <? _); cbn [bind]; [discriminate|]. intros E. inversion E; subst.
      apply good_with; [exact G3|]. cbn [bw_buffer]. apply bytes_splice; [apply G3|apply bytes_zdrop, L2].
  Qed.

  Lemma finish_sim c lb lim out : good c -> ctx_finish f N lb lim out c = ctx_finish g N lb lim out c.
  Proof using All.
    intros Hc. unfold ctx_finish. destruct (USIZE_MAX <? sc_nblocks c * N); [reflexivity|].
    set (n := sc_nblocks c * N + bw_used (sc_bw c)). destruct (USIZE_MAX <? n); [reflexivity|]. destruct (lim <=? n * 8); [reflexivity|].
    pose proof (be_bytes_bytes lb (n * 8)) as Hl. set (l := be_bytes lb (n * 8)) in *.
    assert (Z0 : forall k, bytes (repeat 0 k)) by (intros; apply bytes_repeat; unfold byte_ok; lia).
    assert (O80 : bytes [0x80]) by (constructor; [unfold byte_ok; lia|constructor]).
    assert (T : forall x w, bw_md_pad_with_length N (sc_bw c) l = Ok (x, w) -> bytes x /\ bytes (bw_buffer w)).
    { intros x w. unfold bw_md_pad_with_length. cbv zeta. destruct (_ <? _).
      - destruct (leading_bytes (sc_bw c) [0x80]) as [L1 _]; [apply Hc|exact O80|].
        destruct (bw_add_leading N (sc_bw c) [0x80]) as [w1 r1]. cbn [fst] in L1.
        destruct (leading_bytes w1 (repeat 0 (Z.to_nat N))) as [L2 _]; [exact L1|apply Z0|].
        destruct (bw_add_leading N w1 _) as [w2 r2]. cbn [fst] in L2.
        unfold bw_take. destruct (bw_used w2 =? N); [|discriminate]. intros E. inversion E; subst. cbn [bw_buffer].
        split; [|exact L2]. apply bytes_app. split; [exact L2|]. apply bytes_splice; [apply Z0|exact Hl].
      - intros E. injection E as E1 E2. rewrite <- E2. cbn [bw_buffer]. rewrite E1.
        assert (B : bytes x) by (rewrite <- E1, !bytes_app; cbn [app]; rewrite bytes_cons, bytes_app;
          split; [apply bytes_ztake, Hc|split; [unfold byte_ok; lia|split; [apply Z0|exact Hl]]]).
        split; exact B. }
    destruct (bw_md_pad_with_length N (sc_bw c) l) as [[x w]|e|]; [|reflexivity|reflexivity]. cbn [bind].
    destruct (T x w eq_refl) as [X1 X2].
    destruct (blocks_sim (with_bw c w) x (good_with c w Hc X2) X1) as [-> _]. reflexivity.
  Qed.

  Lemma good_new iv : ok iv -> good (ctx_new N iv).
  Proof using All. intros H. split; [exact H|]. apply bytes_repeat. unfold byte_ok. lia. Qed.
End Sim.

Section Keep.
  Context (P : sha2_params) (Hb : 0 < block_sz P).
  Context (H : forall s b, bytes b -> zlen b = block_sz P -> regs_ok (p_w P) s -> regs_ok (p_w P) (compress_block P s b)).
  Lemma compress_blocks_regs_ok s m : regs_ok (p_w P) s -> bytes m -> regs_ok (p_w P) (compress_blocks P s m).
  Proof using All.
    intros Hs Hm. unfold compress_blocks.
    pose proof (chunks_exact_len (block_sz P) m Hb) as L. pose proof (chunks_exact_bytes (block_sz P) m Hb Hm) as B.
    revert s Hs L B. generalize (chunks_exact (block_sz P) m). intros l.
    induction l as [|b l IH]; intros s Hs L B; [exact Hs|].
    inversion L; inversion B; subst. cbn [fold_left]. apply IH; auto.
  Qed.
End Keep.
