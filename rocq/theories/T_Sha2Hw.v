(** Property C54: SHA-2 computed with the processor's SHA or vector instructions is SHA-2. *)
Require Import Verif.Base Verif.L_Base Verif.M_Blockwise Verif.L_Blocks Verif.M_Sha2 Verif.S_Sha2 Verif.S_Simd Verif.M_Sha2Hw
  Verif.M_Hmac Verif.S_Hmac Verif.L_Sha2 Verif.L_Hash Verif.L_Hmac Verif.L_Sha2Hw Verif.L_Sha5Hw Verif.L_Sha2Sim Verif.T_Hash.
Require Import ZifyNat.

(** ** the block functions *)
Lemma low256_ok c s m : regs_ok 32 s -> bytes m -> low_sha256 c s m = compress_blocks sha256_params s m.
Proof.
  intros Hs Hm. destruct c as [[] ?|]; cbn [low_sha256]; [apply ni_sha256_ok|reflexivity|apply arm_sha256_ok]; assumption.
Qed.
Lemma low512_ok c s m : regs_ok 64 s -> bytes m -> low_sha512 c s m = compress_blocks sha512_params s m.
Proof.
  intros Hs Hm. destruct c as [? []|]; cbn [low_sha512]; [apply avx_sha512_ok; assumption|reflexivity|reflexivity].
Qed.
Lemma keep256 s m : regs_ok 32 s -> bytes m -> regs_ok 32 (compress_blocks sha256_params s m).
Proof. intros. apply (compress_blocks_regs_ok sha256_params); auto; [vm_compute; reflexivity|]. intros. apply compress256; assumption. Qed.
Lemma keep512 s m : regs_ok 64 s -> bytes m -> regs_ok 64 (compress_blocks sha512_params s m).
Proof. intros. apply (compress_blocks_regs_ok sha512_params); auto; [vm_compute; reflexivity|]. intros. apply compress512; assumption. Qed.

(** On every supported processor, for every chaining value and every number of whole blocks, the function the
    library calls is the FIPS 180-4 compression iterated over the blocks. *)
Theorem C54_sha256_blocks : forall c s m q, regs_ok 32 s -> bytes m -> 0 <= q -> zlen m = 64 * q ->
  rl (low_sha256 c s m) = fips_blocks fips256 64 (Z.to_nat q) (rl s) m.
Proof.
  intros c s m q Hs Hm Hq Hl. rewrite low256_ok by assumption. unfold compress_blocks.
  change (block_sz sha256_params) with 64.
  apply (blocks_ok sha256_params fips256 64); try assumption; [lia|exact compress256|lia].
Qed.
Print Assumptions C54_sha256_blocks.
Theorem C54_sha512_blocks : forall c s m q, regs_ok 64 s -> bytes m -> 0 <= q -> zlen m = 128 * q ->
  rl (low_sha512 c s m) = fips_blocks fips512 128 (Z.to_nat q) (rl s) m.
Proof.
  intros c s m q Hs Hm Hq Hl. rewrite low512_ok by assumption. unfold compress_blocks.
  change (block_sz sha512_params) with 128.
  apply (blocks_ok sha512_params fips512 128); try assumption; [lia|exact compress512|lia].
Qed.
Print Assumptions C54_sha512_blocks.

(** ** the hash functions *)
(** the algorithms as they run on processor [c], with the function each must compute and the length limit *)
Definition hashes_on (c : cpu) : list (hash_alg * (list Z -> list Z) * Z) :=
  [ (Sha256_on c, SHA256, 2 ^ 61); (Sha384_on c, SHA384, 2 ^ 64); (Sha512_on c, SHA512, 2 ^ 64) ].

Section Feed.
  Context (ok : regs -> Prop) (f g : regs -> list Z -> regs) (N : Z) (iv : regs).
  Context (Hfg : forall s m, ok s -> bytes m -> f s m = g s m) (Hg : forall s m, ok s -> bytes m -> ok (g s m)).
  Context (Hiv : ok iv).
  Context (fin fin' : sha_ctx regs -> res (list Z)) (Hfin : forall x, good ok x -> fin x = fin' x) (b o : Z).
  Let H := {| ha_ctx := sha_ctx regs; ha_new := ctx_new N iv; ha_update := ctx_update f N; ha_finish := fin; ha_block := b; ha_out := o |}.
  Let H' := {| ha_ctx := sha_ctx regs; ha_new := ctx_new N iv; ha_update := ctx_update g N; ha_finish := fin'; ha_block := b; ha_out := o |}.
  Lemma feed_sim cs : forall x : sha_ctx regs, good ok x -> bytes (concat cs) -> feed H x cs = feed H' x cs /\ forall y, feed H' x cs = Ok y -> good ok y.
  Proof using All.
    induction cs as [|a cs IH]; intros x Hx Hb.
    - split; [reflexivity|]. intros y E. cbn [feed] in E. inversion E; subst. exact Hx.
    - cbn [concat] in Hb. apply bytes_app in Hb. destruct Hb as [Ha Hc].
      destruct (update_sim ok f g N Hfg Hg x a Hx Ha) as [E G]. cbn [feed ha_update H H']. rewrite E.
      destruct (ctx_update g N x a) as [y|e|] eqn:Ey; cbn [bind]; [|split; [reflexivity|discriminate]..].
      apply IH; auto.
  Qed.
  Lemma implements_sim Hs lim : implements H' Hs lim -> implements H Hs lim.
  Proof using All.
    intros I. constructor; [|exact (im_len _ _ _ I)|exact (im_bytes _ _ _ I)|exact (im_sizes _ _ _ I)].
    intros cs Hcs. destruct (im_feed _ _ _ I cs Hcs) as (y & E1 & E2).
    destruct (feed_sim cs (ctx_new N iv) (good_new ok f g N Hfg Hg iv Hiv) Hcs) as [E G].
    exists y. split; [exact (eq_trans E E1)|]. rewrite <- E2. apply Hfin, G, E1.
  Qed.
End Feed.

Lemma imp256_on c : implements (Sha256_on c) SHA256 (2 ^ 61).
Proof.
  refine (implements_sim (regs_ok 32) (low_sha256 c) (compress_blocks sha256_params) 64 sha256_iv (low256_ok c) keep256 iv256_ok _ _ _ _ _ _ _ imp256).
  intros x Hx. apply (finish_sim (regs_ok 32)); [exact (low256_ok c)|exact keep256|exact Hx].
Qed.
Lemma imp384_on c : implements (Sha384_on c) SHA384 (2 ^ 64).
Proof.
  refine (implements_sim (regs_ok 64) (low_sha512 c) (compress_blocks sha512_params) 128 sha384_iv (low512_ok c) keep512 iv384_ok _ _ _ _ _ _ _ imp384).
  intros x Hx. rewrite (finish_sim (regs_ok 64) (low_sha512 c) (compress_blocks sha512_params)); [reflexivity|exact (low512_ok c)|exact keep512|exact Hx].
Qed.
Lemma imp512_on c : implements (Sha512_on c) SHA512 (2 ^ 64).
Proof.
  refine (implements_sim (regs_ok 64) (low_sha512 c) (compress_blocks sha512_params) 128 sha512_iv (low512_ok c) keep512 iv512_ok _ _ _ _ _ _ _ imp512).
  intros x Hx. apply (finish_sim (regs_ok 64)); [exact (low512_ok c)|exact keep512|exact Hx].
Qed.
Lemma hashes_on_imp c H Hs lim : In (H, Hs, lim) (hashes_on c) -> implements H Hs lim.
Proof.
  intros [E|[E|[E|[]]]]; apply pair_equal_spec in E; destruct E as [E <-]; apply pair_equal_spec in E; destruct E as [<- <-].
  - apply imp256_on. - apply imp384_on. - apply imp512_on.
Qed.

(** Whatever the processor and however the message is cut into updates, the digest is the FIPS 180-4 one, and the
    only message that is not hashed is one over the length limit. *)
Theorem C54_digest : forall c H Hs lim, In (H, Hs, lim) (hashes_on c) ->
  forall pieces, Forall bytes pieces ->
  hash_stream H pieces = (if zlen (concat pieces) <? lim then Ok (Hs (concat pieces)) else Panic)
  /\ hash_oneshot H (concat pieces) = hash_stream H pieces.
Proof.
  intros c H Hs lim HI pieces Hp. pose proof (hashes_on_imp _ _ _ _ HI) as I.
  apply bytes_concat in Hp.
  assert (S : hash_stream H pieces = if zlen (concat pieces) <? lim then Ok (Hs (concat pieces)) else Panic).
  { destruct (im_feed _ _ _ I pieces Hp) as (x & E1 & E2). unfold hash_stream. rewrite E1. cbn [bind]. rewrite E2.
    destruct (lim <=? zlen (concat pieces)) eqn:A, (zlen (concat pieces) <? lim) eqn:B; auto; lia. }
  split; [exact S|]. rewrite S, (oneshot _ _ _ I) by exact Hp.
  destruct (lim <=? zlen (concat pieces)) eqn:A, (zlen (concat pieces) <? lim) eqn:B; auto; lia.
Qed.
Print Assumptions C54_digest.

(** Two machines agree, message by message and cut by cut. *)
Theorem C54_same_on_every_processor : forall c1 c2 pieces1 pieces2,
  Forall bytes pieces1 -> Forall bytes pieces2 -> concat pieces1 = concat pieces2 ->
  hash_stream (Sha256_on c1) pieces1 = hash_stream (Sha256_on c2) pieces2 /\
  hash_stream (Sha384_on c1) pieces1 = hash_stream (Sha384_on c2) pieces2 /\
  hash_stream (Sha512_on c1) pieces1 = hash_stream (Sha512_on c2) pieces2.
Proof.
  intros c1 c2 p1 p2 B1 B2 E.
  refine (conj _ (conj _ _)).
  - rewrite (proj1 (C54_digest c1 (Sha256_on c1) SHA256 (2 ^ 61) (or_introl eq_refl) p1 B1)).
    rewrite (proj1 (C54_digest c2 (Sha256_on c2) SHA256 (2 ^ 61) (or_introl eq_refl) p2 B2)). rewrite E. reflexivity.
  - rewrite (proj1 (C54_digest c1 (Sha384_on c1) SHA384 (2 ^ 64) (or_intror (or_introl eq_refl)) p1 B1)).
    rewrite (proj1 (C54_digest c2 (Sha384_on c2) SHA384 (2 ^ 64) (or_intror (or_introl eq_refl)) p2 B2)). rewrite E. reflexivity.
  - rewrite (proj1 (C54_digest c1 (Sha512_on c1) SHA512 (2 ^ 64) (or_intror (or_intror (or_introl eq_refl))) p1 B1)).
    rewrite (proj1 (C54_digest c2 (Sha512_on c2) SHA512 (2 ^ 64) (or_intror (or_intror (or_introl eq_refl))) p2 B2)). rewrite E. reflexivity.
Qed.
Print Assumptions C54_same_on_every_processor.

(** So does everything built on the hash: HMAC here; the ECDSA and RSA theorems (C22, C30 to C32) take any hash
    with [implements], which [hashes_on_imp] provides for each processor. *)
Theorem C54_hmac : forall c H Hs lim, In (H, Hs, lim) (hashes_on c) ->
  forall key pieces, bytes key -> Forall bytes pieces ->
  hmac_stream H key pieces =
    if (zlen key <? lim) && (ha_block H + zlen (concat pieces) <? lim)
    then Ok (HMAC Hs (ha_block H) key (concat pieces)) else Panic.
Proof.
  intros c H Hs lim HI key pieces Hk Hp.
  rewrite (hmac_stream_ok H Hs lim (hashes_on_imp _ _ _ _ HI)) by auto.
  destruct (lim <=? zlen key) eqn:E1, (zlen key <? lim) eqn:E2; try lia; cbn [orb andb]; auto.
  destruct (lim <=? ha_block H + zlen (concat pieces)) eqn:E3, (ha_block H + zlen (concat pieces) <? lim) eqn:E4; try lia; reflexivity.
Qed.
Print Assumptions C54_hmac.

(** ** concrete cases *)
(** SHA-256 of "abc" with the SHA extensions and with the Arm ones *)
Definition abc256 : list Z :=
  be_bytes 32 0xba7816bf8f01cfea414140de5dae2223b00361a396177a9cb410ff61f20015ad.
Example sha256_ni : hash_stream (Sha256_on (X86_64 true true)) [[0x61]; [0x62; 0x63]] = Ok abc256.
Proof. vm_compute. reflexivity. Qed.
Example sha256_arm : hash_stream (Sha256_on Aarch64) [[0x61; 0x62]; [0x63]] = Ok abc256.
Proof. vm_compute. reflexivity. Qed.
(** a message the vector code takes as one run of four blocks and one single block, met by the theorem *)
Example sha512_avx : hash_oneshot (Sha512_on (X86_64 true true)) (repeat 0x61 600) = Ok (SHA512 (repeat 0x61 600)).
Proof.
  assert (B : Forall bytes [repeat 0x61 600]) by (constructor; [apply bytes_repeat; unfold byte_ok; lia|constructor]).
  destruct (C54_digest (X86_64 true true) _ SHA512 (2 ^ 64) (or_intror (or_intror (or_introl eq_refl))) [repeat 0x61 600] B) as [E1 E2].
  cbn [concat] in E1, E2. rewrite app_nil_r in E1, E2. rewrite E2, E1. reflexivity.
Qed.
(** the hypotheses of the block theorems are met *)
Example blocks_hypotheses : regs_ok 64 sha512_iv /\ bytes (repeat 7 640) /\ 0 <= 5 /\ zlen (repeat 7 640) = 128 * 5.
Proof. split; [exact iv512_ok|]. split; [apply bytes_repeat; unfold byte_ok; lia|]. split; [lia|reflexivity]. Qed.
