(** The three public hash algorithms as functions of the absorbed bytes. *)
Require Import Verif.Base Verif.L_Base Verif.M_Blockwise Verif.L_Blocks Verif.M_Sha2 Verif.S_Sha2
  Verif.L_ShaCtx Verif.L_Sha2.
Require Import ZifyNat.

(** feeding a list of pieces, in order (client side of the API: HashContext::update calls, high/hash.rs:130-137) *)
Fixpoint feed (H : hash_alg) (c : ha_ctx H) (cs : list (list Z)) : res (ha_ctx H) :=
  match cs with
  | [] => Ok c
  | b :: r => let! c := ha_update H c b in feed H c r
  end.
Definition hash_stream (H : hash_alg) (cs : list (list Z)) : res (list Z) :=
  let! c := feed H (ha_new H) cs in ha_finish H c.

Lemma pad_padded n lb m : pad n (Z.of_nat lb) m = padded n lb m.
Proof. unfold pad, padded. rewrite Nat2Z.id. reflexivity. Qed.

Lemma rl_inj s t : rl s = rl t -> s = t.
Proof.
  destruct s as [[[[[[[? ?] ?] ?] ?] ?] ?] ?], t as [[[[[[[? ?] ?] ?] ?] ?] ?] ?]. cbn. intros E.
  inversion E; reflexivity.
Qed.

Lemma regs_bytes_rl wb s : regs_bytes wb s = flat_map (be_bytes wb) (rl s).
Proof. destruct s as [[[[[[[? ?] ?] ?] ?] ?] ?] ?]. reflexivity. Qed.

Lemma bytes_padded n lb m : bytes m -> bytes (padded n lb m).
Proof.
  intros. unfold padded. rewrite !bytes_app. repeat split; auto.
  - constructor; [unfold byte_ok; lia|constructor].
  - apply bytes_repeat. unfold byte_ok; lia.
  - apply be_bytes_bytes.
Qed.

Record alg_ok (P : sha2_params) (F : fips) (iv : regs) (H0 : list Z) (k wb limit : Z) : Prop := {
  ao_k : 0 <= k; ao_N : block_sz P = 2 ^ k; ao_N2 : 2 <= block_sz P <= 2 ^ 32;
  ao_wb : 0 < wb < 2 ^ 16; ao_pw : p_w P / 8 = wb; ao_fw : f_w F / 8 = wb; ao_lim : limit >= 2 ^ 64;
  ao_iv : rl iv = H0; ao_ivok : regs_ok (p_w P) iv;
  ao_block : forall s b, bytes b -> zlen b = block_sz P -> regs_ok (p_w P) s ->
     regs_ok (p_w P) (compress_block P s b) /\ rl (compress_block P s b) = fips_block F (rl s) b }.

Section Alg.
  Context (P : sha2_params) (F : fips) (iv : regs) (H0 : list Z) (k wb : Z) (limit : Z).
  Context (A : alg_ok P F iv H0 k wb limit).
  Let N := block_sz P.
  Let lb := Z.to_nat (2 * wb).
  Let out := regs_bytes (Z.to_nat wb).

  Ltac side := first
    [ assumption
    | solve [unfold lb, N, block_sz; lia]
    | solve [intros; apply compress_blocks_nil; lia]
    | solve [intros; eapply compress_blocks_app; eauto; lia] ].

  Lemma fips_hash_alt m : bytes m ->
    fips_hash F H0 m = out (compress_blocks P iv (padded N lb m)).
  Proof using All.
    destruct A as [Hk HN HN2 Hwb Hpw Hfw Hlim Hiv Hivok Hblock].
    intros Hm. unfold fips_hash, out. rewrite regs_bytes_rl, Hfw.
    assert (EN : N = 16 * wb) by (unfold N, block_sz; rewrite Hpw; reflexivity).
    replace (2 * wb) with (Z.of_nat lb) by (unfold lb; lia).
    rewrite pad_padded, <- EN. f_equal.
    assert (Hp : exists q, 0 <= q /\ zlen (padded N lb m) = q * N).
    { apply (padded_len (compress_blocks P) N iv lb limit out k Hk); side. }
    destruct Hp as (q & Hq & Hl).
    rewrite Hl, Z.div_mul by (unfold N; lia).
    unfold compress_blocks. fold N.
    rewrite (blocks_ok P F N) with (q := q); auto using bytes_padded; try (unfold N; lia).
    rewrite Hiv. reflexivity.
  Qed.

  Lemma feed_run c cs :
    Inv (compress_blocks P) N iv [] c ->
    exists c', updates (compress_blocks P) N c cs = Ok c' /\ Inv (compress_blocks P) N iv (concat cs) c'.
  Proof using All.
    destruct A as [Hk HN HN2 Hwb Hpw Hfw Hlim Hiv Hivok Hblock].
    intros Hc.
    apply (Inv_updates (compress_blocks P) N iv lb limit out k Hk HN) with (m := []); side.
  Qed.

  Lemma finish_run m c : Inv (compress_blocks P) N iv m c ->
    ctx_finish (compress_blocks P) N lb limit out c =
      if (USIZE_MAX <? zlen m) || (limit <=? 8 * zlen m) then Panic
      else Ok (out (compress_blocks P iv (padded N lb m))).
  Proof using All.
    destruct A as [Hk HN HN2 Hwb Hpw Hfw Hlim Hiv Hivok Hblock].
    intros Hc. apply (Inv_finish (compress_blocks P) N iv lb limit out k Hk HN); side.
  Qed.

  Lemma new_run : Inv (compress_blocks P) N iv [] (ctx_new N iv).
  Proof using All.
    destruct A as [Hk HN HN2 Hwb Hpw Hfw Hlim Hiv Hivok Hblock].
    apply (Inv_new (compress_blocks P) N iv lb limit out k Hk); side.
  Qed.
End Alg.

Definition raw256 (m : list Z) : list Z := regs_bytes 4 (compress_blocks sha256_params sha256_iv (padded 64 8 m)).
Definition raw512 iv (m : list Z) : list Z := regs_bytes 8 (compress_blocks sha512_params iv (padded 128 16 m)).

Ltac ivok := unfold regs_ok; cbn [rl sha256_iv sha384_iv sha512_iv];
   repeat (apply Forall_cons || apply Forall_nil); unfold word; cbn; lia.

Lemma iv256 : rl sha256_iv = H0_256. Proof. vm_compute. reflexivity. Qed.
Lemma iv384 : rl sha384_iv = H0_384. Proof. vm_compute. reflexivity. Qed.
Lemma iv512 : rl sha512_iv = H0_512. Proof. vm_compute. reflexivity. Qed.
Lemma iv256_ok : regs_ok 32 sha256_iv. Proof. ivok. Qed.
Lemma iv384_ok : regs_ok 64 sha384_iv. Proof. ivok. Qed.
Lemma iv512_ok : regs_ok 64 sha512_iv. Proof. ivok. Qed.


Lemma A256 : alg_ok sha256_params fips256 sha256_iv H0_256 6 4 (2 ^ 64).
Proof. constructor; [lia|reflexivity|vm_compute; split; discriminate|lia|reflexivity|reflexivity|lia|exact iv256|exact iv256_ok|exact compress256]. Qed.
Lemma A384 : alg_ok sha512_params fips512 sha384_iv H0_384 7 8 (2 ^ 128).
Proof. constructor; [lia|reflexivity|vm_compute; split; discriminate|lia|reflexivity|reflexivity|lia|exact iv384|exact iv384_ok|exact compress512]. Qed.
Lemma A512 : alg_ok sha512_params fips512 sha512_iv H0_512 7 8 (2 ^ 128).
Proof. constructor; [lia|reflexivity|vm_compute; split; discriminate|lia|reflexivity|reflexivity|lia|exact iv512|exact iv512_ok|exact compress512]. Qed.

Lemma feed256_updates cs (c : sha_ctx regs) : feed Sha256 c cs = updates (compress_blocks sha256_params) 64 c cs.
Proof.
  revert c. induction cs; intros s; [reflexivity|]. cbn [feed updates].
  change (ha_update Sha256 s a) with (ctx_update (compress_blocks sha256_params) 64 s a).
  destruct (ctx_update (compress_blocks sha256_params) 64 s a); cbn [bind]; auto.
Qed.

Lemma feed256 cs : exists c, feed Sha256 (ha_new Sha256) cs = Ok c /\
  ha_finish Sha256 c = if 2 ^ 61 <=? zlen (concat cs) then Panic else Ok (raw256 (concat cs)).
Proof.
  destruct (feed_run _ _ _ _ _ _ _ A256 (ctx_new 64 sha256_iv) cs (new_run _ _ _ _ _ _ _ A256)) as (c & H1 & H2).
  exists c. split.
  { refine (eq_trans _ H1). apply feed256_updates. }
  change (ha_finish Sha256 c) with (ctx_finish (compress_blocks sha256_params) (block_sz sha256_params) (Z.to_nat (2 * 4)) (2^64) (regs_bytes (Z.to_nat 4)) c).
  rewrite (finish_run _ _ _ _ _ _ _ A256 (concat cs) c H2).
  pose proof (zlen_nonneg (concat cs)).
  replace ((USIZE_MAX <? zlen (concat cs)) || (2 ^ 64 <=? 8 * zlen (concat cs))) with (2 ^ 61 <=? zlen (concat cs)).
  - reflexivity.
  - unfold USIZE_MAX. lia.
Qed.

Lemma feed512_gen iv H0 cs : alg_ok sha512_params fips512 iv H0 7 8 (2 ^ 128) -> exists c,
  updates (compress_blocks sha512_params) 128 (ctx_new 128 iv) cs = Ok c /\
  ctx_finish (compress_blocks sha512_params) 128 16 (2^128) (regs_bytes 8) c
    = if 2 ^ 64 <=? zlen (concat cs) then Panic else Ok (raw512 iv (concat cs)).
Proof.
  intros A.
  destruct (feed_run _ _ _ _ _ _ _ A (ctx_new 128 iv) cs (new_run _ _ _ _ _ _ _ A)) as (c & H1 & H2).
  exists c. split; [exact H1|].
  change (ctx_finish (compress_blocks sha512_params) 128 16 (2^128) (regs_bytes 8) c)
    with (ctx_finish (compress_blocks sha512_params) (block_sz sha512_params) (Z.to_nat (2 * 8)) (2^128) (regs_bytes (Z.to_nat 8)) c).
  rewrite (finish_run _ _ _ _ _ _ _ A (concat cs) c H2).
  pose proof (zlen_nonneg (concat cs)).
  replace ((USIZE_MAX <? zlen (concat cs)) || (2 ^ 128 <=? 8 * zlen (concat cs))) with (2 ^ 64 <=? zlen (concat cs)).
  - reflexivity.
  - unfold USIZE_MAX. lia.
Qed.

Lemma feed384_updates cs (c : sha_ctx regs) : feed Sha384 c cs = updates (compress_blocks sha512_params) 128 c cs.
Proof.
  revert c. induction cs; intros s; [reflexivity|]. cbn [feed updates].
  change (ha_update Sha384 s a) with (ctx_update (compress_blocks sha512_params) 128 s a).
  destruct (ctx_update (compress_blocks sha512_params) 128 s a); cbn [bind]; auto.
Qed.
Lemma feed512_updates cs (c : sha_ctx regs) : feed Sha512 c cs = updates (compress_blocks sha512_params) 128 c cs.
Proof.
  revert c. induction cs; intros s; [reflexivity|]. cbn [feed updates].
  change (ha_update Sha512 s a) with (ctx_update (compress_blocks sha512_params) 128 s a).
  destruct (ctx_update (compress_blocks sha512_params) 128 s a); cbn [bind]; auto.
Qed.

Lemma feed384 cs : exists c, feed Sha384 (ha_new Sha384) cs = Ok c /\
  ha_finish Sha384 c = if 2 ^ 64 <=? zlen (concat cs) then Panic else Ok (ztake 48 (raw512 sha384_iv (concat cs))).
Proof.
  destruct (feed512_gen sha384_iv H0_384 cs A384) as (c & H1 & H2).
  exists c. split.
  - refine (eq_trans _ H1). apply feed384_updates.
  - change (ha_finish Sha384 c) with (let! o := ctx_finish (compress_blocks sha512_params) 128 16 (2^128) (regs_bytes 8) c in Ok (ztake 48 o)).
    rewrite H2. destruct (2 ^ 64 <=? zlen (concat cs)); reflexivity.
Qed.
Lemma feed512 cs : exists c, feed Sha512 (ha_new Sha512) cs = Ok c /\
  ha_finish Sha512 c = if 2 ^ 64 <=? zlen (concat cs) then Panic else Ok (raw512 sha512_iv (concat cs)).
Proof.
  destruct (feed512_gen sha512_iv H0_512 cs A512) as (c & H1 & H2).
  exists c. split; [refine (eq_trans _ H1); apply feed512_updates|exact H2].
Qed.

Lemma raw256_spec m : bytes m -> raw256 m = SHA256 m.
Proof.
  intros. symmetry.
  exact (fips_hash_alt _ _ _ _ _ _ _ A256 m H).
Qed.
Lemma raw512_spec m : bytes m -> raw512 sha512_iv m = SHA512 m.
Proof.
  intros. symmetry.
  exact (fips_hash_alt _ _ _ _ _ _ _ A512 m H).
Qed.
Lemma raw384_spec m : bytes m -> ztake 48 (raw512 sha384_iv m) = SHA384 m.
Proof.
  intros. unfold SHA384. change (firstn 48) with (@ztake Z 48). f_equal. symmetry.
  exact (fips_hash_alt _ _ _ _ _ _ _ A384 m H).
Qed.

(** sizes *)
Lemma regs_bytes_len wb s : zlen (regs_bytes wb s) = 8 * Z.of_nat wb.
Proof.
  destruct s as [[[[[[[? ?] ?] ?] ?] ?] ?] ?]. unfold regs_bytes. cbn [flat_map].
  rewrite !zlen_app, !zlen_be_bytes. change (zlen (@nil Z)) with 0. lia.
Qed.
Lemma regs_bytes_bytes wb s : bytes (regs_bytes wb s).
Proof.
  destruct s as [[[[[[[? ?] ?] ?] ?] ?] ?] ?]. unfold regs_bytes. cbn [flat_map].
  rewrite !bytes_app. repeat split; try apply be_bytes_bytes. constructor.
Qed.
