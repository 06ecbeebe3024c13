(** Rejection sampling: the library's SHAKE128 sampling loops against Algorithm 7 of FIPS 203. *)
Require Import Verif.Base Verif.L_Base Verif.L_Blocks Verif.M_Sha3 Verif.S_Sha3 Verif.L_Poly1305 Verif.L_Sha3 Verif.T_Sha3
  Verif.S_MlKem Verif.M_MlKem Verif.S_MlKemAsm Verif.L_MlKemEnc Verif.L_GhashAdd.
Require Import ZifyNat.
Local Opaque keccak_f keccak_p RC round_constants set_words.

(** ** The specification: prefixes of the stream *)
Definition absorbed (m : list Z) : list Z := sponge_absorb (200 - 32) (bits_of_bytes m ++ [true; true; true; true]).
Definition lt_q (x : Z) : bool := x <? q.

Section Stream.
Variable kf : list Z -> list Z -> list Z.
Hypothesis Hkf : keccak_asm_ok kf.

Lemma reps_block_bytes S0 qn s : reps S0 qn s -> bytes (ztake 168 (Nat.iter qn keccak_bytes S0)) /\ zlen (ztake 168 (Nat.iter qn keccak_bytes S0)) = 168.
Proof.
  intros [OK <-]. split; [|rewrite zlen_ztake; auto; rewrite (bytes_len kf Hkf) by auto; lia].
  apply bytes_ztake. unfold bytes_of_lanes. apply L_Hmac.bytes_concat. apply Forall_map, Forall_forall. intros. apply le_bytes_bytes.
Qed.
Lemma reps_any S0 s : reps S0 0 s -> forall n, exists s', reps S0 n s'.
Proof. intros H n. induction n as [|n (s' & IH)]; eauto using reps_kf. Qed.
Lemma reps_shift S0 s : forall n, reps S0 n s -> forall k, exists s', reps S0 (n + k) s'.
Proof. intros n H k. induction k as [|k (s' & IH)]; [exists s; rewrite Nat.add_0_r; auto|]. exists (kf s' RC). rewrite Nat.add_succ_r. apply reps_kf; auto. Qed.
Lemma iter_add {A} (f : A -> A) a b x : Nat.iter (a + b) f x = Nat.iter b f (Nat.iter a f x).
Proof. rewrite Nat.add_comm. induction b; cbn; auto. f_equal; auto. Qed.
Lemma blocks_facts S0 : forall k n s, reps S0 n s -> bytes (squeeze_blocks 168 k (Nat.iter n keccak_bytes S0)) /\ zlen (squeeze_blocks 168 k (Nat.iter n keccak_bytes S0)) = Z.of_nat k * 168.
Proof.
  induction k as [|k IH]; intros n s Hs; cbn [squeeze_blocks]. { split; [constructor|reflexivity]. }
  destruct (reps_block_bytes _ _ _ Hs) as [B1 B2]. destruct (IH (S n) _ (reps_kf kf Hkf _ _ _ Hs)) as [C1 C2]. cbn [Nat.iter nat_rect] in C1, C2.
  split; [apply bytes_app; auto|]. rewrite zlen_app, B2. unfold Nat.iter at 1. rewrite C2. lia.
Qed.
Lemma shake_blocks m s k d : reps (absorbed m) 0 s -> 0 <= d <= Z.of_nat k * 168 -> SHAKE128 m d = ztake d (squeeze_blocks 168 k (absorbed m)).
Proof.
  intros Hs Hd. unfold SHAKE128, SPONGE. fold (absorbed m). apply (prefix_blocks kf Hkf 168); try lia.
  - apply (reps_block kf Hkf 168 _ s); auto. lia.
Qed.

(** ** tail_case: exactly the candidates below q among the next [fuel] candidates *)
Definition pending (S0 : list Z) (n B : nat) (i : it12) : list Z :=
  zdrop (it_used i) (it_samples i) ++ twelve_bits (squeeze_blocks 168 B (Nat.iter n keccak_bytes S0)).
Definition it_ok (S0 : list Z) (n : nat) (i : it12) : Prop := reps S0 n (it_s i) /\ 0 <= it_used i <= zlen (it_samples i).

Lemma next_ok S0 n B i : it_ok S0 n i -> pending S0 n B i <> [] ->
  exists x i' n' B', it_next kf i = Ok (x, i') /\ it_ok S0 n' i' /\ pending S0 n B i = x :: pending S0 n' B' i'.
Proof.
  intros [Hs Hu] HP. unfold it_next. destruct (it_used i =? zlen (it_samples i)) eqn:E.
  - unfold pending in HP. rewrite zdrop_all in HP by lia. cbn [app] in HP. destruct B as [|B]; [cbn in HP; congruence|].
    destruct (squeeze_ok kf Hkf 168 S0 1 n (it_s i) ltac:(lia) ltac:(lia) Hs) as (s' & E1 & Hs').
    change (1 * 168) with 168 in E1. change SHAKE_128_R_BYTES with 168. rewrite E1. cbn [bind].
    change (Z.to_nat 1) with 1%nat in *. cbn [squeeze_blocks]. rewrite app_nil_r.
    destruct (reps_block_bytes _ _ _ Hs) as [B1 B2]. set (blk := ztake 168 (Nat.iter n keccak_bytes S0)) in *.
    rewrite (two_samples_all 56) by (auto; lia). pose proof (twelve_bits_len 56 blk ltac:(lia)) as L. cbn [it_used it_samples it_s].
    rewrite L. cbn [orb Z.ltb Z.leb Z.of_nat Pos.of_succ_nat Pos.succ Z.mul Pos.mul Z.compare Pos.compare Pos.compare_cont].
    destruct (twelve_bits blk) as [|x xs] eqn:Ex; [discriminate L|].
    eexists _, _, (n + 1)%nat, B. split; [reflexivity|]. split.
    + split; cbn [it_s it_used it_samples]; auto. rewrite L. lia.
    + unfold pending at 1. rewrite zdrop_all by lia. cbn [app squeeze_blocks]. fold blk.
      rewrite (twelve_bits_app 56) by (rewrite B2; reflexivity). rewrite Ex. unfold pending. cbn [it_used it_samples]. cbn [app]. 
      rewrite iter_add. reflexivity.
  - cbn [bind]. replace ((it_used i <? 0) || (zlen (it_samples i) <=? it_used i)) with false by lia.
    eexists _, _, n, B. split; [reflexivity|]. split. { split; cbn [it_s it_used it_samples]; auto; lia. }
    unfold pending. cbn [it_used it_samples]. unfold znth, zdrop.
    replace (Z.to_nat (it_used i + 1)) with (S (Z.to_nat (it_used i))) by lia.
    assert (X : forall (l : list Z) k d, (k < length l)%nat -> skipn k l = nth k l d :: skipn (S k) l).
    { clear. induction l as [|y l IH]; intros [|k] d H; cbn [length] in H; try lia; auto. cbn [skipn nth]. apply IH. lia. }
    rewrite (X _ _ 0) by (unfold zlen in *; lia). reflexivity.
Qed.
Lemma tail_case_exact S0 : forall fuel n B i m, it_ok S0 n i -> (fuel <= length (pending S0 n B i))%nat ->
  tail_case kf fuel i m = let l := filter lt_q (firstn fuel (pending S0 n B i)) in if (m <=? length l)%nat then Ok (firstn m l) else Panic.
Proof.
  induction fuel as [|fuel IH]; intros n B i m Hi Hf.
  - destruct m; reflexivity.
  - cbn [tail_case]. destruct m as [|m]; [reflexivity|].
    destruct (next_ok S0 n B i Hi) as (x & i' & n' & B' & E1 & Hi' & E2). { intros X. rewrite X in Hf. cbn in Hf. lia. }
    rewrite E1. cbn [bind]. rewrite E2. rewrite E2 in Hf. cbn [length] in Hf. cbn [firstn filter]. change (x <? Q) with (lt_q x).
    destruct (lt_q x).
    + rewrite (IH n' B' i' m Hi') by lia. cbv zeta. cbn [length Nat.leb]. destruct (m <=? _)%nat; reflexivity.
    + apply (IH n' B' i' (S m) Hi'). lia.
Qed.
End Stream.

Lemma firstn_app_min {A} n (a b : list A) : firstn n (a ++ b) = firstn n a ++ firstn (n - length a) b.
Proof. apply firstn_app. Qed.
Lemma filter_prefix {A} (p : A -> bool) n l : exists r, filter p l = filter p (firstn n l) ++ r.
Proof. exists (filter p (skipn n l)). rewrite <- filter_app, firstn_skipn. reflexivity. Qed.
Lemma accepted_prefix m a b : zlen a = 3 * Z.of_nat m -> accepted (a ++ b) = accepted a ++ accepted b.
Proof. intros H. unfold accepted. rewrite (twelve_bits_app m) by auto. apply filter_app. Qed.
Lemma firstn_prefix {A} k (a b : list A) : length (firstn k a) = k -> firstn k (a ++ b) = firstn k a.
Proof. intros H. rewrite firstn_app. rewrite firstn_length in H. replace (k - length a)%nat with 0%nat by lia. rewrite app_nil_r. reflexivity. Qed.

Section Sample.
Variable kf : list Z -> list Z -> list Z.
Hypothesis Hkf : keccak_asm_ok kf.
Variable a : asm.
Variable ord : list nat.
Hypothesis Ha : asm_ok ord a.

Lemma sample_mono m s it it' : reps (absorbed m) 0 s -> 0 <= it -> it <= it' -> sampled it m -> SampleNTT it' m = SampleNTT it m.
Proof.
  intros Hs H0 Hle Hn. unfold sampled, SampleNTT in *.
  rewrite (shake_blocks kf Hkf m s (Z.to_nat (3 * it')) (3 * it')) by (auto; lia).
  rewrite (shake_blocks kf Hkf m s (Z.to_nat (3 * it')) (3 * it)) in * by (auto; lia).
  set (X := squeeze_blocks 168 (Z.to_nat (3 * it')) (absorbed m)) in *.
  pose proof (blocks_facts kf Hkf (absorbed m) (Z.to_nat (3 * it')) 0 s Hs) as [_ L]. cbn [Nat.iter nat_rect] in L. fold X in L.
  rewrite <- (ztake_zdrop (3 * it) (ztake (3 * it') X)). rewrite ztake_ztake by lia.
  rewrite (accepted_prefix (Z.to_nat it)) by (rewrite zlen_ztake; lia). apply firstn_prefix. auto.
Qed.
Lemma sampled_mono m s it it' : reps (absorbed m) 0 s -> 0 <= it -> it <= it' -> sampled it m -> sampled it' m.
Proof. intros Hs H0 Hl Hn. unfold sampled. rewrite (sample_mono m s it it'); auto. Qed.

(** one polynomial: three blocks sampled by the vector code, then the tail *)
Lemma sample_rest_ok fuel m s0 s out it : reps (absorbed m) 0 s0 -> reps (absorbed m) 3 s -> length out = n256 -> bytes m ->
  0 <= it -> sampled it m -> (Z.to_nat (2 * it) <= fuel)%nat ->
  sample_rest kf a fuel (SHAKE128 m (3 * 168)) out s = Ok (SampleNTT it m).
Proof.
  intros Hs0 Hs Lo Hm Hit Hsam Hfuel. unfold sample_rest.
  set (b := SHAKE128 m (3 * 168)). pose proof (ok_rej ord a Ha out b Lo) as R.
  set (NB := (Z.to_nat it + fuel)%nat). 
  pose proof (blocks_facts kf Hkf (absorbed m) 3 0 s0 Hs0) as [B3 L3]. cbn [Nat.iter nat_rect] in B3, L3.
  assert (Eb : b = squeeze_blocks 168 3 (absorbed m)). { unfold b. rewrite (shake_blocks kf Hkf m s0 3) by (auto; lia). apply ztake_all. lia. }
  assert (Lb : zlen b = 504) by (rewrite Eb; lia). assert (Bb : bytes b) by (rewrite Eb; auto).
  specialize (R Bb ltac:(rewrite Lb; reflexivity)). destruct (a_rej a out b) as [out' used]. destruct R as (R1 & R2 & R3).
  pose proof (zlen_nonneg (accepted b)) as Z0.
  assert (Lo' : zlen out' = 256) by (unfold zlen; rewrite R1; reflexivity).
  rewrite Lo'. replace ((used <? 0) || (256 <? used)) with false by lia.
  (* the specification on the whole stream *)
  set (rest := squeeze_blocks 168 NB (Nat.iter 3 keccak_bytes (absorbed m))).
  pose proof (blocks_facts kf Hkf (absorbed m) NB 3 s Hs) as [Br Lr]. fold rest in Br, Lr.
  assert (ES : SampleNTT it m = firstn n256 (accepted b ++ accepted rest)).
  { set (it' := 168 + 56 * Z.of_nat NB). rewrite <- (sample_mono m s0 it it') by (auto; unfold it'; lia).
    unfold SampleNTT. f_equal. rewrite (shake_blocks kf Hkf m s0 (3 + NB)) by (auto; unfold it'; lia).
    rewrite (blocks_app kf Hkf). rewrite ztake_all. 2:{ rewrite zlen_app, L3. fold rest. rewrite Lr. unfold it'. lia. }
    rewrite <- Eb. fold rest. apply (accepted_prefix 168). rewrite Lb. reflexivity. }
  destruct (used =? 256) eqn:E.
  - f_equal. assert (EO : out' = firstn (Z.to_nat used) out'). { replace used with 256 by lia. symmetry. apply firstn_all2. rewrite R1. unfold n256. lia. }
    rewrite EO, R3, ES. symmetry. apply firstn_prefix. rewrite firstn_length. unfold zlen, n256 in *. lia.
  - set (i := it_new s). assert (Hi : it_ok (absorbed m) 3 i).
    { split; [exact Hs|]. unfold i, it_new. cbn [it_used it_samples]. rewrite zlen_repeat. cbn. lia. }
    assert (EP : pending (absorbed m) 3 NB i = twelve_bits rest).
    { unfold pending, i, it_new. cbn [it_used it_samples]. rewrite zdrop_all by (rewrite zlen_repeat; cbn; lia). reflexivity. }
    pose proof (twelve_bits_len (56 * NB) rest ltac:(rewrite Lr; lia)) as LT.
    rewrite (tail_case_exact kf Hkf (absorbed m) fuel 3 NB i _ Hi) by (rewrite EP; unfold zlen in LT; lia).
    cbv zeta. rewrite EP. set (l := filter lt_q (firstn fuel (twelve_bits rest))).
    assert (US : used = zlen (accepted b)) by lia. assert (LA : length (accepted b) = Z.to_nat used) by (unfold zlen in US; lia).
    (* the candidates of the first [it] triples are among the first [fuel] of the rest *)
    assert (PF : exists r, accepted b ++ l = accepted (SHAKE128 m (3 * it)) ++ r).
    { rewrite (shake_blocks kf Hkf m s0 (3 + NB)) by (auto; unfold NB; lia). rewrite (blocks_app kf Hkf), <- Eb. fold rest.
      destruct (Z.le_gt_cases it 168).
      - rewrite ztake_app_le by lia. exists (accepted (zdrop (3 * it) b) ++ l). rewrite app_assoc. f_equal.
        rewrite <- (accepted_prefix (Z.to_nat it)), ztake_zdrop; auto. rewrite zlen_ztake; lia.
      - rewrite ztake_app_ge by lia. rewrite (accepted_prefix 168) by (rewrite Lb; reflexivity). rewrite Lb.
        set (g := 3 * it - 504). exists (filter lt_q (skipn (Z.to_nat (2 * (it - 168))) (firstn fuel (twelve_bits rest)))).
        rewrite <- app_assoc. f_equal. unfold l, accepted. rewrite <- (firstn_skipn (Z.to_nat (2 * (it - 168))) (firstn fuel (twelve_bits rest))) at 1.
        rewrite filter_app. f_equal. rewrite firstn_firstn, Nat.min_l by lia. 
        change (fun d : Z => d <? q) with lt_q. f_equal.
        rewrite <- (ztake_zdrop g rest) at 1. rewrite (twelve_bits_app (Z.to_nat (it - 168))) by (rewrite zlen_ztake; unfold g, NB in *; lia).
        pose proof (twelve_bits_len (Z.to_nat (it - 168)) (ztake g rest) ltac:(rewrite zlen_ztake; unfold g, NB in *; lia)) as X.
        rewrite firstn_app. rewrite firstn_all2 by (unfold zlen in X; lia).
        replace (Z.to_nat (2 * (it - 168)) - _)%nat with 0%nat by (unfold zlen in X; lia). rewrite firstn_O, app_nil_r. reflexivity. }
    destruct PF as (r & PF).
    assert (LL : (256 <= length (accepted b ++ l))%nat).
    { rewrite PF, app_length. unfold sampled, SampleNTT in Hsam. rewrite firstn_length in Hsam. unfold n256 in Hsam. lia. }
    rewrite app_length in LL. replace (Z.to_nat (256 - used) <=? length l)%nat with true by lia. cbn [bind]. f_equal.
    rewrite ES. rewrite firstn_app. rewrite (firstn_all2 (n := n256)) by (unfold n256; lia). f_equal.
    { unfold ztake. rewrite R3. apply firstn_all2. unfold n256; lia. }
    rewrite LA. replace (n256 - Z.to_nat used)%nat with (Z.to_nat (256 - used)) by (unfold n256; lia).
    destruct (filter_prefix lt_q fuel (twelve_bits rest)) as (r' & X).
    change (accepted rest) with (filter lt_q (twelve_bits rest)). rewrite X. fold l. symmetry. apply firstn_prefix. rewrite firstn_length. lia.
Qed.
(** ... and a result can only be the specification's *)
Lemma sample_rest_only fuel m s0 s out r : reps (absorbed m) 0 s0 -> reps (absorbed m) 3 s -> length out = n256 -> bytes m ->
  sample_rest kf a fuel (SHAKE128 m (3 * 168)) out s = Ok r -> exists it, 0 <= it /\ sampled it m /\ r = SampleNTT it m.
Proof.
  intros Hs0 Hs Lo Hm HR. destruct (Nat.eq_dec 0 0) as [_|]; [|congruence].
  assert (X : exists it, 0 <= it /\ sampled it m).
  { unfold sample_rest in HR. set (b := SHAKE128 m (3 * 168)) in *. pose proof (ok_rej ord a Ha out b Lo) as R.
    pose proof (blocks_facts kf Hkf (absorbed m) 3 0 s0 Hs0) as [B3 L3]. cbn [Nat.iter nat_rect] in B3, L3.
    assert (Eb : b = squeeze_blocks 168 3 (absorbed m)). { unfold b. rewrite (shake_blocks kf Hkf m s0 3) by (auto; lia). apply ztake_all. lia. }
    assert (Lb : zlen b = 504) by (rewrite Eb; lia). assert (Bb : bytes b) by (rewrite Eb; auto).
    specialize (R Bb ltac:(rewrite Lb; reflexivity)). destruct (a_rej a out b) as [out' used]. destruct R as (R1 & R2 & R3).
    assert (Lo' : zlen out' = 256) by (unfold zlen; rewrite R1; reflexivity). rewrite Lo' in HR.
    pose proof (zlen_nonneg (accepted b)) as Z0.
    replace ((used <? 0) || (256 <? used)) with false in HR by lia. destruct (used =? 256) eqn:E.
    - exists 168. split; [lia|]. unfold sampled, SampleNTT. change (3 * 168) with (3 * 168) . fold b. rewrite firstn_length. unfold zlen, n256 in *. lia.
    - set (rest := squeeze_blocks 168 fuel (Nat.iter 3 keccak_bytes (absorbed m))).
      pose proof (blocks_facts kf Hkf (absorbed m) fuel 3 s Hs) as [Br Lr]. fold rest in Br, Lr.
      set (i := it_new s) in *. assert (Hi : it_ok (absorbed m) 3 i).
      { split; [exact Hs|]. unfold i, it_new. cbn [it_used it_samples]. rewrite zlen_repeat. cbn. lia. }
      assert (EP : pending (absorbed m) 3 fuel i = twelve_bits rest).
      { unfold pending, i, it_new. cbn [it_used it_samples]. rewrite zdrop_all by (rewrite zlen_repeat; cbn; lia). reflexivity. }
      pose proof (twelve_bits_len (56 * fuel) rest ltac:(rewrite Lr; lia)) as LT.
      rewrite (tail_case_exact kf Hkf (absorbed m) fuel 3 fuel i _ Hi) in HR by (rewrite EP; unfold zlen in LT; lia).
      cbv zeta in HR. rewrite EP in HR. destruct (_ <=? _)%nat eqn:E2 in HR; [|discriminate].
      exists (168 + 56 * Z.of_nat fuel). split; [lia|]. unfold sampled, SampleNTT.
      rewrite (shake_blocks kf Hkf m s0 (3 + fuel)) by (auto; lia). rewrite (blocks_app kf Hkf), <- Eb. fold rest.
      rewrite ztake_all by (rewrite zlen_app; lia). rewrite (accepted_prefix 168) by (rewrite Lb; reflexivity).
      rewrite firstn_length, app_length. destruct (filter_prefix lt_q fuel (twelve_bits rest)) as (r' & X).
      change (accepted rest) with (filter lt_q (twelve_bits rest)). rewrite X, app_length.
      unfold zlen, n256 in *. lia. }
  destruct X as (it & H0 & HS).
  (* whatever the fuel, more fuel gives the same answer *)
  exists it. sp; auto.
  assert (MONO : forall f f' i k x, tail_case kf f i k = Ok x -> (f <= f')%nat -> tail_case kf f' i k = Ok x).
  { clear. induction f as [|f IH]; intros f' i k x H Hl.
    - destruct k; [|discriminate]. destruct f'; exact H.
    - destruct f' as [|f']; [lia|]. destruct k as [|k]; [exact H|]. cbn [tail_case] in *.
      destruct (it_next kf i) as [[y i']| |]; cbn [bind] in *; try discriminate.
      destruct (y <? Q).
      + destruct (tail_case kf f i' k) as [t| |] eqn:E; cbn [bind] in H; try discriminate. rewrite (IH f' i' k t E) by lia. exact H.
      + apply (IH f' i' (S k) x H). lia. }
  pose proof (sample_rest_ok (fuel + Z.to_nat (2 * it)) m s0 s out it Hs0 Hs Lo Hm H0 HS ltac:(lia)) as G.
  unfold sample_rest in *. destruct (a_rej a out _) as [out' used]. destruct (_ || _); [discriminate|]. destruct (used =? _).
  - congruence.
  - destruct (tail_case kf fuel _ _) as [t| |] eqn:E; cbn [bind] in HR; try discriminate.
    rewrite (MONO _ (fuel + Z.to_nat (2 * it))%nat _ _ _ E ltac:(lia)) in G. cbn [bind] in G. congruence.
Qed.
End Sample.

(** ** The nine polynomials of the matrix *)
Lemma zl256 (l : list Z) : length l = n256 <-> zlen l = 256.
Proof. unfold zlen, n256. lia. Qed.
Lemma SampleNTT_len it m : sampled it m -> zlen (SampleNTT it m) = 256.
Proof. intros H. apply zl256, H. Qed.
Lemma SampleNTT_canon it m : bytes (SHAKE128 m (3 * it)) -> canon (SampleNTT it m).
Proof.
  intros Hb. unfold SampleNTT, canon. apply Forall_forall. intros x Hx.
  assert (Hi : In x (accepted (SHAKE128 m (3 * it)))).
  { rewrite <- (firstn_skipn n256). apply in_or_app. auto. }
  unfold accepted in Hi. apply filter_In in Hi as [Hi Hlt]. split; [|lia].
  clear Hx Hlt. revert Hb Hi. generalize (SHAKE128 m (3 * it)). intros l. revert x.
  enough (G : forall n l, (length l <= n)%nat -> forall x, bytes l -> In x (twelve_bits l) -> 0 <= x) by (intros; eapply G; eauto).
  clear l. induction n as [|n IH]; intros l Hl x Hb Hi.
  - destruct l; [destruct Hi|cbn in Hl; lia].
  - destruct l as [|c0 [|c1 [|c2 r]]]; try destruct Hi.
    + inversion_clear Hb. inversion_clear H1. inversion_clear H3. unfold byte_ok in *. subst x. pose proof (Z.mod_pos_bound c1 16). lia.
    + inversion_clear Hb. inversion_clear H1. inversion_clear H3. destruct H as [<-|H].
      * unfold byte_ok in *. pose proof (Z.div_pos c1 16). lia.
      * eapply IH; [|exact H4|exact H]. cbn in Hl. lia.
Qed.

Section Matrix.
Variable kf : list Z -> list Z -> list Z.
Variable kf4 : list (list Z) -> list Z -> list (list Z).
Hypothesis Hkf : keccak_asm_ok kf.
Hypothesis Hkf4 : keccak4_asm_ok kf4.
Variable a : asm.
Variable ord : list nat.
Hypothesis Ha : asm_ok ord a.

Lemma absorbed_reps m : bytes m -> exists s, reps (absorbed m) 0 s.
Proof.
  intros Hm.
  assert (HR : rate 168) by (exists 21%nat; cbn; lia).
  destruct (SInv_absorbs kf Hkf 168 [m] [] (sponge_new 168) HR bytes_nil ltac:(auto) (SInv_new kf Hkf 168 HR)) as (sp & E0 & I).
  cbn [app concat] in I. rewrite app_nil_r in I.
  destruct (SInv_final kf Hkf 168 SHAKE_PAD_BYTE _ m sp HR ltac:(lia) pad_shake Hm I) as (A & E1 & OK & E2).
  exists A. split; auto.
Qed.
Lemma new_for_message_reps message : Forall bytes message ->
  exists s, new_for_message kf SHAKE_128_R_BYTES SHAKE_PAD_BYTE message = Ok s /\ reps (absorbed (concat message)) 0 s.
Proof.
  intros Hm. assert (HR : rate 168) by (exists 21%nat; cbn; lia). change SHAKE_128_R_BYTES with 168.
  destruct (SInv_absorbs kf Hkf 168 message [] (sponge_new 168) HR bytes_nil Hm (SInv_new kf Hkf 168 HR)) as (sp & E0 & I).
  assert (Hb : bytes (concat message)) by (apply L_Hmac.bytes_concat; auto).
  destruct (SInv_final kf Hkf 168 SHAKE_PAD_BYTE _ (concat message) sp HR ltac:(lia) pad_shake Hb I) as (A & E1 & OK & E2).
  exists A. split; [|split; auto]. unfold new_for_message. rewrite E0. cbn [bind]. exact E1.
Qed.
Lemma shake128_facts m d : bytes m -> 0 <= d -> bytes (SHAKE128 m d) /\ zlen (SHAKE128 m d) = d.
Proof.
  intros Hm Hd. destruct (absorbed_reps m Hm) as (s & Hs). rewrite (shake_blocks kf Hkf m s (Z.to_nat d) d) by (auto; lia).
  destruct (blocks_facts kf Hkf (absorbed m) (Z.to_nat d) 0 s Hs) as [B L]. cbn [Nat.iter nat_rect] in B, L.
  split; [apply bytes_ztake; auto|apply zlen_ztake; lia].
Qed.
Lemma sample_canon it m : bytes m -> 0 <= it -> canon (SampleNTT it m).
Proof. intros Hm Hi. apply SampleNTT_canon; auto. apply shake128_facts; auto. lia. Qed.

Lemma sample_into_ok fuel message out it : Forall bytes message -> length out = n256 -> 0 <= it -> sampled it (concat message) ->
  (Z.to_nat (2 * it) <= fuel)%nat -> sample_into kf a fuel message out = Ok (SampleNTT it (concat message)).
Proof.
  intros Hm Lo Hit Hs Hf. unfold sample_into. destruct (new_for_message_reps message Hm) as (s & -> & R0). cbn [bind].
  change (SHAKE_128_R_BYTES * 3) with (3 * 168). change SHAKE_128_R_BYTES with 168.
  destruct (squeeze_ok kf Hkf 168 _ 3 0 s ltac:(lia) ltac:(lia) R0) as (s' & -> & R3). cbn [bind]. change (Z.to_nat 3) with 3%nat in *. cbn [Nat.iter nat_rect].
  assert (Hb : bytes (concat message)) by (apply L_Hmac.bytes_concat; auto).
  rewrite <- (ztake_all (3 * 168) (squeeze_blocks 168 3 _)).
  2:{ destruct (blocks_facts kf Hkf (absorbed (concat message)) 3 0 s R0) as [_ L]. cbn [Nat.iter nat_rect] in L. lia. }
  rewrite <- (shake_blocks kf Hkf _ s 3 (3 * 168)) by (auto; lia). eapply sample_rest_ok; eauto.
Qed.
Lemma quad_ok fuel it rho inputs outputs : bytes rho -> zlen rho = 32 -> length inputs = 4%nat -> Forall bytes inputs -> Forall (fun i => zlen i = 2) inputs ->
  length outputs = 4%nat -> Forall (fun o => length o = n256) outputs -> 0 <= it -> Forall (fun i => sampled it (rho ++ i)) inputs -> (Z.to_nat (2 * it) <= fuel)%nat ->
  sample_poly_ntt_quad kf kf4 a fuel rho inputs outputs = Ok (map (fun i => SampleNTT it (rho ++ i)) inputs).
Proof.
  intros Hr Lr Li Hi Zi Lo Ho Hit Hs Hf. unfold sample_poly_ntt_quad.
  destruct (four_way_reps kf kf4 Hkf Hkf4 (map (fun i => rho ++ i) inputs)) as (states & owed & E1 & E2 & E3 & F).
  { apply Forall_map. eapply Forall_impl; [|exact Hi]. intros. apply bytes_app; auto. }
  { apply Forall_map. eapply Forall_impl; [|exact Zi]. cbn. intros. rewrite zlen_app. lia. }
  { rewrite map_length. auto. }
  replace (map (quad_buf rho) inputs) with (map slot40 (map (fun i => rho ++ i) inputs)).
  2:{ rewrite map_map. apply map_ext_in. intros i Hin. rewrite Forall_forall in Zi. specialize (Zi i Hin). unfold slot40, quad_buf. rewrite zlen_app, Zi, Lr.
      rewrite <- app_assoc. reflexivity. }
  rewrite E1. cbn [bind]. rewrite E2. cbn [bind].
  destruct inputs as [|i0 [|i1 [|i2 [|i3 [|]]]]]; try discriminate. destruct owed as [|s0 [|s1 [|s2 [|s3 [|]]]]]; try discriminate.
  destruct outputs as [|o0 [|o1 [|o2 [|o3 [|]]]]]; try discriminate. cbn [map].
  repeat match goal with H : Forall _ (_ :: _) |- _ => inversion_clear H end.
  assert (G : forall j m s o, nth_error (map (fun i => rho ++ i) [i0; i1; i2; i3]) j = Some m -> nth_error [s0; s1; s2; s3] j = Some s ->
     bytes m -> length o = n256 -> sampled it m -> sample_rest kf a fuel (SHAKE128 m (3 * 168)) o (restitute kf s) = Ok (SampleNTT it m)).
  { intros j m s o Hm Hsj Hbm Hlo Hsm. destruct (F j m s Hm Hsj) as (B & -> & RB & _). fold (absorbed m) in RB.
    destruct (absorbed_reps m Hbm) as (z & Hz). pose proof (reps_kf kf Hkf _ _ _ RB) as R3. fold (restitute kf s) in R3.
    exact (sample_rest_ok kf Hkf a ord Ha fuel m z (restitute kf s) o it Hz R3 Hlo Hbm Hit Hsm Hf). }
  clear E1 E2 F.
  assert (B0 : forall i, bytes i -> bytes (rho ++ i)) by (intros; apply bytes_app; auto).
  rewrite (G 0%nat (rho ++ i0) s0 o0) by (first [reflexivity|assumption|apply B0; assumption]). cbn [bind].
  rewrite (G 1%nat (rho ++ i1) s1 o1) by (first [reflexivity|assumption|apply B0; assumption]). cbn [bind].
  rewrite (G 2%nat (rho ++ i2) s2 o2) by (first [reflexivity|assumption|apply B0; assumption]). cbn [bind].
  rewrite (G 3%nat (rho ++ i3) s3 o3) by (first [reflexivity|assumption|apply B0; assumption]). cbn [bind]. reflexivity.
Qed.

(** the nine seeds of a matrix *)
Definition matrix_sampled (it : Z) (rho : list Z) : Prop :=
  Forall (fun i => Forall (fun j => sampled it (rho ++ [j; i])) [0; 1; 2]) [0; 1; 2].

Lemma splice_mid pre mid post new : zlen new = zlen mid -> splice (pre ++ mid ++ post) (zlen pre) new = pre ++ new ++ post.
Proof.
  intros H. unfold splice. rewrite ztake_app. do 2 f_equal. rewrite H, app_assoc, zdrop_app_ge by (rewrite zlen_app; lia).
  rewrite zlen_app. replace (_ - _) with 0 by lia. apply zdrop_0.
Qed.
Lemma group_ok fuel it tr rho c4 pre mid post : bytes rho -> zlen rho = 32 -> 0 <= it -> (Z.to_nat (2 * it) <= fuel)%nat ->
  length c4 = 4%nat -> work_offs (nth 0 c4 (0, 0, 0)) = zlen pre -> work_offs (nth 3 c4 (0, 0, 0)) = zlen pre + 768 -> zlen mid = 1024 ->
  Forall (fun w => bytes (work_input tr w) /\ zlen (work_input tr w) = 2 /\ sampled it (rho ++ work_input tr w)) c4 ->
  sample_group kf kf4 a fuel tr rho c4 (pre ++ mid ++ post) = Ok (pre ++ concat (map (fun w => SampleNTT it (rho ++ work_input tr w)) c4) ++ post).
Proof.
  intros Hr Lr Hit Hf Lc O0 O3 Lm Hw. unfold sample_group. rewrite O0, O3. change N with 256. change (256 * 4) with 1024.
  replace (zlen pre + 768 + 256 - zlen pre) with 1024 by lia. pose proof (zlen_nonneg post). rewrite !zlen_app, Lm.
  replace (_ || _) with false by lia.
  rewrite zdrop_app_ge by lia. rewrite Z.sub_diag, zdrop_0. rewrite ztake_app_le by lia. rewrite ztake_all by lia.
  destruct (chunk_facts (fun _ => True) 256 4 mid ltac:(lia) ltac:(lia) ltac:(lia)) as (C1 & C3). { apply Forall_forall; auto. }
  rewrite (quad_ok fuel it); auto.
  - cbn [bind]. f_equal. rewrite map_map. apply splice_mid. rewrite Lm.
    destruct c4 as [|w0 [|w1 [|w2 [|w3 [|]]]]]; try discriminate. cbn [map concat].
    repeat match goal with H : Forall _ (_ :: _) |- _ => inversion_clear H end.
    rewrite !zlen_app, !SampleNTT_len by tauto. reflexivity.
  - rewrite map_length. auto.
  - apply Forall_map. eapply Forall_impl; [|exact Hw]. cbn; tauto.
  - apply Forall_map. eapply Forall_impl; [|exact Hw]. cbn; tauto.
  - apply chunk_count; lia.
  - eapply Forall_impl; [|exact C3]. cbn. intros l [X _]. apply zl256. auto.
  - apply Forall_map. eapply Forall_impl; [|exact Hw]. cbn; tauto.
Qed.
Lemma one_ok fuel it tr rho w pre mid : bytes rho -> zlen rho = 32 -> 0 <= it -> (Z.to_nat (2 * it) <= fuel)%nat ->
  work_offs w = zlen pre -> zlen mid = 256 -> bytes (work_input tr w) -> sampled it (rho ++ work_input tr w) ->
  sample_one kf a fuel tr rho w (pre ++ mid) = Ok (pre ++ SampleNTT it (rho ++ work_input tr w)).
Proof.
  intros Hr Lr Hit Hf O Lm Hb Hs. unfold sample_one. rewrite O. change N with 256. rewrite zlen_app, Lm, Z.ltb_irrefl.
  rewrite zdrop_app_ge by lia. rewrite Z.sub_diag, zdrop_0, ztake_all by lia.
  rewrite (sample_into_ok fuel _ mid it); auto; try (cbn [concat]; rewrite app_nil_r; auto).
  - cbn [bind]. f_equal. pose proof (splice_mid pre mid [] (SampleNTT it (rho ++ work_input tr w))) as X.
    rewrite !app_nil_r in X. apply X. rewrite SampleNTT_len; auto.
  - apply zl256. auto.
Qed.
Definition matrix_order (tr : bool) (A : list (list (list Z))) := if tr then transpose A else A.
Lemma matrix_sampled_w it tr rho : matrix_sampled it rho -> Forall (fun w => bytes (work_input tr w) /\ zlen (work_input tr w) = 2 /\ sampled it (rho ++ work_input tr w)) SAMPLE_POLY_WORK.
Proof.
  intros H. unfold matrix_sampled in H. repeat match goal with H : Forall _ (_ :: _) |- _ => inversion_clear H end.
  unfold SAMPLE_POLY_WORK. destruct tr; repeat (apply Forall_cons; [split; [bytes_tac|split; [reflexivity|assumption]]|]); apply Forall_nil.
Qed.
Lemma sample_matrix_ok fuel it tr rho : bytes rho -> zlen rho = 32 -> 0 <= it -> (Z.to_nat (2 * it) <= fuel)%nat -> matrix_sampled it rho ->
  sample_poly_ntt kf kf4 a fuel tr rho = Ok (concat (map (place ord) (concat (matrix_order tr (matrix_A it rho))))).
Proof.
  intros Hr Lr Hit Hf Hm. unfold sample_poly_ntt. pose proof (matrix_sampled_w it tr rho Hm) as HW.
  change (chunks_exact 4 SAMPLE_POLY_WORK) with [firstn 4 SAMPLE_POLY_WORK; firstn 4 (skipn 4 SAMPLE_POLY_WORK)].
  change (zdrop (zlen SAMPLE_POLY_WORK / 4 * 4) SAMPLE_POLY_WORK) with [(2, 2, N * 2 + K * N * 2)].
  set (Sm := fun w => SampleNTT it (rho ++ work_input tr w)).
  assert (HS : Forall (fun w => zlen (Sm w) = 256) SAMPLE_POLY_WORK) by (eapply Forall_impl; [|exact HW]; cbn; intros; apply SampleNTT_len; tauto).
  pose proof HW as HW'. unfold SAMPLE_POLY_WORK in HW'. 
  set (z1 := repeat 0 1024). set (z2 := repeat 0 1024). set (z3 := repeat 0 256).
  replace (repeat 0 (Z.to_nat (K * K * N))) with (z1 ++ z2 ++ z3) by (unfold z1, z2, z3; rewrite <- !repeat_app; reflexivity).
  assert (L1 : zlen z1 = 1024) by (unfold z1; rewrite zlen_repeat; reflexivity). assert (L2 : zlen z2 = 1024) by (unfold z2; rewrite zlen_repeat; reflexivity).
  assert (L3 : zlen z3 = 256) by (unfold z3; rewrite zlen_repeat; reflexivity). clearbody z1 z2 z3.
  set (g1 := firstn 4 SAMPLE_POLY_WORK). set (g2 := firstn 4 (skipn 4 SAMPLE_POLY_WORK)). set (w8 := (2, 2, N * 2 + K * N * 2)).
  assert (EW : SAMPLE_POLY_WORK = g1 ++ g2 ++ [w8]) by reflexivity. 
  rewrite EW in HW, HS. apply Forall_app in HW as [W1 HW]. apply Forall_app in HW as [W2 W3]. apply Forall_inv in W3.
  apply Forall_app in HS as [S1 HS]. apply Forall_app in HS as [S2 S3]. apply Forall_inv in S3.
  assert (CL : forall l, Forall (fun w => zlen (Sm w) = 256) l -> zlen (concat (map Sm l)) = 256 * zlen l).
  { clear. induction 1; cbn [map concat]; [reflexivity|]. rewrite zlen_app, zlen_cons. lia. }
  cbn [fold_res].
  pose proof (group_ok fuel it tr rho g1 [] z1 (z2 ++ z3) Hr Lr Hit Hf eq_refl eq_refl eq_refl L1 W1) as G1. fold Sm in G1. cbn [app] in G1. rewrite G1. cbn [bind].
  pose proof (group_ok fuel it tr rho g2 (concat (map Sm g1)) z2 z3 Hr Lr Hit Hf eq_refl) as G2. fold Sm in G2.
  rewrite (CL g1) in G2 by auto. specialize (G2 eq_refl eq_refl L2 W2). rewrite G2. cbn [bind].
  rewrite app_assoc. pose proof (one_ok fuel it tr rho w8 (concat (map Sm g1) ++ concat (map Sm g2)) z3 Hr Lr Hit Hf) as G3. fold (Sm w8) in G3.
  rewrite zlen_app, (CL g1), (CL g2) in G3 by auto. specialize (G3 eq_refl L3). destruct W3 as (W3 & _ & W3'). specialize (G3 W3 W3').
  rewrite G3. cbn [bind]. f_equal. unfold reorder.
  replace ((concat (map Sm g1) ++ concat (map Sm g2)) ++ Sm w8) with (concat (map Sm (g1 ++ g2 ++ [w8]))).
  2:{ rewrite !map_app, !concat_app. cbn [map concat]. rewrite app_nil_r, app_assoc. reflexivity. }
  rewrite chunks_concat. 2: reflexivity. 2:{ apply Forall_map. change N with 256. rewrite !Forall_app. auto. }
  rewrite <- EW. replace (concat (matrix_order tr (matrix_A it rho))) with (map Sm SAMPLE_POLY_WORK) by (unfold Sm; destruct tr; reflexivity).
  f_equal. apply map_ext_in. intros f Hin. apply (ok_unpack ord a Ha).
  apply in_map_iff in Hin as (w & <- & Hw). apply zl256. assert (HS' : Forall (fun w => zlen (Sm w) = 256) SAMPLE_POLY_WORK) by (rewrite EW, !Forall_app; auto).
  rewrite Forall_forall in HS'. auto.
Qed.
End Matrix.
