(** C11: SHA-3 and SHAKE as offered by the API are the FIPS 202 functions. *)
Require Import Verif.Base Verif.L_Base Verif.L_Blocks Verif.M_Blockwise Verif.M_Sha3 Verif.S_Sha3 Verif.L_Poly1305 Verif.L_Sha3.
Require Import ZifyNat.
Ltac sp := repeat match goal with |- _ /\ _ => split end.

(** The table of round constants compiled into the library is the one FIPS 202 derives from the LFSR. *)
Theorem C11_round_constants : RC = round_constants.
Proof. exact RC_ok. Qed.
Print Assumptions C11_round_constants.

Lemma sha3_hash_ok kf R out pieces : keccak_asm_ok kf -> rate R -> 24 <= R <= 168 -> 0 <= out < R -> Forall bytes pieces ->
  sha3_hash kf R out pieces = Ok (SPONGE R (bits_of_bytes (concat pieces) ++ [false; true]) out).
Proof.
  intros Hkf HR HR2 Ho Hp. unfold sha3_hash.
  destruct (SInv_absorbs kf Hkf R pieces [] (sponge_new R) HR bytes_nil Hp (SInv_new kf Hkf R HR)) as (sp & -> & I). cbn [bind].
  assert (Hb : bytes (concat pieces)) by (apply L_Hmac.bytes_concat; auto).
  destruct (SInv_final kf Hkf R SHA_PAD_BYTE [false; true] (concat pieces) sp HR HR2 pad_sha Hb I) as (A & E1 & OK & E2).
  unfold sha3_finish. rewrite E1. cbn [bind]. unfold into_single_squeeze. destruct (out <? R) eqn:E; [|lia].
  rewrite (squeeze_current_ok kf Hkf) by (rewrite (state_len kf Hkf) by auto; lia). f_equal. unfold SPONGE. rewrite (Z.div_small out R) by lia.
  change (Z.to_nat (0 + 1)) with 1%nat. cbn [squeeze_blocks]. rewrite app_nil_r, ztake_ztake by lia. rewrite E2. reflexivity.
Qed.

(** SHA3-256 and SHA3-512: however a message is cut into updates (including empty ones), finishing
    never fails and returns the FIPS 202 digest of the concatenation. *)
Theorem C11_sha3_256_is_fips202 : forall kf, keccak_asm_ok kf -> forall updates, Forall bytes updates ->
  sha3_256 kf updates = Ok (SHA3_256 (concat updates)).
Proof. intros. apply sha3_hash_ok; auto; try (cbn; lia). exists 17%nat. cbn. lia. Qed.
Theorem C11_sha3_512_is_fips202 : forall kf, keccak_asm_ok kf -> forall updates, Forall bytes updates ->
  sha3_512 kf updates = Ok (SHA3_512 (concat updates)).
Proof. intros. apply sha3_hash_ok; auto; try (cbn; lia). exists 9%nat. cbn. lia. Qed.
Print Assumptions C11_sha3_256_is_fips202.
Print Assumptions C11_sha3_512_is_fips202.

Lemma shake_ok kf R message ns : keccak_asm_ok kf -> rate R -> 24 <= R <= 168 -> Forall bytes message -> Forall (fun n => 0 <= n) ns ->
  exists k os k', shake_new kf R message = Ok k /\ shake_reads kf R k ns = Ok (os, k') /\ map zlen os = ns /\
    concat os = SPONGE R (bits_of_bytes (concat message) ++ [true; true; true; true]) (zlen (concat os)).
Proof.
  intros Hkf HR HR2 Hp Hn.
  destruct (SInv_absorbs kf Hkf R message [] (sponge_new R) HR bytes_nil Hp (SInv_new kf Hkf R HR)) as (sp & E0 & I).
  assert (Hb : bytes (concat message)) by (apply L_Hmac.bytes_concat; auto).
  destruct (SInv_final kf Hkf R SHAKE_PAD_BYTE _ (concat message) sp HR HR2 pad_shake Hb I) as (A & E1 & OK & E2).
  set (mb := bits_of_bytes (concat message) ++ [true; true; true; true]) in *.
  assert (Hr : reps (sponge_absorb R mb) 0 A) by (split; auto).
  set (k := {| sk_s := A; sk_buffer := repeat 0 (Z.to_nat R); sk_offset := R |}).
  assert (I0 : KInv R (sponge_absorb R mb) [] k).
  { exists 0%nat. cbn [k sk_s sk_buffer sk_offset squeeze_blocks app]. sp; auto; try (rewrite zlen_repeat; lia); try lia. apply zdrop_all. rewrite zlen_repeat. lia. }
  destruct (KInv_reads kf Hkf R (sponge_absorb R mb) ns [] k ltac:(lia) Hn I0) as (os & k' & R1 & R2 & I1).
  exists k, os, k'. sp; auto.
  - unfold shake_new, new_for_message. rewrite E0. cbn [bind]. rewrite E1. reflexivity.
  - eapply (KInv_sponge kf Hkf R mb); eauto. lia.
Qed.

(** SHAKE128 and SHAKE256: the message parts act as their concatenation, and any sequence of reads
    (of any sizes, including zero) yields exactly the requested sizes, whose concatenation is the
    corresponding prefix of the FIPS 202 output stream. *)
Theorem C11_shake128_stream : forall kf, keccak_asm_ok kf -> forall message reads,
  Forall bytes message -> Forall (fun n => 0 <= n) reads ->
  exists k outs k', shake_new kf SHAKE_128_R_BYTES message = Ok k /\ shake_reads kf SHAKE_128_R_BYTES k reads = Ok (outs, k') /\
    map zlen outs = reads /\ concat outs = SHAKE128 (concat message) (fold_right Z.add 0 reads).
Proof.
  intros kf Hkf message ns Hm Hn. destruct (shake_ok kf SHAKE_128_R_BYTES message ns Hkf) as (k & os & k' & A & B & C & D); auto; try (cbn; lia).
  { exists 21%nat. cbn. lia. }
  exists k, os, k'. sp; auto. replace (fold_right Z.add 0 ns) with (zlen (concat os)); [exact D|].
  rewrite <- C. clear. induction os; cbn [concat map fold_right]; auto. rewrite zlen_app, IHos. reflexivity.
Qed.
Theorem C11_shake256_stream : forall kf, keccak_asm_ok kf -> forall message reads,
  Forall bytes message -> Forall (fun n => 0 <= n) reads ->
  exists k outs k', shake_new kf SHAKE_256_R_BYTES message = Ok k /\ shake_reads kf SHAKE_256_R_BYTES k reads = Ok (outs, k') /\
    map zlen outs = reads /\ concat outs = SHAKE256 (concat message) (fold_right Z.add 0 reads).
Proof.
  intros kf Hkf message ns Hm Hn. destruct (shake_ok kf SHAKE_256_R_BYTES message ns Hkf) as (k & os & k' & A & B & C & D); auto; try (cbn; lia).
  { exists 17%nat. cbn. lia. }
  exists k, os, k'. sp; auto. replace (fold_right Z.add 0 ns) with (zlen (concat os)); [exact D|].
  rewrite <- C. clear. induction os; cbn [concat map fold_right]; auto. rewrite zlen_app, IHos. reflexivity.
Qed.
Print Assumptions C11_shake128_stream.
Print Assumptions C11_shake256_stream.

Local Opaque keccak_f keccak_p RC round_constants set_words.

(** a 40-byte slot of the multi-way entry points: message, SHAKE pad byte, zeroes *)
Definition slot40 (m : list Z) : list Z := m ++ [0x1f] ++ repeat 0 (Z.to_nat (39 - zlen m)).

Lemma four_facts R s ms : 48 <= R <= 200 -> tail_ok R s -> Forall bytes ms -> Forall (fun m => zlen m <= 39) ms -> length ms = 4%nat ->
  exists m0 m1 m2 m3, ms = [m0; m1; m2; m3] /\
    let s0 := set_words s (le_words (slot40 m0)) in let s1 := set_words s0 (le_words (slot40 m1)) in
    let s2 := set_words s1 (le_words (slot40 m2)) in let s3 := set_words s2 (le_words (slot40 m3)) in
    loaded R s0 m0 /\ loaded R s1 m1 /\ loaded R s2 m2 /\ loaded R s3 m3 /\ tail_ok R s3.
Proof.
  intros HR Ht Hb Hl HL. destruct ms as [|m0 [|m1 [|m2 [|m3 [|]]]]]; try discriminate. exists m0, m1, m2, m3. split; auto.
  repeat match goal with H : Forall _ (_ :: _) |- _ => inversion_clear H end.
  
  destruct (load_ok R s m0) as [T0 L0]; auto. destruct (load_ok R _ m1 HR T0) as [T1 L1]; auto.
  destruct (load_ok R _ m2 HR T1) as [T2 L2]; auto. destruct (load_ok R _ m3 HR T2) as [T3 L3]; auto.
Qed.
Lemma squeeze128 kf (Hkf : keccak_asm_ok kf) s m : loaded SHAKE_256_R_BYTES s m -> bytes m -> zlen m <= 39 ->
  squeeze_current (keccak_f s) 128 = Ok (SHAKE256 m 128).
Proof.
  intros HL Hb Hm. pose proof HL as [OK _]. rewrite (squeeze_current_ok kf Hkf) by (rewrite (state_len kf Hkf); [lia|apply keccak_f_ok; auto]).
  destruct (loaded_sponge SHAKE_256_R_BYTES s m ltac:(cbn; lia) HL Hb Hm) as [_ E]. cbn [Nat.iter nat_rect] in E. rewrite E.
  unfold SHAKE256, SPONGE. change (128 / (200 - 64)) with 0. change (Z.to_nat (0 + 1)) with 1%nat. cbn [squeeze_blocks].
  rewrite app_nil_r, ztake_ztake by lia. reflexivity.
Qed.

(** The six-way SHAKE256 used when sampling ML-KEM secrets gives, for six 33-byte inputs, exactly the
    six separate SHAKE256 outputs. *)
Theorem C11_sextet_is_six_shake256 : forall kf kf4 kf2, keccak_asm_ok kf -> keccak4_asm_ok kf4 -> keccak2of4_asm_ok kf2 ->
  forall ms, Forall bytes ms -> Forall (fun m => zlen m = 33) ms -> length ms = 6%nat ->
  one_shot_sextet kf4 kf2 (map slot40 ms) = Ok (map (fun m => SHAKE256 m 128) ms).
Proof.
  intros kf kf4 kf2 Hkf H4 H2 ms Hb Hl L. destruct ms as [|m0 [|m1 [|m2 [|m3 [|m4 [|m5 [|]]]]]]]; try discriminate.
  repeat match goal with H : Forall _ (_ :: _) |- _ => inversion_clear H end.
  assert (HR : 48 <= SHAKE_256_R_BYTES <= 200) by (cbn; lia).
  destruct (load_ok _ sextet_s0 m0 HR sextet_s0_ok) as [T0 L0]; auto; [lia|]. destruct (load_ok _ _ m1 HR T0) as [T1 L1]; auto; [lia|].
  destruct (load_ok _ _ m2 HR T1) as [T2 L2]; auto; [lia|]. destruct (load_ok _ _ m3 HR T2) as [T3 L3]; auto; [lia|].
  destruct (load_ok _ _ m4 HR T3) as [T4 L4]; auto; [lia|]. destruct (load_ok _ _ m5 HR T4) as [T5 L5]; auto; [lia|].
  change (map slot40 [m0; m1; m2; m3; m4; m5]) with (map pad40 [m0; m1; m2; m3; m4; m5]). cbn [map].
  set (s0 := set_words sextet_s0 (le_words (pad40 m0))) in *. set (s1 := set_words s0 (le_words (pad40 m1))) in *.
  set (s2 := set_words s1 (le_words (pad40 m2))) in *. set (s3 := set_words s2 (le_words (pad40 m3))) in *.
  set (s4 := set_words s3 (le_words (pad40 m4))) in *. set (s5 := set_words s4 (le_words (pad40 m5))) in *.
  unfold one_shot_sextet. fold s0. fold s1. fold s2. fold s3. fold s4. fold s5. cbv zeta.
  rewrite H4; [|apply L0|apply L1|apply L2|apply L3|apply RC_len]. rewrite (keccak_f_RC s0), (keccak_f_RC s1), (keccak_f_RC s2), (keccak_f_RC s3).
  rewrite (squeeze128 kf Hkf s0 m0), (squeeze128 kf Hkf s1 m1), (squeeze128 kf Hkf s2 m2), (squeeze128 kf Hkf s3 m3) by (auto; lia). cbn [bind].
  destruct (H2 s4 s5 (keccak_f s2) (keccak_f s3) RC) as (c' & d' & ->).
  1,2: first [apply L4|apply L5]. 1,2: apply keccak_f_ok; first [apply L2|apply L3]. apply RC_len.
  rewrite (keccak_f_RC s4), (keccak_f_RC s5), (squeeze128 kf Hkf s4 m4), (squeeze128 kf Hkf s5 m5) by (auto; lia). reflexivity.
Qed.
Print Assumptions C11_sextet_is_six_shake256.

Lemma F4 {A} (P : A -> Prop) a b c d : P a -> P b -> P c -> P d -> Forall P [a; b; c; d].
Proof. intros. do 4 (constructor; auto). Qed.
Lemma squeeze_rate_ok kf (Hkf : keccak_asm_ok kf) sts : Forall state_ok sts ->
  squeeze_rate sts = Ok (map (fun s => ztake SHAKE_128_R_BYTES (bytes_of_lanes s)) sts).
Proof.
  induction 1 as [|s r Hs Hr IH]; cbn [squeeze_rate map]; auto.
  rewrite (squeeze_current_ok kf Hkf) by (rewrite (state_len kf Hkf) by auto; cbn; lia). cbn [bind]. rewrite IH. reflexivity.
Qed.

(** the same as the theorem below, with the sponge state each lane is left in *)
Lemma four_way_reps : forall kf kf4, keccak_asm_ok kf -> keccak4_asm_ok kf4 ->
  forall ms, Forall bytes ms -> Forall (fun m => zlen m = 34) ms -> length ms = 4%nat ->
  exists states owed, sponge4_new kf4 (map slot40 ms) = Ok states /\
    sponge4_squeeze kf4 states = Ok (map (fun m => SHAKE128 m (3 * 168)) ms, owed) /\ length owed = 4%nat /\
    forall j m s, nth_error ms j = Some m -> nth_error owed j = Some s ->
      exists B, B = sponge_absorb (200 - 32) (bits_of_bytes m ++ [true; true; true; true]) /\ reps B 2 s /\ is_block 168 B.
Proof.
  intros kf kf4 Hkf H4 ms Hb Hl L.
  assert (HR : 48 <= SHAKE_128_R_BYTES <= 200) by (cbn; lia).
  destruct (four_facts _ four_s0 ms HR four_s0_ok Hb) as (m0 & m1 & m2 & m3 & -> & L0 & L1 & L2 & L3 & _); auto.
  { eapply Forall_impl; [|exact Hl]. cbn; intros; lia. }
  repeat match goal with H : Forall _ (_ :: _) |- _ => inversion_clear H end.
  set (s0 := set_words four_s0 (le_words (slot40 m0))) in *. set (s1 := set_words s0 (le_words (slot40 m1))) in *.
  set (s2 := set_words s1 (le_words (slot40 m2))) in *. set (s3 := set_words s2 (le_words (slot40 m3))) in *.
  cbn [map]. unfold sponge4_new. fold s0. fold s1. fold s2. fold s3. cbv zeta.
  rewrite H4; [|apply L0|apply L1|apply L2|apply L3|apply RC_len]. rewrite (keccak_f_RC s0), (keccak_f_RC s1), (keccak_f_RC s2), (keccak_f_RC s3).
  assert (F : forall s m, loaded SHAKE_128_R_BYTES s m -> bytes m -> zlen m = 34 ->
     let B := sponge_absorb (200 - 32) (bits_of_bytes m ++ [true; true; true; true]) in
     reps B 0 (keccak_f s) /\ reps B 1 (keccak_f (keccak_f s)) /\ reps B 2 (keccak_f (keccak_f (keccak_f s))) /\
     ztake SHAKE_128_R_BYTES (bytes_of_lanes (keccak_f s)) ++ ztake SHAKE_128_R_BYTES (bytes_of_lanes (keccak_f (keccak_f s))) ++
       ztake SHAKE_128_R_BYTES (bytes_of_lanes (keccak_f (keccak_f (keccak_f s)))) = SHAKE128 m (3 * 168) /\ is_block 168 B).
  { intros s m HLd Hbm Hlm B. pose proof (loaded_sponge _ s m HR HLd Hbm ltac:(lia)) as R0. change SHAKE_128_R_BYTES with (200 - 32) in R0. fold B in R0.
    pose proof (reps_kf kf Hkf _ _ _ R0) as R1. rewrite (kf_RC kf Hkf) in R1 by (apply R0).
    pose proof (reps_kf kf Hkf _ _ _ R1) as R2. rewrite (kf_RC kf Hkf) in R2 by (apply R1).
    pose proof (reps_block kf Hkf 168 _ _ ltac:(lia) R0) as BK. sp; auto.
    destruct R0 as [_ R0], R1 as [_ R1], R2 as [_ R2]. rewrite R0, R1, R2. change SHAKE_128_R_BYTES with (200 - 32).
    unfold SHAKE128, SPONGE. fold B. change (200 - 32) with 168 in *. change (Z.to_nat (3 * 168 / 168 + 1)) with (3 + 1)%nat.
    rewrite (blocks_app kf Hkf). rewrite ztake_app_eq. 2:{ rewrite (blocks_len kf Hkf) by (auto; lia). reflexivity. }
    cbn [squeeze_blocks Nat.iter nat_rect]. rewrite app_nil_r. reflexivity. }
  destruct (F s0 m0) as (A0 & B0 & C0 & D0 & K0); auto. destruct (F s1 m1) as (A1 & B1 & C1 & D1 & K1); auto.
  destruct (F s2 m2) as (A2 & B2 & C2 & D2 & K2); auto. destruct (F s3 m3) as (A3 & B3 & C3 & D3 & K3); auto.
  eexists _, _. split; [reflexivity|]. unfold sponge4_squeeze.
  rewrite (squeeze_rate_ok kf Hkf) by (apply F4; [apply A0|apply A1|apply A2|apply A3]). cbn [bind].
  rewrite H4; [|apply A0|apply A1|apply A2|apply A3|apply RC_len]. rewrite (keccak_f_RC (keccak_f s0)), (keccak_f_RC (keccak_f s1)), (keccak_f_RC (keccak_f s2)), (keccak_f_RC (keccak_f s3)).
  rewrite (squeeze_rate_ok kf Hkf) by (apply F4; [apply B0|apply B1|apply B2|apply B3]). cbn [bind].
  rewrite H4; [|apply B0|apply B1|apply B2|apply B3|apply RC_len]. rewrite (keccak_f_RC (keccak_f (keccak_f s0))), (keccak_f_RC (keccak_f (keccak_f s1))), (keccak_f_RC (keccak_f (keccak_f s2))), (keccak_f_RC (keccak_f (keccak_f s3))).
  rewrite (squeeze_rate_ok kf Hkf) by (apply F4; [apply C0|apply C1|apply C2|apply C3]). cbn [bind].
  split. { cbn [map zip_app]. rewrite D0, D1, D2, D3. reflexivity. } split; [reflexivity|].
  intros j m s Hj Hs.
  destruct j as [|[|[|[|j]]]]; cbn [nth_error] in Hj, Hs; [| | | |destruct j; discriminate];
    injection Hj as <-; injection Hs as <-; eexists; (split; [reflexivity|split; assumption]).
Qed.

(** The four-way SHAKE128 used to sample ML-KEM matrices: for four 34-byte inputs it yields three
    blocks of each separate SHAKE128 output, and after paying the owed permutation each sponge
    continues its own stream. *)
Theorem C11_four_way_is_four_shake128 : forall kf kf4, keccak_asm_ok kf -> keccak4_asm_ok kf4 ->
  forall ms, Forall bytes ms -> Forall (fun m => zlen m = 34) ms -> length ms = 4%nat ->
  exists states owed, sponge4_new kf4 (map slot40 ms) = Ok states /\
    sponge4_squeeze kf4 states = Ok (map (fun m => SHAKE128 m (3 * 168)) ms, owed) /\ length owed = 4%nat /\
    forall j m s blocks, nth_error ms j = Some m -> nth_error owed j = Some s -> 0 <= blocks ->
      exists more s', squeeze kf SHAKE_128_R_BYTES (restitute kf s) (blocks * 168) = Ok (more, s') /\
        SHAKE128 m (3 * 168) ++ more = SHAKE128 m ((3 + blocks) * 168).
Proof.
  intros kf kf4 Hkf H4 ms Hb Hl L. destruct (four_way_reps kf kf4 Hkf H4 ms Hb Hl L) as (states & owed & E1 & E2 & E3 & F).
  exists states, owed. sp; auto. intros j m s blocks Hj Hs Hbl. pose proof (F j m s Hj Hs) as X.
  destruct X as (B & EB & RB & BK). pose proof (reps_kf kf Hkf _ _ _ RB) as R3.
  destruct (squeeze_ok kf Hkf 168 B blocks 3 (restitute kf s) ltac:(lia) Hbl R3) as (s' & E & _).
  exists (squeeze_blocks 168 (Z.to_nat blocks) (Nat.iter 3 keccak_bytes B)), s'. split; [exact E|].
  unfold SHAKE128, SPONGE. rewrite <- EB. change (200 - 32) with 168. change (Z.to_nat (3 * 168 / 168 + 1)) with (3 + 1)%nat.
  rewrite (blocks_app kf Hkf _ 3 1). rewrite (ztake_app_eq (3 * 168)). 2:{ rewrite (blocks_len kf Hkf) by (auto; lia). reflexivity. }
  rewrite <- (blocks_app kf Hkf). rewrite Z.div_mul by lia. replace (Z.to_nat (3 + blocks + 1)) with ((3 + Z.to_nat blocks) + 1)%nat by lia.
  rewrite (blocks_app kf Hkf _ _ 1). rewrite (ztake_app_eq ((3 + blocks) * 168)); auto. rewrite (blocks_len kf Hkf) by (auto; lia). lia.
Qed.
Print Assumptions C11_four_way_is_four_shake128.

Local Transparent keccak_f keccak_p RC round_constants set_words.
(** The hypothesis on the assembly is met by the specification's own permutation, so the theorems are
    not vacuous; one known answer (FIPS 202 SHA3-256 of the empty string, first bytes) pins the spec. *)
Example C11_contract_inhabited : keccak_asm_ok (fun A rcs => keccak_p rcs A).
Proof. intros A rcs _ _. reflexivity. Qed.
Example C11_contract4_inhabited : keccak4_asm_ok (fun l rcs => map (keccak_p rcs) l) /\ keccak2of4_asm_ok (fun l rcs => map (keccak_p rcs) l).
Proof. split; intros a b c d rcs _ _ _ _ _; [reflexivity|]. cbn. eauto. Qed.
Example C11_empty : sha3_256 (fun A rcs => keccak_p rcs A) [] = Ok
  [0xa7;0xff;0xc6;0xf8;0xbf;0x1e;0xd7;0x66;0x51;0xc1;0x47;0x56;0xa0;0x61;0xd6;0x62;
   0xf5;0x80;0xff;0x4d;0xe4;0x3b;0x49;0xfa;0x82;0xd8;0x0a;0x4b;0x80;0xf8;0x43;0x4a].
Proof. vm_compute. reflexivity. Qed.
