(** Property C23: PSS encoding and verification agree with RFC 8017. *)
Require Import Verif.Base Verif.L_Base Verif.L_Blocks Verif.L_Bits Verif.M_Ct Verif.M_Sha2 Verif.S_Sha2 Verif.L_Hash Verif.L_Hmac Verif.T_Hash
  Verif.T_PosInt Verif.M_Pkcs1 Verif.S_Pkcs1 Verif.L_Pkcs1.
Require Import ZifyNat.

Lemma hash_sizes H Hs lim : In (H, Hs, lim) hashes -> In (ha_out H) [32; 48; 64] /\ 2 ^ 32 <= lim.
Proof.
  intros HI. split; [|apply (im_sizes _ _ _ (hashes_imp _ _ _ HI))].
  destruct HI as [E|[E|[E|[]]]]; apply pair_equal_spec in E; destruct E as [E _]; apply pair_equal_spec in E; destruct E as [<- _]; cbn; auto.
Qed.

Lemma clear1 l : clear_bits 1 l = match l with [] => [] | x :: r => x mod 128 :: r end.
Proof. destruct l; reflexivity. Qed.
Lemma embits n : (8 * n - 1 + 7) / 8 = n.
Proof. symmetry. apply Z.div_unique with (r := 6); lia. Qed.
Lemma mask_first_ok x r : mask_first (x :: r) = Ok (clear_bits 1 (x :: r)).
Proof. rewrite clear1. cbn [mask_first]. change 0x7f with (Z.ones 7). rewrite Z.land_ones by lia. reflexivity. Qed.
Lemma zlen_pos_cons {A} (l : list A) : 0 < zlen l -> exists x r, l = x :: r.
Proof. destruct l; [change (zlen (@nil A)) with 0; lia|eauto]. Qed.

(** What RFC 8017 9.1.1 produces is what 9.1.2 accepts (8 emLen - emBits = 1). *)
Lemma rfc_round_trip H Hs lim mHash salt n em : implements H Hs lim -> zlen salt = ha_out H -> bytes salt ->
  EMSA_PSS_ENCODE Hs (ha_out H) mHash salt (8 * n - 1) = Some em ->
  EMSA_PSS_VERIFY Hs (ha_out H) mHash em (8 * n - 1) (ha_out H).
Proof.
  intros I Ls Bs. pose proof (im_sizes _ _ _ I) as Sz. unfold EMSA_PSS_ENCODE, EMSA_PSS_VERIFY. cbv zeta. rewrite embits, Ls.
  replace (8 * n - (8 * n - 1)) with 1 by lia. destruct (Z.ltb_spec n (ha_out H + ha_out H + 2)); [discriminate|].
  intros E. split; [lia|]. apply (f_equal (fun o => match o with Some x => x | None => [] end)) in E. cbv beta iota in E.
  set (h := Hs (M_prime mHash salt)) in *. set (k := MGF1 Hs (ha_out H) h (n - ha_out H - 1)) in *.
  set (DB := repeat 0 (Z.to_nat (n - ha_out H - ha_out H - 2)) ++ [1] ++ salt) in *.
  assert (Lk : zlen k = n - ha_out H - 1) by (apply (mgf1_len H Hs lim I); lia).
  assert (Ld : zlen DB = n - ha_out H - 1).
  { unfold DB. rewrite !zlen_app. change (zlen [1]) with 1. unfold zlen at 1. rewrite repeat_length. lia. }
  assert (Hd : exists d DB', DB = d :: DB' /\ d mod 128 = d).
  { unfold DB. destruct (Z.to_nat _); cbn [repeat app]; eexists; eexists; split; reflexivity. }
  destruct Hd as (d & DB' & ED & Md). destruct (zlen_pos_cons k) as (k0 & k' & Ek). { lia. }
  exists (clear_bits 1 (xor_bytes DB k)), h, salt. fold k. fold DB. rewrite ED, Ek in *. rewrite xor_bytes_cons, !clear1, xor_bytes_cons.
  rewrite !zlen_cons in Lk, Ld. rewrite zlen_cons, xor_bytes_len, (xor_bytes_twice DB') by lia.
  split; [lia|]. split; [unfold h; apply (im_len _ _ _ I)|]. split; [assumption|]. split; [now rewrite <- E, xor_bytes_cons, clear1|].
  split; [now rewrite Z.mod_mod by lia|]. split; [|reflexivity].
  f_equal. transitivity (d mod 128); [|exact Md]. apply Z.bits_inj'. intros i Hi. change 128 with (2 ^ 7).
  destruct (Z.lt_ge_cases i 7).
  - rewrite !Z.mod_pow2_bits_low, Z.lxor_spec, Z.mod_pow2_bits_low, Z.lxor_spec by lia. destruct (Z.testbit d i), (Z.testbit k0 i); reflexivity.
  - rewrite !Z.mod_pow2_bits_high by lia. reflexivity.
Qed.

(** Encoding is EMSA-PSS-ENCODE with emBits = 8 emLen - 1, on the salt drawn; a failing random source is reported. *)
Theorem C23_encode : forall H Hs lim, In (H, Hs, lim) hashes -> forall rng out_len mHash, bytes mHash -> zlen mHash = ha_out H ->
  2 * ha_out H + 2 <= out_len ->
  (forall salt, rng (ha_out H) = Ok salt -> bytes salt -> zlen salt = ha_out H -> exists em,
    encode_pss_sig H rng out_len mHash = Ok em /\
    EMSA_PSS_ENCODE Hs (ha_out H) mHash salt (8 * out_len - 1) = Some em /\ bytes em /\ zlen em = out_len /\ be_val em < 2 ^ (8 * out_len - 1)) /\
  (forall e, rng (ha_out H) = Err e -> encode_pss_sig H rng out_len mHash = Err e).
Proof.
  intros H Hs lim HI rng n mHash Bm Lm Hn. pose proof (hashes_imp _ _ _ HI) as I. destruct (hash_sizes _ _ _ HI) as [Sz Hlim].
  assert (Hh : 0 < ha_out H <= 64) by (destruct Sz as [<-|[<-|[<-|[]]]]; lia).
  unfold encode_pss_sig. cbv zeta. rewrite Lm. destruct (Z.leb_spec (ha_out H + ha_out H + 2) n); [|lia]. rewrite Z.eqb_refl. cbn [negb].
  split; [|now intros e ->]. intros salt -> Bs Ls. cbn [bind].
  rewrite (m_prime_ok H Hs lim I) by (assumption || lia). cbn [bind]. set (h := Hs (M_prime mHash salt)).
  assert (Lh : zlen h = ha_out H) by apply (im_len _ _ _ I). assert (Bh : bytes h) by apply (im_bytes _ _ _ I).
  rewrite Lh, Z.eqb_refl. cbn [negb]. rewrite (mgf1_xor_ok H Hs lim I) by (assumption || lia). cbn [bind].
  set (DB := repeat 0 (Z.to_nat (n - ha_out H - ha_out H - 2)) ++ [1] ++ salt) in *.
  assert (Ld : zlen DB = n - ha_out H - 1).
  { unfold DB. rewrite !zlen_app. change (zlen [1]) with 1. unfold zlen at 1. rewrite repeat_length. lia. }
  assert (Bd : bytes DB).
  { unfold DB. apply Forall_app; split; [apply Forall_forall; intros x Hx; apply repeat_spec in Hx; subst; red; lia|].
    constructor; [red; lia|assumption]. }
  rewrite Ld. set (k := MGF1 Hs (ha_out H) h (n - ha_out H - 1)).
  assert (Lk : zlen k = n - ha_out H - 1) by (apply (mgf1_len H Hs lim I); lia).
  assert (Bk : bytes k) by apply (mgf1_bytes H Hs lim I).
  pose proof (xor_bytes_len DB k ltac:(lia)) as Lx. pose proof (xor_bytes_bytes DB k Bd Bk) as Bx.
  unfold EMSA_PSS_ENCODE. cbv zeta. rewrite embits, Ls. fold h DB k. replace (8 * n - (8 * n - 1)) with 1 by lia.
  destruct (Z.ltb_spec n (ha_out H + ha_out H + 2)); [lia|].
  destruct (zlen_pos_cons (xor_bytes DB k)) as (x & r & Ex); [lia|]. rewrite Ex in *. rewrite mask_first_ok. cbn [bind].
  eexists. split; [reflexivity|]. split; [reflexivity|]. rewrite clear1. inversion_clear Bx. rewrite zlen_cons in Lx. split.
  - apply Forall_app; split; [constructor; [|assumption]|apply Forall_app; split; [assumption|constructor; [red; lia|constructor]]].
    pose proof (Z.mod_pos_bound x 128 ltac:(lia)). red; lia.
  - split; [rewrite !zlen_app, zlen_cons, Lh; change (zlen [188]) with 1; lia|]. cbn [app]. rewrite be_val_cons.
    assert (Br : bytes (r ++ h ++ [188])) by (apply Forall_app; split; [assumption|apply Forall_app; split; [assumption|constructor; [red; lia|constructor]]]).
    assert (Lr : zlen (r ++ h ++ [188]) = n - 1) by (rewrite !zlen_app, Lh; change (zlen [188]) with 1; lia).
    pose proof (be_val_bound _ Br) as [_ B]. rewrite Lr in *. replace (8 * n - 1) with (7 + 8 * (n - 1)) by lia. rewrite Z.pow_add_r, Z.pow_mul_r by lia.
    change (2 ^ 7) with 128. change (2 ^ 8) with 256. pose proof (Z.mod_pos_bound x 128 ltac:(lia)) as [_ M].
    assert (P : 0 < 256 ^ (n - 1)) by (apply Z.pow_pos_nonneg; lia). revert M B P. generalize (x mod 128) (be_val (r ++ h ++ [188])) (256 ^ (n - 1)). clear. intros a b c ? ? ?. nia.
Qed.
Print Assumptions C23_encode.

Lemma land128 x : byte_ok x -> (Z.land x 128 =? 0) = (x mod 128 =? x).
Proof.
  intros Hx. assert (G : forallb (fun x => Bool.eqb (Z.land x 128 =? 0) (x mod 128 =? x)) (map Z.of_nat (seq 0 256)) = true) by (vm_compute; reflexivity).
  rewrite forallb_forall in G. specialize (G x). apply Bool.eqb_prop, G. apply in_map_iff. exists (Z.to_nat x). red in Hx.
  split; [lia|]. apply in_seq. lia.
Qed.
Lemma no_nonzero l : existsb (fun z => negb (z =? 0)) l = false <-> l = repeat 0 (length l).
Proof.
  induction l as [|x l IH]; cbn [existsb length repeat]; [tauto|]. rewrite orb_false_iff, IH. split.
  - intros [A ->]. f_equal; [lia|]. now rewrite repeat_length.
  - intros E. injection E as -> E. split; [reflexivity|assumption].
Qed.
Lemma app_inj_len {A} (a : list A) : forall b c d, length a = length c -> a ++ b = c ++ d -> a = c /\ b = d.
Proof.
  induction a as [|x a IH]; intros b [|y c] d L E; try discriminate L; [auto|]. injection E as -> E. injection L as L.
  destruct (IH _ _ _ L E) as [-> ->]. auto.
Qed.
Lemma snoc_znth (l : list Z) : 0 < zlen l -> l = ztake (zlen l - 1) l ++ [znth l (Z.to_nat (zlen l - 1))].
Proof.
  intros H. destruct (@exists_last _ l) as (l' & a & ->). { intros ->. change (zlen (@nil Z)) with 0 in H. lia. }
  rewrite zlen_app. change (zlen [a]) with 1. replace (zlen l' + 1 - 1) with (zlen l') by lia. rewrite ztake_app_eq by reflexivity.
  unfold znth, zlen. rewrite Nat2Z.id, app_nth2, Nat.sub_diag by lia. reflexivity.
Qed.

(** Verification accepts exactly what EMSA-PSS-VERIFY (sLen = hLen) calls consistent and otherwise reports BadSignature,
    for encoded messages of any length. *)
Theorem C23_verify : forall H Hs lim, In (H, Hs, lim) hashes -> forall em mHash, bytes em -> bytes mHash -> zlen mHash = ha_out H ->
  (verify_pss_sig H em mHash = Ok tt <-> EMSA_PSS_VERIFY Hs (ha_out H) mHash em (8 * zlen em - 1) (ha_out H)) /\
  (verify_pss_sig H em mHash = Ok tt \/ verify_pss_sig H em mHash = Err BadSignature).
Proof.
  intros H Hs lim HI em mHash Be Bm Lm. pose proof (hashes_imp _ _ _ HI) as I. destruct (hash_sizes _ _ _ HI) as [Sz Hlim].
  assert (Hh : 0 < ha_out H <= 64) by (destruct Sz as [<-|[<-|[<-|[]]]]; lia).
  unfold EMSA_PSS_VERIFY, verify_pss_sig. cbv zeta. rewrite embits, Lm. replace (8 * zlen em - (8 * zlen em - 1)) with 1 by lia.
  set (n := zlen em). destruct (Z.ltb_spec n (ha_out H + ha_out H + 2)) as [Hn|Hn].
  { split; [|now right]. split; [discriminate|]. intros [? _]. lia. }
  pose proof (snoc_znth em ltac:(lia)) as Ee. fold n in Ee. set (bc := znth em (Z.to_nat (n - 1))) in *.
  assert (Le : zlen (ztake (n - 1) em) = n - 1) by (rewrite zlen_ztake; lia).
  assert (Be' : bytes (ztake (n - 1) em)) by now apply bytes_ztake.
  set (em' := ztake (n - 1) em) in *. clearbody em' bc. pose proof (ztake_zdrop (n - ha_out H - 1) em') as E2.
  set (mdb := ztake (n - ha_out H - 1) em') in *. set (h := zdrop (n - ha_out H - 1) em') in *.
  assert (Lmdb : zlen mdb = n - ha_out H - 1) by (apply zlen_ztake; lia).
  assert (Lh : zlen h = ha_out H) by (unfold h; rewrite zlen_zdrop; lia).
  assert (Bmdb : bytes mdb) by now apply bytes_ztake. assert (Bh : bytes h) by now apply bytes_zdrop.
  clearbody mdb h.
  (* the parts named by the specification are these *)
  assert (U : forall maskedDB H' salt', zlen maskedDB = n - ha_out H - 1 -> zlen H' = ha_out H -> em = maskedDB ++ H' ++ [188] ->
     maskedDB = mdb /\ H' = h /\ bc = 188 /\ salt' = salt' :> list Z).
  { intros M H' s' L1 L2 E. rewrite Ee, <- E2, <- app_assoc in E. 
    assert (mdb = M /\ h ++ [bc] = H' ++ [188]) as [-> E']. { apply app_inj_len; [unfold zlen in *; lia|assumption]. }
    apply app_inj_tail in E' as [-> ->]. auto. }
  destruct (Z.eqb_spec bc 188) as [Ebc|Ebc]; cbn [negb].
  2:{ split; [|now right]. split; [discriminate|]. intros (_ & M & H' & s' & L1 & L2 & _ & E & _). destruct (U M H' s' L1 L2 E) as (_ & _ & ? & _); contradiction. }
  destruct (zlen_pos_cons mdb) as (x & r & Ex); [lia|]. rewrite Ex. change (znth (x :: r) 0) with x.
  assert (Bx : byte_ok x) by (rewrite Ex in Bmdb; now inversion Bmdb). rewrite (land128 x Bx).
  destruct (Z.eqb_spec (x mod 128) x) as [Hx|Hx]; cbn [negb].
  2:{ split; [|now right]. split; [discriminate|]. intros (_ & M & H' & s' & L1 & L2 & _ & E & C & _). destruct (U M H' s' L1 L2 E) as (-> & _).
      rewrite Ex, clear1 in C. injection C as C. contradiction. }
  rewrite <- Ex. rewrite (mgf1_xor_ok H Hs lim I) by (assumption || lia). cbn [bind]. rewrite Lmdb.
  set (k := MGF1 Hs (ha_out H) h (n - ha_out H - 1)).
  assert (Lk : zlen k = n - ha_out H - 1) by (apply (mgf1_len H Hs lim I); lia).
  assert (Bk : bytes k) by apply (mgf1_bytes H Hs lim I).
  pose proof (xor_bytes_len mdb k ltac:(lia)) as Lx. pose proof (xor_bytes_bytes mdb k Bmdb Bk) as Bxo.
  destruct (zlen_pos_cons (xor_bytes mdb k)) as (y & t & Ey); [lia|].
  assert (Em : mask_first (xor_bytes mdb k) = Ok (clear_bits 1 (xor_bytes mdb k))) by (rewrite Ey; apply mask_first_ok).
  rewrite Em. cbn [bind]. set (db := clear_bits 1 (xor_bytes mdb k)).
  assert (Ldb : zlen db = n - ha_out H - 1) by (unfold db; rewrite Ey, clear1 in *; rewrite zlen_cons in *; lia).
  assert (Bdb : bytes db). { unfold db. rewrite Ey, clear1 in *. inversion_clear Bxo. constructor; [|assumption]. pose proof (Z.mod_pos_bound y 128 ltac:(lia)). red; lia. }
  pose proof (ztake_zdrop (n - ha_out H - ha_out H - 2) db) as Edb.
  assert (Lz : zlen (ztake (n - ha_out H - ha_out H - 2) db) = n - ha_out H - ha_out H - 2) by (apply zlen_ztake; lia).
  assert (Lo : zlen (zdrop (n - ha_out H - ha_out H - 2) db) = ha_out H + 1) by (rewrite zlen_zdrop; lia).
  assert (Bo : bytes (zdrop (n - ha_out H - ha_out H - 2) db)) by now apply bytes_zdrop.
  set (z := ztake (n - ha_out H - ha_out H - 2) db) in *. set (os := zdrop (n - ha_out H - ha_out H - 2) db) in *. clearbody z os.
  destruct (zlen_pos_cons os) as (one & salt & ->); [lia|]. rewrite zlen_cons in Lo. inversion_clear Bo.
  assert (V : forall M H' s', zlen M = n - ha_out H - 1 -> zlen H' = ha_out H -> em = M ++ H' ++ [188] ->
     clear_bits 1 (xor_bytes M (MGF1 Hs (ha_out H) H' (n - ha_out H - 1))) = repeat 0 (Z.to_nat (n - ha_out H - ha_out H - 2)) ++ [1] ++ s' ->
     z = repeat 0 (length z) /\ one = 1 /\ s' = salt /\ H' = h).
  { intros M H' s' L1 L2 E C. destruct (U M H' s' L1 L2 E) as (-> & -> & _). fold k db in C. rewrite <- Edb in C.
    assert (z = repeat 0 (Z.to_nat (n - ha_out H - ha_out H - 2)) /\ one :: salt = [1] ++ s') as [Ez Es].
    { apply app_inj_len; [rewrite repeat_length; unfold zlen in *; lia|assumption]. }
    injection Es as -> ->. split; [|auto]. rewrite Ez at 1. f_equal. unfold zlen in *. lia. }
  destruct (existsb (fun z => negb (z =? 0)) z) eqn:Exz.
  { split; [|now right]. split; [discriminate|]. intros (_ & M & H' & s' & L1 & L2 & _ & E & _ & C & _). destruct (V M H' s' L1 L2 E C) as (Ez & _).
    apply no_nonzero in Ez. congruence. }
  apply no_nonzero in Exz. destruct (Z.eqb_spec one 1) as [E1|E1]; cbn [negb orb].
  2:{ split; [|now right]. split; [discriminate|]. intros (_ & M & H' & s' & L1 & L2 & _ & E & _ & C & _). destruct (V M H' s' L1 L2 E C) as (_ & ? & _); contradiction. }
  rewrite (m_prime_ok H Hs lim I) by (assumption || lia). cbn [bind].
  pose proof (ct_equal_spec (Hs (M_prime mHash salt)) h (im_bytes _ _ _ I _) Bh) as CE.
  destruct (ct_equal (Hs (M_prime mHash salt)) h) eqn:Ect.
  - split; [|now left]. split; [intros _|reflexivity]. split; [lia|]. exists mdb, h, salt. destruct CE as [CE _]. specialize (CE eq_refl).
    split; [assumption|]. split; [assumption|]. split; [lia|]. split; [rewrite Ee, <- E2, <- app_assoc; congruence|].
    split; [rewrite Ex, clear1, Hx; reflexivity|]. split; [|now symmetry]. fold k db. rewrite <- Edb, Exz, E1. f_equal. f_equal. unfold zlen in *; lia.
  - split; [|now right]. split; [discriminate|]. intros (_ & M & H' & s' & L1 & L2 & _ & E & _ & C & Hh'). destruct (V M H' s' L1 L2 E C) as (_ & _ & -> & ->).
    destruct CE as [_ CE]. discriminate CE. now symmetry.
Qed.
Print Assumptions C23_verify.

(** Every encoding produced verifies. *)
Theorem C23_round_trip : forall H Hs lim, In (H, Hs, lim) hashes -> forall rng out_len mHash salt em, bytes mHash -> zlen mHash = ha_out H ->
  2 * ha_out H + 2 <= out_len -> rng (ha_out H) = Ok salt -> bytes salt -> zlen salt = ha_out H ->
  encode_pss_sig H rng out_len mHash = Ok em -> verify_pss_sig H em mHash = Ok tt.
Proof.
  intros H Hs lim HI rng n mHash salt em Bm Lm Hn Hr Bs Ls E. destruct (C23_encode H Hs lim HI rng n mHash Bm Lm Hn) as [A _].
  destruct (A salt Hr Bs Ls) as (em' & E' & R & Be & Le & _). assert (em' = em) as -> by congruence.
  apply (C23_verify H Hs lim HI em mHash Be Bm Lm). rewrite Le.
  exact (rfc_round_trip H Hs lim mHash salt n em (hashes_imp _ _ _ HI) Ls Bs R).
Qed.
Print Assumptions C23_round_trip.

(** The hypotheses can be met: a SHA-256 digest of 32 zeros, a salt of 32 ones, a 2048-bit modulus. *)
Example C23_ex : exists em, encode_pss_sig Sha256 (fun n => Ok (repeat 1 (Z.to_nat n))) 256 (repeat 0 32) = Ok em /\
  zlen em = 256 /\ verify_pss_sig Sha256 em (repeat 0 32) = Ok tt.
Proof.
  assert (HI : In (Sha256, SHA256, 2 ^ 61) hashes) by now left.
  assert (B0 : bytes (repeat 0 32)) by bytes_tac. assert (B1 : bytes (repeat 1 32)) by bytes_tac.
  destruct (C23_encode _ _ _ HI (fun n => Ok (repeat 1 (Z.to_nat n))) 256 (repeat 0 32) B0 eq_refl ltac:(cbn; lia)) as [A _].
  destruct (A (repeat 1 32) eq_refl B1 eq_refl) as (em & E & _ & _ & L & _). exists em. split; [exact E|]. split; [exact L|].
  exact (C23_round_trip _ _ _ HI (fun n => Ok (repeat 1 (Z.to_nat n))) 256 (repeat 0 32) (repeat 1 32) em B0 eq_refl ltac:(cbn; lia) eq_refl B1 eq_refl E).
Qed.
(** and verification is not always successful *)
Example C23_ex_reject : verify_pss_sig Sha256 (repeat 0 256) (repeat 0 32) = Err BadSignature.
Proof. reflexivity. Qed.
