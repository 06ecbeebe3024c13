(** C57: ML-KEM decryption succeeds, and the two sides agree, whenever the noise is small. *)
Require Import Verif.Base Verif.L_Base Verif.L_Blocks Verif.L_Poly1305 Verif.S_Sha3 Verif.M_Sha3 Verif.L_Sha3 Verif.S_MlKem Verif.S_MlKemNoise Verif.M_MlKem Verif.S_MlKemAsm
  Verif.L_MlKemEnc Verif.L_MlKemSample Verif.L_MlKem Verif.L_MlKemKem Verif.L_MlKemNtt Verif.L_MlKemCorrect Verif.T_MlKem
  Verif.S_X25519 Verif.M_X25519 Verif.M_Kx Verif.T_Kx.
Require Import ZifyNat Setoid.
Local Opaque keccak_f keccak_p RC round_constants set_words NTT NTT_inv MultiplyNTTs ring_mul poly_add poly_sub HashG HashH PRF2 SamplePolyCBD SampleNTT.

(** The transform of FIPS 203 takes products in Z_q[X]/(X^256 + 1) to products of the blocks, and sums to sums, and
    the inverse transform undoes it. *)
Theorem C57_ntt_is_ring_isomorphism :
  (forall f g, NTT (ring_mul f g) = MultiplyNTTs (NTT f) (NTT g)) /\
  (forall f g, NTT (poly_add f g) = poly_add (NTT f) (NTT g)) /\
  (forall f, length f = 256%nat -> Forall (fun x => 0 <= x < 3329) f -> NTT_inv (NTT f) = f /\ NTT (NTT_inv f) = f).
Proof.
  split; [exact NTT_mul|]. split; [exact NTT_add|]. intros f L C. split; [apply NTT_inv_NTT|apply NTT_NTT_inv]; split; assumption.
Qed.
Print Assumptions C57_ntt_is_ring_isomorphism.

Lemma two_pow d f : (0 < Z.of_nat d)%Z -> Forall (lt2 d) (map (Compress (Z.of_nat d)) f).
Proof. intros H. apply Forall_map, Forall_forall. intros x _. unfold Compress, lt2. apply Z.mod_pos_bound. apply Z.pow_pos_nonneg; lia. Qed.
Lemma enc_dec d f k : (1 <= d < 12)%nat -> length f = 256%nat -> (d * 256 = 8 * k)%nat ->
  ByteDecode d (ByteEncode d (map (Compress (Z.of_nat d)) f)) = map (Compress (Z.of_nat d)) f /\ zlen (ByteEncode d (map (Compress (Z.of_nat d)) f)) = Z.of_nat k.
Proof.
  intros Hd L Hk. assert (L' : (d * length (map (Compress (Z.of_nat d)) f) = 8 * k)%nat) by (rewrite map_length, L; exact Hk).
  pose proof (two_pow d f ltac:(lia)) as T. split; [|apply packs_self; auto]. apply (C35_round_trip_values d k); auto; [lia|].
  replace (d <? 12)%nat with true by (symmetry; apply Nat.ltb_lt; lia). exact T.
Qed.
Lemma decode1 m : bytes m -> zlen m = 32 -> length (ByteDecode 1 m) = n256 /\ Forall (fun b => b = 0 \/ b = 1) (ByteDecode 1 m) /\ ByteEncode 1 (ByteDecode 1 m) = m.
Proof.
  intros B L. destruct (C35_round_trip_bytes 1 256 m ltac:(lia) B) as (R & Ln & S); [unfold zlen in L; lia|]. rewrite S by lia. split; [exact Ln|]. split; [|exact R].
  rewrite <- S by lia. unfold ByteDecode. apply Forall_map, Forall_forall. intros x _. change (if (1 <? 12)%nat then 2 ^ Z.of_nat 1 else q) with 2.
  pose proof (Z.mod_pos_bound x 2 ltac:(lia)). lia.
Qed.
Lemma pol_mu m : bytes m -> zlen m = 32 -> pol (map (Decompress 1) (ByteDecode 1 m)).
Proof.
  intros B L. destruct (decode1 m B L) as (Ln & F & _). split; [rewrite map_length; exact Ln|]. apply Forall_map. eapply Forall_impl; [|exact F].
  intros b [-> | ->]; cbv [Decompress round_div q Z.mul Z.add Z.pow Z.pow_pos Pos.iter]; lia.
Qed.
Lemma decode_u us : Forall pol us ->
  map (fun b => map (Decompress 10) (ByteDecode 10 b)) (chunks_exact 320 (concat (map (fun f => ByteEncode 10 (map (Compress 10) f)) us))) = map (rounded 10) us /\
  zlen (concat (map (fun f => ByteEncode 10 (map (Compress 10) f)) us)) = 320 * zlen us.
Proof.
  intros H. assert (X : Forall (fun f => ByteDecode 10 (ByteEncode 10 (map (Compress 10) f)) = map (Compress 10) f /\ zlen (ByteEncode 10 (map (Compress 10) f)) = 320) us).
  { eapply Forall_impl; [|exact H]. intros f [L _]. apply (enc_dec 10 f 320); [lia|exact L|reflexivity]. }
  split.
  - rewrite chunks_concat; [|lia|apply Forall_map; eapply Forall_impl; [|exact X]; cbv beta; tauto]. rewrite map_map.
    induction X as [|f us [E _] X IH]; [reflexivity|]. cbn [map]. inversion_clear H. rewrite E, IH by assumption. f_equal. unfold rounded. now rewrite map_map.
  - induction X as [|f us [_ E] X IH]; [reflexivity|]. cbn [map concat]. inversion_clear H. rewrite zlen_app, E, IH by assumption. unfold zlen. cbn [length]. lia.
Qed.

(** K-PKE with any matrix, secrets and noise: the ciphertext decrypts to the message when every coefficient of the error
    is within a quarter of q. *)
Theorem C57_kpke_decrypts : forall A s e y e1 e2 m,
  length A = 3%nat -> Forall (fun row => length row = 3%nat /\ Forall (fun f => length f = 256%nat /\ Forall (fun x => 0 <= x < 3329) f) row) A ->
  length s = 3%nat -> length e = 3%nat -> length y = 3%nat -> length e1 = 3%nat -> bytes m -> zlen m = 32 ->
  let mu := map (Decompress 1) (ByteDecode 1 m) in
  let t_hat := vec_add (mat_vec A (map NTT s)) (map NTT e) in
  let u := vec_add (map NTT_inv (mat_vec (transpose A) (map NTT y))) e1 in
  let v := poly_add (poly_add (NTT_inv (dot t_hat (map NTT y))) e2) mu in
  let dk := concat (map (ByteEncode 12) (map NTT s)) in
  let c := concat (map (fun f => ByteEncode 10 (map (Compress 10) f)) u) ++ ByteEncode 4 (map (Compress 4) v) in
  Forall small_coef (error_of (map (map NTT_inv) A) s e y e1 e2 mu) -> KPKE_Decrypt dk c = m.
Proof.
  intros A s e y e1 e2 m LA HA Ls Le Ly Lg Bm Lm mu t_hat u v dk c HN.
  destruct A as [|r1 [|r2 [|r3 [|]]]]; try discriminate LA. inversion_clear HA as [|? ? [L1 P1] HA']. inversion_clear HA' as [|? ? [L2 P2] HA'']. inversion_clear HA'' as [|? ? [L3 P3] _].
  destruct r1 as [|a11 [|a12 [|a13 [|]]]]; try discriminate L1. destruct r2 as [|a21 [|a22 [|a23 [|]]]]; try discriminate L2. destruct r3 as [|a31 [|a32 [|a33 [|]]]]; try discriminate L3.
  destruct s as [|s1 [|s2 [|s3 [|]]]]; try discriminate Ls. destruct e as [|f1 [|f2 [|f3 [|]]]]; try discriminate Le.
  destruct y as [|y1 [|y2 [|y3 [|]]]]; try discriminate Ly. destruct e1 as [|g1 [|g2 [|g3 [|]]]]; try discriminate Lg.
  assert (HP : Forall (Forall pol) [[a11; a12; a13]; [a21; a22; a23]; [a31; a32; a33]]) by (constructor; [exact P1|constructor; [exact P2|constructor; [exact P3|constructor]]]).
  destruct (decode1 m Bm Lm) as (LF & BF & EF). pose proof (pol_mu m Bm Lm) as Pm. fold mu in Pm.
  set (A := [[a11; a12; a13]; [a21; a22; a23]; [a31; a32; a33]]) in *. set (s := [s1; s2; s3]) in *.
  pose proof (t_ok a11 a12 a13 a21 a22 a23 a31 a32 a33 HP s1 s2 s3 f1 f2 f3) as ET. fold A s in ET. fold t_hat in ET.
  pose proof (u_ok a11 a12 a13 a21 a22 a23 a31 a32 a33 HP y1 y2 y3 g1 g2 g3) as EU. fold A in EU. fold u in EU.
  assert (Pu : Forall pol u) by (unfold u, vec_add; apply Forall_map, Forall_forall; intros [x1 x2] _; apply pol_poly).
  assert (Lu : zlen u = 3) by reflexivity. destruct (decode_u u Pu) as [DU LU]. rewrite Lu in LU.
  assert (Pv : pol v) by apply pol_poly. destruct (enc_dec 4 v 128 ltac:(lia) (proj1 Pv) eq_refl) as [DV LV]. change (Z.of_nat 4) with 4 in DV, LV.
  unfold KPKE_Decrypt, c. rewrite ztake_app_eq, zdrop_app_eq by exact LU. rewrite DU, DV.
  destruct (enc12_facts (map NTT s)) as (_ & _ & DS). { unfold s. cbn [map]. repeat (apply Forall_cons; [apply NTT_good|]). apply Forall_nil. }
  unfold dk. rewrite DS. cbv zeta. rewrite map_map. fold (rounded 4 v).
  assert (EV : v = poly_add (poly_add (inner (vec_add (map (fun row => inner row s) (map (map NTT_inv) A)) [f1; f2; f3]) [y1; y2; y3]) e2) mu).
  { unfold v. rewrite ET, NTTi_dot. reflexivity. }
  assert (LX : length (map (rounded 10) u) = 3%nat) by (rewrite map_length; reflexivity).
  destruct (map (rounded 10) u) as [|x1 [|x2 [|x3 [|]]]] eqn:EX; try discriminate LX. clear LX.
  pose proof (w_ok a11 a12 a13 a21 a22 a23 a31 a32 a33 s1 s2 s3 f1 f2 f3 y1 y2 y3 g1 g2 g3 e2 mu (rounded 4 v) x1 x2 x3 Pm) as W.
  cbv zeta in W. fold A s in W. rewrite <- EV, <- EU in W.
  etransitivity; [|exact EF]. f_equal. etransitivity; [|apply (message_ok (ByteDecode 1 m) (error_of (map (map NTT_inv) A) s [f1; f2; f3] [y1; y2; y3] [g1; g2; g3] e2 mu) LF BF); [|exact HN]].
  - f_equal. etransitivity; [exact W|]. fold mu. apply (f_equal (poly_add mu)). unfold error_of. cbv zeta. rewrite <- EV, <- EU, EX. reflexivity.
  - unfold error_of. cbv zeta. apply pol_poly.
Qed.
Print Assumptions C57_kpke_decrypts.

(** K-PKE of FIPS 203 (Algorithms 13 to 15): a message encrypted to a generated key decrypts to itself when the noise
    of this key, message and randomness is small.  [sampled] is the termination of rejection sampling, as in C37. *)
Lemma kpke_fips it d m r : mat_ok (matrix_A it (fst (HashG (d ++ [3])))) -> bytes m -> zlen m = 32 -> decryptable it d m r ->
  KPKE_Decrypt (snd (KPKE_KeyGen it d)) (KPKE_Encrypt it (fst (KPKE_KeyGen it d)) m r) = m.
Proof.
  unfold decryptable, decryption_noise, KPKE_KeyGen. destruct (HashG (d ++ [3])) as [rho sigma]. cbn [fst snd]. intros HM Bm Lm HN.
  set (s := noise sigma 0) in *. set (e := noise sigma 3) in *. set (A := matrix_A it rho) in *.
  assert (GT : Forall (fun f => length f = n256 /\ canon f) (vec_add (mat_vec A (map NTT s)) (map NTT e))) by apply vec_add_good.
  destruct (enc12_facts _ GT) as (BT & LT & DT).
  assert (L3 : zlen (vec_add (mat_vec A (map NTT s)) (map NTT e)) = 3) by reflexivity. rewrite L3 in LT. change (384 * 3) with 1152 in LT.
  unfold KPKE_Encrypt. rewrite ztake_app_eq, zdrop_app_eq by exact LT. rewrite DT. fold A. cbv zeta.
  apply (C57_kpke_decrypts A s e (noise r 0) (noise r 3) (SamplePolyCBD (PRF2 r 6)) m); try reflexivity; auto.
Qed.

Section Agreement.
Variable kf : list Z -> list Z -> list Z.
Variable kf4 kf2 : list (list Z) -> list Z -> list (list Z).
Variable a : asm.
Variable ord : list nat.
Hypothesis Hkf : keccak_asm_ok kf.
Hypothesis Hkf4 : keccak4_asm_ok kf4.
Hypothesis Hkf2 : keccak2of4_asm_ok kf2.
Hypothesis Ha : asm_ok ord a.

(** the secret part of a generated key is that of K-PKE.KeyGen *)
Lemma keygen_pke seed it fuel dk : bytes seed -> zlen seed = 64 -> 0 <= it ->
  matrix_sampled it (fst (HashG (ztake 32 seed ++ [3]))) -> 2 * it <= Z.of_nat fuel -> keygen_internal kf kf4 kf2 a fuel seed = Ok dk ->
  KPKE_KeyGen it (ztake 32 seed) = (ek_as_bytes (encapsulation_key dk), dk_pke dk) /\ mat_ok (matrix_A it (fst (HashG (ztake 32 seed ++ [3])))).
Proof.
  intros B L Hi HM HF HK.
  destruct (keygen_good kf kf4 kf2 a ord Hkf Hkf4 Hkf2 Ha seed it fuel B L Hi HM HF) as (dk' & E & S & G & Bp & Lp & _). assert (dk' = dk) by congruence. subst dk'.
  pose proof (hashG_parts kf Hkf (ztake 32 seed ++ [3])) as HP. split.
  - unfold KeyGen_internal in S. destruct (KPKE_KeyGen it (ztake 32 seed)) as [ek d] eqn:EK. injection S as -> S. f_equal.
    assert (Ld : zlen d = 1152).
    { unfold KPKE_KeyGen in EK. destruct (HashG (ztake 32 seed ++ [3])) as [rho sigma]. injection EK as _ <-.
      destruct (enc12_facts (map NTT (noise sigma 0))) as (_ & X & _); [apply Forall_map, Forall_forall; intros f _; apply NTT_good|].
      etransitivity; [exact X|reflexivity]. }
    unfold dk_as_bytes in S. rewrite <- ?app_assoc in S. apply (f_equal (ztake 1152)) in S. rewrite !ztake_app_eq in S by auto. symmetry. exact S.
  - assert (B3 : bytes (ztake 32 seed ++ [3])) by (apply bytes_app; split; [now apply bytes_ztake|apply Forall_cons; [unfold byte_ok; lia|apply Forall_nil]]). specialize (HP B3).
    destruct (HashG (ztake 32 seed ++ [3])) as [rho sigma]. cbn [fst] in *. destruct HP as (Br & _). now apply (matrix_good kf Hkf).
Qed.

(** Agreement without a premise on decryption: for every generated key and every message, encapsulation and decapsulation
    give the same secret when the noise is small. *)
Theorem C57_agreement : forall seed it fuel dk m K c, bytes seed -> zlen seed = 64 -> 0 <= it ->
  matrix_sampled it (fst (HashG (ztake 32 seed ++ [3]))) -> 2 * it <= Z.of_nat fuel -> keygen_internal kf kf4 kf2 a fuel seed = Ok dk ->
  bytes m -> zlen m = 32 -> encaps_internal kf kf4 kf2 a (encapsulation_key dk) m = Ok (K, c) ->
  decryptable it (ztake 32 seed) m (snd (HashG (m ++ HashH (ek_as_bytes (encapsulation_key dk))))) ->
  decaps_internal kf kf4 kf2 a dk c = Ok K.
Proof.
  intros seed it fuel dk m K c B L Hi HM HF HK Bm Lm HE HN.
  destruct (keygen_pke seed it fuel dk B L Hi HM HF HK) as [EK MO].
  apply (C37_agreement kf kf4 kf2 a ord Hkf Hkf4 Hkf2 Ha seed it fuel dk m K c); auto.
  destruct (keygen_good kf kf4 kf2 a ord Hkf Hkf4 Hkf2 Ha seed it fuel B L Hi HM HF) as (dk' & E & _ & G & _). assert (dk' = dk) by congruence. subst dk'.
  rewrite (encaps_good kf kf4 kf2 a ord Hkf Hkf4 Hkf2 Ha it (encapsulation_key dk) m G Bm Lm) in HE. unfold Encaps_internal in HE.
  pose proof (kpke_fips it (ztake 32 seed) m _ MO Bm Lm HN) as D. rewrite EK in D. cbn [fst snd] in D.
  destruct (HashG (m ++ HashH (ek_as_bytes (encapsulation_key dk)))) as [K0 r]. injection HE as _ <-. exact D.
Qed.

(** The same for FIPS 203 itself. *)
Theorem C57_fips203_decrypts : forall it d m r, bytes d -> 0 <= it -> matrix_sampled it (fst (HashG (d ++ [3]))) -> bytes m -> zlen m = 32 ->
  decryptable it d m r ->
  let '(ek, dk) := KPKE_KeyGen it d in KPKE_Decrypt dk (KPKE_Encrypt it ek m r) = m.
Proof.
  intros it d m r Bd Hi HM Bm Lm HN.
  assert (B3 : bytes (d ++ [3])) by (apply bytes_app; split; [assumption|apply Forall_cons; [unfold byte_ok; lia|apply Forall_nil]]).
  pose proof (hashG_parts kf Hkf (d ++ [3]) B3) as HP.
  assert (MO : mat_ok (matrix_A it (fst (HashG (d ++ [3]))))).
  { destruct (HashG (d ++ [3])) as [rho sigma]. cbn [fst] in *. destruct HP as (Br & _). now apply (matrix_good kf Hkf). }
  pose proof (kpke_fips it d m r MO Bm Lm HN) as D. destruct (KPKE_KeyGen it d) as [ek dk]. exact D.
Qed.
End Agreement.
Print Assumptions C57_agreement.
Print Assumptions C57_fips203_decrypts.

(** *** X25519MLKEM768 *)
Section Hybrid.
Variable xmul : list Z -> list Z -> list Z.
Variable xbase : list Z -> list Z.
Hypothesis Hx : x25519_asm_ok xmul xbase.
Variable kf : list Z -> list Z -> list Z.
Variable kf4 kf2 : list (list Z) -> list Z -> list (list Z).
Variable a : asm.
Variable ord : list nat.
Hypothesis Hkf : keccak_asm_ok kf.
Hypothesis Hkf4 : keccak4_asm_ok kf4.
Hypothesis Hkf2 : keccak2of4_asm_ok kf2.
Hypothesis Ha : asm_ok ord a.
(** The hybrid key exchange: client and server end with the same secret for every X25519 key on either side, when the
    ML-KEM noise is small. *)
Theorem C57_x25519mlkem768_agreement : forall it fuel kc seed ks m fcc fcp fsc fsp dk,
  bytes kc -> zlen kc = 32 -> bytes seed -> zlen seed = 64 -> bytes ks -> zlen ks = 32 -> bytes m -> zlen m = 32 ->
  fcc 0%nat 32 = Ok kc -> fcp 0%nat 64 = Ok seed -> fsc 0%nat 32 = Ok ks -> fsp 0%nat 32 = Ok m ->
  0 <= it -> matrix_sampled it (fst (HashG (ztake 32 seed ++ [3]))) -> 2 * it <= Z.of_nat fuel -> keygen_internal kf kf4 kf2 a fuel seed = Ok dk ->
  decryptable it (ztake 32 seed) m (snd (HashG (m ++ HashH (ek_as_bytes (encapsulation_key dk))))) ->
  exists act reply secret, x25519mlkem768_start xmul xbase kf kf4 kf2 a fuel fcc fcp = Ok act /\
    x25519mlkem768_respond xmul xbase kf kf4 kf2 a fuel fsc fsp (ak_pub act) = Ok (reply, secret) /\ ak_complete act reply = Ok secret /\
    zlen (ak_pub act) = 1216 /\ zlen reply = 1120 /\ zlen secret = 64.
Proof.
  intros it fuel kc seed ks m fcc fcp fsc fsp dk Bkc Lkc Bs Ls Bks Lks Bm Lm F1 F2 F3 F4 Hi HM HF HK HN.
  pose proof (C42_x25519mlkem768_agreement xmul xbase Hx kf kf4 kf2 a ord Hkf Hkf4 Hkf2 Ha it fuel kc seed ks m fcc fcp fsc fsp dk Bkc Lkc Bs Ls Bks Lks Bm Lm F1 F2 F3 F4 Hi HM HF HK) as T.
  cbv zeta in T. destruct (keygen_pke kf kf4 kf2 a ord Hkf Hkf4 Hkf2 Ha seed it fuel dk Bs Ls Hi HM HF HK) as [EK MO].
  pose proof (kpke_fips it (ztake 32 seed) m _ MO Bm Lm HN) as D. rewrite EK in D. cbn [fst snd] in D.
  destruct (Encaps_internal it (ek_as_bytes (encapsulation_key dk)) m) as [K c] eqn:EE. unfold Encaps_internal in EE.
  destruct (HashG (m ++ HashH (ek_as_bytes (encapsulation_key dk)))) as [K0 r]. injection EE as _ <-.
  destruct (T D) as (act & A1 & _ & A3 & A4 & A5 & A6 & A7). eexists _, _, _. split; [exact A1|]. split; [exact A4|]. split; [exact A7|]. auto.
Qed.
End Hybrid.
Print Assumptions C57_x25519mlkem768_agreement.

(** The hypotheses can be met: with zero secrets and the largest noise SamplePolyCBD gives in every coefficient of e2, only
    that noise and the rounding of v remain, whatever the matrix and the message. *)
Lemma inner_zero l : peq (inner [zero_poly; zero_poly; zero_poly] l) zero_poly.
Proof. unfold inner. destruct l as [|x [|y [|z l]]]; cbn [combine fold_right]; ring. Qed.
Lemma small_near t x y : dist_q x y <= 104 -> t == 2 + (x - y) -> small_coef t.
Proof.
  intros D E. unfold small_coef, dist_q in *. cbv zeta. apply cq_mod in E. rewrite E. rewrite <- (Z.add_mod_idemp_r 2) by apply q_nz.
  assert (Q : q = 3329) by reflexivity. assert (N : (y - x) mod q = (q - (x - y) mod q) mod q).
  { replace (y - x) with (- (x - y)) by lia. rewrite <- (Z.mod_add (q - (x - y) mod q) (-1) q) by apply q_nz. replace (q - (x - y) mod q + -1 * q) with (0 - (x - y) mod q) by lia.
    rewrite Zminus_mod_idemp_r. f_equal. }
  rewrite N in D. clear N E. pose proof (Z.mod_pos_bound (x - y) q q_pos) as B. set (r := (x - y) mod q) in *. clearbody r. rewrite Q in *.
  assert (C : r <= 104 \/ 3225 <= r). { destruct (Z.eq_dec r 0) as [->|N0]; [lia|]. rewrite (Z.mod_small (3329 - r)) in D by lia. lia. }
  destruct C as [C|C]; [rewrite (Z.mod_small (2 + r)) by lia; destruct (2 + r <=? 1664) eqn:G; lia|].
  destruct (Z_lt_le_dec r 3327); [rewrite (Z.mod_small (2 + r)) by lia; destruct (2 + r <=? 1664) eqn:G; lia|].
  replace ((2 + r) mod 3329) with (r - 3327) by (apply (Z.mod_unique _ _ 1); lia). destruct (r - 3327 <=? 1664) eqn:G; lia.
Qed.
Example C57_example : forall A m,
  let z := [zero_poly; zero_poly; zero_poly] in
  Forall small_coef (error_of A z z z z (poly (fun _ => 2)) (map (Decompress 1) (ByteDecode 1 m))).
Proof.
  intros A m z. unfold error_of. cbv zeta. set (v := poly_add _ (map (Decompress 1) _)). set (g := inner z (vec_add _ _)). set (x := inner z z).
  assert (Gx : peq x zero_poly) by apply inner_zero. assert (Gg : peq g zero_poly) by apply inner_zero. assert (Pv : pol v) by apply pol_poly.
  set (P := poly_sub _ g). assert (PP : pol P) by apply pol_poly. apply Forall_forall. intros c Hc. apply (In_nth _ _ 0) in Hc as (i & Hi & <-).
  rewrite (proj1 PP) in Hi. destruct Pv as [Lv Cv]. unfold canon in Cv. rewrite Forall_forall in Cv. specialize (Cv (nth i v 0) ltac:(apply nth_In; lia)).
  apply (small_near _ (Decompress 4 (Compress 4 (nth i v 0))) (nth i v 0)); [apply (C35_rounding_error (nth i v 0)); exact Cv|].
  fold (coef P i). unfold P. rewrite coef_sub, coef_add, coef_add, coef_sub by exact Hi. rewrite (Gx i Hi), (Gg i Hi), coef_zero by exact Hi. rewrite coef_eqm by exact Hi.
  replace (coef (rounded 4 v) i) with (Decompress 4 (Compress 4 (nth i v 0))); [unfold coef; apply eq_eqm; lia|].
  unfold coef, rounded. set (F := fun y => Decompress 4 (Compress 4 y)). change (F (nth i v 0) = nth i (map F v) 0).
  rewrite (nth_indep (map F v) 0 (F 0)) by (rewrite map_length; lia). symmetry. apply map_nth.
Qed.
