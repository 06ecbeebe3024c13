(** C35 - C38: ML-KEM-768 as offered by the API is FIPS 203. *)
Require Import Verif.Base Verif.L_Base Verif.L_Blocks Verif.M_Ct Verif.L_Hmac Verif.T_Hash Verif.M_Sha3 Verif.S_Sha3 Verif.L_Poly1305 Verif.L_Sha3 Verif.T_Sha3
  Verif.S_MlKem Verif.M_MlKem Verif.S_MlKemAsm Verif.L_MlKemEnc Verif.L_MlKemSample Verif.L_MlKem Verif.L_MlKemKem.
Require Import ZifyNat Permutation.
Local Opaque keccak_f keccak_p RC round_constants set_words.

(** ** C35: compression, decompression, packing *)
(** Every coefficient 0..3328 is compressed to the FIPS 203 value by the multiply-and-shift code (no
    intermediate overflow: an overflow would be [Panic]), and every code word is decompressed to it. *)
Theorem C35_compress : forall x, 0 <= x < 3329 ->
  compress_4 x = Ok (Compress 4 x) /\ compress_10 x = Ok (Compress 10 x) /\
  forall c, zlen c = 8 -> canon c -> exists b, compress_1_x8 c = Ok b /\ [b] = ByteEncode 1 (map (Compress 1) c).
Proof.
  intros x Hx. sp; [apply compress_4_ok; auto|apply compress_10_ok; auto|].
  intros c L C. destruct (compress_1_x8_ok c L C) as (b & E & P). exists b. split; auto. symmetry. apply packs_encode; auto.
Qed.
Print Assumptions C35_compress.
Theorem C35_decompress : (forall y, 0 <= y < 16 -> decompress_4 y = Ok (Decompress 4 y)) /\
  (forall y, 0 <= y < 1024 -> decompress_10 y = Ok (Decompress 10 y)).
Proof. split; intros; [apply decompress_4_ok|apply decompress_10_ok]; auto. Qed.
Print Assumptions C35_decompress.

(** Whole vectors: a ciphertext's two parts and the message are exactly ByteEncode of the compressed
    coefficients, and decoding exactly Decompress of ByteDecode; they never fail. *)
Theorem C35_encode_vectors : forall us v, Forall (fun f => length f = 256%nat /\ canon f) us -> length v = 256%nat -> canon v ->
  compress_into_bytes_du_10 (concat us) = Ok (concat (map (fun f => ByteEncode 10 (map (Compress 10) f)) us)) /\
  compress_into_bytes_dv_4 v = Ok (ByteEncode 4 (map (Compress 4) v)) /\
  to_message_bits v = Ok (ByteEncode 1 (map (Compress 1) v)).
Proof. intros us v Hu Hl Hv. sp; [apply enc_du; auto|apply enc_dv; auto|apply enc_msg; auto]. Qed.
Print Assumptions C35_encode_vectors.
Theorem C35_decode_vectors : forall c1 c2 m, bytes c1 -> zlen c1 = 960 -> bytes c2 -> zlen c2 = 128 -> bytes m -> zlen m = 32 ->
  decompress_from_bytes_du_10 c1 = Ok (concat (map (fun b => map (Decompress 10) (ByteDecode 10 b)) (chunks_exact 320 c1))) /\
  decompress_from_bytes_dv_4 c2 = Ok (map (Decompress 4) (ByteDecode 4 c2)) /\
  from_message_bits m = map (Decompress 1) (ByteDecode 1 m).
Proof. intros. sp; [apply dec_du; auto|apply dec_dv; auto|apply dec_msg; auto]. Qed.
Print Assumptions C35_decode_vectors.

(** The FIPS 203 encodings round trip both ways, for every width 1..12 and any number of integers that
    fills whole bytes (width 12 reduces modulo q, so there the integers must be below q). *)
Lemma packs_self d f : Forall (lt2 d) f -> forall k, (d * length f = 8 * k)%nat -> packs d f (ByteEncode d f) /\ zlen (ByteEncode d f) = Z.of_nat k.
Proof.
  intros F2 k HL.
  assert (V : 0 <= dval d f < 256 ^ Z.of_nat k).
  { assert (D : 0 <= dval d f < 2 ^ (Z.of_nat d * Z.of_nat (length f))).
    { clear -F2. induction F2 as [|x f Hx F IH]; [cbn [dval length]; rewrite Z.mul_0_r; lia|]. cbn [dval length]. unfold lt2 in Hx.
      replace (Z.of_nat d * Z.of_nat (S (length f))) with (Z.of_nat d + Z.of_nat d * Z.of_nat (length f)) by lia. rewrite Z.pow_add_r by nia. nia. }
    replace (Z.of_nat d * Z.of_nat (length f)) with (8 * Z.of_nat k) in D by lia. change 256 with (2 ^ 8). rewrite <- Z.pow_mul_r by lia. exact D. }
  assert (P : packs d f (le_bytes k (dval d f))).
  { apply packs_group; auto using le_bytes_bytes. - rewrite le_bytes_length. lia. - rewrite le_val_le_bytes. symmetry. apply Z.mod_small. exact V. }
  rewrite (packs_encode _ _ _ P). split; [exact P|]. rewrite zlen_le_bytes. reflexivity.
Qed.
Theorem C35_round_trip_values : forall d k F, (1 <= d <= 12)%nat -> (d * length F = 8 * k)%nat ->
  Forall (fun x => 0 <= x < if (d <? 12)%nat then 2 ^ Z.of_nat d else 3329) F -> ByteDecode d (ByteEncode d F) = F /\ bytes (ByteEncode d F).
Proof.
  intros d k F Hd HL HF. assert (F2 : Forall (lt2 d) F).
  { eapply Forall_impl; [|exact HF]. unfold lt2. intros x. cbv beta. destruct (d <? 12)%nat eqn:E; auto. replace d with 12%nat by lia. change (2 ^ Z.of_nat 12) with 4096. lia. }
  destruct (packs_self d F F2 k HL) as [P _]. split; [|apply P]. unfold ByteDecode. rewrite (packs_decode d F _ ltac:(lia) P). clear -HF.
  induction HF as [|x F Hx HF IH]; cbn [map]; auto. f_equal; auto. destruct (d <? 12)%nat; apply Z.mod_small; exact Hx.
Qed.
Print Assumptions C35_round_trip_values.
Theorem C35_round_trip_bytes : forall d m B, (1 <= d <= 12)%nat -> bytes B -> (d * m = 8 * length B)%nat ->
  ByteEncode d (ByteDecode_raw d B) = B /\ length (ByteDecode_raw d B) = m /\ ((d < 12)%nat -> ByteDecode d B = ByteDecode_raw d B).
Proof.
  intros d m B Hd HB HL. destruct (decode_facts d m B ltac:(lia) HB HL) as (A1 & A2 & A3). sp; auto. intros Hd2. eapply ByteDecode_small; eauto. lia.
Qed.
Print Assumptions C35_round_trip_bytes.

(** Compression loses at most the rounding error of the standard: decompress (compress x) is within
    round(q / 2^(d+1)) of x modulo q, and compress undoes decompress. *)
Definition dist_q (x y : Z) : Z := Z.min ((x - y) mod q) ((y - x) mod q).
Theorem C35_rounding_error : forall x, 0 <= x < 3329 ->
  dist_q (Decompress 1 (Compress 1 x)) x <= 832 /\ dist_q (Decompress 4 (Compress 4 x)) x <= 104 /\ dist_q (Decompress 10 (Compress 10 x)) x <= 2.
Proof.
  intros x Hx.
  assert (E : forallb (fun x => (dist_q (Decompress 1 (Compress 1 x)) x <=? 832) && (dist_q (Decompress 4 (Compress 4 x)) x <=? 104) && (dist_q (Decompress 10 (Compress 10 x)) x <=? 2)) (upto 3329) = true)
    by (vm_compute; reflexivity).
  pose proof (upto_all _ _ E x Hx) as H. cbv beta in H. lia.
Qed.
Print Assumptions C35_rounding_error.
Theorem C35_compress_decompress : (forall y, 0 <= y < 2 -> Compress 1 (Decompress 1 y) = y) /\
  (forall y, 0 <= y < 16 -> Compress 4 (Decompress 4 y) = y) /\ (forall y, 0 <= y < 1024 -> Compress 10 (Decompress 10 y) = y).
Proof.
  assert (G : forall d m, forallb (fun y => Compress d (Decompress d y) =? y) (upto m) = true -> forall y, 0 <= y < m -> Compress d (Decompress d y) = y).
  { intros d m E y Hy. pose proof (upto_all _ _ E y Hy) as H. cbv beta in H. lia. }
  sp; apply G; vm_compute; reflexivity.
Qed.
Print Assumptions C35_compress_decompress.
Example C35_ex : compress_4 1664 = Ok 8 /\ compress_10 3328 = Ok 0 /\ decompress_10 1023 = Ok 3326 /\ decompress_4 8 = Ok 1665.
Proof. repeat split. Qed.

(** ** C38: sampling *)
(** Rejection sampling, whatever the vector code and the refills do: once enough candidates have been
    drawn, the library's single-polynomial sampler returns exactly Algorithm 7's coefficients, for any
    seed in any number of pieces; and anything it ever returns is that. *)
Theorem C38_rejection_sampling : forall kf a ord, keccak_asm_ok kf -> asm_ok ord a ->
  forall message out it fuel, Forall bytes message -> length out = 256%nat -> 0 <= it -> sampled it (concat message) ->
  2 * it <= Z.of_nat fuel -> sample_into kf a fuel message out = Ok (SampleNTT it (concat message)).
Proof. intros. eapply sample_into_ok; eauto. lia. Qed.
Print Assumptions C38_rejection_sampling.
Theorem C38_rejection_sampling_only : forall kf a ord, keccak_asm_ok kf -> asm_ok ord a ->
  forall message out fuel r, Forall bytes message -> length out = 256%nat -> sample_into kf a fuel message out = Ok r ->
  exists it, 0 <= it /\ sampled it (concat message) /\ r = SampleNTT it (concat message).
Proof.
  intros kf a ord Hkf Ha message out fuel r Hm Lo. unfold sample_into.
  destruct (new_for_message_reps kf Hkf message Hm) as (s & -> & R0). cbn [bind].
  change (SHAKE_128_R_BYTES * 3) with (3 * 168). change SHAKE_128_R_BYTES with 168.
  destruct (squeeze_ok kf Hkf 168 _ 3 0 s ltac:(lia) ltac:(lia) R0) as (s' & -> & R3). cbn [bind]. change (Z.to_nat 3) with 3%nat in *. cbn [Nat.iter nat_rect].
  rewrite <- (ztake_all (3 * 168) (squeeze_blocks 168 3 _)).
  2:{ destruct (blocks_facts kf Hkf (absorbed (concat message)) 3 0 s R0) as [_ L]. cbn [Nat.iter nat_rect] in L. lia. }
  rewrite <- (shake_blocks kf Hkf _ s 3 (3 * 168)) by (auto; lia). intros HR.
  eapply (sample_rest_only kf Hkf a ord Ha fuel (concat message) s s' out r); eauto. apply L_Hmac.bytes_concat; auto.
Qed.
Print Assumptions C38_rejection_sampling_only.
(** The number of loop iterations beyond the first sufficient one makes no difference. *)
Theorem C38_iterations_irrelevant : forall kf, keccak_asm_ok kf -> forall seed it it', bytes seed -> 0 <= it <= it' -> sampled it seed ->
  sampled it' seed /\ SampleNTT it' seed = SampleNTT it seed.
Proof.
  intros kf Hkf seed it it' Hs Hi H. destruct (absorbed_reps kf Hkf seed Hs) as (s & R).
  split; [eapply (sampled_mono kf Hkf); eauto|eapply (sample_mono kf Hkf); eauto]; lia.
Qed.
Print Assumptions C38_iterations_irrelevant.
(** The nine polynomials of the public matrix (eight in two four-way groups, one alone), in either
    index order, are SampleNTT of rho, j, i in the layout of the transform domain. *)
Theorem C38_matrix : forall kf kf4 a ord, keccak_asm_ok kf -> keccak4_asm_ok kf4 -> asm_ok ord a ->
  forall rho it fuel, bytes rho -> zlen rho = 32 -> 0 <= it -> matrix_sampled it rho -> 2 * it <= Z.of_nat fuel ->
  sample_poly_ntt kf kf4 a fuel false rho = Ok (concat (map (place ord) (concat (matrix_A it rho)))) /\
  sample_poly_ntt kf kf4 a fuel true rho = Ok (concat (map (place ord) (concat (transpose (matrix_A it rho))))).
Proof.
  intros kf kf4 a ord Hkf Hkf4 Ha rho it fuel Hr Lr Hi Hm Hf.
  split; [apply (sample_matrix_ok kf kf4 Hkf Hkf4 a ord Ha fuel it false)|apply (sample_matrix_ok kf kf4 Hkf Hkf4 a ord Ha fuel it true)]; auto; lia.
Qed.
Print Assumptions C38_matrix.
(** Centred binomial sampling: the word-parallel code gives Algorithm 8 on every 128-byte string, with
    signed coefficients in -2..2; and the six-way sampler gives the six polynomials of counters 0..5. *)
Theorem C38_cbd : forall B, bytes B -> zlen B = 128 -> length (sample_cbd2 B) = 256%nat /\ Forall (fun x => -2 <= x <= 2) (sample_cbd2 B) /\
  map (fun x => x mod q) (sample_cbd2 B) = SamplePolyCBD B.
Proof. intros. apply sample_cbd2_ok; auto. Qed.
Print Assumptions C38_cbd.
Theorem C38_cbd_dual : forall kf kf4 kf2, keccak_asm_ok kf -> keccak4_asm_ok kf4 -> keccak2of4_asm_ok kf2 ->
  forall sigma, bytes sigma -> zlen sigma = 32 -> exists s e, sample_poly_cbd_dual kf4 kf2 sigma = Ok (s, e) /\
    map (fun x => x mod q) s = concat (noise sigma 0) /\ map (fun x => x mod q) e = concat (noise sigma 3).
Proof.
  intros kf kf4 kf2 Hkf H4 H2 sigma HB HL. eexists _, _. split; [apply (cbd_dual_ok kf kf4 kf2 Hkf H4 H2 sigma HB HL)|].
  destruct (noise_ok kf Hkf sigma 0 HB ltac:(lia)) as [_ <-]. destruct (noise_ok kf Hkf sigma 3 HB ltac:(lia)) as [_ <-]. rewrite !concat_map. auto.
Qed.
Print Assumptions C38_cbd_dual.
Example C38_ex_cbd : firstn 4 (sample_cbd2 (0x31 :: repeat 0xff 127)) = [1; 2; 0; 0].
Proof. reflexivity. Qed.

(** ** C36: encapsulation keys *)
Definition coefficients12 (input : list Z) : list Z := concat (map (ByteDecode_raw 12) (chunks_exact 384 (ztake 1152 input))).
Lemma app_eq_app_zlen (u v w x : list Z) : u ++ v = w ++ x -> zlen u = zlen w -> u = w /\ v = x.
Proof.
  revert w. induction u as [|a u IH]; intros [|b w]; unfold zlen; cbn [app length]; intros H L; auto; try lia.
  injection H as -> H. destruct (IH w H) as [-> ->]; auto. unfold zlen. lia.
Qed.
Lemma ek_ok_iff input : bytes input -> zlen input = 1184 -> (ek_ok input <-> Forall (fun x => x < 3329) (coefficients12 input)).
Proof.
  intros HB HL. assert (B1 : bytes (ztake 1152 input)) by (apply bytes_ztake; auto). assert (L1 : zlen (ztake 1152 input) = 1152) by (rewrite zlen_ztake; lia).
  unfold ek_ok, coefficients12, decode_vec12. set (t := ztake 1152 input) in *. clearbody t.
  destruct (chunk_facts byte_ok 384 3 t ltac:(lia) ltac:(lia) ltac:(lia) B1) as [E F]. rewrite <- E at 2. set (cs := chunks_exact 384 t) in *. clearbody cs. clear E L1 B1 t. rewrite map_map.
  assert (One : forall c, zlen c = 384 -> bytes c -> zlen (ByteEncode 12 (ByteDecode 12 c)) = 384 /\ (ByteEncode 12 (ByteDecode 12 c) = c <-> Forall (fun x => x < 3329) (ByteDecode_raw 12 c))).
  { intros c Lc Bc. assert (LL : (12 * 256 = 8 * length c)%nat) by (unfold zlen in Lc; lia). destruct (decode_facts 12 256 c ltac:(lia) Bc LL) as (D1 & D2 & D3).
    rewrite ByteDecode_12. set (r := ByteDecode_raw 12 c) in *.
    assert (R2 : Forall (lt2 12) (map (fun x => x mod q) r)).
    { apply Forall_map, Forall_forall. intros x _. unfold lt2. pose proof (Z.mod_pos_bound x q ltac:(unfold q; lia)). unfold q in *. cbn. lia. }
    destruct (packs_self 12 _ R2 384) as [P1 P2]; [rewrite map_length, D1; reflexivity|]. split; [exact P2|].
    assert (PR : packs 12 r c) by (destruct (packs_self 12 r D2 384) as [P _]; [rewrite D1; reflexivity|]; rewrite D3 in P; exact P).
    split.
    - intros X. rewrite X in P1. pose proof (packs_inj 12 _ _ c ltac:(lia) P1 PR) as Y. apply Forall_forall. intros x Hx. rewrite <- Y in Hx. apply in_map_iff in Hx as (y & <- & _).
      apply Z.mod_pos_bound. unfold q; lia.
    - intros X. replace (map (fun x => x mod q) r) with r; auto. clear -X D2. induction r as [|x r IH]; cbn [map]; auto. inversion_clear X. inversion_clear D2.
      f_equal; auto. symmetry. apply Z.mod_small. unfold lt2, q in *. lia. }
  split.
  - intros [_ X]. induction F as [|c cs [Lc Bc] F IH]; cbn [map concat] in *; [constructor|]. destruct (One c Lc Bc) as [O1 O2].
    apply app_eq_app_zlen in X as [X1 X2]; [|congruence]. apply Forall_app. split; [apply O2; auto|apply IH; auto].
  - intros X. split; auto. induction F as [|c cs [Lc Bc] F IH]; cbn [map concat] in *; [reflexivity|]. destruct (One c Lc Bc) as [O1 O2].
    apply Forall_app in X as [X1 X2]. f_equal; [apply O2; auto|apply IH; auto].
Qed.
(** EncapKey::from_bytes: accepted exactly when every 12-bit coefficient is below 3329; an accepted key
    exports the same bytes; a rejected one is OutOfRange and nothing else. *)
Theorem C36_from_bytes_iff_canonical : forall kf kf4 a ord, keccak_asm_ok kf -> keccak4_asm_ok kf4 -> asm_ok ord a ->
  forall input it fuel, bytes input -> zlen input = 1184 -> 0 <= it -> matrix_sampled it (zdrop 1152 input) -> 2 * it <= Z.of_nat fuel ->
  (Forall (fun x => x < 3329) (coefficients12 input) -> exists e, ek_from_bytes kf kf4 a fuel input = Ok e /\ ek_as_bytes e = input) /\
  (~ Forall (fun x => x < 3329) (coefficients12 input) -> ek_from_bytes kf kf4 a fuel input = Err OutOfRange).
Proof.
  intros kf kf4 a ord Hkf H4 Ha input it fuel HB HL Hi Hm Hf.
  destruct (from_bytes_exact kf kf4 Hkf H4 a ord Ha fuel it input HB HL Hi ltac:(lia) Hm) as [A1 A2]. rewrite <- (ek_ok_iff input HB HL). split; auto.
  intros H. destruct (A1 H) as (e & E1 & E2 & _). eauto.
Qed.
Print Assumptions C36_from_bytes_iff_canonical.
(** Generated keys are canonical, so their export is always importable. *)
Theorem C36_generated_canonical : forall kf kf4 kf2 a ord, keccak_asm_ok kf -> keccak4_asm_ok kf4 -> keccak2of4_asm_ok kf2 -> asm_ok ord a ->
  forall seed it fuel, bytes seed -> zlen seed = 64 -> 0 <= it -> matrix_sampled it (fst (HashG (ztake 32 seed ++ [3]))) -> 2 * it <= Z.of_nat fuel ->
  exists dk, keygen_internal kf kf4 kf2 a fuel seed = Ok dk /\ Forall (fun x => x < 3329) (coefficients12 (ek_as_bytes (encapsulation_key dk))) /\
    zlen (ek_as_bytes (encapsulation_key dk)) = 1184.
Proof.
  intros kf kf4 kf2 a ord Hkf H4 H2 Ha seed it fuel HB HL Hi Hm Hf.
  destruct (kpke_keygen_ok kf kf4 kf2 Hkf H4 H2 a ord Ha fuel it (ztake 32 seed)) as (e & dk & E1 & G & EK & _); auto using bytes_ztake; [rewrite zlen_ztake; lia|lia|].
  unfold keygen_internal. rewrite E1. cbn [bind]. destruct G as [_ [T1 T2] [R1 R2] _ _].
  rewrite (C11_sha3_256_is_fips202 kf Hkf) by (repeat constructor; auto). cbn [bind]. eexists. split; [reflexivity|]. unfold encapsulation_key. cbn [dk_ek].
  split; [|apply EK]. apply ek_ok_iff; [apply bytes_app; auto|apply EK|exact EK].
Qed.
Print Assumptions C36_generated_canonical.

(** ** C37: key generation, encapsulation, decapsulation *)
Section Results.
Variable kf : list Z -> list Z -> list Z.
Variable kf4 kf2 : list (list Z) -> list Z -> list (list Z).
Variable a : asm.
Variable ord : list nat.
Hypothesis Hkf : keccak_asm_ok kf.
Hypothesis Hkf4 : keccak4_asm_ok kf4.
Hypothesis Hkf2 : keccak2of4_asm_ok kf2.
Hypothesis Ha : asm_ok ord a.

Lemma keygen_good seed it fuel : bytes seed -> zlen seed = 64 -> 0 <= it -> matrix_sampled it (fst (HashG (ztake 32 seed ++ [3]))) -> 2 * it <= Z.of_nat fuel ->
  exists dk, keygen_internal kf kf4 kf2 a fuel seed = Ok dk /\
    (ek_as_bytes (encapsulation_key dk), dk_as_bytes dk) = KeyGen_internal it (ztake 32 seed) (zdrop 32 seed) /\
    ek_good ord it (dk_ek dk) /\ bytes (dk_pke dk) /\ zlen (dk_pke dk) = 1152 /\ dk_h dk = HashH (ek_as_bytes (dk_ek dk)) /\ dk_z dk = zdrop 32 seed.
Proof.
  intros HB HL Hi Hm Hf.
  destruct (kpke_keygen_ok kf kf4 kf2 Hkf Hkf4 Hkf2 a ord Ha fuel it (ztake 32 seed)) as (e & dk & E1 & G & EK & S & B & L); auto using bytes_ztake; [rewrite zlen_ztake; lia|lia|].
  unfold keygen_internal. rewrite E1. cbn [bind]. pose proof G as [_ [T1 T2] [R1 R2] _ _].
  rewrite (C11_sha3_256_is_fips202 kf Hkf) by (repeat constructor; auto). cbn [bind concat]. rewrite app_nil_r.
  change (ek_t_hat e ++ ek_rho e) with (ek_as_bytes e). fold (HashH (ek_as_bytes e)). eexists. split; [reflexivity|].
  unfold encapsulation_key, dk_as_bytes. cbn [dk_ek dk_pke dk_h dk_z]. sp; auto. unfold KeyGen_internal. rewrite S.
  unfold ek_as_bytes. rewrite <- ?app_assoc. reflexivity.
Qed.

(** Key generation from a 64-byte seed d || z never fails and gives ML-KEM.KeyGen_internal(d, z). *)
Theorem C37_keygen : forall seed it fuel, bytes seed -> zlen seed = 64 -> 0 <= it ->
  matrix_sampled it (fst (HashG (ztake 32 seed ++ [3]))) -> 2 * it <= Z.of_nat fuel ->
  exists dk, keygen_internal kf kf4 kf2 a fuel seed = Ok dk /\
    (ek_as_bytes (encapsulation_key dk), dk_as_bytes dk) = KeyGen_internal it (ztake 32 seed) (zdrop 32 seed).
Proof. intros. destruct (keygen_good seed it fuel) as (dk & E & F & _); eauto. Qed.

(** the keys a program can hold: imported, or generated *)
Definition usable_ek (it : Z) (e : encap_key) : Prop :=
  (exists input fuel, bytes input /\ zlen input = 1184 /\ matrix_sampled it (zdrop 1152 input) /\ 2 * it <= Z.of_nat fuel /\ ek_from_bytes kf kf4 a fuel input = Ok e) \/
  (exists seed fuel dk, bytes seed /\ zlen seed = 64 /\ matrix_sampled it (fst (HashG (ztake 32 seed ++ [3]))) /\ 2 * it <= Z.of_nat fuel /\
     keygen_internal kf kf4 kf2 a fuel seed = Ok dk /\ e = encapsulation_key dk).
Lemma usable_good it e : 0 <= it -> usable_ek it e -> ek_good ord it e.
Proof.
  intros Hi [(input & fuel & B & L & M & F & E)|(seed & fuel & dk & B & L & M & F & E & ->)].
  - destruct (from_bytes_exact kf kf4 Hkf Hkf4 a ord Ha fuel it input B L Hi ltac:(lia) M) as [A1 A2].
    assert (D : ek_ok input \/ ~ ek_ok input). { unfold ek_ok. destruct (list_eq_dec Z.eq_dec (concat (map (ByteEncode 12) (decode_vec12 (ztake 1152 input)))) (ztake 1152 input)); tauto. }
    destruct D as [D|D]. + destruct (A1 D) as (e' & E' & _ & G). congruence. + rewrite (A2 D) in E. discriminate.
  - destruct (keygen_good seed it fuel B L Hi M F) as (dk' & E' & _ & G & _). unfold encapsulation_key. congruence.
Qed.

Lemma encaps_good it e m : ek_good ord it e -> bytes m -> zlen m = 32 -> encaps_internal kf kf4 kf2 a e m = Ok (Encaps_internal it (ek_as_bytes e) m).
Proof.
  intros G Bm Lm. unfold encaps_internal, Encaps_internal. pose proof G as [_ [T1 T2] [R1 R2] _ _].
  rewrite (C11_sha3_256_is_fips202 kf Hkf) by (repeat constructor; auto). cbn [bind concat]. rewrite app_nil_r.
  change (ek_t_hat e ++ ek_rho e) with (ek_as_bytes e). fold (HashH (ek_as_bytes e)).
  destruct (sha3_256_facts kf Hkf (ek_as_bytes e)) as [BH LH]; [apply bytes_app; auto|]. fold (HashH (ek_as_bytes e)) in BH, LH.
  rewrite (C11_sha3_512_is_fips202 kf Hkf) by (repeat constructor; auto). cbn [bind concat]. rewrite app_nil_r.
  pose proof (hashG_parts kf Hkf (m ++ HashH (ek_as_bytes e)) ltac:(apply bytes_app; auto)) as HP. destruct (HashG (m ++ HashH (ek_as_bytes e))) as [K r].
  destruct HP as (K1 & K2 & R3 & R4 & <- & <-). destruct (kpke_encrypt_ok kf kf4 kf2 Hkf Hkf4 Hkf2 a ord Ha it e m r G Bm Lm R3 R4) as (-> & _ & _). reflexivity.
Qed.
(** Encapsulation with any key a program can hold, for any 32 random bytes: ML-KEM.Encaps_internal. *)
Theorem C37_encaps : forall it e m, 0 <= it -> usable_ek it e -> bytes m -> zlen m = 32 ->
  encaps_internal kf kf4 kf2 a e m = Ok (Encaps_internal it (ek_as_bytes e) m).
Proof. intros. apply encaps_good; auto. apply usable_good; auto. Qed.

(** The entry points that draw randomness use exactly the bytes drawn, and report a failure of the random source. *)
Theorem C37_randomness : forall rng,
  (forall seed it fuel, rng 64 = Ok seed -> bytes seed -> zlen seed = 64 -> 0 <= it ->
    matrix_sampled it (fst (HashG (ztake 32 seed ++ [3]))) -> 2 * it <= Z.of_nat fuel ->
    exists dk, generate kf kf4 kf2 a rng fuel = Ok dk /\
      (ek_as_bytes (encapsulation_key dk), dk_as_bytes dk) = KeyGen_internal it (ztake 32 seed) (zdrop 32 seed)) /\
  (forall it e m, rng 32 = Ok m -> bytes m -> zlen m = 32 -> 0 <= it -> usable_ek it e ->
    encaps kf kf4 kf2 a rng e = Ok (Encaps_internal it (ek_as_bytes e) m)) /\
  (forall fuel err, rng 64 = Err err -> generate kf kf4 kf2 a rng fuel = Err err) /\
  (forall e err, rng 32 = Err err -> encaps kf kf4 kf2 a rng e = Err err).
Proof.
  intros rng. unfold generate, encaps. split; [|split; [|split]].
  - intros seed it fuel -> HB HL Hi Hm Hf. cbn [bind]. now apply C37_keygen.
  - intros it e m -> HB HL Hi Hu. cbn [bind]. now apply C37_encaps.
  - now intros fuel err ->.
  - now intros e err ->.
Qed.

Lemma dk_parts dk : zlen (dk_pke dk) = 1152 -> zlen (ek_t_hat (dk_ek dk)) = 1152 -> zlen (ek_rho (dk_ek dk)) = 32 -> zlen (dk_h dk) = 32 -> zlen (dk_z dk) = 32 ->
  ztake 1152 (dk_as_bytes dk) = dk_pke dk /\ ztake 1184 (zdrop 1152 (dk_as_bytes dk)) = ek_as_bytes (dk_ek dk) /\
  ztake 32 (zdrop 2336 (dk_as_bytes dk)) = dk_h dk /\ ztake 32 (zdrop 2368 (dk_as_bytes dk)) = dk_z dk.
Proof.
  intros L1 L2 L3 L4 L5. unfold dk_as_bytes, ek_as_bytes. set (p := dk_pke dk) in *. set (t := ek_t_hat (dk_ek dk)) in *. set (r := ek_rho (dk_ek dk)) in *.
  set (h := dk_h dk) in *. set (z := dk_z dk) in *. clearbody p t r h z. sp.
  - rewrite ztake_app_eq by lia. reflexivity.
  - rewrite zdrop_app_eq by lia. rewrite app_assoc, ztake_app_eq by (rewrite zlen_app; lia). reflexivity.
  - replace (p ++ t ++ r ++ h ++ z) with ((p ++ t ++ r) ++ h ++ z) by (rewrite <- !app_assoc; reflexivity).
    rewrite zdrop_app_eq by (rewrite !zlen_app; lia). rewrite ztake_app_eq by lia. reflexivity.
  - replace (p ++ t ++ r ++ h ++ z) with ((p ++ t ++ r ++ h) ++ z) by (rewrite <- !app_assoc; reflexivity).
    rewrite zdrop_app_eq by (rewrite !zlen_app; lia). apply ztake_all. lia.
Qed.
(** Decapsulation with a generated key, of ANY 1088 bytes, never fails and is ML-KEM.Decaps_internal. *)
Theorem C37_decaps : forall seed it fuel dk c, bytes seed -> zlen seed = 64 -> 0 <= it ->
  matrix_sampled it (fst (HashG (ztake 32 seed ++ [3]))) -> 2 * it <= Z.of_nat fuel -> keygen_internal kf kf4 kf2 a fuel seed = Ok dk ->
  bytes c -> zlen c = 1088 -> decaps_internal kf kf4 kf2 a dk c = Ok (Decaps_internal it (dk_as_bytes dk) c).
Proof.
  intros seed it fuel dk c HB HL Hi Hm Hf HK Bc Lc.
  destruct (keygen_good seed it fuel HB HL Hi Hm Hf) as (dk' & E & _ & G & Bp & Lp & Eh & Ez). assert (dk' = dk) by congruence. subst dk'. clear E HK.
  pose proof G as [_ [T1 T2] [R1 R2] _ _]. destruct (sha3_256_facts kf Hkf (ek_as_bytes (dk_ek dk))) as [BH LH]; [apply bytes_app; auto|].
  fold (HashH (ek_as_bytes (dk_ek dk))) in BH, LH. rewrite <- Eh in BH, LH.
  assert (Bz : bytes (dk_z dk)) by (rewrite Ez; apply bytes_zdrop; auto). assert (Lz : zlen (dk_z dk) = 32) by (rewrite Ez, zlen_zdrop; lia).
  destruct (dk_parts dk Lp T2 R2 LH Lz) as (P1 & P2 & P3 & P4).
  unfold decaps_internal, Decaps_internal. rewrite P1, P2, P3, P4.
  destruct (kpke_decrypt_ok a ord Ha dk c Bp Lp Bc Lc) as (-> & Lm & Bm). cbn [bind]. set (m := KPKE_Decrypt (dk_pke dk) c) in *. clearbody m.
  rewrite (C11_sha3_512_is_fips202 kf Hkf) by (repeat constructor; auto). cbn [bind concat]. rewrite app_nil_r.
  pose proof (hashG_parts kf Hkf (m ++ dk_h dk) ltac:(apply bytes_app; auto)) as HP. destruct (HashG (m ++ dk_h dk)) as [K r].
  destruct HP as (K1 & K2 & R3 & R4 & <- & <-).
  destruct (shake256_once kf Hkf [dk_z dk; c] 32) as (k & k' & -> & E2); [repeat constructor; auto|lia|]. cbn [bind]. rewrite E2. cbn [bind concat]. rewrite app_nil_r.
  destruct (kpke_encrypt_ok kf kf4 kf2 Hkf Hkf4 Hkf2 a ord Ha it (dk_ek dk) m r G Bm Lm R3 R4) as (-> & Lc' & Bc'). cbn [bind]. f_equal.
  destruct (shake256_facts kf Hkf (dk_z dk ++ c) 32) as [BJ LJ]; [apply bytes_app; auto|lia|]. fold (HashJ (dk_z dk ++ c)) in *.
  rewrite C17_ct_copy by (auto; unfold zlen in *; lia). set (c' := KPKE_Encrypt _ _ _ _) in *.
  destruct (ct_equal c c') eqn:EQ.
  - apply C17_ct_equal in EQ; auto. subst c'. rewrite <- EQ. rewrite list_eqb_refl. reflexivity.
  - replace (list_eqb c c') with false; auto. symmetry. apply list_eqb_neq. intros X. assert (ct_equal c c' = true) by (apply C17_ct_equal; auto). congruence.
Qed.

(** Implicit rejection: whenever the ciphertext is not the re-encryption of what it decrypts to, the
    result is J(z || c), whatever the ciphertext; otherwise it is the first half of G(m' || H(ek)). *)
Theorem C37_implicit_rejection : forall seed it fuel dk c, bytes seed -> zlen seed = 64 -> 0 <= it ->
  matrix_sampled it (fst (HashG (ztake 32 seed ++ [3]))) -> 2 * it <= Z.of_nat fuel -> keygen_internal kf kf4 kf2 a fuel seed = Ok dk ->
  bytes c -> zlen c = 1088 ->
  let m' := KPKE_Decrypt (dk_pke dk) c in
  let ek := ek_as_bytes (encapsulation_key dk) in
  let '(K', r') := HashG (m' ++ HashH ek) in
  (c <> KPKE_Encrypt it ek m' r' -> decaps_internal kf kf4 kf2 a dk c = Ok (HashJ (zdrop 32 seed ++ c))) /\
  (c = KPKE_Encrypt it ek m' r' -> decaps_internal kf kf4 kf2 a dk c = Ok K').
Proof.
  intros seed it fuel dk c HB HL Hi Hm Hf HK Bc Lc. rewrite (C37_decaps seed it fuel dk c HB HL Hi Hm Hf HK Bc Lc).
  destruct (keygen_good seed it fuel HB HL Hi Hm Hf) as (dk' & E & _ & G & Bp & Lp & Eh & Ez). assert (dk' = dk) by congruence. subst dk'. clear E HK.
  pose proof G as [_ [T1 T2] [R1 R2] _ _]. destruct (sha3_256_facts kf Hkf (ek_as_bytes (dk_ek dk))) as [BH LH]; [apply bytes_app; auto|].
  fold (HashH (ek_as_bytes (dk_ek dk))) in BH, LH. rewrite <- Eh in LH.
  assert (Lz : zlen (dk_z dk) = 32) by (rewrite Ez, zlen_zdrop; lia).
  destruct (dk_parts dk Lp T2 R2 LH Lz) as (P1 & P2 & P3 & P4). unfold Decaps_internal, encapsulation_key. rewrite P1, P2, P3, P4, Eh, Ez.
  cbv zeta. generalize (KPKE_Decrypt (dk_pke dk) c) as m'. intros m'. destruct (HashG (m' ++ HashH (ek_as_bytes (dk_ek dk)))) as [K' r']. split.
  - intros H. apply list_eqb_neq in H. rewrite H. reflexivity.
  - intros H. apply list_eqb_eq in H. rewrite H. reflexivity.
Qed.

(** Agreement: for every generated key and every honestly produced ciphertext that decrypts to its
    message, decapsulation returns the encapsulated secret. *)
Theorem C37_agreement : forall seed it fuel dk m K c, bytes seed -> zlen seed = 64 -> 0 <= it ->
  matrix_sampled it (fst (HashG (ztake 32 seed ++ [3]))) -> 2 * it <= Z.of_nat fuel -> keygen_internal kf kf4 kf2 a fuel seed = Ok dk ->
  bytes m -> zlen m = 32 -> encaps_internal kf kf4 kf2 a (encapsulation_key dk) m = Ok (K, c) ->
  KPKE_Decrypt (dk_pke dk) c = m -> decaps_internal kf kf4 kf2 a dk c = Ok K.
Proof.
  intros seed it fuel dk m K c HB HL Hi Hm Hf HK Bm Lm HE HD.
  destruct (keygen_good seed it fuel HB HL Hi Hm Hf) as (dk' & E & _ & G & Bp & Lp & Eh & Ez). assert (dk' = dk) by congruence. subst dk'.
  unfold encapsulation_key in HE. rewrite (encaps_good it (dk_ek dk) m G Bm Lm) in HE. unfold Encaps_internal in HE. pose proof G as [_ [T1 T2] [R1 R2] _ _].
  destruct (sha3_256_facts kf Hkf (ek_as_bytes (dk_ek dk))) as [BH LH]; [apply bytes_app; auto|].
  pose proof (hashG_parts kf Hkf (m ++ HashH (ek_as_bytes (dk_ek dk))) ltac:(apply bytes_app; auto)) as HP.
  destruct (HashG (m ++ HashH (ek_as_bytes (dk_ek dk)))) as [K0 r] eqn:EG. destruct HP as (K1 & K2 & R3 & R4 & _ & _). injection HE as -> <-.
  destruct (kpke_encrypt_ok kf kf4 kf2 Hkf Hkf4 Hkf2 a ord Ha it (dk_ek dk) m r G Bm Lm R3 R4) as (_ & Lc' & Bc').
  pose proof (C37_implicit_rejection seed it fuel dk _ HB HL Hi Hm Hf HK Bc' Lc') as X. cbv zeta in X. rewrite HD in X. unfold encapsulation_key in X. rewrite EG in X.
  apply X. reflexivity.
Qed.
End Results.
Print Assumptions C37_keygen.
Print Assumptions C37_encaps.
Print Assumptions C37_randomness.
Print Assumptions C37_decaps.
Print Assumptions C37_implicit_rejection.
Print Assumptions C37_agreement.
