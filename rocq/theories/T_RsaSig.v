(** Properties C22 and C24: RSA signature verification and signing. *)
Require Import Verif.Base Verif.L_Base Verif.L_Blocks Verif.M_Util Verif.L_Util Verif.M_Sha2 Verif.S_Sha2 Verif.L_Hash Verif.L_Hmac Verif.T_Hash
  Verif.M_PosInt Verif.S_Bignum Verif.L_PosInt Verif.T_PosInt Verif.L_Mont Verif.M_Rsa Verif.S_Rsa Verif.L_Rsa Verif.T_Rsa
  Verif.M_Pkcs1 Verif.S_Pkcs1 Verif.L_Pkcs1 Verif.T_Pkcs1.
Require Import ZifyNat.

(** The length of a modulus in bytes. *)
Definition byte_length (n : Z) : Z := Z.log2 n / 8 + 1.
(** A number stored without leading zero words, as every number read from bytes is ([normal_from_bytes]). *)
Definition normal (x : posint) : Prop := 0 < p_used x /\ 2 ^ (64 * (p_used x - 1)) <= val x.

Lemma normal_from_bytes N b x : 0 <= N -> bytes b -> pfrom_bytes N b = Ok x -> 0 < be_val b -> wf N x /\ normal x /\ val x = be_val b.
Proof.
  intros HN Hb E Hp. destruct (from_bytes_spec N b HN Hb) as [A B].
  destruct (Z.lt_ge_cases (be_val b) (2 ^ (64 * N))) as [L|G]; [|rewrite B in E by lia; discriminate].
  destruct (A L) as (x' & E' & W & V & U). assert (x' = x) as -> by congruence. split; [assumption|]. split; [|assumption].
  pose proof (val_bound N x W) as Bd. pose proof (wf_used N x W) as Hu.
  assert (U0 : 0 < p_used x). { destruct (Z.eq_dec (p_used x) 0) as [E0|]; [|lia]. rewrite E0 in Bd. change (2 ^ (64 * 0)) with 1 in Bd. lia. }
  split; [assumption|]. destruct (Z.le_gt_cases (2 ^ (64 * (p_used x - 1))) (val x)) as [|Hc]; [assumption|exfalso].
  apply (digitsize_spec (as_words x)) in Hc; [lia|apply (as_words_ok N x W)|lia].
Qed.

Lemma byte_length_used n : normal n -> val n < 2 ^ (64 * p_used n) ->
  len_bytes n = byte_length (val n) /\ byte_length (val n) <= 8 * p_used n /\ 8 * (p_used n - 1) < byte_length (val n) /\
  ((8 | byte_length (val n)) <-> byte_length (val n) = 8 * p_used n).
Proof.
  intros [U L] B. pose proof (pow64 (p_used n - 1) ltac:(lia)) as P. assert (V : 0 < val n) by (clear - P L; lia).
  apply Z.log2_le_pow2 in L; [|assumption]. apply Z.log2_lt_pow2 in B; [|assumption].
  unfold len_bytes, byte_length. rewrite len_bits_val. destruct (Z.eqb_spec (val n) 0); [lia|].
  revert L B. generalize (Z.log2 (val n)). generalize (p_used n) U. clear. intros u U l L B.
  assert (E : (l + 1 + 7) / 8 = l / 8 + 1) by (Z.div_mod_to_equations; lia). rewrite E.
  assert (A1 : l / 8 + 1 <= 8 * u) by (Z.div_mod_to_equations; lia). assert (A2 : 8 * (u - 1) < l / 8 + 1) by (Z.div_mod_to_equations; lia).
  split; [reflexivity|]. split; [assumption|]. split; [assumption|]. split.
  - intros [k Hk]. rewrite Hk in *. lia.
  - intros ->. exists u. lia.
Qed.

(** PKCS#1 v1.5 with each hash: verification, signing, the hash function, its object identifier, the longest message. *)
Definition pkcs1_algs (bn : bignum) :=
  [ (verify_pkcs1_sha256 bn, sign_pkcs1_sha256 bn, SHA256, id_sha256, 2 ^ 61);
    (verify_pkcs1_sha384 bn, sign_pkcs1_sha384 bn, SHA384, id_sha384, 2 ^ 64);
    (verify_pkcs1_sha512 bn, sign_pkcs1_sha512 bn, SHA512, id_sha512, 2 ^ 64) ].

(** what the three entry points have in common *)
Lemma alg_cases bn verify sign Hs oid lim : In (verify, sign, Hs, oid, lim) (pkcs1_algs bn) ->
  exists H di, In (H, Hs, lim) hashes /\
  (forall k s m, verify k s m = let! h := hash_oneshot H m in verify_pkcs1_inner bn k s di h) /\
  (forall k l m, sign k l m = let! h := hash_oneshot H m in sign_pkcs1_inner bn k l di h) /\
  zlen di = 19 /\ bytes di /\ forall m, DigestInfo oid (Hs m) = di ++ Hs m.
Proof.
  assert (D : forall H Hs lim x, In (H, Hs, lim) hashes -> forall m, DigestInfo (nist_hash_oid x) (Hs m) =
    [48; 17 + ha_out H; 48; 13; 6; 9; 96; 134; 72; 1; 101; 3; 4; 2; x; 5; 0; 4; ha_out H] ++ Hs m).
  { intros H Hs' lim' x HI m. pose proof (im_len _ _ _ (hashes_imp _ _ _ HI) m) as L. unfold DigestInfo, tlv, nist_hash_oid.
    cbn [app]. rewrite !zlen_cons. rewrite L. change (zlen (@nil Z)) with 0.
    match goal with |- 48 :: ?a :: ?l = _ => replace a with (17 + ha_out H) by lia end. reflexivity. }
  intros [E|[E|[E|[]]]]; injection E as <- <- <- <- <-.
  - exists Sha256, DIGESTINFO_SHA256. assert (HI : In (Sha256, SHA256, 2 ^ 61) hashes) by now left.
    split; [assumption|]. split; [reflexivity|]. split; [reflexivity|]. split; [reflexivity|]. split; [unfold DIGESTINFO_SHA256; bytes_tac|]. exact (D _ _ _ 1 HI).
  - exists Sha384, DIGESTINFO_SHA384. assert (HI : In (Sha384, SHA384, 2 ^ 64) hashes) by now (right; left).
    split; [assumption|]. split; [reflexivity|]. split; [reflexivity|]. split; [reflexivity|]. split; [unfold DIGESTINFO_SHA384; bytes_tac|]. exact (D _ _ _ 2 HI).
  - exists Sha512, DIGESTINFO_SHA512. assert (HI : In (Sha512, SHA512, 2 ^ 64) hashes) by now (right; right; left).
    split; [assumption|]. split; [reflexivity|]. split; [reflexivity|]. split; [reflexivity|]. split; [unfold DIGESTINFO_SHA512; bytes_tac|]. exact (D _ _ _ 3 HI).
Qed.

Lemma encode_ok k di h : zlen di + zlen h + 11 <= k -> bytes di -> bytes h -> exists EM,
  encode_pkcs1_sig k di h = Ok EM /\ EMSA_PKCS1 k (di ++ h) = Some EM /\ bytes EM /\ zlen EM = k.
Proof.
  intros L Bd Bh. unfold encode_pkcs1_sig, EMSA_PKCS1. cbv zeta. rewrite zlen_app.
  destruct (Z.leb_spec (zlen di + zlen h + 11) k); [|lia]. destruct (Z.ltb_spec k (zlen di + zlen h + 11)); [lia|]. cbn [negb].
  eexists. split; [reflexivity|]. split; [reflexivity|]. pose proof (zlen_nonneg di). pose proof (zlen_nonneg h). split.
  - apply Forall_app; split; [bytes_tac|]. apply Forall_app; split; [apply Forall_forall; intros x Hx; apply repeat_spec in Hx; subst; red; lia|].
    apply Forall_app; split; [bytes_tac|]. apply Forall_app; split; assumption.
  - rewrite !zlen_app. change (zlen [0; 1]) with 2. change (zlen [0]) with 1. unfold zlen at 1. rewrite repeat_length. lia.
Qed.

(** a usable public key *)
Definition usable_pub (bn : bignum) (n : posint) (e : Z) (key : rsa_pub) : Prop :=
  wf 128 n /\ normal n /\ 0 <= e /\ pub_new bn n e = Ok key.

Section Pub.
Variable bn : bignum.
Hypothesis OK : bignum_ok bn.
Variables (n : posint) (e : Z) (key : rsa_pub).
Hypothesis U : usable_pub bn n e key.

Lemma key_is : key = pub_make bn n e /\ Z.odd (val n) = true /\ 2 ^ 2040 <= val n < 2 ^ 8192 /\ 0 < e.
Proof.
  destruct U as (Wn & Nn & He & E). destruct (C19_public_key bn n e Wn) as [I [D|D]]; [|congruence].
  pose proof (proj1 I D) as (On & B & He0). split; [congruence|]. split; [assumption|]. split; [assumption|lia].
Qed.
Lemma key_len : pub_modulus_len key = byte_length (val n) /\ 256 <= byte_length (val n) <= 8 * p_used n /\ p_used n <= 128 /\
  ((8 | byte_length (val n)) <-> byte_length (val n) = 8 * p_used n).
Proof.
  destruct key_is as (-> & _ & B & _). destruct U as (Wn & Nn & _). pose proof (wf_used 128 n Wn) as Hu.
  destruct (byte_length_used n Nn (proj2 (val_bound 128 n Wn))) as (A1 & A2 & A3 & A4). split; [exact A1|]. split; [|split; [lia|assumption]].
  split; [|assumption]. unfold byte_length. destruct B as [B _]. apply Z.log2_le_pow2 in B; [|].
  - revert B. generalize (Z.log2 (val n)). clear. intros l B. Z.div_mod_to_equations; lia.
  - apply Z.lt_le_trans with (2 := B). reflexivity.
Qed.

(** The common front part of the two verification functions: the public operation on the signature bytes. *)
Lemma open_ok s : bytes s -> forall A (k : list Z -> res A),
  (let! c := map_err (pfrom_bytes MAX_PUBLIC_MODULUS_WORDS s) (fun _ => BadSignature) in
   let! m := map_err (public_op bn key c) (fun _ => BadSignature) in
   let! mb := pto_bytes m MAX_PUBLIC_MODULUS_BYTES in k mb) =
  if be_val s <? val n then k (be_bytes (Z.to_nat (8 * p_used n)) (be_val s ^ e mod val n)) else Err BadSignature.
Proof.
  intros Bs A k. destruct key_is as (Ek & On & Bn & He). destruct U as (Wn & Nn & He0 & En). change MAX_PUBLIC_MODULUS_WORDS with 128. change MAX_PUBLIC_MODULUS_BYTES with 1024.
  pose proof (wf_used 128 n Wn) as Hu. pose proof (be_val_bound s Bs) as Ps.
  destruct (C18_from_bytes 128 s ltac:(lia) Bs) as [(c & Ec & Wc & Vc & Lc)|(Ec & Lc)]; rewrite Ec; cbn [map_err bind].
  - rewrite <- Vc. destruct (Z.ltb_spec (val c) (val n)) as [L|G].
    + rewrite Ek. destruct (public_op_ok bn OK 128 n e Wn On ltac:(lia) c Wc L) as (m & Em & Wm & Um & Vm). rewrite Em. cbn [map_err bind].
      destruct (C18_to_bytes 128 m 1024 Wm) as [T _]. destruct (T ltac:(lia)) as (b & Eb & Bb & Lb & Vb). rewrite Eb. cbn [bind]. f_equal.
      rewrite <- Vm, <- Vb. apply be_val_inj; [assumption|apply be_bytes_bytes| |].
      * unfold zlen in Lb. rewrite be_bytes_length. lia.
      * rewrite be_val_be_bytes, Z.mod_small; [reflexivity|]. rewrite Z2Nat.id, <- Um, <- Lb by lia. now apply be_val_bound.
    + destruct (C19_public_op bn OK n e key c Wn He0 En Wc) as [_ R]. rewrite (R G). reflexivity.
  - destruct (Z.ltb_spec (be_val s) (val n)) as [L|G]; [|reflexivity]. exfalso. change (64 * 128) with 8192 in Lc. apply (Z.lt_irrefl (val n)).
    apply Z.lt_le_trans with (1 := proj2 Bn). apply Z.le_trans with (1 := Lc). now apply Z.lt_le_incl.
Qed.

Lemma be_bytes_eq k v l : bytes l -> 0 <= k -> 0 <= v < 256 ^ k -> (l = be_bytes (Z.to_nat k) v <-> zlen l = k /\ v = be_val l).
Proof.
  intros Bl Hk Hv. split.
  - intros ->. rewrite be_val_be_bytes, Z2Nat.id, Z.mod_small by lia. unfold zlen. rewrite be_bytes_length. split; [lia|reflexivity].
  - intros [L V]. apply be_val_inj; [assumption|apply be_bytes_bytes|unfold zlen in L; rewrite be_bytes_length; lia|].
    rewrite be_val_be_bytes, Z2Nat.id, Z.mod_small by lia. now symmetry.
Qed.
End Pub.

(** *** C22 *)
(** Verification accepts exactly when the signature represents a number below the modulus whose e-th power is the one
    encoded message of modulus length; the implementation moreover needs that length to be a multiple of eight.
    Every other signature gives BadSignature. *)
Theorem C22_verify : forall bn, bignum_ok bn -> forall verify sign Hs oid lim, In (verify, sign, Hs, oid, lim) (pkcs1_algs bn) ->
  forall n e key, usable_pub bn n e key -> forall signature message, bytes signature -> bytes message -> zlen message < lim ->
  let k := byte_length (val n) in
  (verify key signature message = Ok tt <->
     (8 | k) /\ be_val signature < val n /\
     exists EM, EMSA_PKCS1 k (DigestInfo oid (Hs message)) = Some EM /\ be_val signature ^ e mod val n = be_val EM) /\
  (verify key signature message = Ok tt \/ verify key signature message = Err BadSignature).
Proof.
  intros bn OK verify sign Hs oid lim HA n e key U s m Bs Bm Lm k. destruct (alg_cases _ _ _ _ _ _ HA) as (H & di & HI & Ev & _ & Ldi & Bdi & Dg).
  pose proof (hashes_imp _ _ _ HI) as I. destruct (hash_sizes _ _ _ HI) as [Sz _].
  destruct (key_len bn n e key U) as (Kl & Kb & Ku & K8). fold k in Kl, Kb, K8. rewrite Ev, Dg.
  rewrite (oneshot _ _ _ I m Bm). destruct (Z.leb_spec lim (zlen m)); [lia|]. cbn [bind]. unfold verify_pkcs1_inner.
  destruct (encode_ok k di (Hs m)) as (EM & E1 & E2 & BE & LE).
  { rewrite Ldi, (im_len _ _ _ I). destruct Sz as [<-|[<-|[<-|[]]]]; lia. } { assumption. } { apply (im_bytes _ _ _ I). }
  rewrite (open_ok bn OK n e key U s Bs), Kl, E1, E2. cbn [bind].
  assert (Hn : 0 < val n) by (destruct (key_is bn n e key U) as (_ & _ & [B _] & _); apply Z.lt_le_trans with (2 := B); reflexivity).
  destruct (Z.ltb_spec (be_val s) (val n)) as [L|G].
  2:{ split; [|now right]. split; [discriminate|]. intros (_ & ? & _). lia. }
  pose proof (Z.mod_pos_bound (be_val s ^ e) (val n) Hn) as Bv. set (v := be_val s ^ e mod val n) in *. clearbody v.
  assert (Bk : 0 <= v < 256 ^ (8 * p_used n)).
  { split; [apply Bv|]. apply Z.lt_trans with (1 := proj2 Bv). destruct U as (Wn & _). change 256 with (2 ^ 8). rewrite <- Z.pow_mul_r by lia.
    replace (8 * (8 * p_used n)) with (64 * p_used n) by lia. apply (val_bound 128 n Wn). }
  pose proof (be_bytes_eq (8 * p_used n) v EM BE ltac:(lia) Bk) as BEQ.
  destruct (list_eqb EM _) eqn:Q.
  - split; [|now left]. split; [intros _|reflexivity]. apply list_eqb_eq, BEQ in Q as [Q1 Q2]. split; [apply K8; congruence|]. split; [assumption|]. now exists EM.
  - split; [|now right]. split; [discriminate|]. intros (D8 & _ & EM' & E3 & E4). injection E3 as <-. apply K8 in D8.
    assert (X : EM = be_bytes (Z.to_nat (8 * p_used n)) v) by (apply BEQ; split; congruence). rewrite <- X, list_eqb_refl in Q. discriminate Q.
Qed.
Print Assumptions C22_verify.

Lemma ps_inj a : forall b T T', repeat 255 a ++ 0 :: T = repeat 255 b ++ 0 :: T' -> T = T'.
Proof. induction a as [|a IH]; intros [|b] T T' E; try discriminate E; [now injection E|]. injection E as E. now apply IH in E. Qed.
Lemma EMSA_PKCS1_inj k T T' EM : EMSA_PKCS1 k T = Some EM -> EMSA_PKCS1 k T' = Some EM -> T = T'.
Proof.
  unfold EMSA_PKCS1. destruct (_ <? _); [discriminate|]. destruct (_ <? _); [discriminate|]. intros E1 E2. rewrite <- E1 in E2. injection E2 as E2.
  now apply ps_inj in E2.
Qed.
Lemma EMSA_PKCS1_len k T EM : EMSA_PKCS1 k T = Some EM -> zlen EM = k.
Proof.
  unfold EMSA_PKCS1. destruct (Z.ltb_spec k (zlen T + 11)); [discriminate|]. intros E. injection E as <-. pose proof (zlen_nonneg T).
  change (0 :: 1 :: repeat 255 (Z.to_nat (k - zlen T - 3)) ++ 0 :: T) with ([0; 1] ++ repeat 255 (Z.to_nat (k - zlen T - 3)) ++ [0] ++ T).
  rewrite !zlen_app. change (zlen [0; 1]) with 2. change (zlen [0]) with 1. unfold zlen at 1. rewrite repeat_length. lia.
Qed.

(** A signature is valid for at most one digest: if the same signature verifies for two messages, even under different
    hash algorithms, the algorithm and the digest are the same. *)
Theorem C22_one_digest : forall bn, bignum_ok bn -> forall v1 s1 H1 o1 l1 v2 s2 H2 o2 l2,
  In (v1, s1, H1, o1, l1) (pkcs1_algs bn) -> In (v2, s2, H2, o2, l2) (pkcs1_algs bn) ->
  forall n e key, usable_pub bn n e key -> forall signature m1 m2, bytes signature -> bytes m1 -> bytes m2 -> zlen m1 < l1 -> zlen m2 < l2 ->
  v1 key signature m1 = Ok tt -> v2 key signature m2 = Ok tt -> o1 = o2 /\ H1 m1 = H2 m2.
Proof.
  intros bn OK v1 s1 H1 o1 l1 v2 s2 H2 o2 l2 A1 A2 n e key U s m1 m2 Bs B1 B2 L1 L2 V1 V2.
  apply (C22_verify bn OK _ _ _ _ _ A1 n e key U s m1 Bs B1 L1) in V1 as (_ & _ & EM1 & E1 & P1).
  apply (C22_verify bn OK _ _ _ _ _ A2 n e key U s m2 Bs B2 L2) in V2 as (_ & _ & EM2 & E2 & P2).
  destruct (alg_cases _ _ _ _ _ _ A1) as (Ha & d1 & I1 & _ & _ & Ld1 & Bd1 & D1). destruct (alg_cases _ _ _ _ _ _ A2) as (Hb & d2 & I2 & _ & _ & Ld2 & Bd2 & D2).
  assert (BE : forall k d h EM, bytes d -> bytes h -> EMSA_PKCS1 k (d ++ h) = Some EM -> bytes EM).
  { intros k d h EM Bd Bh E. pose proof E as E'. unfold EMSA_PKCS1 in E'. destruct (Z.ltb_spec k (zlen (d ++ h) + 11)); [discriminate|].
    rewrite zlen_app in *. destruct (encode_ok k d h ltac:(lia) Bd Bh) as (EM' & _ & E'' & B & _). congruence. }
  assert (EM1 = EM2) as <-.
  { apply be_val_inj; [| |pose proof (EMSA_PKCS1_len _ _ _ E1); pose proof (EMSA_PKCS1_len _ _ _ E2); unfold zlen in *; lia|congruence].
    - rewrite D1 in E1. apply (BE _ _ _ _ Bd1 (im_bytes _ _ _ (hashes_imp _ _ _ I1) m1) E1).
    - rewrite D2 in E2. apply (BE _ _ _ _ Bd2 (im_bytes _ _ _ (hashes_imp _ _ _ I2) m2) E2). }
  pose proof (EMSA_PKCS1_inj _ _ _ _ E1 E2) as ET. rewrite D1, D2 in ET.
  destruct (app_inj_len d1 (H1 m1) d2 (H2 m2)) as [Ed Eh]; [unfold zlen in *; lia|assumption|]. split; [|assumption].
  pose proof (D1 m1) as D1'. pose proof (D2 m2) as D2'. rewrite <- Ed, <- Eh, <- D1' in D2'. unfold DigestInfo, tlv in D2'.
  destruct A1 as [X|[X|[X|[]]]], A2 as [Y|[Y|[Y|[]]]]; injection X as <- <- <- <- <-; injection Y as <- <- <- <- <-; try reflexivity; exfalso; discriminate D2'.
Qed.
Print Assumptions C22_one_digest.

(** A consequence of the requirement on the length: with a 2056-bit modulus no signature verifies, not even one that
    RFC 8017 section 8.2.2 accepts.  (The public exponent 1, which the library accepts, makes such a signature easy to name.) *)
Lemma be_val_ones k : be_val (repeat 255 k) = 256 ^ Z.of_nat k - 1.
Proof.
  induction k as [|k IH]; [reflexivity|]. cbn [repeat]. rewrite be_val_cons, IH. unfold zlen. rewrite repeat_length.
  replace (Z.of_nat (S k)) with (Z.of_nat k + 1) by lia. rewrite Z.pow_add_r by lia. lia.
Qed.
Lemma em_small k T EM : 1 <= k -> bytes EM -> EMSA_PKCS1 k T = Some EM -> be_val EM < 256 ^ (k - 1).
Proof.
  intros Hk B E. pose proof (EMSA_PKCS1_len _ _ _ E) as L. unfold EMSA_PKCS1 in E. destruct (_ <? _); [discriminate|].
  assert (exists r, EM = 0 :: r) as [r ->] by (injection E as <-; eexists; reflexivity). clear E. inversion_clear B. rewrite be_val_cons. rewrite zlen_cons in L.
  replace (k - 1) with (zlen r) by lia. rewrite Z.mul_0_l, Z.add_0_l. now apply be_val_bound.
Qed.
Theorem C22_length_refuted : forall bn, bignum_ok bn -> exists n e key, usable_pub bn n e key /\
  forall verify sign Hs oid lim, In (verify, sign, Hs, oid, lim) (pkcs1_algs bn) ->
  forall message, bytes message -> zlen message < lim -> exists signature EM,
    bytes signature /\ zlen signature = byte_length (val n) /\ be_val signature < val n /\
    EMSA_PKCS1 (byte_length (val n)) (DigestInfo oid (Hs message)) = Some EM /\
    be_val signature ^ e mod val n = be_val EM /\
    verify key signature message = Err BadSignature.
Proof.
  intros bn OK. assert (B : bytes (repeat 255 257)) by (apply Forall_forall; intros x Hx; apply repeat_spec in Hx; subst; red; lia).
  pose proof (be_val_ones 257) as V. change (Z.of_nat 257) with 257 in V.
  destruct (C18_from_bytes 128 (repeat 255 257) ltac:(lia) B) as [(n & En & Wn & Vn & _)|(_ & L)].
  2:{ exfalso. rewrite V in L. apply Z.le_ngt in L. apply L. vm_compute. reflexivity. }
  destruct (normal_from_bytes 128 _ n ltac:(lia) B En) as (_ & Nn & _). { rewrite V. vm_compute. reflexivity. }
  rewrite V in Vn. exists n, 1, (pub_make bn n 1).
  assert (U : usable_pub bn n 1 (pub_make bn n 1)).
  { split; [assumption|]. split; [assumption|]. split; [lia|]. apply (C19_public_key bn n 1 Wn). rewrite Vn. split; [vm_compute; reflexivity|].
    split; [|discriminate]. split; vm_compute; [discriminate|reflexivity]. }
  assert (K : byte_length (val n) = 257) by (rewrite Vn; vm_compute; reflexivity).
  split; [exact U|]. intros verify sign Hs oid lim HA m Bm Lm. destruct (alg_cases _ _ _ _ _ _ HA) as (H & di & HI & _ & _ & Ldi & Bdi & Dg).
  pose proof (hashes_imp _ _ _ HI) as I. destruct (hash_sizes _ _ _ HI) as [Sz _].
  destruct (encode_ok 257 di (Hs m)) as (EM & _ & E2 & BE & LE).
  { rewrite Ldi, (im_len _ _ _ I). destruct Sz as [<-|[<-|[<-|[]]]]; lia. } { assumption. } { apply (im_bytes _ _ _ I). }
  assert (Hlt : be_val EM < val n).
  { apply Z.lt_trans with (256 ^ (257 - 1)); [apply (em_small 257 (di ++ Hs m)); [lia|assumption|assumption]|]. rewrite Vn. vm_compute. reflexivity. }
  pose proof (be_val_bound EM BE) as [P0 _].
  exists EM, EM. rewrite K, Dg. split; [assumption|]. split; [assumption|]. split; [assumption|]. split; [assumption|].
  split; [rewrite Z.pow_1_r; apply Z.mod_small; split; assumption|].
  destruct (C22_verify bn OK _ _ _ _ _ HA n 1 _ U EM m BE Bm Lm) as [V1 [V2|V2]]; [|assumption]. exfalso. apply V1 in V2 as [[z Hz] _]. rewrite K in Hz. lia.
Qed.
Print Assumptions C22_length_refuted.

(** *** C23 at the level of the key: what PSS verification of a signature accepts *)
Theorem C23_verify_signature : forall bn, bignum_ok bn -> forall H Hs lim, In (H, Hs, lim) hashes ->
  forall n e key, usable_pub bn n e key -> forall signature message, bytes signature -> bytes message -> zlen message < lim ->
  let emLen := 8 * p_used n in
  (verify_pss bn H key signature message = Ok tt <->
     zlen signature <= byte_length (val n) /\ be_val signature < val n /\
     EMSA_PSS_VERIFY Hs (ha_out H) (Hs message) (be_bytes (Z.to_nat emLen) (be_val signature ^ e mod val n)) (8 * emLen - 1) (ha_out H)) /\
  (verify_pss bn H key signature message = Ok tt \/ verify_pss bn H key signature message = Err BadSignature).
Proof.
  intros bn OK H Hs lim HI n e key U s m Bs Bm Lm emLen. pose proof (hashes_imp _ _ _ HI) as I.
  destruct (key_len bn n e key U) as (Kl & Kb & Ku & _). unfold verify_pss.
  rewrite (oneshot _ _ _ I m Bm). destruct (Z.leb_spec lim (zlen m)); [lia|]. cbn [bind]. rewrite Kl.
  destruct (Z.ltb_spec (byte_length (val n)) (zlen s)). { split; [|now right]. split; [discriminate|]. intros [? _]. lia. }
  rewrite (open_ok bn OK n e key U s Bs). destruct (Z.ltb_spec (be_val s) (val n)).
  2:{ split; [|now right]. split; [discriminate|]. intros (_ & ? & _). lia. }
  set (em := be_bytes _ _). assert (Le : zlen em = emLen) by (unfold em, zlen; rewrite be_bytes_length; lia).
  destruct (C23_verify H Hs lim HI em (Hs m) (be_bytes_bytes _ _) (im_bytes _ _ _ I m) (im_len _ _ _ I m)) as [A D]. rewrite Le in A.
  split; [|exact D]. rewrite A. split; [intros V; split; [assumption|split; assumption]|intros (_ & _ & V); exact V].
Qed.
Print Assumptions C23_verify_signature.

(** *** C24 *)
(** the number of 64-bit words of a number *)
Definition word_length (v : Z) : Z := if v =? 0 then 0 else Z.log2 v / 64 + 1.
(** a usable, valid private key *)
Record usable_priv (bn : bignum) (p q d dp dq iqmp n : posint) (e : Z) (key : rsa_priv) : Prop := mkUsable {
  up_p : wf 64 p; up_q : wf 64 q; up_dp : wf 64 dp; up_dq : wf 64 dq; up_i : wf 64 iqmp; up_n : wf 128 n; up_normal : normal n;
  up_valid : rsa_valid (val p) (val q) (val n) e (val d) (val dp) (val dq) (val iqmp);
  up_order : val q < val p; up_sizes : p_used p = p_used q;
  up_key : priv_new bn p q d dp dq iqmp n e = Ok key }.

Lemma padd_used x y : p_used (padd x y) = bn_digitsize (p_words (padd x y)). Proof. reflexivity. Qed.
Lemma crt_used bn key c m : private_crt bn key c = Ok m -> p_used m = bn_digitsize (p_words m).
Proof.
  unfold private_crt. destruct (preduce bn c (pr_p key) _) as [a| |]; try discriminate. cbn [bind].
  destruct (mod_exp bn a _ _ _ _) as [b| |]; try discriminate. cbn [bind].
  destruct (preduce bn c (pr_q key) _) as [a'| |]; try discriminate. cbn [bind].
  destruct (mod_exp bn a' _ _ _ _) as [b'| |]; try discriminate. cbn [bind]. intros E. injection E as <-. apply padd_used.
Qed.
Lemma words_val N x : wf N x -> limbs_val (p_words x) = val x.
Proof.
  intros (W & Hu & Z0). unfold val, as_words. rewrite <- (ztake_zdrop (p_used x) (p_words x)) at 1. rewrite limbs_val_app, (limbs_zeros _ Z0). lia.
Qed.

Section Priv.
Variable bn : bignum.
Hypothesis OK : bignum_ok bn.
Variables (p q d dp dq iqmp n : posint) (e : Z) (key : rsa_priv).
Hypothesis U : usable_priv bn p q d dp dq iqmp n e key.

Lemma priv_pub : usable_pub bn n e (pr_public key) /\ key = priv_make bn (pub_make bn n e) p q d dp dq iqmp.
Proof.
  destruct U as [Wp Wq Wdp Wdq Wi Wn Nn V Hqp Su Hk]. unfold priv_new in Hk. destruct (_ || _); [discriminate|].
  destruct (C19_public_key bn n e Wn) as [_ [D|D]]; rewrite D in Hk; [|discriminate]. cbn [bind] in Hk. injection Hk as <-.
  split; [|reflexivity]. split; [assumption|]. split; [assumption|]. split; [|exact D]. pose proof (rv_e _ _ _ _ _ _ _ _ V). lia.
Qed.

(** Signing an encoded message below the modulus. *)
Lemma sign_em EM sig_len : bytes EM -> be_val EM < val n -> (8 | byte_length (val n)) -> byte_length (val n) <= sig_len ->
  exists s, (let! m := pfrom_bytes MAX_PUBLIC_MODULUS_WORDS EM in
             let! c := map_err (private_op bn key m) (fun _ => BadSignature) in pto_bytes c sig_len) = Ok s /\
    bytes s /\ be_val s = be_val EM ^ val d mod val n /\ be_val s < val n /\ be_val s ^ e mod val n = be_val EM /\
    zlen s = 8 * word_length (be_val s) /\ zlen s <= byte_length (val n).
Proof.
  intros BE L D8 Hl. destruct priv_pub as [Up Ek]. destruct (key_len bn n e _ Up) as (Kl & Kb & Ku & K8).
  destruct U as [Wp Wq Wdp Wdq Wi Wn Nn V Hqp Su Hk]. change MAX_PUBLIC_MODULUS_WORDS with 128.
  destruct (C18_from_bytes 128 EM ltac:(lia) BE) as [(c & Ec & Wc & Vc & _)|(_ & G)].
  2:{ exfalso. destruct (key_is bn n e _ Up) as (_ & _ & [_ B] & _). change (64 * 128) with 8192 in G. apply (Z.lt_irrefl (val n)).
      apply Z.lt_trans with (1 := B). apply Z.le_lt_trans with (1 := G). exact L. }
  rewrite Ec. cbn [bind]. rewrite <- Vc in *.
  destruct (C21_crt_exact bn OK p q d dp dq iqmp n e c Wp Wq Wdp Wdq Wi Wn Wc V Hqp Su L) as (m & Em & Wm & Vm). rewrite <- Ek in Em.
  rewrite Em. cbn [map_err bind].
  (* the check made by private_op *)
  pose proof Em as Ep. unfold private_op in Ep. destruct (negb _); [discriminate|].
  destruct (private_crt bn key c) as [m'| |] eqn:Ecrt; try discriminate. cbn [bind] in Ep.
  assert (m' = m) as ->. { unfold private_check in Ep. destruct (public_op bn (pr_public key) m') as [c2| |]; try discriminate. cbn [bind] in Ep. destruct (pequals c2 c); congruence. }
  destruct Up as (_ & _ & He & Epub).
  destruct (C20_check bn OK n e key c m m Wn He Epub Wc Wm Ep) as (_ & Lm & Pm).
  pose proof (crt_used bn key c m Ecrt) as Um. pose proof (words_val 128 m Wm) as Wv. pose proof (wf_used 128 m Wm) as Hum.
  assert (Hu : p_used m <= p_used n).
  { rewrite Um. apply digitsize_spec; [apply Wm|lia|]. rewrite Wv. apply Z.lt_trans with (1 := Lm). apply (val_bound 128 n Wn). }
  apply K8 in D8. destruct (C18_to_bytes 128 m sig_len Wm) as [T _]. destruct (T ltac:(lia)) as (s & Es & Bs & Ls & Vs).
  exists s. rewrite Vs. split; [assumption|]. split; [assumption|]. split; [assumption|]. split; [assumption|]. split; [assumption|]. split; [|lia].
  rewrite Ls, Um. f_equal. unfold bn_digitsize, bn_bitsize, word_length. rewrite Wv. destruct (val m =? 0); [reflexivity|].
  generalize (Z.log2 (val m)). clear. intros l. Z.div_mod_to_equations; lia.
Qed.
End Priv.

Lemma modulus_low n : 0 < n -> 256 ^ (byte_length n - 1) <= n.
Proof.
  intros Hn. unfold byte_length. pose proof (Z.log2_nonneg n). change 256 with (2 ^ 8).
  assert (0 <= Z.log2 n / 8) by (apply Z.div_pos; lia). rewrite <- Z.pow_mul_r by lia.
  apply Z.le_trans with (2 ^ Z.log2 n); [|apply (Z.log2_spec n Hn)]. apply Z.pow_le_mono_r; [lia|]. generalize (Z.log2 n). clear. intros l. Z.div_mod_to_equations; lia.
Qed.

(** PKCS#1 v1.5: signing with a valid key always succeeds when the buffer has room for the modulus, and the result
    verifies.  The length of the result is that of the number in whole 64-bit words, which can be below the length of the modulus. *)
Theorem C24_pkcs1 : forall bn, bignum_ok bn -> forall verify sign Hs oid lim, In (verify, sign, Hs, oid, lim) (pkcs1_algs bn) ->
  forall p q d dp dq iqmp n e key, usable_priv bn p q d dp dq iqmp n e key -> (8 | byte_length (val n)) ->
  forall message, bytes message -> zlen message < lim -> forall sig_len,
  (byte_length (val n) <= sig_len -> exists s, sign key sig_len message = Ok s /\
     verify (pr_public key) s message = Ok tt /\ zlen s = 8 * word_length (be_val s) /\ zlen s <= byte_length (val n) /\ bytes s) /\
  (sig_len < byte_length (val n) -> sign key sig_len message = Err OutOfRange).
Proof.
  intros bn OK verify sign Hs oid lim HA p q d dp dq iqmp n e key U D8 m Bm Lm sig_len.
  destruct (priv_pub bn p q d dp dq iqmp n e key U) as [Up _]. destruct (key_len bn n e _ Up) as (Kl & Kb & Ku & K8).
  destruct (alg_cases _ _ _ _ _ _ HA) as (H & di & HI & _ & Es & Ldi & Bdi & Dg).
  pose proof (hashes_imp _ _ _ HI) as I. destruct (hash_sizes _ _ _ HI) as [Sz _].
  rewrite Es, (oneshot _ _ _ I m Bm). destruct (Z.leb_spec lim (zlen m)); [lia|]. cbn [bind]. unfold sign_pkcs1_inner. rewrite Kl. split; intros Hl.
  2:{ destruct (Z.ltb_spec sig_len (byte_length (val n))); [reflexivity|lia]. }
  destruct (Z.ltb_spec sig_len (byte_length (val n))); [lia|].
  destruct (encode_ok (byte_length (val n)) di (Hs m)) as (EM & E1 & E2 & BE & LE).
  { rewrite Ldi, (im_len _ _ _ I). destruct Sz as [<-|[<-|[<-|[]]]]; lia. } { assumption. } { apply (im_bytes _ _ _ I). }
  rewrite E1. cbn [bind].
  assert (Hn : 0 < val n) by (destruct (key_is bn n e _ Up) as (_ & _ & [B _] & _); apply Z.lt_le_trans with (2 := B); reflexivity).
  assert (Hlt : be_val EM < val n).
  { apply Z.lt_le_trans with (256 ^ (byte_length (val n) - 1)); [apply (em_small _ (di ++ Hs m)); [lia|assumption|assumption]|now apply modulus_low]. }
  destruct (sign_em bn OK p q d dp dq iqmp n e key U EM sig_len BE Hlt D8 Hl) as (s & Ess & Bs & _ & Ls & Ps & Zs & Zl).
  exists s. split; [exact Ess|]. split; [|split; [assumption|]; split; assumption].
  apply (C22_verify bn OK _ _ _ _ _ HA n e _ Up s m Bs Bm Lm). split; [assumption|]. split; [assumption|]. exists EM. rewrite Dg. split; assumption.
Qed.
Print Assumptions C24_pkcs1.

(** PSS, for keys whose modulus has a bit length that is a multiple of 64. *)
Theorem C24_pss : forall bn, bignum_ok bn -> forall H Hs lim, In (H, Hs, lim) hashes ->
  forall p q d dp dq iqmp n e key, usable_priv bn p q d dp dq iqmp n e key -> (64 | Z.log2 (val n) + 1) ->
  forall rng message, bytes message -> zlen message < lim -> forall sig_len,
  (byte_length (val n) <= sig_len -> forall salt, rng (ha_out H) = Ok salt -> bytes salt -> zlen salt = ha_out H ->
     exists s, sign_pss bn H rng key sig_len message = Ok s /\
     verify_pss bn H (pr_public key) s message = Ok tt /\ zlen s = 8 * word_length (be_val s) /\ zlen s <= byte_length (val n) /\ bytes s) /\
  (byte_length (val n) <= sig_len -> forall err, rng (ha_out H) = Err err -> sign_pss bn H rng key sig_len message = Err err) /\
  (sig_len < byte_length (val n) -> sign_pss bn H rng key sig_len message = Err OutOfRange).
Proof.
  intros bn OK H Hs lim HI p q d dp dq iqmp n e key U D64 rng m Bm Lm sig_len.
  destruct (priv_pub bn p q d dp dq iqmp n e key U) as [Up _]. destruct (key_len bn n e _ Up) as (Kl & Kb & Ku & K8).
  assert (Hn : 0 < val n) by (destruct (key_is bn n e _ Up) as (_ & _ & [B _] & _); apply Z.lt_le_trans with (2 := B); reflexivity).
  assert (Hb : 8 * byte_length (val n) = Z.log2 (val n) + 1 /\ (8 | byte_length (val n))).
  { destruct D64 as [z Hz]. unfold byte_length. revert Hz. generalize (Z.log2 (val n)). clear. intros l Hz.
    assert (E : l / 8 + 1 = 8 * z) by (Z.div_mod_to_equations; lia). rewrite E. split; [lia|]. exists z. lia. }
  destruct Hb as [Hb D8]. pose proof (hashes_imp _ _ _ HI) as I. destruct (hash_sizes _ _ _ HI) as [Sz _].
  assert (Hh : 0 < ha_out H <= 64) by (destruct Sz as [<-|[<-|[<-|[]]]]; lia).
  unfold sign_pss. rewrite Kl, (oneshot _ _ _ I m Bm). destruct (Z.leb_spec lim (zlen m)); [lia|]. cbn [bind].
  destruct (C23_encode H Hs lim HI rng (byte_length (val n)) (Hs m) (im_bytes _ _ _ I m) (im_len _ _ _ I m) ltac:(lia)) as [Enc Rf].
  split; [|split; intros Hl].
  - intros Hl salt Hr Bs Ls. destruct (Z.ltb_spec sig_len (byte_length (val n))); [lia|].
    destruct (Enc salt Hr Bs Ls) as (em & E1 & E2 & BE & LE & Sm). rewrite E1. cbn [bind].
    assert (Hlt : be_val em < val n).
    { apply Z.lt_le_trans with (2 ^ (Z.log2 (val n))); [|apply (Z.log2_spec _ Hn)]. rewrite Hb in Sm. replace (Z.log2 (val n) + 1 - 1) with (Z.log2 (val n)) in Sm by lia. exact Sm. }
    destruct (sign_em bn OK p q d dp dq iqmp n e key U em sig_len BE Hlt D8 Hl) as (s & Ess & Bss & _ & Lss & Ps & Zs & Zl).
    exists s. split; [exact Ess|]. split; [|split; [assumption|]; split; assumption].
    apply (C23_verify_signature bn OK H Hs lim HI n e _ Up s m Bss Bm Lm). split; [assumption|]. split; [assumption|]. rewrite Ps.
    apply K8 in D8. rewrite <- D8. replace (be_bytes _ _) with em.
    + exact (rfc_round_trip H Hs lim (Hs m) salt _ em I Ls Bs E2).
    + apply be_bytes_eq; [assumption|lia| |split; [assumption|reflexivity]]. rewrite <- LE. now apply be_val_bound.
  - intros err Hr. destruct (Z.ltb_spec sig_len (byte_length (val n))); [lia|]. now rewrite (Rf err Hr).
  - destruct (Z.ltb_spec sig_len (byte_length (val n))); [reflexivity|lia].
Qed.
Print Assumptions C24_pss.
