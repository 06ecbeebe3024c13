(** ECDSA signing and verification: properties C30, C31 and C32, for every
    curve module (T_Ec: C29_p256_module, C29_p384_module) and every hash that
    implements a function (T_Hash.hashes_imp: SHA-256, SHA-384, SHA-512). *)
Require Import Verif.Base Verif.L_Base Verif.M_Sha2 Verif.L_Hmac Verif.M_Asn1 Verif.M_Pkix Verif.S_Der Verif.S_Pkix Verif.L_Asn1 Verif.L_Asn1Int Verif.L_Pkix.
Require Import Verif.M_Ec Verif.S_Curve Verif.S_Ec Verif.L_Curve Verif.L_EcKey Verif.L_CurveEx Verif.L_EcRef Verif.T_Ec.
Require Import Verif.M_Ecdsa Verif.S_Ecdsa Verif.L_Ecdsa Verif.L_EcdsaSign Verif.T_Hash.
Require Import ZifyNat.

(** *** C31: verification *)

(** A signature is accepted exactly when it is r || s, each of the size of the
    curve, and (r, s) is a valid ECDSA signature of the digest under the
    decoded public key.  Every other signature of the right length is
    BadSignature, and any other length is WrongLength. *)
Theorem C31_verify_exact : forall c E, ec_impl c E -> forall H Hs lim, implements H Hs lim ->
  forall xb yb pk message sig,
  bytes xb -> bytes yb -> zlen xb = ec_bytes E -> zlen yb = ec_bytes E -> pk_from_x962 E (4 :: xb ++ yb) = Ok pk ->
  Forall bytes message -> zlen (concat message) < lim -> bytes sig ->
  let Q := Some (be_val xb mod c_p c, be_val yb mod c_p c) in
  let e := ecdsa_e c (ec_bytes E) (Hs (concat message)) in
  (ecdsa_verify E H pk message sig = Ok tt <->
     exists r s, sig = fixed_sig (ec_bytes E) r s /\ ecdsa_valid c Q e r s) /\
  (zlen sig <> ec_bytes E * 2 -> ecdsa_verify E H pk message sig = Err WrongLength) /\
  (zlen sig = ec_bytes E * 2 -> ecdsa_verify E H pk message sig = Ok tt \/ ecdsa_verify E H pk message sig = Err BadSignature).
Proof.
  intros c E I H Hs lim HI xb yb pk message sig BX BY LX LY PK BM LM BS Q e.
  assert (B : bytes (4 :: xb ++ yb)) by (constructor; [unfold byte_ok; lia|apply bytes_app; auto]).
  destruct (pk_from_ok c E I _ pk B PK) as (xb' & yb' & EB & LX' & LY' & PI).
  assert (xb = xb' /\ yb = yb') as [<- <-].
  { injection EB as EB. assert (T : ztake (ec_bytes E) (xb ++ yb) = xb) by (apply ztake_app_eq; auto). rewrite EB in T.
    rewrite ztake_app_eq in T by auto. subst xb'. split; [reflexivity|]. apply app_inv_head in EB. exact EB. }
  exact (verify_ok c E I H Hs lim HI pk _ _ message sig PI BS BM LM).
Qed.
Print Assumptions C31_verify_exact.

(** *** C32: the ASN.1 form *)

(** An ASN.1 signature is accepted exactly when it is the DER encoding of two
    numbers whose fixed-size form is accepted; everything else -- negative or
    oversized numbers, other encodings, trailing bytes -- is BadSignature.
    [der_sig] admits one encoding only: C32_unique. *)
Theorem C32_asn1_exact : forall c E, ec_impl c E -> ec_bytes E <= 48 -> forall H Hs lim, implements H Hs lim ->
  forall pub pk message sig, bytes pub -> pk_from_x962 E pub = Ok pk ->
  Forall bytes message -> zlen (concat message) < lim -> bytes sig ->
  (ecdsa_verify_asn1 E H pk message sig = Ok tt <->
     exists r s, 0 <= r < 256 ^ ec_bytes E /\ 0 <= s < 256 ^ ec_bytes E /\ der_sig sig r s /\
       ecdsa_verify E H pk message (fixed_sig (ec_bytes E) r s) = Ok tt) /\
  (ecdsa_verify_asn1 E H pk message sig = Ok tt \/ ecdsa_verify_asn1 E H pk message sig = Err BadSignature).
Proof.
  intros c E I L48 H Hs lim HI pub pk message sig BP PK BM LM BS.
  destruct (pk_from_ok c E I pub pk BP PK) as (xb & yb & _ & _ & _ & PI).
  destruct (verify_asn1_ok c E I H lim pk message sig L48 BS BM LM) as [(r & s & DS & HR & HS & EQ)|(NO & EQ)]; rewrite EQ.
  - destruct (fixed_parts c E I r s HR HS) as (FB & FL & FR & FS).
    destruct (verify_ok c E I H Hs lim HI pk _ _ message _ PI FB BM LM) as (_ & _ & V). split; [|exact (V FL)].
    split; [intros V'; exists r, s; auto|]. intros (r' & s' & HR' & HS' & (ri' & si' & IR' & IS' & <- & <- & E') & V').
    destruct DS as (ri & si & IR & IS & <- & <- & E0).
    assert (Q : (ri, si) = (ri', si')); [|injection Q as -> ->; exact V'].
    assert (D : forall v, ok_EcdsaSigValue v -> sig = der_enc (tree_EcdsaSigValue v) -> zlen sig <= 65539 -> from_bytes EcdsaSigValue sig = Ok v).
    { intros v O E1 L1. apply (x_dec _ _ _ exact_EcdsaSigValue); auto. }
    assert (L1 : zlen sig <= 65539).
    { pose proof (der_sig_small c E I sig (int_value ri) (int_value si) L48 ltac:(exists ri, si; auto) HR HS). lia. }
    assert (D1 := D (ri, si) (conj IR IS) E0 L1). assert (D2 := D (ri', si') (conj IR' IS') E' L1). congruence.
  - split; [|auto]. split; [discriminate|]. intros (r & s & HR & HS & DS & _). destruct (NO r s HR HS DS).
Qed.
Print Assumptions C32_asn1_exact.

(** Two numbers have one encoding, and it can be written for all numbers of the right size. *)
Theorem C32_unique : forall a b r s, der_sig a r s -> der_sig b r s -> a = b.
Proof.
  intros a b r s (ri & si & IR & IS & V1 & V2 & ->) (ri' & si' & IR' & IS' & V1' & V2' & ->).
  rewrite (minimal_unique ri ri'), (minimal_unique si si'); auto; congruence.
Qed.
Print Assumptions C32_unique.

(** The accepted ASN.1 signatures in terms of ECDSA itself. *)
Theorem C32_asn1_valid : forall c E, ec_impl c E -> ec_bytes E <= 48 -> forall H Hs lim, implements H Hs lim ->
  forall xb yb pk message sig,
  bytes xb -> bytes yb -> zlen xb = ec_bytes E -> zlen yb = ec_bytes E -> pk_from_x962 E (4 :: xb ++ yb) = Ok pk ->
  Forall bytes message -> zlen (concat message) < lim -> bytes sig ->
  let Q := Some (be_val xb mod c_p c, be_val yb mod c_p c) in
  let e := ecdsa_e c (ec_bytes E) (Hs (concat message)) in
  ecdsa_verify_asn1 E H pk message sig = Ok tt <-> exists r s, der_sig sig r s /\ ecdsa_valid c Q e r s.
Proof.
  intros c E I L48 H Hs lim HI xb yb pk message sig BX BY LX LY PK BM LM BS Q e.
  assert (B : bytes (4 :: xb ++ yb)) by (constructor; [unfold byte_ok; lia|apply bytes_app; auto]).
  destruct (C32_asn1_exact c E I L48 H Hs lim HI _ pk message sig B PK BM LM BS) as [-> _].
  pose proof (R256 c E I) as RE. pose proof (nR c E I) as NR.
  split; intros (r & s & T).
  - destruct T as (HR & HS & DS & V). destruct (fixed_parts c E I r s HR HS) as (FB & FL & FR & FS).
    apply (C31_verify_exact c E I H Hs lim HI xb yb pk message _ BX BY LX LY PK BM LM FB) in V.
    destruct V as (r' & s' & EQ & V). pose proof V as (HR' & HS' & _).
    destruct (fixed_parts c E I r' s') as (_ & _ & FR' & FS'); try lia. rewrite <- EQ in FR', FS'.
    exists r, s. split; [exact DS|]. replace r with r' by congruence. replace s with s' by congruence. exact V.
  - destruct T as (DS & V). pose proof V as (HR & HS & _). exists r, s.
    assert (HR' : 0 <= r < 256 ^ ec_bytes E) by lia. assert (HS' : 0 <= s < 256 ^ ec_bytes E) by lia.
    repeat split; try lia; try exact DS.
    apply (C31_verify_exact c E I H Hs lim HI xb yb pk message _ BX BY LX LY PK BM LM).
    + apply (fixed_parts c E I); assumption.
    + exists r, s. auto.
Qed.
Print Assumptions C32_asn1_valid.

(** *** C30: signing *)

(** What signing does, in full: with 16 fresh random bytes, the nonce is the
    first usable candidate of RFC 6979 seeded with the key, the digest and
    those bytes, and the output is r || s for that nonce, at the front of the
    buffer.  The other outcomes: 64 candidates in a row out of range, or 2^48
    candidates drawn, or [fuel] candidates unusable (which the code would
    continue past). *)
Theorem C30_sign_exact : forall c E, ec_impl c E -> ec_bytes E <= 48 -> forall H Hs lim, implements H Hs lim ->
  forall rng random fuel d message buf, rng 16 = Ok random -> bytes random -> zlen random = 16 ->
  1 <= d < c_n c -> Forall bytes message -> zlen (concat message) < lim -> ec_bytes E * 2 <= zlen buf ->
  let len := ec_bytes E in
  let e := ecdsa_e c len (Hs (concat message)) in
  let candidate := nonce_candidate Hs (ha_block H) (ha_out H) len d e random in
  match ecdsa_sign E H rng fuel d message buf with
  | Some (Ok (out, l)) => exists j r s, l = len * 2 /\ out = fixed_sig len r s ++ zdrop l buf /\
      nonce_usable c (candidate j) /\ (forall i, (i < j)%nat -> ~ nonce_usable c (candidate i)) /\
      1 <= r < c_n c /\ ecdsa_signature c d e (candidate j) r s
  | Some (Err x) => x = RngFailed /\ exists j, (forall i, (i < j)%nat -> ~ nonce_usable c (candidate i)) /\
      forall i, (i < 64)%nat -> ~ 1 <= candidate (j + i)%nat < c_n c
  | Some Panic => exists j, 2 ^ 48 <= Z.of_nat (S j) /\ forall i, (i < j)%nat -> ~ nonce_usable c (candidate i)
  | None => exists j, (fuel <= j)%nat /\ forall i, (i < j)%nat -> ~ nonce_usable c (candidate i)
  end.
Proof.
  intros c E I L48 H Hs lim HI rng random fuel d message buf RG BR LR DR BM LM LB len e candidate.
  unfold ecdsa_sign. rewrite RG.
  assert (LR' : zlen random < 2 ^ 31) by lia.
  exact (sign_ok c E I H Hs lim HI fuel d message random buf L48 DR BM LM BR LR' LB).
Qed.
Print Assumptions C30_sign_exact.

(** A buffer shorter than the signature is WrongLength, before anything else. *)
Theorem C30_short_buffer : forall E H rng random fuel d message buf, rng 16 = Ok random ->
  zlen buf < ec_bytes E * 2 -> ecdsa_sign E H rng fuel d message buf = Some (Err WrongLength).
Proof.
  intros E H rng random fuel d message buf RG L. unfold ecdsa_sign, sign_with_random. rewrite RG.
  destruct (Z.ltb_spec (zlen buf) (ec_bytes E * 2)); [reflexivity|lia].
Qed.
Print Assumptions C30_short_buffer.

Lemma own_key c E (I : ec_impl c E) d pub pk : 1 <= d < c_n c -> sk_public_key E d = Ok pub -> pk_from_x962 E pub = Ok pk ->
  exists x y, pt_mul c d (Some (c_g c)) = Some (x, y) /\ pk_is c E pk x y.
Proof.
  intros DR PE PK. destruct (public_key_exact c E I d DR) as (x & y & M & S). rewrite PE in S. injection S as ->.
  exists x, y. split; [exact M|].
  assert (O : on_curve c (Some (x, y))) by (rewrite <- M; apply mul_closed; [exact (ei_group _ _ I)|exact (cg_g _ (ei_group _ _ I))]).
  destruct (enc_decodes c E I x y O) as (a & A & AI). unfold pk_from_x962 in PK. change (sec1 (ec_bytes E) x y) with (enc E x y) in PK.
  rewrite A in PK. injection PK as <-. apply (pk_from_affine_ok c E I); assumption.
Qed.

(** Sign then verify, fixed size: whatever the key, message, random bytes and
    buffer, a returned signature verifies unless its second half is zero. *)
Theorem C30_sign_verifies : forall c E, ec_impl c E -> ec_bytes E <= 48 -> forall H Hs lim, implements H Hs lim ->
  forall rng random fuel d message buf out l pub pk, rng 16 = Ok random -> bytes random -> zlen random = 16 ->
  1 <= d < c_n c -> Forall bytes message -> zlen (concat message) < lim ->
  sk_public_key E d = Ok pub -> pk_from_x962 E pub = Ok pk ->
  ecdsa_sign E H rng fuel d message buf = Some (Ok (out, l)) ->
  be_val (zdrop (ec_bytes E) (ztake l out)) <> 0 ->
  ecdsa_verify E H pk message (ztake l out) = Ok tt.
Proof.
  intros c E I L48 H Hs lim HI rng random fuel d message buf out l pub pk RG BR LR DR BM LM PE PK SG NZ.
  destruct (Z_lt_dec (zlen buf) (ec_bytes E * 2)) as [L|L].
  { rewrite (C30_short_buffer E H rng random) in SG by assumption. discriminate SG. }
  pose proof (C30_sign_exact c E I L48 H Hs lim HI rng random fuel d message buf RG BR LR DR BM LM ltac:(lia)) as X.
  cbv zeta in X. rewrite SG in X. destruct X as (j & r & s & EL & EO & U & _ & RR & SIG).
  pose proof (R256 c E I) as RE. pose proof (nR c E I) as NR. pose proof SIG as (_ & SR & _).
  destruct (fixed_parts c E I r s) as (FB & FL & FR & FS); try lia.
  assert (T : ztake l out = fixed_sig (ec_bytes E) r s) by (rewrite EO; apply ztake_app_eq; lia).
  rewrite T in NZ |- *. rewrite FS in NZ.
  destruct (own_key c E I d pub pk DR PE PK) as (x & y & M & PI).
  destruct (verify_ok c E I H Hs lim HI pk x y message _ PI FB BM LM) as (V & _). apply V. exists r, s. split; [reflexivity|].
  rewrite <- M. eapply (sign_valid c E I); eauto. lia.
Qed.
Print Assumptions C30_sign_verifies.

(** Sign then verify, ASN.1: a returned signature is DER for two numbers, and
    verifies unless the second is zero; a buffer too short for it is an error. *)
Theorem C30_sign_asn1_verifies : forall c E, ec_impl c E -> ec_bytes E <= 48 -> forall H Hs lim, implements H Hs lim ->
  forall rng random fuel d message buf out l pub pk, rng 16 = Ok random -> bytes random -> zlen random = 16 ->
  1 <= d < c_n c -> Forall bytes message -> zlen (concat message) < lim ->
  sk_public_key E d = Ok pub -> pk_from_x962 E pub = Ok pk ->
  ecdsa_sign_asn1 E H rng fuel d message buf = Some (Ok (out, l)) ->
  exists r s, der_sig (ztake l out) r s /\ 1 <= r < c_n c /\ 0 <= s < c_n c /\ l <= 104 /\ zdrop l out = zdrop l buf /\
    (s <> 0 -> ecdsa_verify_asn1 E H pk message (ztake l out) = Ok tt).
Proof.
  intros c E I L48 H Hs lim HI rng random fuel d message buf out l pub pk RG BR LR DR BM LM PE PK SG.
  unfold ecdsa_sign_asn1 in SG. set (fb := repeat 0 (Z.to_nat (MAX_SCALAR_LEN * 2))) in *.
  assert (LF : zlen fb = 96) by reflexivity. clearbody fb.
  pose proof (C30_sign_exact c E I L48 H Hs lim HI rng random fuel d message fb RG BR LR DR BM LM ltac:(lia)) as X.
  cbv zeta in X. destruct (ecdsa_sign E H rng fuel d message fb) as [[[fo fl]| |]|] eqn:SF; try discriminate SG.
  destruct X as (j & r & s & EL & EO & U & _ & RR & SIG). injection SG as SG.
  pose proof (R256 c E I) as RE. pose proof (nR c E I) as NR. pose proof SIG as (_ & SR & _).
  assert (HR : 0 <= r < 256 ^ ec_bytes E) by lia. assert (HS : 0 <= s < 256 ^ ec_bytes E) by lia.
  destruct (fixed_parts c E I r s HR HS) as (FB & FL & FR & FS).
  assert (T : ztake fl fo = fixed_sig (ec_bytes E) r s) by (rewrite EO; apply ztake_app_eq; lia).
  rewrite T in SG. destruct (fixed_to_asn1_ok c E I r s buf L48 HR HS) as (b & DS & LB & FA). rewrite FA in SG.
  destruct (Z.ltb_spec (zlen buf) (zlen b)); [discriminate SG|]. injection SG as EO' EL'. subst l out.
  pose proof (zlen_nonneg b) as NB. rewrite ztake_app_eq, zdrop_app_eq by reflexivity.
  exists r, s. split; [exact DS|]. split; [exact RR|]. split; [exact SR|]. split; [exact LB|]. split; [reflexivity|]. intros S0.
  assert (BB : bytes b).
  { destruct DS as (ri & si & [B1 M1] & [B2 M2] & _ & _ & ->). apply bytes_der_enc; [|lia].
    cbn [tree_EcdsaSigValue SEQ INT der_bytes]. repeat split; try assumption; unfold byte_ok; lia. }
  assert (BP : bytes pub).
  { destruct (public_key_exact c E I d DR) as (x & y & M & S). rewrite PE in S. injection S as ->. unfold sec1.
    constructor; [unfold byte_ok; lia|]. apply bytes_app. split; apply be_bytes_bytes. }
  apply (C32_asn1_exact c E I L48 H Hs lim HI pub pk message b BP PK BM LM BB). exists r, s. repeat (split; [assumption|]).
  rewrite <- T. eapply (C30_sign_verifies c E I L48 H Hs lim HI rng random fuel d message fb); eauto.
  rewrite T, FS. exact S0.
Qed.
Print Assumptions C30_sign_asn1_verifies.

(** *** examples: a module on a small curve and a small hash, both meeting every premise above *)
Definition toy8_hash (m : list Z) : list Z := [0; 0; 0; 0; 0; 0; 0; fold_left (fun a b => (5 * a + b + 1) mod 64) m 7].
Definition Toy8 : hash_alg := {|
  ha_ctx := list Z; ha_new := []; ha_update := fun c b => Ok (c ++ b);
  ha_finish := fun c => if 2 ^ 32 <=? zlen c then Panic else Ok (toy8_hash c);
  ha_block := 8; ha_out := 8 |}.
Lemma toy8_imp : implements Toy8 toy8_hash (2 ^ 32).
Proof.
  constructor.
  - intros cs _. exists (concat cs). split; [|reflexivity].
    assert (G : forall c, L_Hash.feed Toy8 c cs = Ok (c ++ concat cs)).
    { induction cs; intros c; cbn [L_Hash.feed concat]; [rewrite app_nil_r; reflexivity|].
      change (ha_update Toy8 c a) with (@Ok (list Z) (c ++ a)). cbn [bind]. rewrite IHcs, app_assoc. reflexivity. }
    apply (G []).
  - reflexivity.
  - intros m. unfold toy8_hash. repeat (constructor; [unfold byte_ok; lia|]). constructor; [|constructor].
    unfold byte_ok. assert (G : forall m a, 0 <= a < 64 -> 0 <= fold_left (fun a b => (5 * a + b + 1) mod 64) m a < 64).
    { induction m0; intros; cbn [fold_left]; auto. apply IHm0. apply Z.mod_pos_bound. lia. }
    specialize (G m 7 ltac:(lia)). lia.
  - cbn [ha_out ha_block Toy8]. lia.
Qed.

(** The signer does not retry when s = 0 (SEC 1 4.1.3 step 6 does), so the
    claim without its condition is false: here a signature is returned that
    its own key rejects.  For the real curves and hashes such a message is not
    known and not expected to be found. *)
Theorem C30_unconditional_refuted : exists c E H Hs lim, ec_impl c E /\ ec_bytes E <= 48 /\ implements H Hs lim /\
  exists rng fuel d message out pub pk, 1 <= d < c_n c /\ rng 16 = Ok (repeat 9 16) /\
  sk_public_key E d = Ok pub /\ pk_from_x962 E pub = Ok pk /\
  ecdsa_sign E H rng fuel d message (repeat 0 16) = Some (Ok (out, 16)) /\
  ecdsa_verify E H pk message (ztake 16 out) = Err BadSignature.
Proof.
  destruct (point_round_trip tiny tiny_ec tiny_impl 0 9 ltac:(vm_compute; repeat split; (reflexivity || discriminate))) as (pk & PK & _).
  exists tiny, tiny_ec, Toy8, toy8_hash, (2 ^ 32). split; [exact tiny_impl|]. split; [vm_compute; discriminate|]. split; [exact toy8_imp|].
  exists (fun _ => Ok (repeat 9 16)), 1%nat, 1, [[1]], (fixed_sig 8 16 0), (sec1 8 0 9), pk.
  split; [vm_compute; split; [discriminate|reflexivity]|]. split; [reflexivity|]. split; [vm_compute; reflexivity|]. split; [exact PK|].
  split; vm_compute; reflexivity.
Qed.
Print Assumptions C30_unconditional_refuted.

(** Signing and verifying, both forms. *)
Example C30_some :
  ecdsa_sign tiny_ec Toy8 (fun _ => Ok (repeat 9 16)) 1 7 [[1]] (repeat 0 17) = Some (Ok (fixed_sig 8 15 49 ++ [0], 16)) /\
  ecdsa_sign_asn1 tiny_ec Toy8 (fun _ => Ok (repeat 9 16)) 1 7 [[1]] (repeat 0 10) = Some (Ok ([48; 6; 2; 1; 15; 2; 1; 49; 0; 0], 8)).
Proof. split; vm_compute; reflexivity. Qed.
Example C31_some : (let! pk := pk_from_x962 tiny_ec (sec1 8 26 32) in ecdsa_verify tiny_ec Toy8 pk [[]; [1]] (fixed_sig 8 15 49)) = Ok tt /\
  (let! pk := pk_from_x962 tiny_ec (sec1 8 26 32) in ecdsa_verify tiny_ec Toy8 pk [[2]] (fixed_sig 8 15 49)) = Err BadSignature.
Proof. split; vm_compute; reflexivity. Qed.
Example C32_some : (let! pk := pk_from_x962 tiny_ec (sec1 8 26 32) in ecdsa_verify_asn1 tiny_ec Toy8 pk [[1]] [48; 6; 2; 1; 15; 2; 1; 49]) = Ok tt /\
  (let! pk := pk_from_x962 tiny_ec (sec1 8 26 32) in ecdsa_verify_asn1 tiny_ec Toy8 pk [[1]] [48; 7; 2; 2; 0; 15; 2; 1; 49]) = Err BadSignature.
Proof. split; vm_compute; reflexivity. Qed.
(** The nonce of that signature: candidate 0 of the specification (60) is not
    below n = 53, candidate 1 (44) is used and gives r = 15. *)
Example C30_candidates : map (nonce_candidate toy8_hash 8 8 8 7 (ecdsa_e tiny 8 (toy8_hash [1])) (repeat 9 16)) [0; 1]%nat = [60; 44] /\
  pt_mul tiny 44 (Some (c_g tiny)) = Some (15, 10).
Proof. split; vm_compute; reflexivity. Qed.
