(** ECDSA: supporting lemmas. *)
Require Import Verif.Base Verif.L_Base Verif.M_Sha2 Verif.M_Hmac Verif.S_Hmac Verif.L_Hash Verif.L_Hmac.
Require Import Verif.M_Asn1 Verif.M_Pkix Verif.S_Der Verif.S_Pkix Verif.L_Asn1 Verif.L_Asn1Int Verif.L_Pkix.
Require Import Verif.M_Ec Verif.S_Curve Verif.S_Ec Verif.L_Fp Verif.L_Curve Verif.L_EcKey Verif.T_Ec.
Require Import Verif.M_Ecdsa Verif.S_Ecdsa.
Require Import ZifyNat Znumtheory.

(** *** integers *)
Lemma be_val_head x r : bytes (x :: r) -> 1 <= x -> x * 256 ^ zlen r <= be_val (x :: r).
Proof.
  intros B X. apply bytes_cons in B. destruct B as [_ B]. pose proof (be_val_bound r B).
  rewrite be_val_cons. lia.
Qed.

Lemma fixed_value len v b : 0 <= len -> bytes b -> zlen b <= len -> be_val b = v ->
  repeat 0 (Z.to_nat (len - zlen b)) ++ b = be_bytes (Z.to_nat len) v.
Proof.
  intros HL B L <-.
  assert (BB : bytes (repeat 0 (Z.to_nat (len - zlen b)) ++ b)).
  { apply bytes_app. split; [|exact B]. apply Forall_forall. intros x H. apply repeat_spec in H. subst x. unfold byte_ok. lia. }
  assert (ZL : zlen (repeat 0 (Z.to_nat (len - zlen b)) ++ b) = len).
  { rewrite zlen_app. unfold zlen at 1. rewrite repeat_length. pose proof (zlen_nonneg b). lia. }
  assert (V : be_val (repeat 0 (Z.to_nat (len - zlen b)) ++ b) = be_val b).
  { clear. induction (Z.to_nat (len - zlen b)) as [|k IH]; [reflexivity|]. cbn [repeat app]. rewrite be_val_cons. lia. }
  rewrite <- V. set (l := repeat 0 (Z.to_nat (len - zlen b)) ++ b) in *. clearbody l. symmetry.
  replace (Z.to_nat len) with (length l) by (unfold zlen in ZL; lia). apply be_bytes_be_val. exact BB.
Qed.

Lemma write_fixed_ok len i : 0 < len -> is_int i -> 0 <= int_value i ->
  write_fixed len i = if int_value i <? 256 ^ len then Ok (be_bytes (Z.to_nat len) (int_value i)) else Err BadSignature.
Proof.
  intros HL [B M] V. destruct i as [|x r]; [destruct M|]. pose proof B as B'. apply bytes_cons in B'. destruct B' as [BX BR].
  assert (X : x < 128).
  { cbn [int_value] in V. destruct (Z.leb_spec 128 x); [|lia]. pose proof (be_val_bound (x :: r) B). lia. }
  assert (IV : int_value (x :: r) = be_val (x :: r)).
  { cbn [int_value]. destruct (Z.leb_spec 128 x); [lia|reflexivity]. }
  rewrite IV. unfold write_fixed. unfold byte_ok in BX.
  assert (PM : forall a b, 0 <= b <= a -> 256 ^ b <= 256 ^ a) by (intros a b H; apply Z.pow_le_mono_r; lia).
  destruct (Z.eqb_spec x 0) as [->|NZ].
  - assert (BE : be_val (0 :: r) = be_val r) by (rewrite be_val_cons; lia). rewrite BE.
    destruct (Z.ltb_spec len (zlen r)) as [L|L].
    + destruct r as [|y r]; [cbn in L; lia|]. cbn [minimal_int] in M.
      pose proof (be_val_head y r BR ltac:(lia)) as HH. rewrite zlen_cons in L. pose proof (zlen_nonneg r).
      pose proof (PM (zlen r) len ltac:(lia)). pose proof (Z.pow_pos_nonneg 256 (zlen r) ltac:(lia) ltac:(lia)).
      destruct (Z.ltb_spec (be_val (y :: r)) (256 ^ len)); [nia|reflexivity].
    + pose proof (be_val_bound r BR). pose proof (zlen_nonneg r). pose proof (PM len (zlen r) ltac:(lia)).
      destruct (Z.ltb_spec (be_val r) (256 ^ len)); [|lia]. f_equal. apply fixed_value; auto; lia.
  - destruct (Z.ltb_spec len (zlen (x :: r))) as [L|L].
    + pose proof (be_val_head x r B ltac:(lia)) as HH. rewrite zlen_cons in L. pose proof (zlen_nonneg r).
      pose proof (PM (zlen r) len ltac:(lia)). pose proof (Z.pow_pos_nonneg 256 (zlen r) ltac:(lia) ltac:(lia)).
      destruct (Z.ltb_spec (be_val (x :: r)) (256 ^ len)); [nia|reflexivity].
    + pose proof (be_val_bound _ B). pose proof (zlen_nonneg (x :: r)). pose proof (PM len (zlen (x :: r)) ltac:(lia)).
      destruct (Z.ltb_spec (be_val (x :: r)) (256 ^ len)); [|lia]. f_equal. apply fixed_value; auto; lia.
Qed.

(** The length of a small integer. *)
Lemma int_len i len : is_int i -> 0 <= len -> 0 <= int_value i < 256 ^ len -> zlen i <= len + 1.
Proof.
  intros [B M] HL [V0 V]. destruct i as [|x r]; [destruct M|]. pose proof B as B'. apply bytes_cons in B'. destruct B' as [BX BR].
  assert (X : x < 128).
  { cbn [int_value] in V0. destruct (Z.leb_spec 128 x); [|lia]. pose proof (be_val_bound (x :: r) B). lia. }
  cbn [int_value] in V. destruct (Z.leb_spec 128 x); [lia|]. clear V0.
  rewrite zlen_cons. pose proof (zlen_nonneg r).
  destruct (Z_le_dec (zlen r) len) as [|G]; [lia|exfalso]. unfold byte_ok in BX.
  assert (PM : 256 ^ len <= 256 ^ (zlen r - 1)) by (apply Z.pow_le_mono_r; lia).
  assert (PP : 256 ^ zlen r = 256 * 256 ^ (zlen r - 1)) by (rewrite <- Z.pow_succ_r by lia; f_equal; lia).
  destruct (Z.eq_dec x 0) as [->|].
  - destruct r as [|y r]; [cbn in G; lia|]. cbn [minimal_int] in M. pose proof (be_val_head y r BR ltac:(lia)) as HH.
    rewrite be_val_cons in V. rewrite zlen_cons in PM. replace (zlen r + 1 - 1) with (zlen r) in PM by lia.
    replace (1 + zlen r - 1) with (zlen r) in PM by lia. nia.
  - pose proof (be_val_head x r B ltac:(lia)) as HH. nia.
Qed.

Lemma hash_updates_feed H message : forall ctx, hash_updates H ctx message = feed H ctx message.
Proof. induction message as [|m r IH]; intros ctx; [reflexivity|]. cbn [hash_updates feed]. destruct (ha_update H ctx m); cbn [bind]; auto. Qed.

Section L.
Variable c : curve.
Variable E : ec.
Hypothesis I : ec_impl c E.
Let n := c_n c.
Let p := c_p c.
Let G := Some (c_g c).
Local Notation len := (ec_bytes E).
Local Notation R := (radix E).
Local Notation "a == b" := (feq n a b) (at level 70).

Lemma len_pos : 0 < len.
Proof. pose proof (eo_limbs _ _ (ei_asm _ _ I)). unfold ec_bytes. lia. Qed.

Lemma G_on : on_curve c G.
Proof. exact (cg_g _ (ei_group _ _ I)). Qed.

(** *** the algebra *)
Lemma unit_inverse s : 1 <= s < n -> exists w, (s * w) mod n = 1.
Proof.
  intros S. pose proof (n_prime c E I) as P. fold n in P. exists (inv_mod n s).
  rewrite Z.mul_comm. rewrite (finv_ok n P s).
  - apply Z.mod_small. lia.
  - intros H. unfold feq in H. rewrite Z.mod_0_l in H by lia. rewrite Z.mod_small in H; lia.
Qed.

Lemma sign_valid d k e r s : 1 <= d < n -> ecdsa_signature c d e k r s -> r <> 0 -> s <> 0 ->
  ecdsa_valid c (pt_mul c d G) e r s.
Proof.
  intros D ((x & y & M & ER) & S & EQ) R0 S0. pose proof (ei_group _ _ I) as cg. pose proof G_on as GO.
  pose proof (n_prime c E I) as NP. fold n in NP, S, EQ, ER. assert (N1 : 1 < n) by (destruct NP; lia).
  pose proof (Z.mod_pos_bound x n ltac:(lia)) as XB.
  split; [fold n; lia|]. split; [fold n; lia|].
  destruct (unit_inverse s ltac:(lia)) as [w W]. exists w, x, y. split; [exact W|]. split; [|fold n; auto].
  fold G. rewrite <- (mul_mul c cg _ d G GO). rewrite <- (mul_add c cg _ _ G GO). rewrite <- M. fold G.
  apply mul_eq_mod; try assumption. fold n.
  replace (e * w + r * w * d) with (w * (e + d * r)) by ring.
  rewrite Z.mul_mod, <- EQ, <- Z.mul_mod by lia. replace (w * (s * k)) with (s * w * k) by ring.
  rewrite Z.mul_mod, W, Z.mul_1_l, Z.mod_mod by lia. reflexivity.
Qed.

(** whichever inverse *)
Lemma valid_with Q e r s w : on_curve c Q -> 1 <= r < n -> 1 <= s < n -> (s * w) mod n = 1 ->
  ecdsa_valid c Q e r s <->
  exists x y, pt_add c (pt_mul c (e * w) G) (pt_mul c (r * w) Q) = Some (x, y) /\ x mod n = r.
Proof.
  intros OQ HR HS W. pose proof (ei_group _ _ I) as cg. pose proof (n_prime c E I) as NP. fold n in NP.
  assert (N1 : 1 < n) by (destruct NP; lia).
  assert (EQW : forall w' t, (s * w') mod n = 1 -> (t * w') mod n = (t * w) mod n).
  { intros w' t W'. replace ((t * w') mod n) with ((t * w' * (s * w)) mod n).
    - replace (t * w' * (s * w)) with (t * w * (s * w')) by ring. rewrite Z.mul_mod, W', Z.mul_1_r, Z.mod_mod by lia. reflexivity.
    - rewrite Z.mul_mod, W, Z.mul_1_r, Z.mod_mod by lia. reflexivity. }
  split.
  - intros (_ & _ & w' & x & y & W' & A & B). fold n in W', B. exists x, y. split; [|exact B]. rewrite <- A.
    f_equal; (apply mul_eq_mod; [exact cg|first [exact G_on|exact OQ]|]); fold n; symmetry; apply EQW; exact W'.
  - intros (x & y & A & B). split; [exact HR|]. split; [exact HS|]. exists w, x, y. auto.
Qed.

(** *** the hash *)
Section Hash.
Context (H : hash_alg) (Hs : list Z -> list Z) (lim : Z) (HI : implements H Hs lim).

Lemma hash_to_scalar_ok h : bytes h -> hash_to_scalar E h = Ok (ecdsa_e c len h).
Proof.
  intros B. unfold hash_to_scalar, ecdsa_e. pose proof len_pos as LP.
  replace (if len <? zlen h then ztake len h else h) with (ztake len h)
    by (destruct (Z.ltb_spec len (zlen h)); [reflexivity|apply ztake_all; lia]).
  assert (B' : bytes (ztake len h)) by (apply bytes_ztake; exact B).
  rewrite (reduced_ok c E I); [reflexivity|exact B'|].
  pose proof (be_val_bound _ B') as BB. rewrite (R256 c E I).
  assert (256 ^ zlen (ztake len h) <= 256 ^ len); [|lia]. apply Z.pow_le_mono_r; [lia|].
  unfold zlen, ztake. rewrite firstn_length. lia.
Qed.

Definition the_e (message : list (list Z)) : Z := ecdsa_e c len (Hs (concat message)).
Lemma the_e_range message : 0 <= the_e message < n.
Proof. pose proof (n34 c E I) as N. fold n in N. unfold the_e, ecdsa_e. apply Z.mod_pos_bound. fold n. lia. Qed.

Lemma hash_message message : Forall bytes message -> zlen (concat message) < lim -> exists ctx,
  hash_updates H (ha_new H) message = Ok ctx /\ ha_finish H ctx = Ok (Hs (concat message)).
Proof.
  intros B L. destruct (im_feed _ _ _ HI message) as (ctx & F1 & F2); [apply bytes_concat, B|].
  exists ctx. rewrite hash_updates_feed. split; [exact F1|]. rewrite F2. destruct (Z.leb_spec lim (zlen (concat message))); [lia|reflexivity].
Qed.

(** *** verification *)
Lemma halves sig : bytes sig -> zlen sig = len * 2 ->
  zlen (ztake len sig) = len /\ zlen (zdrop len sig) = len /\ bytes (ztake len sig) /\ bytes (zdrop len sig) /\
  sig = fixed_sig len (be_val (ztake len sig)) (be_val (zdrop len sig)).
Proof.
  intros B L. pose proof len_pos as LP. pose proof (zlen_ztake len sig ltac:(lia)) as ZT. pose proof (zlen_zdrop len sig ltac:(lia)) as ZD.
  assert (B1 : bytes (ztake len sig)) by (apply bytes_ztake; exact B).
  assert (B2 : bytes (zdrop len sig)) by (apply bytes_zdrop; exact B).
  assert (L1 : zlen (ztake len sig) = len) by lia. assert (L2 : zlen (zdrop len sig) = len) by lia.
  repeat split; try assumption.
  unfold fixed_sig. change (be_bytes (Z.to_nat len) (be_val (ztake len sig))) with (to_be E (be_val (ztake len sig))).
  change (be_bytes (Z.to_nat len) (be_val (zdrop len sig))) with (to_be E (be_val (zdrop len sig))).
  rewrite !(to_be_of c E) by assumption. symmetry. apply ztake_zdrop.
Qed.

Lemma fixed_parts r s : 0 <= r < 256 ^ len -> 0 <= s < 256 ^ len ->
  bytes (fixed_sig len r s) /\ zlen (fixed_sig len r s) = len * 2 /\
  be_val (ztake len (fixed_sig len r s)) = r /\ be_val (zdrop len (fixed_sig len r s)) = s.
Proof.
  intros HR HS. rewrite <- (R256 c E I) in HR, HS. unfold fixed_sig. change (be_bytes (Z.to_nat len)) with (to_be E).
  pose proof (to_be_len c E I) as TL. repeat split.
  - apply bytes_app. split; apply to_be_bytes.
  - rewrite zlen_app, !TL. lia.
  - rewrite ztake_app_eq by (symmetry; apply TL). apply (to_be_val c E I). lia.
  - rewrite zdrop_app_eq by (symmetry; apply TL). apply (to_be_val c E I). lia.
Qed.

Theorem verify_ok pk x y message sig : pk_is c E pk x y -> bytes sig -> Forall bytes message -> zlen (concat message) < lim ->
  (ecdsa_verify E H pk message sig = Ok tt <->
   exists r s, sig = fixed_sig len r s /\ ecdsa_valid c (Some (x, y)) (the_e message) r s) /\
  (zlen sig <> len * 2 -> ecdsa_verify E H pk message sig = Err WrongLength) /\
  (zlen sig = len * 2 -> ecdsa_verify E H pk message sig = Ok tt \/ ecdsa_verify E H pk message sig = Err BadSignature).
Proof.
  intros PK B BM LM. pose proof (R256 c E I) as RE. pose proof (nR c E I) as NR. fold n in NR.
  destruct (Z.eq_dec (zlen sig) (len * 2)) as [L|L].
  2: { assert (V : ecdsa_verify E H pk message sig = Err WrongLength).
       { unfold ecdsa_verify. destruct (Z.eqb_spec (zlen sig) (len * 2)); [contradiction|reflexivity]. }
       rewrite V. split; [|split; [auto|contradiction]]. split; [discriminate|].
       intros (r & s & -> & (HR & HS & _)). fold n in HR, HS. exfalso. apply L. apply fixed_parts; lia. }
  destruct (halves sig B L) as (L1 & L2 & B1 & B2 & SE).
  set (r := be_val (ztake len sig)) in *. set (s := be_val (zdrop len sig)) in *.
  assert (RR : 0 <= r < R) by (rewrite RE, <- L1; apply be_val_bound, B1).
  assert (SR : 0 <= s < R) by (rewrite RE, <- L2; apply be_val_bound, B2).
  assert (UNIQ : forall r' s', sig = fixed_sig len r' s' -> ecdsa_valid c (Some (x, y)) (the_e message) r' s' -> r' = r /\ s' = s).
  { intros r' s' E1 (HR & HS & _). fold n in HR, HS. destruct (fixed_parts r' s') as (_ & _ & V1 & V2); try lia.
    rewrite <- E1 in V1, V2. unfold r, s. auto. }
  assert (K : (ecdsa_verify E H pk message sig = Ok tt <-> ecdsa_valid c (Some (x, y)) (the_e message) r s) /\
    (ecdsa_verify E H pk message sig = Ok tt \/ ecdsa_verify E H pk message sig = Err BadSignature)).
  { unfold ecdsa_verify. rewrite L, Z.eqb_refl. cbn [negb].
    rewrite (checked_ok c E I _ B1), (checked_ok c E I _ B2). fold r s n.
    destruct (Z.ltb_spec r R); [|lia]. destruct (Z.ltb_spec s R); [|lia].
    destruct ((1 <=? r) && (r <? n)) eqn:HR; cbn [map_err bind].
    2: { split; [split; [discriminate|intros (HR' & _); fold n in HR'; lia]|auto]. }
    destruct ((1 <=? s) && (s <? n)) eqn:HS; cbn [map_err bind].
    2: { split; [split; [discriminate|intros (_ & HS' & _); fold n in HS'; lia]|auto]. }
    destruct (hash_message message BM LM) as (ctx & U & F). rewrite U. cbn [bind]. rewrite F. cbn [bind].
    rewrite hash_to_scalar_ok by apply (im_bytes _ _ _ HI). cbn [bind]. fold (the_e message).
    destruct (unit_inverse s ltac:(lia)) as [w W].
    rewrite (raw_verify_ok c E I pk x y r s (the_e message) w PK); try (fold n; lia); [| apply the_e_range |].
    2: { fold n. unfold feq. rewrite W. symmetry. apply Z.mod_small. pose proof (n34 c E I) as N. fold n in N. lia. }
    rewrite (valid_with _ (the_e message) r s w (proj1 PK)) by (assumption || lia). fold G n.
    destruct (pt_add c (pt_mul c (the_e message * w) G) (pt_mul c (r * w) (Some (x, y)))) as [[vx vy]|] eqn:A.
    - destruct (Z.eqb_spec (vx mod n) r) as [T|T]; (split; [|auto]).
      + split; [eauto|reflexivity].
      + split; [discriminate|]. intros (x' & y' & A' & T'). injection A' as <- <-. contradiction.
    - split; [|auto]. split; [discriminate|]. intros (x' & y' & A' & _). discriminate A'. }
  destruct K as [K1 K2]. split; [|split; [contradiction|auto]]. rewrite K1. split.
  - intros V. exists r, s. auto.
  - intros (r' & s' & E1 & V). destruct (UNIQ r' s' E1 V) as [-> ->]. exact V.
Qed.

Theorem verify_asn1_ok pk message sig : len <= 48 -> bytes sig -> Forall bytes message -> zlen (concat message) < lim ->
  (exists r s, der_sig sig r s /\ 0 <= r < 256 ^ len /\ 0 <= s < 256 ^ len /\
     ecdsa_verify_asn1 E H pk message sig = ecdsa_verify E H pk message (fixed_sig len r s)) \/
  ((forall r s, 0 <= r < 256 ^ len -> 0 <= s < 256 ^ len -> ~ der_sig sig r s) /\ ecdsa_verify_asn1 E H pk message sig = Err BadSignature).
Proof.
  intros LE B BM LM. pose proof len_pos as LP. unfold ecdsa_verify_asn1. pose proof exact_EcdsaSigValue as X.
  destruct (from_bytes EcdsaSigValue sig) as [[ri si]|e|] eqn:D; [| |destruct (x_total _ _ _ X sig B D)].
  - apply (x_dec _ _ _ X) in D; [|exact B]. destruct D as ([IR IS] & ED & LD). cbn [map_err bind].
    rewrite (is_negative_spec ri) by exact IR. rewrite (is_negative_spec si) by exact IS.
    assert (UN : forall r s, der_sig sig r s -> r = int_value ri /\ s = int_value si).
    { intros r s (ri' & si' & IR' & IS' & V1 & V2 & ED').
      assert (Q : from_bytes EcdsaSigValue sig = Ok (ri', si')) by (apply (x_dec _ _ _ X); [exact B|]; split; [split; assumption|]; rewrite <- ED'; auto).
      assert (Q' : from_bytes EcdsaSigValue sig = Ok (ri, si)) by (apply (x_dec _ _ _ X); [exact B|]; split; [split; assumption|]; rewrite <- ED; auto).
      rewrite Q in Q'. injection Q' as -> ->. auto. }
    destruct ((int_value ri <? 0) || (int_value si <? 0)) eqn:NEG.
    + right. split; [|reflexivity]. intros r s HR HS DS. destruct (UN r s DS) as [-> ->]. lia.
    + unfold need, MAX_SCALAR_LEN. destruct (Z.ltb_spec (48 * 2) (len * 2)); [lia|]. cbn [bind].
      rewrite (write_fixed_ok len ri) by (auto; lia). rewrite (write_fixed_ok len si) by (auto; lia).
      destruct (Z.ltb_spec (int_value ri) (256 ^ len)) as [R1|R1]; cbn [bind].
      2: { right. split; [|reflexivity]. intros r s HR HS DS. destruct (UN r s DS) as [-> ->]. lia. }
      destruct (Z.ltb_spec (int_value si) (256 ^ len)) as [S1|S1]; cbn [bind].
      2: { right. split; [|reflexivity]. intros r s HR HS DS. destruct (UN r s DS) as [-> ->]. lia. }
      left. exists (int_value ri), (int_value si). split; [|split; [lia|split; [lia|reflexivity]]].
      exists ri, si. auto.
  - cbn [map_err bind]. right. split; [|reflexivity]. intros r s HR HS (ri & si & IR & IS & V1 & V2 & ED).
    assert (Q : from_bytes EcdsaSigValue sig = Ok (ri, si)); [|congruence].
    apply (x_dec _ _ _ X); [exact B|]. split; [split; assumption|]. split; [exact ED|]. rewrite ED.
    subst r s. pose proof (int_len ri len IR ltac:(lia) ltac:(lia)) as LR. pose proof (int_len si len IS ltac:(lia) ltac:(lia)) as LS.
    clear - LR LS LE. cbn [tree_EcdsaSigValue der_enc SEQ map concat]. unfold INT. cbn [der_enc].
    pose proof (zlen_nonneg ri). pose proof (zlen_nonneg si).
    assert (T : forall t b, zlen b <= 49 -> zlen (tlv t b) = 2 + zlen b).
    { intros t b HB. unfold tlv, der_length. destruct (Z.ltb_spec (zlen b) 128); [|lia]. rewrite zlen_cons, zlen_app. change (zlen [zlen b]) with 1. lia. }
    assert (T1 := T 2 ri ltac:(lia)). assert (T2 := T 2 si ltac:(lia)). rewrite app_nil_r.
    assert (LB : zlen (tlv 2 ri ++ tlv 2 si) <= 102) by (rewrite zlen_app; lia).
    unfold tlv at 1, der_length. destruct (Z.ltb_spec (zlen (tlv 2 ri ++ tlv 2 si)) 128); [|lia].
    rewrite zlen_cons, zlen_app. pose proof (zlen_nonneg (tlv 2 ri ++ tlv 2 si)). change (zlen [zlen (tlv 2 ri ++ tlv 2 si)]) with 1. lia.
Qed.
End Hash.
End L.
