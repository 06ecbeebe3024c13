(** Theorems about P-256 and P-384 keys, points and scalar multiplication:
    properties C27, C28, C29, C33 (the NIST curves) and C46.  [ec_impl c E]
    says that E is a curve module for the curve c: see S_Ec. *)
Require Import Verif.Base Verif.L_Base Verif.M_Util Verif.M_Ec Verif.S_Curve Verif.S_Ec.
Require Import Verif.L_Fp Verif.L_Curve Verif.L_EcPoint Verif.L_EcMul Verif.L_EcKey Verif.L_CurveEx Verif.L_EcRef Verif.L_P256 Verif.L_P384.
Require Import ZifyNat Znumtheory.

(** *** the two modules are instances *)
Theorem C29_p256_module : forall F S t,
  field_ok (c_p P256) (2 ^ 256) F -> scalar_ok (c_n P256) (2 ^ 256) S ->
  base_ok P256 (2 ^ 256) (BaseW7 t) ->
  ec_impl P256 {| e_par := par256; e_f := F; e_s := S; e_base := BaseW7 t |}.
Proof.
  intros F S t HF HS HT. constructor; [exact p256_group| |apply par256_ok].
  constructor; cbn [e_par e_f e_s e_base par256 ec_limbs]; [lia|exact HF|exact HS|exact HT].
Qed.
Print Assumptions C29_p256_module.

Theorem C29_p384_module : forall F S t,
  field_ok (c_p P384) (2 ^ 384) F -> scalar_ok (c_n P384) (2 ^ 384) S ->
  base_ok P384 (2 ^ 384) (BaseW5 t) ->
  ec_impl P384 {| e_par := par384; e_f := F; e_s := S; e_base := BaseW5 t |}.
Proof.
  intros F S t HF HS HT. constructor; [exact p384_group| |apply par384_ok].
  constructor; cbn [e_par e_f e_s e_base par384 ec_limbs]; [lia|exact HF|exact HS|exact HT].
Qed.
Print Assumptions C29_p384_module.

(** The premises can be met: for a module on the small curve of L_CurveEx
    (L_EcRef.tiny_impl), and for P-256 and P-384 with routines that compute
    what their contracts say. *)
Example C29_premises_tiny : ec_impl tiny tiny_ec.
Proof. exact tiny_impl. Qed.

Example C29_premises_p256 :
  ec_impl P256 {| e_par := par256; e_f := ref_field (c_p P256) (2 ^ 256); e_s := ref_scalar (c_n P256) (2 ^ 256);
                  e_base := BaseW7 (ref_w7 P256 (2 ^ 256)) |}.
Proof.
  pose proof p256_group as G. apply C29_p256_module.
  - apply ref_field_ok; [exact (cg_p _ G)| |vm_compute; discriminate]. apply pow2_nz; [exact (cg_p _ G)|vm_compute; reflexivity|lia].
  - apply ref_scalar_ok; [exact (cg_n _ G)|]. apply pow2_nz; [exact (cg_n _ G)|vm_compute; reflexivity|lia].
  - apply ref_w7_ok; [exact G| |vm_compute; reflexivity]. apply pow2_nz; [exact (cg_p _ G)|vm_compute; reflexivity|lia].
Qed.

Example C29_premises_p384 :
  ec_impl P384 {| e_par := par384; e_f := ref_field (c_p P384) (2 ^ 384); e_s := ref_scalar (c_n P384) (2 ^ 384);
                  e_base := BaseW5 (ref_w5 P384 (2 ^ 384)) |}.
Proof.
  pose proof p384_group as G. apply C29_p384_module.
  - apply ref_field_ok; [exact (cg_p _ G)| |vm_compute; discriminate]. apply pow2_nz; [exact (cg_p _ G)|vm_compute; reflexivity|lia].
  - apply ref_scalar_ok; [exact (cg_n _ G)|]. apply pow2_nz; [exact (cg_n _ G)|vm_compute; reflexivity|lia].
  - apply ref_w5_ok; [exact G|]. apply pow2_nz; [exact (cg_p _ G)|vm_compute; reflexivity|lia].
Qed.

Section Theorems.
Variable c : curve.
Variable E : ec.
Hypothesis I : ec_impl c E.
Let n := c_n c.
Let p := c_p c.
Local Notation len := (ec_bytes E).

(** *** C27: scalars *)
Theorem private_key_decode b : bytes b ->
  (forall k, sk_from_bytes E b = Ok k <-> k = be_val b /\ 1 <= be_val b < n) /\
  (be_val b = 0 \/ n <= be_val b < 256 ^ len -> sk_from_bytes E b = Err OutOfRange) /\
  (256 ^ len <= be_val b -> sk_from_bytes E b = Err WrongLength).
Proof.
  intros B. unfold sk_from_bytes. rewrite (checked_ok c E I b B). rewrite <- (R256 c E I).
  pose proof (nR c E I) as NR. pose proof (n34 c E I) as N34. pose proof (be_val_nonneg b B) as P0. fold n in NR, N34. fold n.
  repeat split.
  - destruct (be_val b <? radix E); [|discriminate H]. destruct ((1 <=? be_val b) && (be_val b <? n)); [|discriminate H].
    injection H as <-. reflexivity.
  - destruct (be_val b <? radix E); [|discriminate H]. destruct ((1 <=? be_val b) && (be_val b <? n)) eqn:T; [|discriminate H]. lia.
  - destruct (be_val b <? radix E); [|discriminate H]. destruct ((1 <=? be_val b) && (be_val b <? n)) eqn:T; [|discriminate H]. lia.
  - intros [-> [H1 H2]]. destruct (Z.ltb_spec (be_val b) (radix E)); [|lia].
    destruct (Z.leb_spec 1 (be_val b)), (Z.ltb_spec (be_val b) n); try lia. reflexivity.
  - intros H. destruct (Z.ltb_spec (be_val b) (radix E)); [|lia].
    destruct (Z.leb_spec 1 (be_val b)), (Z.ltb_spec (be_val b) n); cbn [andb]; try reflexivity. lia.
  - intros H. destruct (Z.ltb_spec (be_val b) (radix E)); [lia|reflexivity].
Qed.

Theorem private_key_round_trip k : 1 <= k < n -> sk_from_bytes E (sk_to_bytes E k) = Ok k /\ zlen (sk_to_bytes E k) = len /\
  forall b, bytes b -> zlen b = len -> sk_from_bytes E b = Ok k -> b = sk_to_bytes E k.
Proof.
  intros K. pose proof (nR c E I) as NR. fold n in NR.
  assert (V : be_val (sk_to_bytes E k) = k) by (apply (to_be_val c E I); lia).
  split; [|split].
  - apply private_key_decode; [apply to_be_bytes|]. rewrite V. auto.
  - apply (to_be_len c E I).
  - intros b B L H. apply private_key_decode in H; [|exact B]. destruct H as [-> _]. symmetry. apply to_be_of; assumption.
Qed.

Theorem scalar_array b : bytes b -> zlen b = len -> scalar_from_array_checked E b = scalar_from_bytes_checked E b.
Proof.
  intros B L. rewrite (checked_ok c E I b B). unfold scalar_from_array_checked.
  pose proof (eo_limbs _ _ (ei_asm _ _ I)) as HL.
  destruct (T_Util.C48_be_value (ec_limbs (e_par E)) b ltac:(lia) L B) as (V & _ & _). rewrite V.
  pose proof (be_val_bound b B) as BB. rewrite L, <- (R256 c E I) in BB.
  rewrite (range_check_ok c E I) by exact BB. destruct (Z.ltb_spec (be_val b) (radix E)); [reflexivity|lia].
Qed.

(** *** C28: points *)
Lemma pk_from_ok b pk : bytes b -> pk_from_x962 E b = Ok pk ->
  exists xb yb, b = 4 :: xb ++ yb /\ zlen xb = len /\ zlen yb = len /\ pk_is c E pk (be_val xb mod p) (be_val yb mod p).
Proof.
  intros B H. unfold pk_from_x962 in H. destruct (from_x962_ok c E I b B) as (F1 & _).
  destruct (aff_from_x962 E b) as [a| |] eqn:A; try discriminate H. cbn [bind] in H. injection H as <-.
  destruct (F1 a eq_refl) as (xb & yb & EB & LX & LY & O & AI). exists xb, yb. repeat (split; [assumption|]).
  apply (pk_from_affine_ok c E I); assumption.
Qed.

Theorem point_decode b : bytes b ->
  ((exists pk, pk_from_x962 E b = Ok pk) <->
   exists xb yb, b = 4 :: xb ++ yb /\ zlen xb = len /\ zlen yb = len /\
     on_curve c (Some (be_val xb mod p, be_val yb mod p))) /\
  pk_from_x962 E b <> Panic.
Proof.
  intros B. destruct (from_x962_ok c E I b B) as (F1 & F2 & F3). split; [split|].
  - intros [pk H]. destruct (pk_from_ok b pk B H) as (xb & yb & EB & LX & LY & O & _). exists xb, yb. auto.
  - intros (xb & yb & EB & LX & LY & O). destruct (F2 xb yb EB LX LY O) as [a A]. exists (pk_from_affine E a).
    unfold pk_from_x962. rewrite A. reflexivity.
  - unfold pk_from_x962. destruct (aff_from_x962 E b); try discriminate. congruence.
Qed.

Theorem point_value xb yb pk : bytes xb -> bytes yb -> zlen xb = len -> zlen yb = len ->
  pk_from_x962 E (4 :: xb ++ yb) = Ok pk -> pk_to_x962 E pk = sec1 len (be_val xb mod p) (be_val yb mod p).
Proof.
  intros BX BY LX LY H. assert (B : bytes (4 :: xb ++ yb)) by (constructor; [unfold byte_ok; lia|apply bytes_app; auto]).
  destruct (pk_from_ok _ pk B H) as (xb' & yb' & EB & LX' & LY' & _ & AI & _).
  injection EB as EB. assert (xb = xb' /\ yb = yb') as [<- <-].
  { assert (T : ztake len (xb ++ yb) = xb) by (apply ztake_app_eq; auto). rewrite EB in T.
    rewrite ztake_app_eq in T by auto. subst xb'. split; [reflexivity|]. apply app_inv_head in EB. exact EB. }
  unfold pk_to_x962. rewrite (to_x962_ok c E I _ _ _ AI). reflexivity.
Qed.

Theorem point_round_trip x y : on_curve c (Some (x, y)) ->
  exists pk, pk_from_x962 E (sec1 len x y) = Ok pk /\ pk_to_x962 E pk = sec1 len x y.
Proof.
  intros O. destruct (enc_decodes c E I x y O) as (a & A & AI). exists (pk_from_affine E a).
  unfold pk_from_x962. change (sec1 len x y) with (enc E x y). rewrite A. split; [reflexivity|].
  unfold pk_to_x962. cbn [pk_from_affine pk_point]. apply (to_x962_ok c E I _ _ _ AI).
Qed.

(** a coordinate with p added is accepted, and denotes the same key *)
Theorem point_unreduced x y : on_curve c (Some (x, y)) -> x + p < 256 ^ len ->
  exists pk, pk_from_x962 E (sec1 len (x + p) y) = Ok pk /\ pk_to_x962 E pk = sec1 len x y /\
    sec1 len (x + p) y <> sec1 len x y.
Proof.
  intros O L. pose proof O as (HX & HY & _). fold p in HX, HY. rewrite <- (R256 c E I) in L. pose proof (p_pos c E I) as P3. fold p in P3.
  pose proof (pR' c E I) as PR. fold p in PR.
  set (xb := to_be E (x + p)). set (yb := to_be E y).
  assert (VX : be_val xb mod p = x).
  { unfold xb. rewrite (to_be_val c E I) by lia. replace (x + p) with (x + 1 * p) by lia. rewrite Z.mod_add by lia. apply Z.mod_small. lia. }
  assert (VY : be_val yb mod p = y).
  { unfold yb. rewrite (to_be_val c E I) by lia. apply Z.mod_small. lia. }
  assert (BX : bytes xb) by apply to_be_bytes. assert (BY : bytes yb) by apply to_be_bytes.
  assert (LX : zlen xb = len) by apply (to_be_len c E I). assert (LY : zlen yb = len) by apply (to_be_len c E I).
  change (sec1 len (x + p) y) with (4 :: xb ++ yb).
  assert (B : bytes (4 :: xb ++ yb)) by (constructor; [unfold byte_ok; lia|apply bytes_app; auto]).
  destruct (point_decode _ B) as [[_ D] _]. destruct D as [pk H].
  { exists xb, yb. split; [reflexivity|]. split; [exact LX|]. split; [exact LY|]. rewrite VX, VY. exact O. }
  exists pk. split; [exact H|]. split; [rewrite (point_value xb yb pk) by assumption; rewrite VX, VY; reflexivity|].
  intros EQ. injection EQ as EQ. apply (f_equal (fun l => be_val (ztake len l))) in EQ.
  rewrite ztake_app_eq in EQ by auto. rewrite ztake_app_eq in EQ by (symmetry; apply (to_be_len c E I)).
  change (be_bytes (Z.to_nat len) x) with (to_be E x) in EQ. unfold xb in EQ. rewrite !(to_be_val c E I) in EQ by lia. lia.
Qed.

(** *** C29: scalar multiplication *)
Theorem base_mult secret k : 0 <= k < n ->
  exists r, base_multiply E secret k = Ok r /\ jac_is c (radix E) r (pt_mul c k (Some (c_g c))).
Proof. apply (base_multiply_ok c E I). Qed.

Theorem point_mult secret b pk k : bytes b -> pk_from_x962 E b = Ok pk -> 0 <= k < n ->
  exists xb yb r, b = 4 :: xb ++ yb /\ zlen xb = len /\
    multiply_w5 E secret k (pk_pre pk) = Ok r /\
    jac_is c (radix E) r (pt_mul c k (Some (be_val xb mod p, be_val yb mod p))).
Proof.
  intros B H K. destruct (pk_from_ok b pk B H) as (xb & yb & EB & LX & LY & O & _ & T).
  destruct (multiply_w5_ok c E I secret _ _ k O ltac:(discriminate) T K) as (r & M & JJ).
  exists xb, yb, r. auto.
Qed.

Theorem public_key_exact k : 1 <= k < n -> exists x y,
  pt_mul c k (Some (c_g c)) = Some (x, y) /\ sk_public_key E k = Ok (sec1 len x y).
Proof.
  intros K. destruct (public_point_ok c E I k K) as (a & x & y & S & M & A). exists x, y. split; [exact M|].
  unfold sk_public_key. rewrite S. cbn [bind]. rewrite (to_x962_ok c E I a x y A). reflexivity.
Qed.

Theorem dh_exact k b pk : 1 <= k < n -> bytes b -> pk_from_x962 E b = Ok pk -> exists xb yb sx sy,
  b = 4 :: xb ++ yb /\ zlen xb = len /\
  pt_mul c k (Some (be_val xb mod p, be_val yb mod p)) = Some (sx, sy) /\
  sk_diffie_hellman E k pk = Ok (be_bytes (Z.to_nat len) sx).
Proof.
  intros K B H. destruct (pk_from_ok b pk B H) as (xb & yb & EB & LX & LY & PI).
  destruct (dh_ok c E I k pk _ _ K PI) as (sx & sy & M & D). exists xb, yb, sx, sy. auto.
Qed.

(** *** C33: agreement *)
Theorem dh_agree a b : 1 <= a < n -> 1 <= b < n -> exists pa pb ka kb z,
  sk_public_key E a = Ok pa /\ sk_public_key E b = Ok pb /\
  pk_from_x962 E pa = Ok ka /\ pk_from_x962 E pb = Ok kb /\
  sk_diffie_hellman E a kb = Ok z /\ sk_diffie_hellman E b ka = Ok z /\ zlen z = len.
Proof.
  intros A B. pose proof (ei_group _ _ I) as cg.
  assert (GO : on_curve c (Some (c_g c))) by exact (cg_g _ cg).
  destruct (public_key_exact a A) as (xa & ya & MA & SA). destruct (public_key_exact b B) as (xb & yb & MB & SB).
  assert (OA : on_curve c (Some (xa, ya))) by (rewrite <- MA; apply mul_closed; assumption).
  assert (OB : on_curve c (Some (xb, yb))) by (rewrite <- MB; apply mul_closed; assumption).
  destruct (enc_decodes c E I _ _ OA) as (aa & DA & AA). destruct (enc_decodes c E I _ _ OB) as (ab & DB & AB).
  pose proof (pk_from_affine_ok c E I aa _ _ OA AA) as PA. pose proof (pk_from_affine_ok c E I ab _ _ OB AB) as PB.
  destruct (dh_ok c E I a _ _ _ A PB) as (sx & sy & M1 & D1). destruct (dh_ok c E I b _ _ _ B PA) as (tx & ty & M2 & D2).
  exists (sec1 len xa ya), (sec1 len xb yb), (pk_from_affine E aa), (pk_from_affine E ab), (be_bytes (Z.to_nat len) sx).
  assert (EQ : Some (sx, sy) = Some (tx, ty)).
  { rewrite <- M1, <- M2, <- MA, <- MB. rewrite <- !mul_mul by assumption. rewrite (Z.mul_comm a b). reflexivity. }
  injection EQ as <- <-. unfold pk_from_x962. change (sec1 len xa ya) with (enc E xa ya). change (sec1 len xb yb) with (enc E xb yb).
  rewrite DA, DB. repeat split; try assumption. apply (to_be_len c E I).
Qed.

(** *** C46: generation *)
Section Gen.
Context {St : Type}.
Variable fill : St -> Z -> res (list Z) * St.
Hypothesis fill_ok : forall s b, fst (fill s len) = Ok b -> bytes b /\ zlen b = len.

Definition rejected_output (s : St) (j : nat) : Prop :=
  exists b, rng_output fill len s j = Ok b /\ ~ 1 <= be_val b < n.

Lemma generate_loop m : forall s, let (r, s') := sk_generate_loop E fill m s in
  (exists i b, (i < m)%nat /\ (forall j, (j < i)%nat -> rejected_output s j) /\
     rng_output fill len s i = Ok b /\ 1 <= be_val b < n /\ r = Ok (be_val b) /\ s' = rng_after fill len s (S i)) \/
  (exists i, (i < m)%nat /\ (forall j, (j < i)%nat -> rejected_output s j) /\
     ((exists e, rng_output fill len s i = Err e /\ r = Err e) \/ (rng_output fill len s i = Panic /\ r = Panic)) /\
     s' = rng_after fill len s (S i)) \/
  ((forall j, (j < m)%nat -> rejected_output s j) /\ r = Err RngFailed /\ s' = rng_after fill len s m).
Proof.
  induction m as [|m IH]; intros s.
  - cbn [sk_generate_loop]. right. right. split; [intros j H; lia|]. split; reflexivity.
  - cbn [sk_generate_loop]. destruct (fill s len) as [o s1] eqn:F.
    assert (OUT : rng_output fill len s 0 = o) by (unfold rng_output; cbn [rng_after]; rewrite F; reflexivity).
    assert (ST : forall i, rng_after fill len s (S i) = rng_after fill len s1 i) by (intros i; cbn [rng_after]; rewrite F; reflexivity).
    assert (OS : forall i, rng_output fill len s (S i) = rng_output fill len s1 i) by (intros i; unfold rng_output; rewrite ST; reflexivity).
    destruct o as [b|e|].
    + destruct (fill_ok s b) as [B L]; [rewrite F; reflexivity|].
      destruct (private_key_decode b B) as (D1 & D2 & D3).
      destruct (Z_le_dec 1 (be_val b)) as [L1|L1]; [destruct (Z_lt_dec (be_val b) n) as [L2|L2]|].
      * assert (OK : sk_from_bytes E b = Ok (be_val b)) by (apply D1; auto). rewrite OK.
        left. exists 0%nat, b. repeat split; try lia; try assumption. symmetry. apply ST.
      * assert (RJ : exists e, sk_from_bytes E b = Err e).
        { destruct (Z_lt_dec (be_val b) (256 ^ len)); eexists; [apply D2; right; lia|apply D3; lia]. }
        destruct RJ as [e RJ]. rewrite RJ.
        assert (R0 : rejected_output s 0) by (exists b; split; [exact OUT|lia]).
        specialize (IH s1). destruct (sk_generate_loop E fill m s1) as [r s'].
        assert (RS : forall i, (forall j, (j < i)%nat -> rejected_output s1 j) -> forall j, (j < S i)%nat -> rejected_output s j).
        { intros i H j Hj. destruct j as [|j]; [exact R0|]. destruct (H j ltac:(lia)) as (b' & X1 & X2). exists b'. rewrite OS. auto. }
        destruct IH as [(i & b' & I1 & I2 & I3 & I4 & I5 & I6)|[(i & I1 & I2 & I3 & I4)|(I1 & I2 & I3)]].
        -- left. exists (S i), b'. rewrite OS, ST. repeat split; try assumption; try lia. apply RS, I2.
        -- right. left. exists (S i). rewrite OS, ST. repeat split; try assumption; try lia. apply RS, I2.
        -- right. right. rewrite ST. repeat split; try assumption. apply RS, I1.
      * assert (RJ : sk_from_bytes E b = Err OutOfRange) by (apply D2; left; pose proof (be_val_nonneg b B); lia). rewrite RJ.
        assert (R0 : rejected_output s 0) by (exists b; split; [exact OUT|lia]).
        specialize (IH s1). destruct (sk_generate_loop E fill m s1) as [r s'].
        assert (RS : forall i, (forall j, (j < i)%nat -> rejected_output s1 j) -> forall j, (j < S i)%nat -> rejected_output s j).
        { intros i H j Hj. destruct j as [|j]; [exact R0|]. destruct (H j ltac:(lia)) as (b' & X1 & X2). exists b'. rewrite OS. auto. }
        destruct IH as [(i & b' & I1 & I2 & I3 & I4 & I5 & I6)|[(i & I1 & I2 & I3 & I4)|(I1 & I2 & I3)]].
        -- left. exists (S i), b'. rewrite OS, ST. repeat split; try assumption; try lia. apply RS, I2.
        -- right. left. exists (S i). rewrite OS, ST. repeat split; try assumption; try lia. apply RS, I2.
        -- right. right. rewrite ST. repeat split; try assumption. apply RS, I1.
    + right. left. exists 0%nat. split; [lia|]. split; [intros j H; lia|]. split; [left; eauto|]. symmetry. apply ST.
    + right. left. exists 0%nat. split; [lia|]. split; [intros j H; lia|]. split; [right; auto|]. symmetry. apply ST.
Qed.
End Gen.
End Theorems.

(** *** C27 *)

(** A private key (or a signature scalar) is accepted exactly when the number
    in its bytes is in [1, n-1]; leading zero bytes are ignored; what is
    accepted has that value. *)
Theorem C27_private_key_exact : forall c E, ec_impl c E -> forall b, bytes b ->
  (forall k, sk_from_bytes E b = Ok k <-> k = be_val b /\ 1 <= be_val b < c_n c) /\
  (be_val b = 0 \/ c_n c <= be_val b < 256 ^ ec_bytes E -> sk_from_bytes E b = Err OutOfRange) /\
  (256 ^ ec_bytes E <= be_val b -> sk_from_bytes E b = Err WrongLength).
Proof. exact private_key_decode. Qed.
Print Assumptions C27_private_key_exact.

(** The fixed-size array variant agrees with the slice variant. *)
Theorem C27_array_agrees : forall c E, ec_impl c E -> forall b, bytes b -> zlen b = ec_bytes E ->
  scalar_from_array_checked E b = scalar_from_bytes_checked E b.
Proof. exact scalar_array. Qed.
Print Assumptions C27_array_agrees.

(** Export and import: the encoding is the only one of the full length. *)
Theorem C27_round_trip : forall c E, ec_impl c E -> forall k, 1 <= k < c_n c ->
  sk_from_bytes E (sk_to_bytes E k) = Ok k /\ zlen (sk_to_bytes E k) = ec_bytes E /\
  forall b, bytes b -> zlen b = ec_bytes E -> sk_from_bytes E b = Ok k -> b = sk_to_bytes E k.
Proof. exact private_key_round_trip. Qed.
Print Assumptions C27_round_trip.

Example C27_some : sk_from_bytes tiny_ec [0; 0; 52] = Ok 52 /\ sk_from_bytes tiny_ec [53] = Err OutOfRange /\
  sk_from_bytes tiny_ec [] = Err OutOfRange /\ sk_from_bytes tiny_ec [1;0;0;0;0;0;0;0;0] = Err WrongLength.
Proof. vm_compute. repeat split; reflexivity. Qed.

(** *** C28 *)

(** A public key is accepted exactly when it is the byte 4 followed by two
    coordinates of the field size that, reduced modulo p, satisfy the curve
    equation. *)
Theorem C28_point_exact : forall c E, ec_impl c E -> forall b, bytes b ->
  ((exists pk, pk_from_x962 E b = Ok pk) <->
   exists xb yb, b = 4 :: xb ++ yb /\ zlen xb = ec_bytes E /\ zlen yb = ec_bytes E /\
     on_curve c (Some (be_val xb mod c_p c, be_val yb mod c_p c))) /\
  pk_from_x962 E b <> Panic.
Proof. exact point_decode. Qed.
Print Assumptions C28_point_exact.

(** The accepted key is that point. *)
Theorem C28_point_value : forall c E, ec_impl c E -> forall xb yb pk,
  bytes xb -> bytes yb -> zlen xb = ec_bytes E -> zlen yb = ec_bytes E ->
  pk_from_x962 E (4 :: xb ++ yb) = Ok pk ->
  pk_to_x962 E pk = sec1 (ec_bytes E) (be_val xb mod c_p c) (be_val yb mod c_p c).
Proof. exact point_value. Qed.
Print Assumptions C28_point_value.

(** The encoding of every point of the curve is accepted and re-encodes to itself. *)
Theorem C28_round_trip : forall c E, ec_impl c E -> forall x y, on_curve c (Some (x, y)) ->
  exists pk, pk_from_x962 E (sec1 (ec_bytes E) x y) = Ok pk /\ pk_to_x962 E pk = sec1 (ec_bytes E) x y.
Proof. exact point_round_trip. Qed.
Print Assumptions C28_round_trip.

(** So encodings are not unique: SEC 1 2.3.4 asks for coordinates below p,
    the code reduces them. *)
Theorem C28_canonical_refuted : forall c E, ec_impl c E -> forall x y, on_curve c (Some (x, y)) ->
  x + c_p c < 256 ^ ec_bytes E ->
  exists pk, pk_from_x962 E (sec1 (ec_bytes E) (x + c_p c) y) = Ok pk /\ pk_to_x962 E pk = sec1 (ec_bytes E) x y /\
    sec1 (ec_bytes E) (x + c_p c) y <> sec1 (ec_bytes E) x y.
Proof. exact point_unreduced. Qed.
Print Assumptions C28_canonical_refuted.

(** On P-256 there is such a point: (5, y) is on the curve and 5 + p fits. *)
Example C28_p256_unreduced : exists y, on_curve P256 (Some (5, y)) /\ 5 + c_p P256 < 256 ^ 32.
Proof.
  exists 0x459243b9aa581806fe913bce99817ade11ca503c64d9a3c533415c083248fbcc.
  vm_compute. repeat split; (reflexivity || discriminate).
Qed.

(** *** C29 *)

(** The base point: public and secret variants, every scalar including 0. *)
Theorem C29_base_multiply : forall c E, ec_impl c E -> forall secret k, 0 <= k < c_n c ->
  exists r, base_multiply E secret k = Ok r /\ jac_is c (radix E) r (pt_mul c k (Some (c_g c))).
Proof. exact base_mult. Qed.
Print Assumptions C29_base_multiply.

(** Any accepted public key. *)
Theorem C29_point_multiply : forall c E, ec_impl c E -> forall secret b pk k,
  bytes b -> pk_from_x962 E b = Ok pk -> 0 <= k < c_n c ->
  exists xb yb r, b = 4 :: xb ++ yb /\ zlen xb = ec_bytes E /\
    multiply_w5 E secret k (pk_pre pk) = Ok r /\
    jac_is c (radix E) r (pt_mul c k (Some (be_val xb mod c_p c, be_val yb mod c_p c))).
Proof. exact point_mult. Qed.
Print Assumptions C29_point_multiply.

(** The public key of k is the encoding of k.G. *)
Theorem C29_public_key : forall c E, ec_impl c E -> forall k, 1 <= k < c_n c -> exists x y,
  pt_mul c k (Some (c_g c)) = Some (x, y) /\ sk_public_key E k = Ok (sec1 (ec_bytes E) x y).
Proof. exact public_key_exact. Qed.
Print Assumptions C29_public_key.

(** The shared secret is the abscissa of k.Q, for every accepted key Q. *)
Theorem C29_diffie_hellman : forall c E, ec_impl c E -> forall k b pk,
  1 <= k < c_n c -> bytes b -> pk_from_x962 E b = Ok pk -> exists xb yb sx sy,
  b = 4 :: xb ++ yb /\ zlen xb = ec_bytes E /\
  pt_mul c k (Some (be_val xb mod c_p c, be_val yb mod c_p c)) = Some (sx, sy) /\
  sk_diffie_hellman E k pk = Ok (be_bytes (Z.to_nat (ec_bytes E)) sx).
Proof. exact dh_exact. Qed.
Print Assumptions C29_diffie_hellman.

(** *** C33, the NIST curves *)
Theorem C33_ecdh_agree : forall c E, ec_impl c E -> forall a b, 1 <= a < c_n c -> 1 <= b < c_n c ->
  exists pa pb ka kb z,
  sk_public_key E a = Ok pa /\ sk_public_key E b = Ok pb /\
  pk_from_x962 E pa = Ok ka /\ pk_from_x962 E pb = Ok kb /\
  sk_diffie_hellman E a kb = Ok z /\ sk_diffie_hellman E b ka = Ok z /\ zlen z = ec_bytes E.
Proof. exact dh_agree. Qed.
Print Assumptions C33_ecdh_agree.

Example C33_ecdh_some : sk_public_key tiny_ec 7 = Ok [4; 0; 0; 0; 0; 0; 0; 0; 26; 0; 0; 0; 0; 0; 0; 0; 32] /\
  (let! k := pk_from_x962 tiny_ec [4; 0; 0; 0; 0; 0; 0; 0; 26; 0; 0; 0; 0; 0; 0; 0; 32] in sk_diffie_hellman tiny_ec 11 k) =
    Ok [0; 0; 0; 0; 0; 0; 0; 7].
Proof. split; vm_compute; reflexivity. Qed.

(** *** C46 *)

(** Generation: the key is the first output in range among the first 64, RNG
    failures are passed on, and 64 outputs out of range are an error.  The
    final state shows how many requests were made. *)
Theorem C46_generate : forall c E, ec_impl c E ->
  forall St (fill : St -> Z -> res (list Z) * St),
  (forall s b, fst (fill s (ec_bytes E)) = Ok b -> bytes b /\ zlen b = ec_bytes E) ->
  forall s, let (r, s') := sk_generate E fill s in
  let out := rng_output fill (ec_bytes E) s in
  let rejected j := exists b, out j = Ok b /\ ~ 1 <= be_val b < c_n c in
  (exists i b, (i < 64)%nat /\ (forall j, (j < i)%nat -> rejected j) /\
     out i = Ok b /\ 1 <= be_val b < c_n c /\ r = Ok (be_val b) /\ s' = rng_after fill (ec_bytes E) s (S i)) \/
  (exists i, (i < 64)%nat /\ (forall j, (j < i)%nat -> rejected j) /\
     ((exists e, out i = Err e /\ r = Err e) \/ (out i = Panic /\ r = Panic)) /\
     s' = rng_after fill (ec_bytes E) s (S i)) \/
  ((forall j, (j < 64)%nat -> rejected j) /\ r = Err RngFailed /\ s' = rng_after fill (ec_bytes E) s 64).
Proof. intros c E I St fill H s. exact (generate_loop c E I fill H 64%nat s). Qed.
Print Assumptions C46_generate.

(** A source giving 60, 0, 7, ...: the key is 7 after three requests. *)
Example C46_some : sk_generate tiny_ec (fun s len => (Ok (be_bytes 8 (nth s [60; 0; 7; 9] 0)), S s)) 0%nat = (Ok 7, 3%nat).
Proof. vm_compute. reflexivity. Qed.
Example C46_fails : sk_generate tiny_ec (fun s len => (Ok (be_bytes 8 99), S s)) 0%nat = (Err RngFailed, 64%nat).
Proof. vm_compute. reflexivity. Qed.
