(** Scalars, encodings and keys of mid/p256.rs and mid/p384.rs. *)
Require Import Verif.Base Verif.L_Base Verif.M_Util Verif.T_Util Verif.M_Ec Verif.S_Curve Verif.S_Ec.
Require Import Verif.L_Util Verif.L_Fp Verif.L_Curve Verif.L_EcPoint Verif.L_Booth Verif.L_EcMul.
Require Import ZifyNat Znumtheory Zpow_facts.

Lemma be_val_nonneg b : bytes b -> 0 <= be_val b.
Proof. intros B. pose proof (be_val_bound b B). lia. Qed.

Section Key.
Variable c : curve.
Variable E : ec.
Hypothesis I : ec_impl c E.
Let cg := ei_group _ _ I.
Let p := c_p c.
Let n := c_n c.
Let R := radix E.
Let G : point := Some (c_g c).
Local Notation J := (jac_is c R).
Local Notation len := (ec_bytes E).

Lemma n_prime : prime n. Proof. exact (cg_n _ cg). Qed.
Lemma n34 : 34 <= n. Proof. exact (i_n34 c E I). Qed.
Lemma nR : n < R. Proof. exact (i_nR c E I). Qed.
Lemma pR' : p < R. Proof. exact (i_pR c E I). Qed.
Lemma p_pos : 3 < p. Proof. exact (cg_p3 _ cg). Qed.
Lemma len_pos : 1 <= len. Proof. exact (i_bytes c E I). Qed.
Lemma R256 : R = 256 ^ len.
Proof. unfold R, radix, ec_bytes. change 256 with (2 ^ 8). pose proof (i_L c E I) as H. cbv zeta in H. rewrite <- Z.pow_mul_r by lia. f_equal. lia. Qed.

Local Notation "a == b" := (feq n a b) (at level 70, no associativity).

Lemma R_nz_n : ~ R == 0.
Proof.
  unfold R, radix. intros H. apply feq_0_div in H; [|pose proof n34; lia].
  apply prime_power_prime in H; [pose proof n34; lia| |exact n_prime|exact prime_2].
  pose proof (eo_limbs _ _ (ei_asm _ _ I)). lia.
Qed.

Lemma cancelR a b : a * R == b * R -> a == b.
Proof. apply fcancel; [exact n_prime|exact R_nz_n]. Qed.

Lemma feq_modl a b : 0 <= a < n -> a == b -> a = b mod n.
Proof. intros A H. rewrite <- H. symmetry. apply Z.mod_small. exact A. Qed.

Lemma mod_n_range x : 0 <= x mod n < n. Proof. apply Z.mod_pos_bound. pose proof n34. lia. Qed.

(** *** scalar arithmetic *)
Lemma ord : ec_order (e_par E) = n. Proof. exact (po_order _ _ (ei_par _ _ I)). Qed.
Lemma ordmm : ec_order_mm (e_par E) = (R * R) mod n. Proof. exact (po_mm _ _ (ei_par _ _ I)). Qed.

Lemma as_mont_ok v : 0 <= v < n -> scalar_as_mont E v = (v * R) mod n.
Proof.
  intros V. unfold scalar_as_mont. rewrite ord, ordmm.
  destruct (so_montmul _ _ _ (i_so c E I) v ((R * R) mod n) V (mod_n_range _)) as [B H].
  apply feq_modl; [exact B|]. apply cancelR. unfold feq. fold R n in H. rewrite H.
  rewrite Z.mul_mod_idemp_r by (pose proof n34; lia). f_equal. ring.
Qed.

Lemma scalar_demont_ok v w : 0 <= v < R -> v == w * R -> scalar_demont E v = w mod n.
Proof.
  intros V H. unfold scalar_demont. rewrite ord.
  destruct (so_demont _ _ _ (i_so c E I) v V) as [B D]. apply feq_modl; [exact B|]. apply cancelR.
  unfold feq. fold R n in D. rewrite D. exact H.
Qed.

Lemma mont_mul_ok a b u v : 0 <= a < n -> 0 <= b < n -> a == u * R -> b == v ->
  scalar_mont_mul E a b = (u * v) mod n.
Proof.
  intros A B HA HB. unfold scalar_mont_mul. rewrite ord.
  destruct (so_montmul _ _ _ (i_so c E I) a b A B) as [X D]. apply feq_modl; [exact X|]. apply cancelR.
  unfold feq. fold R n in D. rewrite D. change (feq n (a * b) (u * v * R)). rewrite HA, HB. apply feq_ring. ring.
Qed.

Lemma mod_feq a : a mod n == a. Proof. apply feq_mod. Qed.

(** u1, u2 of verification and d.r of signing *)
Lemma mul_via_mont a b : 0 <= a < n -> 0 <= b < n ->
  scalar_demont E (scalar_mont_mul E (scalar_as_mont E a) (scalar_as_mont E b)) = (a * b) mod n.
Proof.
  intros A B. rewrite !as_mont_ok by assumption.
  rewrite (mont_mul_ok _ _ a (b * R)) by (try apply mod_n_range; apply mod_feq).
  apply scalar_demont_ok.
  - pose proof (mod_n_range (a * (b * R))). pose proof nR. lia.
  - rewrite mod_feq. apply feq_ring. ring.
Qed.

Lemma gcd_n x : 0 < x < n -> Z.gcd x n = 1.
Proof.
  intros X. apply Zgcd_1_rel_prime. apply rel_prime_le_prime; [exact n_prime|lia].
Qed.

Lemma scalar_inv_ok s : 0 < s < n -> 0 < scalar_inv E s < n /\ scalar_inv E s * s == 1.
Proof.
  intros S. unfold scalar_inv. rewrite ord.
  destruct (so_modinv _ _ _ (i_so c E I) s S (gcd_n s S)) as [B H]. fold n in B, H.
  split.
  - assert (s_modinv (e_s E) s n <> 0); [|lia]. intros Z0. rewrite Z0 in H. rewrite Z.mul_0_l, Z.mod_0_l in H by lia. lia.
  - unfold feq. rewrite H. rewrite Z.mod_small by lia. reflexivity.
Qed.

(** *** scalar decoding *)
Lemma scalar_from_be_ok b : bytes b ->
  scalar_from_be E b = if be_val b <? R then Ok (be_val b) else Err WrongLength.
Proof.
  intros B. unfold scalar_from_be.
  pose proof (C48_any_size (ec_limbs (e_par E)) b (eo_limbs _ _ (ei_asm _ _ I)) B) as H.
  destruct (be_slice_any_size_to_u64s _ b) as [w|].
  - destruct H as (V & W & LW). pose proof (limbs_val_bound w W) as LB. rewrite LW in LB. rewrite V in *. change (2 ^ (64 * ec_limbs (e_par E))) with R in LB.
    destruct (Z.ltb_spec (be_val b) R); [reflexivity|lia].
  - change (2 ^ (64 * ec_limbs (e_par E))) with R in H. destruct (Z.ltb_spec (be_val b) R); [lia|reflexivity].
Qed.

Lemma range_check_ok v : 0 <= v < R ->
  scalar_range_check E v = if (1 <=? v) && (v <? n) then Ok v else Err OutOfRange.
Proof.
  intros V. unfold scalar_range_check. rewrite (so_mod_n _ _ _ (i_so c E I)) by exact V. fold n. pose proof n34 as N.
  destruct (Z.ltb_spec v n) as [L|L].
  - rewrite Z.mod_small by lia. rewrite Z.eqb_refl. cbn [negb orb].
    destruct (Z.eqb_spec v 0), (Z.leb_spec 1 v); cbn [andb]; try reflexivity; lia.
  - rewrite andb_false_r. pose proof (mod_n_range v). destruct (Z.eqb_spec (v mod n) v); [lia|]. reflexivity.
Qed.

Theorem checked_ok b : bytes b ->
  scalar_from_bytes_checked E b =
    if be_val b <? R then (if (1 <=? be_val b) && (be_val b <? n) then Ok (be_val b) else Err OutOfRange)
    else Err WrongLength.
Proof.
  intros B. unfold scalar_from_bytes_checked. rewrite scalar_from_be_ok by assumption.
  destruct (Z.ltb_spec (be_val b) R); [|reflexivity]. cbn [bind]. apply range_check_ok.
  pose proof (be_val_nonneg b B). lia.
Qed.

Theorem reduced_ok b : bytes b -> be_val b < R -> scalar_from_bytes_reduced E b = Ok (be_val b mod n).
Proof.
  intros B L. unfold scalar_from_bytes_reduced. rewrite scalar_from_be_ok by assumption.
  destruct (Z.ltb_spec (be_val b) R); [|lia]. cbn [bind].
  rewrite (so_mod_n _ _ _ (i_so c E I)); [reflexivity|]. pose proof (be_val_nonneg b B). lia.
Qed.

Lemma to_be_val v : 0 <= v < R -> be_val (to_be E v) = v.
Proof.
  intros V. unfold to_be. rewrite be_val_be_bytes. pose proof len_pos. rewrite Z2Nat.id by lia. rewrite <- R256. apply Z.mod_small. exact V.
Qed.
Lemma to_be_len v : zlen (to_be E v) = len.
Proof. unfold to_be. rewrite zlen_be_bytes. pose proof len_pos. lia. Qed.
Lemma to_be_bytes v : bytes (to_be E v). Proof. apply be_bytes_bytes. Qed.
Lemma to_be_of b : bytes b -> zlen b = len -> to_be E (be_val b) = b.
Proof.
  intros B L. unfold to_be. replace (Z.to_nat len) with (length b) by (unfold zlen in L; lia). apply be_bytes_be_val. exact B.
Qed.

(** *** points *)
Definition enc (x y : Z) : list Z := 4 :: be_bytes (Z.to_nat len) x ++ be_bytes (Z.to_nat len) y.

(** what a public key value stands for *)
Definition pk_is (k : public_key) (x y : Z) : Prop :=
  on_curve c (Some (x, y)) /\ aff_is c R (pk_point k) x y /\ table16 c E (Some (x, y)) (pk_pre k).

Lemma aff_fe a x y : aff_is c R a x y -> fe c R (fst a) x /\ fe c R (snd a) y.
Proof. intros A. apply aff_is_fe in A; intuition. Qed.

Lemma demont_aff a x y : aff_is c R a x y -> f_demont (e_f E) (fst a) = x /\ f_demont (e_f E) (snd a) = y.
Proof.
  intros A. pose proof A as (_ & _ & X & Y & _). destruct (aff_fe a x y A) as [FX FY].
  rewrite (demont_ok c cg E R (i_fo c E I) (i_co c E I) _ _ FX).
  rewrite (demont_ok c cg E R (i_fo c E I) (i_co c E I) _ _ FY).
  rewrite !Z.mod_small by assumption. split; reflexivity.
Qed.

Lemma to_x962_ok a x y : aff_is c R a x y -> aff_to_x962 E a = enc x y.
Proof. intros A. unfold aff_to_x962. destruct (demont_aff a x y A) as [-> ->]. reflexivity. Qed.

Lemma field_from_be_ok b : bytes b -> zlen b = len -> field_from_be E b = Ok (be_val b) /\ 0 <= be_val b < R.
Proof.
  intros B L. unfold field_from_be. pose proof (eo_limbs _ _ (ei_asm _ _ I)) as HL.
  destruct (C48_slice_exact (ec_limbs (e_par E)) b ltac:(lia)) as [H _].
  destruct (H L) as [-> _].
  destruct (C48_be_value (ec_limbs (e_par E)) b ltac:(lia) L B) as (V & _ & _). rewrite V. split; [reflexivity|].
  pose proof (be_val_bound b B) as BB. rewrite L, <- R256 in BB. exact BB.
Qed.

Lemma pair_aff X Y x y : fe c R X x -> fe c R Y y -> 0 <= x < p -> 0 <= y < p -> aff_is c R (X, Y) x y.
Proof. intros FX FY HX HY. apply aff_is_fe; auto. Qed.

Lemma fe_modp X v : fe c R X v -> fe c R X (v mod p).
Proof. intros [A B]. split; [exact A|]. unfold feq in *. rewrite Zmod_mod. exact B. Qed.

Lemma on_curve_dec_ok X Y x y : fe c R X x -> fe c R Y y -> 0 <= x < p -> 0 <= y < p ->
  (aff_on_curve E (X, Y) = true <-> on_curve c (Some (x, y))).
Proof.
  intros FX FY HX HY. rewrite (aff_on_curve_ok c cg E R (i_fo c E I) (i_pR c E I) (i_co c E I) X Y x y FX FY).
  unfold on_curve, feq. fold p. tauto.
Qed.

Theorem from_x962_ok b : bytes b ->
  (forall a, aff_from_x962 E b = Ok a -> exists xb yb, b = 4 :: xb ++ yb /\ zlen xb = len /\ zlen yb = len /\
     on_curve c (Some (be_val xb mod p, be_val yb mod p)) /\ aff_is c R a (be_val xb mod p) (be_val yb mod p)) /\
  (forall xb yb, b = 4 :: xb ++ yb -> zlen xb = len -> zlen yb = len ->
     on_curve c (Some (be_val xb mod p, be_val yb mod p)) -> exists a, aff_from_x962 E b = Ok a) /\
  aff_from_x962 E b <> Panic.
Proof.
  intros B.
  assert (G0 : forall xb yb, b = 4 :: xb ++ yb -> zlen xb = len -> zlen yb = len ->
     exists X Y, aff_from_x962 E b = (if aff_on_curve E (X, Y) then Ok (X, Y) else Err NotOnCurve) /\
       fe c R X (be_val xb mod p) /\ fe c R Y (be_val yb mod p)).
  { intros xb yb -> LX LY. inversion B as [|? ? _ B2]; subst. apply bytes_app in B2. destruct B2 as [BX BY].
    unfold aff_from_x962. change (4 =? 4) with true. cbn [negb].
    rewrite zlen_cons, zlen_app, LX, LY. unfold ec_point_bytes. replace (1 + (len + len) =? 1 + len + len) with true by lia. cbn [negb].
    rewrite (ztake_app_eq len xb yb), (zdrop_app_eq len xb yb) by (symmetry; exact LX).
    destruct (field_from_be_ok xb BX LX) as [-> RX]. destruct (field_from_be_ok yb BY LY) as [-> RY]. cbn [bind].
    exists (f_tomont (e_f E) (be_val xb)), (f_tomont (e_f E) (be_val yb)). split; [reflexivity|].
    split; apply fe_modp; apply (tomont_ok c cg E R (i_fo c E I) (i_co c E I)); assumption. }
  assert (G1 : forall P : res aff -> Prop, (forall e, P (Err e)) ->
     (forall xb yb, b = 4 :: xb ++ yb -> zlen xb = len -> zlen yb = len -> P (aff_from_x962 E b)) -> P (aff_from_x962 E b)).
  { intros P PE PO. pose proof len_pos as LP. destruct b as [|b0 xy] eqn:Eb; [apply PE|].
    destruct (Z.eqb_spec b0 4) as [->|N4].
    2:{ unfold aff_from_x962. destruct (Z.eqb_spec b0 4); [contradiction|]. apply PE. }
    destruct (Z.eqb_spec (zlen (4 :: xy)) (ec_point_bytes E)) as [L|L].
    2:{ unfold aff_from_x962. change (4 =? 4) with true. cbn [negb].
        destruct (Z.eqb_spec (zlen (4 :: xy)) (ec_point_bytes E)); [contradiction|]. apply PE. }
    unfold ec_point_bytes in L. rewrite zlen_cons in L.
    apply (PO (ztake len xy) (zdrop len xy)).
    - f_equal. symmetry. apply ztake_zdrop.
    - rewrite zlen_ztake by lia. lia.
    - rewrite zlen_zdrop by lia. lia. }
  assert (MR : forall z, 0 <= z mod p < p) by (intros z; apply Z.mod_pos_bound; pose proof p_pos; lia).
  split; [|split].
  - pattern (aff_from_x962 E b); apply G1; [intros e a H; discriminate H|].
    intros xb yb Eb LX LY a H. exists xb, yb. split; [exact Eb|]. split; [exact LX|]. split; [exact LY|].
    destruct (G0 xb yb Eb LX LY) as (X & Y & EQ & FX & FY). rewrite EQ in H.
    destruct (aff_on_curve E (X, Y)) eqn:OC; [|discriminate H]. injection H as <-.
    split; [|apply pair_aff; auto]. apply (on_curve_dec_ok X Y); auto.
  - intros xb yb Eb LX LY O. destruct (G0 xb yb Eb LX LY) as (X & Y & EQ & FX & FY). rewrite EQ.
    apply (on_curve_dec_ok X Y) in O; auto. rewrite O. eauto.
  - apply (G1 (fun r => r <> Panic)); [intros e H; discriminate H|].
    intros xb yb Eb LX LY. destruct (G0 xb yb Eb LX LY) as (X & Y & EQ & FX & FY). rewrite EQ.
    destruct (aff_on_curve E (X, Y)); discriminate.
Qed.

Lemma pk_from_affine_ok a x y : on_curve c (Some (x, y)) -> aff_is c R a x y -> pk_is (pk_from_affine E a) x y.
Proof. intros O A. split; [exact O|]. split; [exact A|]. apply precomp_w5_ok; assumption. Qed.

Lemma enc_bytes x y : bytes (enc x y).
Proof. constructor; [unfold byte_ok; lia|]. apply bytes_app. split; apply be_bytes_bytes. Qed.

Lemma enc_decodes x y : on_curve c (Some (x, y)) -> exists a, aff_from_x962 E (enc x y) = Ok a /\ aff_is c R a x y.
Proof.
  intros O. pose proof O as (HX & HY & _). fold p in HX, HY. pose proof len_pos. pose proof pR'.
  assert (LE : forall v, zlen (be_bytes (Z.to_nat len) v) = len) by (intros v; apply to_be_len).
  assert (VX : be_val (be_bytes (Z.to_nat len) x) mod p = x) by (change (be_bytes (Z.to_nat len) x) with (to_be E x); rewrite (to_be_val x) by lia; apply Z.mod_small; lia).
  assert (VY : be_val (be_bytes (Z.to_nat len) y) mod p = y) by (change (be_bytes (Z.to_nat len) y) with (to_be E y); rewrite (to_be_val y) by lia; apply Z.mod_small; lia).
  destruct (from_x962_ok (enc x y) (enc_bytes x y)) as (F1 & F2 & _).
  destruct (F2 _ _ eq_refl (LE x) (LE y)) as [a Ha]; [rewrite VX, VY; exact O|].
  exists a. split; [exact Ha|]. destruct (F1 a Ha) as (xb & yb & EB & LX & LY & _ & AI).
  unfold enc in EB. injection EB as EB.
  assert (xb = be_bytes (Z.to_nat len) x /\ yb = be_bytes (Z.to_nat len) y) as [-> ->].
  { pose proof (eq_trans (LE x) (eq_sym LX)) as L1.
    assert (T : ztake (zlen xb) (be_bytes (Z.to_nat len) x ++ be_bytes (Z.to_nat len) y) = xb) by (rewrite EB; apply ztake_app).
    rewrite (ztake_app_eq _ _ _ (eq_sym L1)) in T. split; [symmetry; exact T|]. rewrite T in EB. apply app_inv_head in EB. symmetry. exact EB. }
  rewrite VX, VY in AI. exact AI.
Qed.

Lemma mul_some k P : on_curve c P -> P <> None -> 1 <= k < n -> exists x y, pt_mul c k P = Some (x, y).
Proof.
  intros O PN K. destruct (pt_mul c k P) as [[x y]|] eqn:M; [eauto|exfalso].
  apply (mul_none_iff c cg k P O PN) in M. apply Z.divide_pos_le in M; [|lia]. fold n in M. lia.
Qed.

Theorem public_point_ok k : 1 <= k < n -> exists a x y, sk_public_point E k = Ok a /\
  pt_mul c k G = Some (x, y) /\ aff_is c R a x y.
Proof.
  intros K. unfold sk_public_point. destruct (base_multiply_ok c E I true k ltac:(fold n; lia)) as (r & -> & HJ). cbn [bind].
  destruct (mul_some k G (cg_g _ cg) ltac:(discriminate) K) as (x & y & M).
  fold G in HJ. rewrite M in HJ. fold R in HJ.
  pose proof (as_affine_ok c cg E R (i_fo c E I) (i_pR c E I) (i_co c E I) r x y HJ) as A.
  destruct (jac_as_affine E r) as [X Y] eqn:JA. pose proof (aff_fe _ _ _ A) as [FX FY]. cbn [fst snd] in FX, FY.
  pose proof A as (_ & _ & HX & HY & _).
  assert (OC : aff_on_curve E (X, Y) = true).
  { apply (on_curve_dec_ok X Y x y); auto. rewrite <- M. apply mul_closed; [exact cg|exact (cg_g _ cg)]. }
  rewrite OC. exists (X, Y), x, y. auto.
Qed.

Theorem dh_ok k pk x y : 1 <= k < n -> pk_is pk x y -> exists sx sy,
  pt_mul c k (Some (x, y)) = Some (sx, sy) /\ sk_diffie_hellman E k pk = Ok (be_bytes (Z.to_nat len) sx).
Proof.
  intros K (O & A & T). unfold sk_diffie_hellman.
  destruct (multiply_w5_ok c E I true (pk_pre pk) (Some (x, y)) k O ltac:(discriminate) T ltac:(fold n; lia)) as (r & -> & HJ). cbn [bind].
  destruct (mul_some k (Some (x, y)) O ltac:(discriminate) K) as (sx & sy & M). exists sx, sy. split; [exact M|].
  rewrite M in HJ. fold R in HJ.
  pose proof (as_affine_ok c cg E R (i_fo c E I) (i_pR c E I) (i_co c E I) r sx sy HJ) as A2.
  destruct (jac_as_affine E r) as [X Y] eqn:JA. pose proof (aff_fe _ _ _ A2) as [FX FY]. cbn [fst snd] in FX, FY.
  pose proof A2 as (_ & _ & HX & HY & _).
  assert (OC : aff_on_curve E (X, Y) = true).
  { apply (on_curve_dec_ok X Y sx sy); auto. rewrite <- M. apply mul_closed; [exact cg|exact O]. }
  rewrite OC. cbn [fst]. destruct (demont_aff _ _ _ A2) as [D _]. cbn [fst] in D. rewrite D. reflexivity.
Qed.

(** *** ECDSA *)
Lemma aff_x_scalar_ok a x y : aff_is c R a x y -> aff_x_scalar E a = Ok (x mod n).
Proof.
  intros A. unfold aff_x_scalar. rewrite (to_x962_ok a x y A).
  pose proof A as (_ & _ & HX & _). fold p in HX. pose proof pR'.
  change (zdrop 1 (enc x y)) with (to_be E x ++ to_be E y).
  rewrite <- (to_be_len x), ztake_app. rewrite reduced_ok by (rewrite ?to_be_val by lia; try apply to_be_bytes; lia).
  rewrite to_be_val by lia. reflexivity.
Qed.

Lemma jac_x_scalar_ok j x y : J j (Some (x, y)) -> jac_x_scalar E j = Ok (x mod n).
Proof.
  intros H. pose proof (as_affine_ok c cg E R (i_fo c E I) (i_pR c E I) (i_co c E I) j x y H) as A.
  destruct j as [[X Y] Z]. unfold jac_x_scalar.
  destruct (demont_aff _ _ _ A) as [D _]. unfold jac_as_affine in D. cbn [fst] in D. rewrite D.
  pose proof A as (_ & _ & HX & _). fold p in HX. pose proof pR'.
  rewrite reduced_ok by (rewrite ?to_be_val by lia; try apply to_be_bytes; lia). rewrite to_be_val by lia. reflexivity.
Qed.

Theorem raw_sign_ok d k e r : 1 <= d < n -> 1 <= k < n -> 0 <= e < n -> 0 <= r < n ->
  0 <= raw_ecdsa_sign E d k e r < n /\ raw_ecdsa_sign E d k e r * k == e + d * r.
Proof.
  intros D K HE HR. unfold raw_ecdsa_sign. rewrite mul_via_mont by lia.
  assert (AD : scalar_add E ((d * r) mod n) e = ((d * r) mod n + e) mod n).
  { unfold scalar_add. rewrite ord. apply (so_modadd _ _ _ (i_so c E I)); [apply mod_n_range|fold n; lia]. }
  rewrite AD. rewrite as_mont_ok by apply mod_n_range.
  destruct (scalar_inv_ok k ltac:(lia)) as [IB IE].
  set (m := ((d * r) mod n + e) mod n). assert (Hm : m == e + d * r).
  { unfold m. rewrite mod_feq. rewrite mod_feq. apply feq_ring. ring. }
  rewrite (mont_mul_ok _ _ (scalar_inv E k * inv_mod n R) (m * R)); try apply mod_n_range; try lia.
  - split; [apply mod_n_range|]. rewrite mod_feq.
    assert (IR : inv_mod n R * R == 1) by (apply finv_ok; [exact n_prime|exact R_nz_n]).
    transitivity (scalar_inv E k * k * (inv_mod n R * R) * m); [apply feq_ring; ring|]. rewrite IE, IR, Hm. apply feq_ring. ring.
  - assert (IR : inv_mod n R * R == 1) by (apply finv_ok; [exact n_prime|exact R_nz_n]).
    transitivity (scalar_inv E k * (inv_mod n R * R)); [rewrite IR|]; apply feq_ring; ring.
  - apply mod_feq.
Qed.

(** verification, on the level of points *)
Theorem raw_verify_ok pk x y r s e w : pk_is pk x y -> 1 <= r < n -> 1 <= s < n -> 0 <= e < n -> s * w == 1 ->
  let X := pt_add c (pt_mul c (e * w) G) (pt_mul c (r * w) (Some (x, y))) in
  raw_ecdsa_verify E pk r s e =
    match X with Some (vx, _) => if vx mod n =? r then Ok tt else Err BadSignature | None => Err BadSignature end.
Proof.
  intros (O & A & T) HR HS HE HW X. unfold raw_ecdsa_verify. cbv zeta.
  destruct (scalar_inv_ok s ltac:(lia)) as [IB IE]. set (si := scalar_inv E s) in *.
  rewrite !mul_via_mont by lia.
  assert (WS : w == si).
  { transitivity (si * s * w); [rewrite IE; apply feq_ring; ring|]. transitivity (si * (s * w)); [apply feq_ring; ring|]. rewrite HW. apply feq_ring; ring. }
  assert (M1 : pt_mul c ((si * e) mod n) G = pt_mul c (e * w) G).
  { apply mul_eq_mod; [exact cg|exact (cg_g _ cg)|]. change (feq n ((si * e) mod n) (e * w)). rewrite mod_feq, WS. apply feq_ring; ring. }
  assert (M2 : pt_mul c ((si * r) mod n) (Some (x, y)) = pt_mul c (r * w) (Some (x, y))).
  { apply mul_eq_mod; [exact cg|exact O|]. change (feq n ((si * r) mod n) (r * w)). rewrite mod_feq, WS. apply feq_ring; ring. }
  assert (U2 : 1 <= (si * r) mod n < n).
  { pose proof (mod_n_range (si * r)). assert ((si * r) mod n <> 0); [|lia]. intros Z0.
    assert (Z1 : si * r == 0) by (unfold feq; rewrite Z0; rewrite Z.mod_0_l; [reflexivity|pose proof n34; lia]).
    apply fintegral in Z1; [|exact n_prime]. destruct Z1 as [Z1|Z1]; unfold feq in Z1;
      rewrite Z.mod_small, Z.mod_0_l in Z1 by lia; lia. }
  destruct (base_multiply_ok c E I false ((si * e) mod n) (mod_n_range _)) as (lhs & -> & JL). cbn [bind].
  destruct (multiply_w5_ok c E I false (pk_pre pk) (Some (x, y)) ((si * r) mod n) O ltac:(discriminate) T (mod_n_range _)) as (rhs & -> & JR). cbn [bind].
  fold G R in JL. fold R in JR. rewrite M1 in JL.
  destruct (mul_some _ _ O ltac:(discriminate) U2) as (x2 & y2 & N2). rewrite M2 in N2, JR.
  unfold X. clear X. rewrite N2 in *.
  set (Q1 := pt_mul c (e * w) G) in *.
  assert (O1 : on_curve c Q1) by (apply mul_closed; [exact cg|exact (cg_g _ cg)]).
  assert (O2 : on_curve c (Some (x2, y2))) by (rewrite <- N2; apply mul_closed; [exact cg|exact O]).
  assert (JP : J (if jac_eq E lhs rhs then montjdouble E lhs else montjadd E lhs rhs) (pt_add c Q1 (Some (x2, y2)))).
  { pose proof (jac_eq_ok c cg E R (i_fo c E I) (i_pR c E I) (i_co c E I) lhs rhs Q1 (Some (x2, y2)) O1 O2 JL JR ltac:(discriminate)) as JE.
    destruct (jac_eq E lhs rhs).
    - rewrite <- (proj1 JE eq_refl). apply (montjdouble_ok c cg E R (i_fo c E I) (i_pR c E I) (i_co c E I)); assumption.
    - apply (montjadd_ok c cg E R (i_fo c E I) (i_pR c E I) (i_co c E I)); try assumption. intros EQ. exfalso. apply JE in EQ. discriminate EQ. }
  set (pt := if jac_eq E lhs rhs then montjdouble E lhs else montjadd E lhs rhs) in *. clearbody pt.
  destruct (pt_add c Q1 (Some (x2, y2))) as [[vx vy]|] eqn:PA.
  - pose proof JP as JP'. destruct pt as [[X Y] Z]. destruct JP' as (_ & _ & _ & ZN & _). cbn [snd].
    destruct (Z.eqb_spec Z 0); [contradiction|].
    rewrite (jac_x_scalar_ok _ _ _ JP). reflexivity.
  - destruct pt as [[X Y] Z]. destruct JP as (_ & _ & _ & Z0). cbn [snd]. rewrite Z0. reflexivity.
Qed.
End Key.
