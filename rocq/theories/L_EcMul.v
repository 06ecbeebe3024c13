(** Scalar multiplication: both algorithms compute the multiple, and the
    incomplete addition formulas never meet their exceptional case. *)
Require Import Verif.Base Verif.L_Base Verif.M_Ec Verif.L_Bits Verif.S_Curve Verif.S_Ec.
Require Import Verif.L_Fp Verif.L_Curve Verif.L_EcPoint Verif.L_Booth.
Require Import ZifyNat Znumtheory.

(** *** no exceptional case, width 5 *)
Lemma w5_exc n k t d : 34 <= n -> 16 < n mod 32 -> 0 <= k < n -> 0 <= t ->
  d = rnd k (5 * t) - 32 * rnd k (5 * t + 5) -> -16 <= d <= 16 ->
  (n | 32 * rnd k (5 * t + 5) - d) -> rnd k (5 * t + 5) = 0 /\ d = 0.
Proof.
  intros N M K T D B [m Hm].
  pose proof (rnd_bounds k (5 * t + 5) ltac:(lia) ltac:(lia)) as [K0 [_ KB]].
  replace (5 * t + 5 - 1) with (5 * t + 4) in KB by lia.
  rewrite !Z.pow_add_r in KB by lia. change (2 ^ 5) with 32 in KB. change (2 ^ 4) with 16 in KB.
  set (h := rnd k (5 * t + 5)) in *. clearbody h.
  destruct (Z.eq_dec t 0) as [->|T0].
  - change (2 ^ (5 * 0)) with 1 in KB. change (5 * 0) with 0 in D. rewrite rnd_0 in D.
    assert (m = 0 \/ m = 1) as [-> | ->] by nia; [lia|]. exfalso.
    assert (n mod 32 = - d); [|lia].
    symmetry. apply (Z.mod_unique n 32 h); [left|]; lia.
  - assert (C : 32 <= 2 ^ (5 * t)) by (change 32 with (2 ^ 5); apply Z.pow_le_mono_r; lia).
    set (C0 := 2 ^ (5 * t)) in *. clearbody C0. clear D.
    assert (32 * h <= k / 32 + 16).
    { assert (C0 * (32 * h - 16) <= k) by nia.
      assert (32 * (32 * h - 16) <= k \/ 32 * h - 16 <= 0) as [?|?] by nia.
      - assert (32 * h - 16 <= k / 32) by (apply Z.div_le_lower_bound; lia). lia.
      - pose proof (Z.div_pos k 32). lia. }
    assert (k / 32 <= k - k / 32 * 31) by (pose proof (Z.div_mod k 32 ltac:(lia)); pose proof (Z.mod_pos_bound k 32 ltac:(lia)); lia).
    assert (m = 0) by nia. lia.
Qed.

(** *** no exceptional case, width 7 *)
Lemma w7_exc_a n s d A : 0 < A -> 65 * A <= n -> - A <= 2 * s <= A -> -64 <= d <= 64 ->
  d <> 0 -> (n | s - d * A) -> False.
Proof.
  intros A0 AN S D D0 [m Hm].
  assert (- 64 * A <= d * A <= 64 * A) by nia. assert (m = 0) by nia. subst m.
  assert (A <= d * A \/ d * A <= - A) by nia. lia.
Qed.

Lemma w7_exc_last n k d A : A = 2 ^ 252 -> 64 * A - A < 4 * n -> n < 16 * A -> 0 <= k < n ->
  d = rnd k 252 -> (n | k - A * d - d * A) -> d = 0.
Proof.
  intros HA L U K D [m Hm].
  pose proof (rnd_bounds k 252 ltac:(lia) ltac:(lia)) as [K0 [KL KB]].
  rewrite <- D in *. rewrite <- HA in *.
  assert (H2 : 2 * 2 ^ (252 - 1) = A) by (rewrite HA, <- Z.pow_succ_r by lia; f_equal; lia).
  set (h := 2 ^ (252 - 1)) in *. clearbody h. clear HA D.
  destruct (Z.eq_dec d 0) as [|D0]; [assumption|exfalso].
  assert (d <= 16) by nia.
  assert (m < 0) by nia. assert (m = -1) by nia. subst m.
  assert (d = 16) by nia. subst d. nia.
Qed.

Section Mul.
Variable c : curve.
Variable E : ec.
Hypothesis I : ec_impl c E.
Let cg := ei_group _ _ I.
Let p := c_p c.
Let n := c_n c.
Let L := ec_limbs (e_par E).
Let R := radix E.

Lemma i_fo : field_ok (c_p c) R (e_f E). Proof. exact (eo_field _ _ (ei_asm _ _ I)). Qed.
Lemma i_so : scalar_ok (c_n c) R (e_s E). Proof. exact (eo_scalar _ _ (ei_asm _ _ I)). Qed.
Lemma i_bo : base_ok c R (e_base E). Proof. exact (eo_base _ _ (ei_asm _ _ I)). Qed.
Lemma i_co : consts_ok c R (e_par E). Proof. exact (po_consts _ _ (ei_par _ _ I)). Qed.
Lemma i_pR : c_p c < R. Proof. exact (po_p _ _ (ei_par _ _ I)). Qed.
Lemma i_nR : c_n c < R. Proof. exact (po_n _ _ (ei_par _ _ I)). Qed.
Lemma i_L : 0 < L. Proof. exact (eo_limbs _ _ (ei_asm _ _ I)). Qed.
Lemma i_R8 : R = 2 ^ (8 * ec_bytes E).
Proof. unfold R, radix, ec_bytes. f_equal. lia. Qed.
Lemma i_n34 : 34 <= n. Proof. exact (po_n34 _ _ (ei_par _ _ I)). Qed.
Lemma i_n32 : 16 < n mod 32. Proof. exact (po_n32 _ _ (ei_par _ _ I)). Qed.
Lemma i_p3 : 3 < p. Proof. exact (cg_p3 _ cg). Qed.
Lemma i_bytes : 1 <= ec_bytes E. Proof. pose proof i_L. unfold ec_bytes, L in *. lia. Qed.

Local Notation J := (jac_is c R).

Lemma add_ok j1 j2 Q1 Q2 : on_curve c Q1 -> on_curve c Q2 -> J j1 Q1 -> J j2 Q2 -> (Q1 = Q2 -> Q1 = None) ->
  J (montjadd E j1 j2) (pt_add c Q1 Q2).
Proof. apply montjadd_ok; auto using i_fo, i_pR, i_co. Qed.

Lemma dbl_ok j k P : on_curve c P -> J j (pt_mul c k P) -> J (montjdouble E j) (pt_mul c (2 * k) P).
Proof.
  intros O H. replace (2 * k) with (k + k) by lia. rewrite mul_add by assumption.
  apply montjdouble_ok; auto using i_fo, i_pR, i_co. apply mul_closed; assumption.
Qed.

Lemma double_n_ok m : forall j k P, on_curve c P -> J j (pt_mul c k P) ->
  J (double_n E m j) (pt_mul c (2 ^ Z.of_nat m * k) P).
Proof.
  induction m as [|m IH]; intros j k P O H.
  - replace (2 ^ Z.of_nat 0 * k) with k by (change (2 ^ Z.of_nat 0) with 1; lia). exact H.
  - cbn [double_n]. replace (2 ^ Z.of_nat (S m) * k) with (2 ^ Z.of_nat m * (2 * k)).
    + apply IH; [assumption|]. apply dbl_ok; assumption.
    + rewrite Nat2Z.inj_succ, Z.pow_succ_r by lia. ring.
Qed.

Lemma madd_ok j1 j2 a b P : on_curve c P -> P <> None -> J j1 (pt_mul c a P) -> J j2 (pt_mul c b P) ->
  ((n | a - b) -> (n | a)) -> J (montjadd E j1 j2) (pt_mul c (a + b) P).
Proof.
  intros O PN H1 H2 X. rewrite mul_add by assumption. apply add_ok; try assumption; try (apply mul_closed; assumption).
  intros EQ. destruct (X (mul_inj _ cg _ _ _ O PN EQ)) as [q Hq].
  rewrite Hq. apply mul_n_multiple; assumption.
Qed.

(** a table of the first 16 multiples *)
Definition table16 (P : point) (t : list jac) : Prop :=
  forall d, 1 <= d <= 16 -> exists a, nth_error t (Z.to_nat (d - 1)) = Some a /\ J a (pt_mul c d P).

Lemma jac_zero_ok : J jac_zero None.
Proof. pose proof i_p3. unfold J, jac_zero. unfold p in *. lia. Qed.
Lemma jac_infinity_ok : J jac_infinity None.
Proof. pose proof i_p3. unfold J, jac_infinity. unfold p in *. lia. Qed.

Lemma lookup_w5_ok secret t P d : table16 P t -> 0 <= d <= 16 ->
  exists a, lookup_w5 secret t d = Ok a /\ J a (pt_mul c d P).
Proof.
  intros T D. unfold lookup_w5. destruct (Z.eqb_spec d 0) as [->|D0].
  - rewrite mul_0. eexists. split; [reflexivity|]. destruct secret; [apply jac_zero_ok|apply jac_infinity_ok].
  - destruct (T d ltac:(lia)) as (a & -> & H). eauto.
Qed.

Lemma negated_ok secret x y z d s P : on_curve c P -> s = 0 \/ s = 1 -> J (x, y, z) (pt_mul c d P) ->
  J (x, negated E secret y s, z) (pt_mul c (sd (d, s)) P).
Proof.
  intros O S H. unfold negated, field_select, sd. cbn [fst snd].
  destruct S as [-> | ->]; cbn [Z.eqb].
  - destruct secret; assumption.
  - rewrite mul_opp by assumption. destruct secret; cbn -[jac_is pt_mul]; apply jac_neg_ok; auto using i_fo.
Qed.

Lemma land63 x : Z.land x 0x3f = x mod 64.
Proof. change 0x3f with (Z.ones 6). rewrite Z.land_ones by lia. reflexivity. Qed.

Lemma mod_256_64 x : (x mod 256) mod 64 = x mod 64.
Proof. symmetry. apply (Zmod_div_mod 64 256); try lia. exists 4. reflexivity. Qed.

(** the terms of the width-5 recoding from index 5 t downwards *)
Lemma w5_terms_ok k : 0 <= k < R -> forall t fuel, (t < fuel)%nat -> 5 * Z.of_nat t <= ec_w5_start (e_par E) ->
  5 * Z.of_nat t <= 8 * ec_bytes E ->
  exists ds : list (Z * Z), length ds = S t /\
    (forall i, (i <= t)%nat -> exists dg, nth_error ds i = Some dg /\
       0 <= fst dg <= 16 /\ (snd dg = 0 \/ snd dg = 1) /\
       sd dg = rnd k (5 * Z.of_nat (t - i)) - 32 * rnd k (5 * Z.of_nat (t - i) + 5) /\
       (2 * k / 2 ^ (5 * Z.of_nat (t - i)) < 32 -> snd dg = 0)) /\
    w5_terms E fuel (booth_bytes E k) (5 * Z.of_nat t) =
      map (fun dg => (fst dg, snd dg, false)) (firstn t ds) ++
      map (fun dg => (fst dg, snd dg, true)) (skipn t ds).
Proof.
  intros K. rewrite i_R8 in K. pose proof i_bytes as B.
  assert (DG : forall v i, 0 <= i -> v = (2 * k / 2 ^ i) mod 64 ->
     0 <= fst (recode 5 v) <= 16 /\ (snd (recode 5 v) = 0 \/ snd (recode 5 v) = 1) /\
     sd (recode 5 v) = rnd k i - 32 * rnd k (i + 5) /\
     (2 * k / 2 ^ i < 32 -> snd (recode 5 v) = 0)).
  { intros v i Hi Hv. assert (V : 0 <= v < 2 ^ (5 + 1)) by (rewrite Hv; apply Z.mod_pos_bound; reflexivity).
    destruct (recode_ok 5 v (or_introl eq_refl) V) as (A1 & A2 & A3 & A4).
    repeat split; try assumption; try apply A1.
    - rewrite A3, Hv. exact (digit_rnd 5 k i ltac:(lia) Hi ltac:(lia)).
    - intros U. apply A4. rewrite Hv. assert (0 <= 2 * k / 2 ^ i) by (apply Z.div_pos; [lia|apply Z.pow_pos_nonneg; lia]).
      rewrite Z.mod_small by lia. exact U. }
  induction t as [|t IH]; intros fuel FU ST BB.
  - destruct fuel as [|fuel]; [lia|]. change (5 * Z.of_nat 0) with 0 in *.
    set (v := Z.land (Z.shiftl (znth (booth_bytes E k) 0) 1 mod 256) 0x3f).
    assert (Hv : v = (2 * k / 2 ^ 0) mod 64).
    { unfold v. rewrite land63. unfold booth_bytes. rewrite window0_ok by assumption. apply mod_256_64. }
    exists [recode 5 v]. split; [reflexivity|]. split.
    + intros i Hi. replace i with 0%nat by lia. exists (recode 5 v). split; [reflexivity|].
      exact (DG v 0 ltac:(lia) Hv).
    + cbn [w5_terms]. unfold w5_next. change ((5 <=? 0) && (0 <=? ec_w5_start (e_par E))) with false.
      cbn [Z.eqb]. fold v. destruct (recode 5 v) as [d s] eqn:RE. cbn [firstn skipn map app fst snd].
      f_equal. destruct fuel; [reflexivity|]. reflexivity.
  - destruct fuel as [|fuel]; [lia|].
    destruct (IH fuel ltac:(lia) ltac:(lia) ltac:(lia)) as (ds & LD & DD & TE).
    set (i0 := 5 * Z.of_nat (S t)) in *.
    set (v := Z.land (booth_window (booth_bytes E k) i0) 0x3f).
    assert (Hv : v = (2 * k / 2 ^ i0) mod 64).
    { unfold v. rewrite land63. unfold booth_bytes. rewrite window_ok; [apply mod_256_64|assumption|lia|].
      assert ((i0 - 1) / 8 < ec_bytes E) by (apply Z.div_lt_upper_bound; lia). lia. }
    exists (recode 5 v :: ds). split; [cbn [length]; congruence|]. split.
    + intros i Hi. destruct i as [|i].
      * exists (recode 5 v). split; [reflexivity|]. exact (DG v i0 ltac:(lia) Hv).
      * destruct (DD i ltac:(lia)) as (dg & E1 & E2). exists dg. split; [exact E1|]. exact E2.
    + cbn [w5_terms]. unfold w5_next. destruct (Z.leb_spec 5 i0); [|lia].
      destruct (Z.leb_spec i0 (ec_w5_start (e_par E))); [|lia]. cbn [andb]. fold v.
      replace (i0 - 5) with (5 * Z.of_nat t) by lia.
      destruct (recode 5 v) as [d s] eqn:RE. rewrite TE. reflexivity.
Qed.

(** the loop below index 5 (t+1): from 2^5 K(t+1) to K(0) *)
Lemma w5_loop_ok secret tb P k : on_curve c P -> P <> None -> table16 P tb -> 0 <= k < n ->
  forall t ds r, length ds = S t ->
    (forall i, (i <= t)%nat -> exists dg, nth_error ds i = Some dg /\
       0 <= fst dg <= 16 /\ (snd dg = 0 \/ snd dg = 1) /\
       sd dg = rnd k (5 * Z.of_nat (t - i)) - 32 * rnd k (5 * Z.of_nat (t - i) + 5)) ->
    J r (pt_mul c (32 * rnd k (5 * Z.of_nat t + 5)) P) ->
    exists r', w5_loop E secret tb r
      (map (fun dg => (fst dg, snd dg, false)) (firstn t ds) ++
       map (fun dg => (fst dg, snd dg, true)) (skipn t ds)) = Ok r' /\ J r' (pt_mul c k P).
Proof.
  intros O PN TB K.
  assert (STEP : forall t dg r, 0 <= t -> 0 <= fst dg <= 16 -> (snd dg = 0 \/ snd dg = 1) ->
     sd dg = rnd k (5 * t) - 32 * rnd k (5 * t + 5) ->
     J r (pt_mul c (32 * rnd k (5 * t + 5)) P) ->
     exists x y z, lookup_w5 secret tb (fst dg) = Ok (x, y, z) /\
       J (montjadd E r (x, negated E secret y (snd dg), z)) (pt_mul c (rnd k (5 * t)) P)).
  { intros t [d s] r T0 D S SD H. cbn [fst snd] in *.
    destruct (lookup_w5_ok secret tb P d TB D) as ([[x y] z] & LE & LJ).
    exists x, y, z. split; [exact LE|].
    replace (rnd k (5 * t)) with (32 * rnd k (5 * t + 5) + sd (d, s)) by lia.
    apply madd_ok; try assumption.
    - apply negated_ok; assumption.
    - intros DV. assert (B : -16 <= sd (d, s) <= 16) by (unfold sd; cbn [fst snd]; destruct (s =? 0); lia).
      destruct (w5_exc n k t (sd (d, s)) i_n34 i_n32 K T0 SD B DV) as [Z0 _].
      rewrite Z0. apply Z.divide_0_r. }
  induction t as [|t IH]; intros ds r LD DD H.
  - destruct (DD 0%nat ltac:(lia)) as (dg & E1 & D1 & D2 & D3).
    destruct ds as [|dg' [|? ?]]; try discriminate LD. cbn in E1. injection E1 as ->.
    change (Z.of_nat (0 - 0)) with 0 in D3. change (Z.of_nat 0) with 0 in H.
    destruct (STEP 0 dg r ltac:(lia) D1 D2 D3 H) as (x & y & z & LE & LJ).
    cbn [firstn skipn map app w5_loop]. rewrite LE. cbn [bind].
    eexists. split; [reflexivity|]. change (5 * 0) with 0 in LJ. rewrite rnd_0 in LJ. exact LJ.
  - destruct ds as [|dg ds]; [discriminate LD|].
    destruct (DD 0%nat ltac:(lia)) as (dg' & E1 & D1 & D2 & D3). cbn in E1. injection E1 as <-.
    replace (S t - 0)%nat with (S t) in D3 by lia.
    destruct (STEP (Z.of_nat (S t)) dg r ltac:(lia) D1 D2 D3 H) as (x & y & z & LE & LJ).
    cbn [firstn skipn map app w5_loop]. rewrite LE. cbn [bind].
    apply IH.
    + cbn [length] in LD. congruence.
    + intros i Hi. destruct (DD (S i) ltac:(lia)) as (dg' & E1 & D'). exists dg'. split; [exact E1|]. exact D'.
    + apply double_n_ok with (m := 5%nat) in LJ; [|assumption].
      replace (5 * Z.of_nat t + 5) with (5 * Z.of_nat (S t)) by lia. exact LJ.
Qed.

Theorem multiply_w5_ok secret tb P k : on_curve c P -> P <> None -> table16 P tb -> 0 <= k < n ->
  exists r, multiply_w5 E secret k tb = Ok r /\ J r (pt_mul c k P).
Proof.
  intros O PN TB K. destruct (po_start _ _ (ei_par _ _ I)) as (t & ST & TR & LB & UB).
  assert (KR : 0 <= k < R) by (pose proof i_nR; unfold n in *; lia).
  unfold multiply_w5. rewrite ST.
  destruct (w5_terms_ok k KR t booth_fuel) as (ds & LD & DD & TE).
  { unfold booth_fuel. lia. } { lia. } { unfold ec_bytes. lia. }
  rewrite TE. destruct t as [|t]; [lia|]. destruct ds as [|dg ds]; [discriminate LD|].
  destruct (DD 0%nat ltac:(lia)) as (dg' & E1 & D1 & D2 & D3 & D4). cbn in E1. injection E1 as <-.
  replace (S t - 0)%nat with (S t) in * by lia.
  (* the top window has no sign and nothing above it *)
  assert (KS : k < 2 ^ (5 * Z.of_nat (S t) + 4)).
  { eapply Z.lt_le_trans; [apply KR|]. apply Z.pow_le_mono_r; lia. }
  assert (TOP : 2 * k / 2 ^ (5 * Z.of_nat (S t)) < 32).
  { apply Z.div_lt_upper_bound; [apply Z.pow_pos_nonneg; lia|]. rewrite Z.pow_add_r in KS by lia. change (2 ^ 4) with 16 in KS. lia. }
  specialize (D4 TOP).
  assert (Z0 : rnd k (5 * Z.of_nat (S t) + 5) = 0).
  { unfold rnd. rewrite Z.pow_add_r by lia. rewrite <- Z.div_div by (try apply Z.pow_nonzero; try apply Z.pow_pos_nonneg; lia).
    assert (0 <= 2 * k / 2 ^ (5 * Z.of_nat (S t))) by (apply Z.div_pos; [lia|apply Z.pow_pos_nonneg; lia]).
    rewrite (Z.div_small _ (2 ^ 5)) by (change (2 ^ 5) with 32; lia). reflexivity. }
  cbn [firstn skipn map app]. destruct dg as [d s]. cbn [fst snd] in *. subst s.
  destruct (lookup_w5_ok secret tb P d TB D1) as (a & LE & LJ). rewrite LE. cbn [bind].
  apply w5_loop_ok with (P := P) (k := k) (t := t) (ds := ds); try assumption.
  - cbn [length] in LD. congruence.
  - intros i Hi. destruct (DD (S i) ltac:(lia)) as (dg' & E1 & F1 & F2 & F3 & _). exists dg'. repeat split; try assumption; apply F1.
  - apply (double_n_ok 5%nat) in LJ; [|assumption].
    replace (5 * Z.of_nat t + 5) with (5 * Z.of_nat (S t)) by lia.
    unfold sd in D3. cbn [fst snd Z.eqb] in D3. rewrite Z0 in D3. replace (rnd k (5 * Z.of_nat (S t))) with d by lia. exact LJ.
Qed.

(** *** the table of a public key *)
Theorem precomp_w5_ok a x y : on_curve c (Some (x, y)) -> aff_is c R a x y ->
  table16 (Some (x, y)) (precomp_w5 E a).
Proof.
  intros O A. set (P := Some (x, y)) in *. assert (PN : P <> None) by discriminate.
  pose proof i_n34 as N.
  assert (J1 : J (jac_from_affine E a) (pt_mul c 1 P)) by (rewrite mul_1; apply jac_from_affine_ok; auto using i_co).
  assert (ADD : forall k j, 2 <= k <= 14 -> J j (pt_mul c k P) -> J (montjadd E (jac_from_affine E a) j) (pt_mul c (1 + k) P)).
  { intros k j KB H. apply madd_ok; try assumption. intros [q Hq]. exfalso. unfold n in *. assert (q = 0 \/ 1 <= q \/ q <= -1) as [->|[Q|Q]] by lia; nia. }
  assert (DBL : forall k j, J j (pt_mul c k P) -> J (montjdouble E j) (pt_mul c (2 * k) P)).
  { intros k j H. apply dbl_ok; assumption. }
  unfold precomp_w5. cbv zeta. set (r1 := jac_from_affine E a) in *.
  pose proof (DBL _ _ J1) as J2. cbn [Z.mul Pos.mul] in J2. set (r2 := montjdouble E r1) in *.
  pose proof (ADD 2 _ ltac:(lia) J2) as J3. cbn [Z.add Pos.add Pos.succ] in J3. set (r3 := montjadd E r1 r2) in *.
  pose proof (DBL _ _ J2) as J4. cbn [Z.mul Pos.mul] in J4. set (r4 := montjdouble E r2) in *.
  pose proof (ADD 4 _ ltac:(lia) J4) as J5. cbn [Z.add Pos.add Pos.succ] in J5. set (r5 := montjadd E r1 r4) in *.
  pose proof (DBL _ _ J3) as J6. cbn [Z.mul Pos.mul] in J6. set (r6 := montjdouble E r3) in *.
  pose proof (ADD 6 _ ltac:(lia) J6) as J7. cbn [Z.add Pos.add Pos.succ] in J7. set (r7 := montjadd E r1 r6) in *.
  pose proof (DBL _ _ J4) as J8. cbn [Z.mul Pos.mul] in J8. set (r8 := montjdouble E r4) in *.
  pose proof (ADD 8 _ ltac:(lia) J8) as J9. cbn [Z.add Pos.add Pos.succ] in J9. set (r9 := montjadd E r1 r8) in *.
  pose proof (DBL _ _ J5) as J10. cbn [Z.mul Pos.mul] in J10. set (r10 := montjdouble E r5) in *.
  pose proof (ADD 10 _ ltac:(lia) J10) as J11. cbn [Z.add Pos.add Pos.succ] in J11. set (r11 := montjadd E r1 r10) in *.
  pose proof (DBL _ _ J6) as J12. cbn [Z.mul Pos.mul] in J12. set (r12 := montjdouble E r6) in *.
  pose proof (ADD 12 _ ltac:(lia) J12) as J13. cbn [Z.add Pos.add Pos.succ] in J13. set (r13 := montjadd E r1 r12) in *.
  pose proof (DBL _ _ J7) as J14. cbn [Z.mul Pos.mul] in J14. set (r14 := montjdouble E r7) in *.
  pose proof (ADD 14 _ ltac:(lia) J14) as J15. cbn [Z.add Pos.add Pos.succ] in J15. set (r15 := montjadd E r1 r14) in *.
  pose proof (DBL _ _ J8) as J16. cbn [Z.mul Pos.mul] in J16. set (r16 := montjdouble E r8) in *.
  clearbody r1 r2 r3 r4 r5 r6 r7 r8 r9 r10 r11 r12 r13 r14 r15 r16.
  intros d D.
  assert (d = 1 \/ d = 2 \/ d = 3 \/ d = 4 \/ d = 5 \/ d = 6 \/ d = 7 \/ d = 8 \/ d = 9 \/ d = 10 \/ d = 11 \/
          d = 12 \/ d = 13 \/ d = 14 \/ d = 15 \/ d = 16) as HD by lia.
  repeat (destruct HD as [HD|HD]; [subst d; eexists; split; [reflexivity|assumption]|]).
  subst d; eexists; split; [reflexivity|assumption].
Qed.

(** *** width 7, base point only *)
Let G : point := Some (c_g c).
Lemma G_on : on_curve c G. Proof. exact (cg_g _ cg). Qed.
Lemma G_nn : G <> None. Proof. discriminate. Qed.

Lemma w7_terms_ok k : ec_limbs (e_par E) = 4 -> 0 <= k < R -> forall m i fuel, (i + m = 37)%nat -> (m < fuel)%nat ->
  exists ds : list (Z * Z), length ds = m /\
    (forall j, (j < m)%nat -> exists dg, nth_error ds j = Some dg /\
       0 <= fst dg <= 64 /\ (snd dg = 0 \/ snd dg = 1) /\
       sd dg = rnd k (7 * Z.of_nat (i + j)) - 128 * rnd k (7 * Z.of_nat (i + j) + 7)) /\
    w7_terms fuel (booth_bytes E k) (7 * Z.of_nat i) = ds.
Proof.
  intros L4 K. rewrite i_R8 in K.
  assert (B : ec_bytes E = 32) by (unfold ec_bytes; lia).
  assert (DG : forall v i, 0 <= i -> v = (2 * k / 2 ^ i) mod 256 ->
     0 <= fst (recode 7 v) <= 64 /\ (snd (recode 7 v) = 0 \/ snd (recode 7 v) = 1) /\
     sd (recode 7 v) = rnd k i - 128 * rnd k (i + 7)).
  { intros v i Hi Hv. assert (V : 0 <= v < 2 ^ (7 + 1)) by (rewrite Hv; apply Z.mod_pos_bound; reflexivity).
    destruct (recode_ok 7 v (or_intror eq_refl) V) as (A1 & A2 & A3 & _).
    repeat split; try assumption; try apply A1.
    rewrite A3, Hv. exact (digit_rnd 7 k i ltac:(lia) Hi ltac:(lia)). }
  induction m as [|m IH]; intros i fuel IM FU.
  - exists []. split; [reflexivity|]. split; [intros j Hj; lia|].
    destruct fuel as [|fuel]; [lia|]. cbn [w7_terms]. unfold w7_next.
    destruct (Z.eqb_spec (7 * Z.of_nat i) 0); [lia|].
    destruct (Z.leb_spec (7 * Z.of_nat i) 252); [lia|]. rewrite andb_false_r. reflexivity.
  - destruct fuel as [|fuel]; [lia|].
    destruct (IH (S i) fuel ltac:(lia) ltac:(lia)) as (ds & LD & DD & TE).
    set (v := if 7 * Z.of_nat i =? 0 then Z.shiftl (znth (booth_bytes E k) 0) 1 mod 256
              else booth_window (booth_bytes E k) (7 * Z.of_nat i)).
    assert (Hv : v = (2 * k / 2 ^ (7 * Z.of_nat i)) mod 256).
    { unfold v. destruct (Z.eqb_spec (7 * Z.of_nat i) 0) as [Z0|Z0].
      - rewrite Z0. unfold booth_bytes. apply window0_ok; lia.
      - unfold booth_bytes. apply window_ok; [assumption|lia|].
        assert ((7 * Z.of_nat i - 1) / 8 < 32) by (apply Z.div_lt_upper_bound; lia). lia. }
    exists (recode 7 v :: ds). split; [cbn [length]; congruence|]. split.
    + intros j Hj. destruct j as [|j].
      * exists (recode 7 v). split; [reflexivity|]. replace (i + 0)%nat with i by lia. apply DG; [lia|exact Hv].
      * destruct (DD j ltac:(lia)) as (dg & E1 & E2). exists dg. split; [exact E1|].
        replace (i + S j)%nat with (S i + j)%nat by lia. exact E2.
    + cbn [w7_terms]. unfold w7_next. replace (7 * Z.of_nat (S i)) with (7 * Z.of_nat i + 7) in TE by lia.
      unfold v. destruct (Z.eqb_spec (7 * Z.of_nat i) 0) as [Z0|Z0].
      * rewrite TE. reflexivity.
      * destruct (Z.leb_spec 7 (7 * Z.of_nat i)); [|lia]. destruct (Z.leb_spec (7 * Z.of_nat i) 252); [|lia].
        cbn [andb]. rewrite TE. reflexivity.
Qed.

Lemma w7_entry secret rows i d s : base_ok c R (BaseW7 rows) -> (i < 37)%nat -> 0 <= d <= 64 -> s = 0 \/ s = 1 ->
  exists row tmp, nth_error rows i = Some row /\ lookup_w7 secret row d = Ok tmp /\
    (d = 0 -> (fst tmp, negated E secret (snd tmp) s) = (0, 0)) /\
    (d <> 0 -> exists x y, pt_mul c (sd (d, s) * 2 ^ (7 * Z.of_nat i)) G = Some (x, y) /\
       aff_is c R (fst tmp, negated E secret (snd tmp) s) x y).
Proof.
  intros BO IR DR S. unfold lookup_w7. destruct (Z.eqb_spec d 0) as [->|D0].
  - destruct (BO (Z.of_nat i) 1 ltac:(lia) ltac:(lia)) as (row & a & x & y & E1 & _).
    rewrite Nat2Z.id in E1. exists row, (0, 0). split; [exact E1|]. split; [reflexivity|].
    split; [|intros H; exfalso; apply H; reflexivity]. intros _. cbn [fst snd]. f_equal.
    unfold negated, field_select. pose proof i_p3. rewrite (fo_neg _ _ _ i_fo) by (unfold p in *; lia).
    change (- 0) with 0. rewrite Z.mod_0_l by (unfold p in *; lia).
    destruct secret; [destruct (s =? 0)|destruct (0 <? s)]; reflexivity.
  - destruct (BO (Z.of_nat i) d ltac:(lia) ltac:(lia)) as (row & a & x & y & E1 & E2 & E3 & E4).
    rewrite Nat2Z.id in E1. exists row, a. split; [exact E1|]. rewrite E2. split; [reflexivity|].
    split; [intros H; exfalso; apply D0; exact H|]. intros _.
    unfold sd, negated, field_select. cbn [fst snd]. destruct S as [-> | ->]; cbn [Z.eqb].
    + exists x, y. split; [exact E3|]. destruct a as [ax ay]. destruct secret; exact E4.
    + exists x, ((- y) mod p). split.
      * replace (- d * 2 ^ (7 * Z.of_nat i)) with (- (d * 2 ^ (7 * Z.of_nat i))) by lia.
        rewrite mul_opp by (exact cg || exact G_on). unfold G. rewrite E3. reflexivity.
      * destruct secret; cbn [Z.ltb Z.compare]; apply aff_neg_ok; auto using i_fo.
Qed.

Lemma add_affine_ok j a Q x y : on_curve c Q -> on_curve c (Some (x, y)) -> J j Q -> aff_is c R a x y ->
  Q <> Some (x, y) -> J (add_affine E j a) (pt_add c Q (Some (x, y))).
Proof.
  intros O1 O2 H A NE. unfold add_affine.
  destruct (aff_is_infinity a) eqn:AI; [exfalso|apply montjmixadd_ok; auto using i_fo, i_pR, i_co].
  unfold aff_is_infinity in AI. destruct a as [ax ay]. cbn [fst snd] in AI.
  assert (ax = 0 /\ ay = 0) as [-> ->] by lia.
  destruct A as (_ & _ & X & Y & DX & DY). cbn [fst snd] in DX, DY. unfold dm in DX, DY. rewrite Z.mul_0_l in DX, DY.
  pose proof i_p3. fold p in X, Y, DX, DY. rewrite Z.mod_0_l in DX, DY by lia.
  rewrite Z.mod_small in DX, DY by lia. subst x y. exact (origin_off c cg O2).
Qed.

Lemma w7_loop_ok secret rows k : ec_limbs (e_par E) = 4 -> 2 ^ 256 - 2 ^ 250 < n < 2 ^ 256 ->
  base_ok c R (BaseW7 rows) -> 0 <= k < n ->
  forall m i ds r, (i + m = 37)%nat -> (1 <= i)%nat -> length ds = m ->
    (forall j, (j < m)%nat -> exists dg, nth_error ds j = Some dg /\
       0 <= fst dg <= 64 /\ (snd dg = 0 \/ snd dg = 1) /\
       sd dg = rnd k (7 * Z.of_nat (i + j)) - 128 * rnd k (7 * Z.of_nat (i + j) + 7)) ->
    J r (pt_mul c (k - 2 ^ (7 * Z.of_nat i) * rnd k (7 * Z.of_nat i)) G) ->
    exists r', w7_loop E secret rows r ds i = Ok r' /\ J r' (pt_mul c k G).
Proof.
  intros L4 NB BO K. induction m as [|m IH]; intros i ds r IM I1 LD DD H.
  - destruct ds; [|discriminate LD]. cbn [w7_loop]. exists r. split; [reflexivity|].
    replace k with (k - 2 ^ (7 * Z.of_nat i) * rnd k (7 * Z.of_nat i)) at 1; [exact H|].
    replace (rnd k (7 * Z.of_nat i)) with 0; [lia|]. replace (7 * Z.of_nat i) with 259 by lia.
    unfold rnd. rewrite Z.div_small; [reflexivity|]. assert (2 * 2 ^ 256 <= 2 ^ 259) by (vm_compute; discriminate). lia.
  - destruct ds as [|[d s] ds]; [discriminate LD|].
    destruct (DD 0%nat ltac:(lia)) as (dg & E1 & D1 & D2 & D3). cbn [nth_error] in E1. injection E1 as <-.
    cbn [fst snd] in D1, D2. replace (i + 0)%nat with i in D3 by lia.
    destruct (w7_entry secret rows i d s BO ltac:(lia) D1 D2) as (row & tmp & N1 & N2 & N3 & N4).
    cbn [w7_loop]. rewrite N1, N2. cbn [bind].
    apply IH; [lia|lia|cbn [length] in LD; congruence| |].
    + intros j Hj. destruct (DD (S j) ltac:(lia)) as (dg & E1 & E2). exists dg. split; [exact E1|].
      replace (S i + j)%nat with (i + S j)%nat by lia. exact E2.
    + replace (7 * Z.of_nat (S i)) with (7 * Z.of_nat i + 7) by lia. rewrite Z.pow_add_r by lia. change (2 ^ 7) with 128.
      set (A := 2 ^ (7 * Z.of_nat i)) in *.
      replace (k - A * 128 * rnd k (7 * Z.of_nat i + 7)) with
        (k - A * rnd k (7 * Z.of_nat i) + sd (d, s) * A) by (rewrite D3; ring).
      destruct (Z.eq_dec d 0) as [D0|D0].
      * rewrite (N3 D0). unfold add_affine. change (aff_is_infinity (0, 0)) with true. cbv iota.
        replace (sd (d, s)) with 0 by (unfold sd; cbn [fst snd]; rewrite D0; destruct (s =? 0); reflexivity).
        rewrite Z.mul_0_l, Z.add_0_r. exact H.
      * destruct (N4 D0) as (x & y & PM & AM). rewrite mul_add by (exact cg || exact G_on). rewrite PM.
        apply add_affine_ok; try assumption.
        -- apply mul_closed; [exact cg|exact G_on].
        -- rewrite <- PM. apply mul_closed; [exact cg|exact G_on].
        -- rewrite <- PM. intros EQ. apply (mul_inj c cg _ _ _ G_on G_nn) in EQ. fold n in EQ.
           assert (S0 : sd (d, s) <> 0) by (unfold sd; cbn [fst snd]; destruct (s =? 0); lia).
           assert (SB : -64 <= sd (d, s) <= 64) by (unfold sd; cbn [fst snd]; destruct (s =? 0); lia).
           destruct (Nat.eq_dec i 36) as [I36|I36].
           ++ assert (HA : A = 2 ^ 252) by (unfold A; rewrite I36; reflexivity).
              rewrite I36 in *. change (7 * Z.of_nat 36) with 252 in *.
              assert (Z0 : rnd k (252 + 7) = 0).
              { unfold rnd. rewrite Z.div_small; [reflexivity|]. assert (2 * 2 ^ 256 <= 2 ^ (252 + 7)) by (vm_compute; discriminate). lia. }
              rewrite Z0 in D3. replace (rnd k 252 - 128 * 0) with (rnd k 252) in D3 by lia.
              apply S0. rewrite <- D3 in EQ.
              assert (H1 : 2 ^ 256 = 16 * 2 ^ 252) by (vm_compute; reflexivity).
              assert (H2 : 4 * 2 ^ 250 = 2 ^ 252) by (vm_compute; reflexivity).
              rewrite <- HA in H1, H2.
              refine (w7_exc_last n k (sd (d, s)) A HA _ _ K D3 EQ); clear - H1 H2 NB; set (b := 2 ^ 256) in *; set (a := 2 ^ 250) in *; lia.
           ++ assert (AB : 1 <= A /\ 65 * A <= n).
              { assert (A <= 2 ^ 245) by (apply Z.pow_le_mono_r; lia).
                assert (0 < A) by (apply Z.pow_pos_nonneg; lia).
                assert (65 * 2 ^ 245 <= 2 ^ 256 - 2 ^ 250) by (vm_compute; discriminate).
                clearbody A. set (b := 2 ^ 256) in *; set (a := 2 ^ 250) in *; set (e := 2 ^ 245) in *; clearbody a b e. lia. }
              pose proof (rnd_bounds k (7 * Z.of_nat i) ltac:(lia) ltac:(lia)) as [_ RB]. fold A in RB.
              assert (HA : 2 * 2 ^ (7 * Z.of_nat i - 1) = A).
              { unfold A. rewrite <- Z.pow_succ_r by lia. f_equal. lia. }
              refine (w7_exc_a n _ (sd (d, s)) A _ _ _ SB S0 EQ); lia.
Qed.

Theorem multiply_w7_ok secret rows k : ec_limbs (e_par E) = 4 -> 2 ^ 256 - 2 ^ 250 < n < 2 ^ 256 ->
  base_ok c R (BaseW7 rows) -> 0 <= k < n ->
  exists r, multiply_w7 E secret k rows = Ok r /\ J r (pt_mul c k G).
Proof.
  intros L4 NB BO K. assert (KR : 0 <= k < R) by (pose proof i_nR; unfold n in *; lia).
  unfold multiply_w7. destruct (w7_terms_ok k L4 KR 37%nat 0%nat booth_fuel) as (ds & LD & DD & TE).
  { reflexivity. } { unfold booth_fuel. lia. }
  change (7 * Z.of_nat 0) with 0 in TE. rewrite TE.
  destruct ds as [|[d s] ds]; [discriminate LD|].
  destruct (DD 0%nat ltac:(lia)) as (dg & E1 & D1 & D2 & D3). cbn [nth_error] in E1. injection E1 as <-.
  cbn [fst snd] in D1, D2. change (7 * Z.of_nat (0 + 0)) with 0 in D3. rewrite rnd_0 in D3.
  destruct (w7_entry secret rows 0%nat d s BO ltac:(lia) D1 D2) as (row & tmp & N1 & N2 & N3 & N4).
  rewrite N1, N2. cbn [bind].
  destruct (jac_from_affine E (fst tmp, negated E secret (snd tmp) s)) as [[x y] z] eqn:JF.
  apply (w7_loop_ok secret rows k L4 NB BO K 36%nat); [reflexivity|lia|cbn [length] in LD; congruence| |].
  - intros j Hj. destruct (DD (S j) ltac:(lia)) as (dg & E1 & E2). exists dg. split; [exact E1|exact E2].
  - change (7 * Z.of_nat 1) with 7. change (0 + 7) with 7 in D3. change (2 ^ 7) with 128. rewrite <- D3.
    unfold field_select. destruct (Z.eqb_spec d 0) as [D0|D0].
    + rewrite (N3 D0) in JF. unfold jac_from_affine in JF. cbn [fst snd] in JF. injection JF as <- <- _.
      replace (sd (d, s)) with 0 by (unfold sd; cbn [fst snd]; rewrite D0; destruct (s =? 0); reflexivity).
      rewrite mul_0. apply jac_zero_ok.
    + destruct (N4 D0) as (px & py & PM & AM). change (7 * Z.of_nat 0) with 0 in PM. change (2 ^ 0) with 1 in PM.
      rewrite Z.mul_1_r in PM. rewrite PM.
      assert (z = ec_one_mont (e_par E)) by (unfold jac_from_affine in JF; injection JF as _ _ <-; reflexivity). subst z.
      rewrite <- JF. apply jac_from_affine_ok; auto using i_co.
Qed.

Theorem base_multiply_ok secret k : 0 <= k < n ->
  exists r, base_multiply E secret k = Ok r /\ J r (pt_mul c k G).
Proof.
  intros K. unfold base_multiply. pose proof i_bo as BO. pose proof (po_base _ _ (ei_par _ _ I)) as PB.
  destruct (e_base E) as [rows|row].
  - destruct PB as [L4 NB]. apply multiply_w7_ok; assumption.
  - apply multiply_w5_ok; auto using G_on, G_nn.
Qed.
End Mul.
