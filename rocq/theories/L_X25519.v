(** X25519 computes multiples of points: the Montgomery ladder of RFC 7748 on the u-coordinate (1 + y) / (1 - y) of a
    point of the Edwards curve gives the u-coordinate of the multiple.  No part of /repo is modelled. *)
Require Import Verif.Base Verif.L_Base Verif.M_Util Verif.L_Util Verif.L_Mont Verif.L_Fermat Verif.L_Pock.
Require Import ZifyNat Znumtheory Zpow_facts Setoid Morphisms Zdiv Field.
Require Import Verif.S_Curve Verif.L_Fp Verif.S_Ed Verif.L_Ed Verif.S_X25519.
Require Verif.L_E25519.

Lemma poly_minus a b e : (1 - a * b) * (1 - a * b) * ((1 + e * (a * a)) * (1 + e * (b * b))) - (a * a - 1) * (b * b - 1) * ((1 + e * a * b) * (1 + e * a * b))
  = (a - b) * (a - b) * ((1 + e) * (1 + e * (a * a) * (b * b))).
Proof. ring. Qed.
Lemma poly_plus a b e : (1 + a * b) * (1 + a * b) * ((1 + e * (a * a)) * (1 + e * (b * b))) - (a * a - 1) * (b * b - 1) * ((1 - e * a * b) * (1 - e * a * b))
  = (a + b) * (a + b) * ((1 + e) * (1 + e * (a * a) * (b * b))).
Proof. ring. Qed.

Lemma t_is e x2 x3 y2 y3 : e * x2 * x3 * y2 * y3 = e * (x2 * x3) * y2 * y3. Proof. ring. Qed.
Lemma bit_arith m b T r : (2 * m + b) * T + r = m * (2 * T) + (T * b + r). Proof. ring. Qed.

Lemma pow_xO z e : z ^ Zpos (xO e) = z ^ Zpos e * z ^ Zpos e.
Proof. rewrite <- Z.pow_add_r by lia. f_equal. lia. Qed.
Lemma pow_xI z e : z ^ Zpos (xI e) = z * (z ^ Zpos e * z ^ Zpos e).
Proof. rewrite <- Z.pow_add_r, <- Z.pow_succ_r by lia. f_equal. lia. Qed.

Section Ladder.
Variable c : edcurve.
Hypothesis ok : ed_ok c.
Local Notation p := (ed_p c).
Local Notation d := (ed_d c).
Hypothesis pE : p25519 = p.
Local Infix "==" := (feq p) (at level 70).
Hypothesis dE : d * 121666 == - 121665.
Let pp : prime p := eo_p c ok.
Local Instance finv_mx : Proper (feq p ==> feq p) (inv_mod p) := finv_m p pp.
Add Ring FpX : (F_R (fft p pp)) (setoid (feq_equiv p) (feqe p), morphism (fmorph p), constants [Zcst]).

Lemma fadd_is a b : fadd a b == a + b. Proof. unfold fadd. rewrite pE. apply feq_mod. Qed.
Lemma fsub_is a b : fsub a b == a - b. Proof. unfold fsub. rewrite pE. apply feq_mod. Qed.
Lemma fmul_is a b : fmul a b == a * b. Proof. unfold fmul. rewrite pE. apply feq_mod. Qed.

Local Instance fadd_mx : Proper (feq p ==> feq p ==> feq p) fadd.
Proof. intros a b H e f K. rewrite !fadd_is, H, K. reflexivity. Qed.
Local Instance fsub_mx : Proper (feq p ==> feq p ==> feq p) fsub.
Proof. intros a b H e f K. rewrite !fsub_is, H, K. reflexivity. Qed.
Local Instance fmul_mx : Proper (feq p ==> feq p ==> feq p) fmul.
Proof. intros a b H e f K. rewrite !fmul_is, H, K. reflexivity. Qed.

Lemma nz2 : ~ 2 == 0. Proof. exact (two_nz c ok). Qed.
Lemma K_nz : ~ 121666 == 0.
Proof.
  unfold feq. rewrite Z.mod_0_l by (pose proof (p_pos c ok); lia). rewrite <- pE. rewrite Z.mod_small; [discriminate|].
  split; [discriminate|]. reflexivity.
Qed.

(** A pair of numbers standing for the u-coordinate of a point with second coordinate [y] (spec only). *)
Definition rep (X Z0 y : Z) : Prop := ~ X + Z0 == 0 /\ X - Z0 == (X + Z0) * y.

Lemma rep_intro X W y : X * (1 - y) == W * (1 + y) -> ~ (X == 0 /\ W == 0) -> rep X W y.
Proof.
  intros H N. split.
  - intros S. assert (XW : X == - W). { transitivity (X + W - W); [ring|]. rewrite S. ring. }
    assert (W2 : 2 * W == 0). { transitivity (W * (1 + y) - (- W) * (1 - y)); [ring|]. rewrite <- H, XW. ring. }
    destruct (fintegral p pp _ _ W2) as [Q|Q]; [exact (nz2 Q)|]. apply N. split; [|exact Q]. rewrite XW, Q. ring.
  - apply feq_sub. transitivity (X * (1 - y) - W * (1 + y)); [ring|]. rewrite H. ring.
Qed.

Lemma on_sq x y : on_ed c (x, y) -> x * x * (1 + d * (y * y)) == y * y - 1.
Proof.
  intros (_ & _ & H). change (y * y - x * x == 1 + d * x * x * y * y) in H. apply feq_sub.
  transitivity (1 + d * x * x * y * y - (y * y - x * x)); [ring|]. rewrite H. ring.
Qed.

Lemma w_nz y : ~ 1 + d * (y * y) == 0.
Proof.
  intros H. destruct (eo_i c ok) as (i & Hi).
  assert (I : i * i == - 1). { apply feq_sub. unfold feq. replace (i * i - -1) with (i * i + 1) by lia. rewrite Hi, Z.mod_0_l; [reflexivity|pose proof (p_pos c ok); lia]. }
  apply (square_ratio c ok i y).
  - intros Y. rewrite Y in H. apply (one_nz c ok). rewrite <- H. ring.
  - rewrite I. apply feq_sub. transitivity (- (1 + d * (y * y))); [ring|]. rewrite H. ring.
Qed.

Lemma one_d : (1 + d) * 121666 == 1.
Proof. transitivity (121666 + d * 121666); [ring|]. rewrite dE. apply feq_ring. reflexivity. Qed.

(** Doubling. *)
Lemma rep_double X W x y : on_ed c (x, y) -> rep X W y ->
  rep (fmul (fmul (fadd X W) (fadd X W)) (fmul (fsub X W) (fsub X W)))
      (fmul (fsub (fmul (fadd X W) (fadd X W)) (fmul (fsub X W) (fsub X W)))
        (fadd (fmul (fadd X W) (fadd X W)) (fmul 121665 (fsub (fmul (fadd X W) (fadd X W)) (fmul (fsub X W) (fsub X W))))))
      (snd (ed_add c (x, y) (x, y))).
Proof.
  intros ON [NZ R]. destruct (add_spec c ok x y x y ON ON) as (u & v & -> & _ & _ & _ & V). cbn [snd].
  destruct (den_nz c ok x y x y (on_E c _ _ ON) (on_E c _ _ ON)) as [_ DN].
  pose proof (on_sq x y ON) as SQ.
  set (A := X + W) in *.
  assert (EX : fmul (fmul (fadd X W) (fadd X W)) (fmul (fsub X W) (fsub X W)) == A * A * (A * A) * (y * y)).
  { rewrite !fmul_is, !fadd_is, !fsub_is, R. fold A. ring. }
  assert (EZ : fmul (fsub (fmul (fadd X W) (fadd X W)) (fmul (fsub X W) (fsub X W)))
        (fadd (fmul (fadd X W) (fadd X W)) (fmul 121665 (fsub (fmul (fadd X W) (fadd X W)) (fmul (fsub X W) (fsub X W)))))
     == A * A * (A * A) * ((1 - y * y) * (121666 + (d * 121666) * (y * y)))).
  { repeat (rewrite ?fmul_is, ?fadd_is, ?fsub_is). rewrite R, dE. fold A. ring. }
  assert (A4 : ~ A * A * (A * A) == 0) by (repeat apply (fnz_mul p pp); exact NZ).
  apply rep_intro.
  - rewrite EX, EZ. apply (fcancel p pp _ _ _ DN).
    transitivity (A * A * (A * A) * (y * y) * ((1 - d * x * x * y * y) - v * (1 - d * x * x * y * y))); [ring|].
    symmetry. transitivity (A * A * (A * A) * ((1 - y * y) * (121666 + d * 121666 * (y * y))) * ((1 - d * x * x * y * y) + v * (1 - d * x * x * y * y))); [ring|].
    rewrite V.
    (* the curve equation gives 1 - t = 2 - y^2 + x^2 *)
    assert (T : d * x * x * y * y == y * y - 1 - x * x). { transitivity (x * x * (1 + d * (y * y)) - x * x); [ring|]. rewrite SQ. ring. }
    rewrite T.
    transitivity (2 * (A * A * (A * A)) * (1 - y * y) * 121666 * ((1 + d * (y * y)) + x * x * (1 + d * (y * y)))); [ring|].
    rewrite SQ.
    transitivity (2 * (A * A * (A * A)) * (1 - y * y) * (y * y) * ((1 + d) * 121666)); [ring|]. rewrite one_d. ring.
  - intros [X0 Z0]. rewrite EX in X0. rewrite EZ in Z0.
    destruct (fintegral p pp _ _ X0) as [Q|Q]; [exact (A4 Q)|].
    destruct (fintegral p pp _ _ Z0) as [Q'|Q']; [exact (A4 Q')|].
    rewrite Q in Q'. apply K_nz. rewrite <- Q'. ring.
Qed.

(** Adding two points whose difference has the u-coordinate [x1]. *)
Lemma rep_add x1 yp X2 Z2 X3 Z3 x2 y2 x3 y3 : on_ed c (x2, y2) -> on_ed c (x3, y3) ->
  rep X2 Z2 y2 -> rep X3 Z3 y3 ->
  ~ x1 == 0 -> ~ 1 - yp == 0 -> x1 * (1 - yp) == 1 + yp ->
  yp * (1 + d * x2 * x3 * y2 * y3) == y2 * y3 - x2 * x3 ->
  rep (fmul (fadd (fmul (fsub X3 Z3) (fadd X2 Z2)) (fmul (fadd X3 Z3) (fsub X2 Z2))) (fadd (fmul (fsub X3 Z3) (fadd X2 Z2)) (fmul (fadd X3 Z3) (fsub X2 Z2))))
      (fmul x1 (fmul (fsub (fmul (fsub X3 Z3) (fadd X2 Z2)) (fmul (fadd X3 Z3) (fsub X2 Z2))) (fsub (fmul (fsub X3 Z3) (fadd X2 Z2)) (fmul (fadd X3 Z3) (fsub X2 Z2)))))
      (snd (ed_add c (x2, y2) (x3, y3))).
Proof.
  intros ON2 ON3 [N2 R2] [N3 R3] X0 Y0 U D. destruct (add_spec c ok x2 y2 x3 y3 ON2 ON3) as (u & v & -> & _ & _ & _ & V). cbn [snd].
  destruct (den_nz c ok x2 y2 x3 y3 (on_E c _ _ ON2) (on_E c _ _ ON3)) as [DP DM].
  pose proof (on_sq x2 y2 ON2) as S2. pose proof (on_sq x3 y3 ON3) as S3.
  set (A := X2 + Z2) in *. set (C := X3 + Z3) in *.
  assert (EX : fmul (fadd (fmul (fsub X3 Z3) (fadd X2 Z2)) (fmul (fadd X3 Z3) (fsub X2 Z2))) (fadd (fmul (fsub X3 Z3) (fadd X2 Z2)) (fmul (fadd X3 Z3) (fsub X2 Z2)))
    == A * C * (A * C) * ((y2 + y3) * (y2 + y3))).
  { repeat (rewrite ?fmul_is, ?fadd_is, ?fsub_is). fold A C. rewrite R2, R3. ring. }
  assert (EZ : fmul x1 (fmul (fsub (fmul (fsub X3 Z3) (fadd X2 Z2)) (fmul (fadd X3 Z3) (fsub X2 Z2))) (fsub (fmul (fsub X3 Z3) (fadd X2 Z2)) (fmul (fadd X3 Z3) (fsub X2 Z2))))
    == A * C * (A * C) * (x1 * ((y2 - y3) * (y2 - y3)))).
  { repeat (rewrite ?fmul_is, ?fadd_is, ?fsub_is). fold A C. rewrite R2, R3. ring. }
  assert (AC : ~ A * C * (A * C) == 0) by (repeat apply (fnz_mul p pp); assumption).
  set (t := d * x2 * x3 * y2 * y3) in *. set (s := x2 * x3) in *.
  assert (TS : t = d * s * y2 * y3) by apply t_is.
  apply rep_intro.
  - rewrite EX, EZ.
    apply (fcancel p pp _ _ _ Y0), (fcancel p pp _ _ _ DM), (fcancel p pp _ _ _ DP).
    apply (fcancel p pp _ _ (1 + d * (y2 * y2)) (w_nz y2)), (fcancel p pp _ _ (1 + d * (y3 * y3)) (w_nz y3)).
    set (W := (1 + d * (y2 * y2)) * (1 + d * (y3 * y3))).
    assert (SW : s * s * W == (y2 * y2 - 1) * (y3 * y3 - 1)).
    { unfold s, W. transitivity ((x2 * x2 * (1 + d * (y2 * y2))) * (x3 * x3 * (1 + d * (y3 * y3)))); [ring|]. rewrite S2, S3. reflexivity. }
    assert (M1 : ((1 + t) - yp * (1 + t)) * ((1 - t) - v * (1 - t)) * W == (y2 - y3) * (y2 - y3) * ((1 + d) * (1 + d * (y2 * y2) * (y3 * y3)))).
    { rewrite D, V, TS. rewrite <- poly_minus. fold W. rewrite <- SW. ring. }
    assert (M2 : ((1 + t) + yp * (1 + t)) * ((1 - t) + v * (1 - t)) * W == (y2 + y3) * (y2 + y3) * ((1 + d) * (1 + d * (y2 * y2) * (y3 * y3)))).
    { rewrite D, V, TS. rewrite <- poly_plus. fold W. rewrite <- SW. ring. }
    transitivity (A * C * (A * C) * ((y2 + y3) * (y2 + y3)) * (((1 + t) - yp * (1 + t)) * ((1 - t) - v * (1 - t)) * W)); [unfold W; ring|].
    rewrite M1. symmetry.
    transitivity (A * C * (A * C) * ((y2 - y3) * (y2 - y3)) * (x1 * (1 - yp)) * (1 + t) * ((1 - t) + v * (1 - t)) * W); [unfold W; ring|].
    rewrite U.
    transitivity (A * C * (A * C) * ((y2 - y3) * (y2 - y3)) * (((1 + t) + yp * (1 + t)) * ((1 - t) + v * (1 - t)) * W)); [unfold W; ring|].
    rewrite M2. ring.
  - intros [Q1 Q2]. rewrite EX in Q1. rewrite EZ in Q2.
    destruct (fintegral p pp _ _ Q1) as [Q|Q]; [exact (AC Q)|]. clear Q1.
    destruct (fintegral p pp _ _ Q2) as [Q'|Q']; [exact (AC Q')|]. clear Q2.
    destruct (fintegral p pp _ _ Q') as [Q''|Q'']; [exact (X0 Q'')|]. clear Q'.
    assert (P0 : y2 + y3 == 0) by (destruct (fintegral p pp _ _ Q); assumption).
    assert (M0 : y2 - y3 == 0) by (destruct (fintegral p pp _ _ Q''); assumption).
    assert (Y2 : y2 == 0).
    { assert (2 * y2 == 0). { transitivity (y2 + y3 + (y2 - y3)); [ring|]. rewrite P0, M0. ring. }
      destruct (fintegral p pp _ _ H) as [F|F]; [destruct (nz2 F)|exact F]. }
    assert (Y3 : y3 == 0). { transitivity (y2 + y3 - y2); [ring|]. rewrite P0, Y2. ring. }
    assert (E2 : x2 * x2 == - 1). { transitivity (x2 * x2 * (1 + d * (0 * 0))); [ring|]. rewrite Y2 in S2. rewrite S2. ring. }
    assert (E3 : x3 * x3 == - 1). { transitivity (x3 * x3 * (1 + d * (0 * 0))); [ring|]. rewrite Y3 in S3. rewrite S3. ring. }
    assert (YP : yp == - s). { transitivity (yp * (1 + t)); [rewrite TS, Y2; ring|]. rewrite D, Y2. ring. }
    assert (YS : (1 - yp) * (1 + yp) == 0). { rewrite YP. unfold s. transitivity (1 - (x2 * x2) * (x3 * x3)); [ring|]. rewrite E2, E3. ring. }
    destruct (fintegral p pp _ _ YS) as [F|F]; [exact (Y0 F)|].
    rewrite F in U. destruct (fintegral p pp _ _ U) as [G|G]; [exact (X0 G)|exact (Y0 G)].
Qed.

(** The second coordinate of a difference. *)
Lemma diff_y P Q : on_ed c P -> on_ed c Q ->
  snd (ed_add c Q (ed_neg c P)) * (1 + d * fst P * fst Q * snd P * snd Q) == snd P * snd Q - fst P * fst Q.
Proof.
  destruct P as [x2 y2], Q as [x3 y3]. intros A B. pose proof (neg_on c ok _ A) as A'. cbn [ed_neg] in *.
  destruct (add_spec c ok _ _ _ _ B A') as (u & v & -> & _ & _ & _ & V). cbn [fst snd].
  transitivity (v * (1 - d * x3 * ((- x2)) * y3 * y2)); [ring|].
  rewrite (feq_mod p (- x2)) in V. rewrite V. ring.
Qed.

Section OnePoint.
Variable P : Z * Z.
Hypothesis OP : on_ed c P.
Variable x1 : Z.
Hypothesis X0 : ~ x1 == 0.
Hypothesis Y0 : ~ 1 - snd P == 0.
Hypothesis U : x1 * (1 - snd P) == 1 + snd P.

(** The state of the ladder stands for m.P and (m + 1).P. *)
Definition state_is (m : Z) (s : Z * Z * Z * Z) : Prop :=
  let '(x2, z2, x3, z3) := s in rep x2 z2 (snd (ed_mul c m P)) /\ rep x3 z3 (snd (ed_mul c (m + 1) P)).

Lemma step_is m s b : 0 <= m -> state_is m s -> state_is (2 * m + Z.b2z b) (ladder_bit x1 s b).
Proof.
  destruct s as [[[x2 z2] x3] z3]. intros M [R2 R3].
  assert (O2 : on_ed c (ed_mul c m P)) by (apply mul_closed; assumption).
  assert (O3 : on_ed c (ed_mul c (m + 1) P)) by (apply mul_closed; [assumption|lia|assumption]).
  assert (E3 : ed_mul c (m + 1) P = ed_add c P (ed_mul c m P)) by (apply (mul_succ c m P M)).
  assert (D : snd P * (1 + d * fst (ed_mul c m P) * fst (ed_mul c (m + 1) P) * snd (ed_mul c m P) * snd (ed_mul c (m + 1) P))
    == snd (ed_mul c m P) * snd (ed_mul c (m + 1) P) - fst (ed_mul c m P) * fst (ed_mul c (m + 1) P)).
  { rewrite <- (diff_y _ _ O2 O3). assert (DD : ed_add c (ed_mul c (m + 1) P) (ed_neg c (ed_mul c m P)) = P).
    { rewrite E3, <- (add_assoc c ok), (add_neg c ok), (add_0_r c ok) by (try assumption; now apply (neg_on c ok)). reflexivity. }
    rewrite DD. reflexivity. }
  assert (S1 : ed_add c (ed_mul c m P) (ed_mul c (m + 1) P) = ed_mul c (2 * m + 1) P).
  { rewrite <- mul_add by (try assumption; lia). f_equal. lia. }
  assert (S0 : ed_add c (ed_mul c m P) (ed_mul c m P) = ed_mul c (2 * m) P).
  { rewrite <- mul_add by (try assumption; lia). f_equal. lia. }
  assert (S2 : ed_add c (ed_mul c (m + 1) P) (ed_mul c (m + 1) P) = ed_mul c (2 * m + 2) P).
  { rewrite <- mul_add by (try assumption; lia). f_equal. lia. }
  destruct (ed_mul c m P) as [u2 v2] eqn:Q2. destruct (ed_mul c (m + 1) P) as [u3 v3] eqn:Q3. cbn [fst snd] in *.
  destruct b; cbn [ladder_bit ladder_step Z.b2z].
  - split.
    + rewrite <- S1, (add_comm c). apply (rep_add x1 (snd P)); try assumption. transitivity (v2 * v3 - u2 * u3); [rewrite <- D|]; ring.
    + replace (2 * m + 1 + 1) with (2 * m + 2) by lia. rewrite <- S2. apply rep_double; assumption.
  - rewrite Z.add_0_r. split.
    + rewrite <- S0. apply rep_double; assumption.
    + rewrite <- S1. apply (rep_add x1 (snd P)); assumption.
Qed.

Lemma start_is : state_is 0 (1, 0, x1, 1).
Proof.
  assert (E1 : ed_mul c (0 + 1) P = P) by (apply mul_1; assumption).
  split; [|rewrite E1]; split.
  - exact (one_nz c ok).
  - rewrite mul_0. cbn [ed_zero snd]. apply feq_ring. reflexivity.
  - intros H. apply nz2. transitivity ((x1 + 1) * (1 - snd P) - (x1 * (1 - snd P) - (1 + snd P))); [ring|]. rewrite H, U. ring.
  - apply feq_sub. transitivity (x1 * (1 - snd P) - (1 + snd P)); [ring|]. rewrite U. ring.
Qed.
Lemma bits_is k n : forall m s, 0 <= m -> state_is m s ->
  state_is (m * 2 ^ Z.of_nat n + k mod 2 ^ Z.of_nat n) (fold_left (ladder_bit x1) (map (fun i => Z.testbit k (Z.of_nat i)) (rev (seq 0 n))) s).
Proof.
  induction n as [|n IH]; intros m s M HS.
  - cbn [seq rev map fold_left]. change (Z.of_nat 0) with 0. rewrite Z.pow_0_r, Z.mod_1_r. replace (m * 1 + 0) with m by lia. exact HS.
  - rewrite seq_S, rev_app_distr. cbn [rev app map fold_left]. change (0 + n)%nat with n.
    replace (m * 2 ^ Z.of_nat (S n) + k mod 2 ^ Z.of_nat (S n)) with
      ((2 * m + Z.b2z (Z.testbit k (Z.of_nat n))) * 2 ^ Z.of_nat n + k mod 2 ^ Z.of_nat n).
    + apply IH; [destruct (Z.testbit k (Z.of_nat n)); cbn [Z.b2z]; lia|]. apply step_is; assumption.
    + rewrite Nat2Z.inj_succ, Z.pow_succ_r by lia. set (N := Z.of_nat n). assert (N0 : 0 <= N) by lia.
      assert (B : k mod (2 * 2 ^ N) = 2 ^ N * Z.b2z (Z.testbit k N) + k mod 2 ^ N).
      { rewrite (Z.mul_comm 2), Z.rem_mul_r by (try apply Z.pow_nonzero; lia). rewrite Z.testbit_spec' by exact N0. lia. }
      rewrite B. apply bit_arith.
Qed.

End OnePoint.

Lemma finv_is z : finv z == inv_mod p z.
Proof.
  unfold inv_mod. pose proof (eo_p2 c ok). rewrite Zpow_mod_correct by lia. rewrite feq_mod.
  unfold finv. rewrite pE. destruct (p - 2) as [|e|e] eqn:Q; [lia| |lia].
  assert (G : forall e, fpow_pos z e == z ^ Zpos e); [|apply G].
  intros e'. induction e' as [e' IH|e' IH|]; cbn [fpow_pos].
  - rewrite !fmul_is, IH, pow_xI. reflexivity.
  - rewrite fmul_is, IH, pow_xO. reflexivity.
  - rewrite Z.pow_1_r. reflexivity.
Qed.

Lemma result_is x2 z2 y : rep x2 z2 y -> (x2 * finv z2) mod p = ((1 + y) * inv_mod p (1 - y)) mod p.
Proof.
  intros [N R]. change (x2 * finv z2 == (1 + y) * inv_mod p (1 - y)). rewrite finv_is.
  assert (CR : x2 * (1 - y) == z2 * (1 + y)).
  { apply feq_sub. transitivity (x2 - z2 - (x2 + z2) * y); [ring|]. rewrite R. ring. }
  destruct (feq_dec p z2 0) as [Z|Z].
  - assert (Y : 1 - y == 0).
    { rewrite Z in CR, N. assert (CR' : x2 * (1 - y) == 0) by (rewrite CR; ring). destruct (fintegral p pp _ _ CR') as [F|F]; [|exact F].
      destruct N. rewrite F. ring. }
    rewrite Z, Y. assert (I0 : inv_mod p 0 == 0).
    { unfold inv_mod. rewrite Zpow_mod_correct by (pose proof (eo_p2 c ok); lia). rewrite feq_mod, Z.pow_0_l by (pose proof (eo_p2 c ok); lia). reflexivity. }
    rewrite I0. ring.
  - assert (Y : ~ 1 - y == 0).
    { intros Y. rewrite Y in CR. assert (CR' : z2 * (1 + y) == 0) by (rewrite <- CR; ring). destruct (fintegral p pp _ _ CR') as [F|F]; [exact (Z F)|].
      apply nz2. transitivity ((1 - y) + (1 + y)); [ring|]. rewrite Y, F. ring. }
    apply (fcancel p pp _ _ _ Z), (fcancel p pp _ _ _ Y).
    transitivity (x2 * (1 - y) * (inv_mod p z2 * z2)); [ring|]. rewrite (finv_ok p pp _ Z), CR.
    transitivity (z2 * (1 + y) * (inv_mod p (1 - y) * (1 - y))); [rewrite (finv_ok p pp _ Y); ring|ring].
Qed.

(** A point that is neither neutral nor of order two has a second coordinate other than 1 and -1. *)
Lemma y_one P : on_ed c P -> 1 - snd P == 0 -> P = ed_zero.
Proof.
  destruct P as [x y]. intros ON Y. pose proof (on_sq x y ON) as SQ. destruct ON as (RX & RY & _). cbn [snd] in Y.
  assert (Y1 : y == 1) by (symmetry; now apply feq_sub).
  assert (x * x * (1 + d * (y * y)) == 0). { rewrite SQ, Y1. ring. }
  assert (X : x == 0). { destruct (fintegral p pp _ _ H) as [F|F]; [destruct (fintegral p pp _ _ F); assumption|destruct (w_nz y F)]. }
  pose proof (eo_p2 c ok). unfold ed_zero. f_equal; apply (feq_small p); try assumption; lia.
Qed.
Lemma y_minus_one P : on_ed c P -> 1 + snd P == 0 -> ed_add c P P = ed_zero.
Proof.
  destruct P as [x y]. intros ON Y. pose proof (on_sq x y ON) as SQ. cbn [snd] in Y.
  assert (Y1 : y == - 1). { transitivity (1 + y - 1); [ring|]. rewrite Y. ring. }
  assert (x * x * (1 + d * (y * y)) == 0). { rewrite SQ, Y1. ring. }
  assert (X : x == 0). { destruct (fintegral p pp _ _ H) as [F|F]; [destruct (fintegral p pp _ _ F); assumption|destruct (w_nz y F)]. }
  pose proof (eo_p2 c ok).
  destruct (add_spec c ok x y x y ON ON) as (u & v & -> & RU & RV & EU & EV). unfold ed_zero.
  rewrite X, Y1 in EU, EV. f_equal; apply (feq_small p); try assumption; try lia.
  - transitivity (u * (1 + d * 0 * 0 * -1 * -1)); [ring|]. rewrite EU. ring.
  - transitivity (v * (1 - d * 0 * 0 * -1 * -1)); [ring|]. rewrite EV. ring.
Qed.

(** The u-coordinate of a point (RFC 7748 section 4.1), 0 for the neutral point (spec only). *)
Definition uco (P : Z * Z) : Z := ((1 + snd P) * inv_mod p (1 - snd P)) mod p.

Lemma uco_eq P : ~ 1 - snd P == 0 -> uco P * (1 - snd P) == 1 + snd P.
Proof. intros Y. unfold uco. rewrite feq_mod. transitivity ((1 + snd P) * (inv_mod p (1 - snd P) * (1 - snd P))); [ring|]. rewrite (finv_ok p pp _ Y). ring. Qed.
Lemma uco_range P : 0 <= uco P < p. Proof. apply Z.mod_pos_bound. apply (p_pos c ok). Qed.

Lemma ladder_is P k : on_ed c P -> P <> ed_zero -> ed_add c P P <> ed_zero -> 0 <= k < 2 ^ 255 ->
  let '(x2, z2, _, _) := fold_left (ladder_bit (uco P)) (scalar_bits k) (1, 0, uco P, 1) in
  fmul x2 (finv z2) = uco (ed_mul c k P).
Proof.
  intros ON N1 N2 K.
  assert (Y1 : ~ 1 - snd P == 0) by (intros F; exact (N1 (y_one P ON F))).
  assert (Y2 : ~ 1 + snd P == 0) by (intros F; exact (N2 (y_minus_one P ON F))).
  pose proof (uco_eq P Y1) as U.
  assert (X0 : ~ uco P == 0). { intros F. rewrite F in U. apply Y2. rewrite <- U. ring. }
  pose proof (bits_is P ON (uco P) X0 Y1 U k 255 0 _ (Z.le_refl 0) (start_is P ON (uco P) U)) as S.
  unfold scalar_bits. destruct (fold_left _ _ _) as [[[x2 z2] x3] z3]. destruct S as [S _].
  change (Z.of_nat 255) with 255 in S. rewrite Z.mul_0_l, Z.add_0_l, Z.mod_small in S by exact K.
  unfold fmul. rewrite pE. apply result_is. exact S.
Qed.
End Ladder.

(** ** curve25519 *)
Local Notation c := edwards25519.
Local Notation B := (ed_b edwards25519).
Lemma p_is : p25519 = ed_p c. Proof. reflexivity. Qed.
Lemma d_is : feq (ed_p c) (ed_d c * 121666) (- 121665).
Proof.
  apply feq_sub, feq_0_div; [discriminate|]. pose proof L_E25519.ed_d_val as D. eexists. rewrite <- D. reflexivity.
Qed.
Lemma u_of_is P : u_of P = uco c P. Proof. unfold u_of, uco. rewrite p_is. reflexivity. Qed.
Lemma p_small : p25519 < 2 ^ 255. Proof. reflexivity. Qed.
Lemma u_range P : 0 <= u_of P < 2 ^ 255.
Proof. rewrite u_of_is. pose proof (uco_range c L_E25519.edwards25519_ok P) as [A E]. split; [exact A|]. eapply Z.lt_trans; [exact E|]. rewrite <- p_is. exact p_small. Qed.

Lemma decode_u_enc P : decode_u (le_bytes 32 (u_of P)) = u_of P.
Proof.
  unfold decode_u. rewrite le_val_le_bytes. pose proof (u_range P) as [R1 R2].
  change (256 ^ Z.of_nat 32) with (2 * 2 ^ 255). rewrite (Z.mod_small (u_of P) (2 * 2 ^ 255)) by (set (T := 2 ^ 255) in *; clearbody T; lia).
  rewrite (Z.mod_small (u_of P) (2 ^ 255)) by (split; assumption). rewrite u_of_is, p_is. apply Z.mod_small. apply (uco_range c L_E25519.edwards25519_ok).
Qed.

Lemma decode_scalar_8 k : exists j, decode_scalar k = 8 * j /\ 2 ^ 251 <= j < 2 ^ 252.
Proof.
  unfold decode_scalar. set (v := le_val k mod 2 ^ 254). assert (V : 0 <= v < 2 ^ 254) by (apply Z.mod_pos_bound; reflexivity).
  exists (v / 8 + 2 ^ 251). change (2 ^ 254) with (8 * 2 ^ 251) in *. change (2 ^ 252) with (2 * 2 ^ 251). set (T := 2 ^ 251) in *. clearbody T v.
  pose proof (Z.div_mod v 8 ltac:(lia)). pose proof (Z.mod_pos_bound v 8 ltac:(lia)). lia.
Qed.
Lemma decode_scalar_range k : 0 <= decode_scalar k < 2 ^ 255.
Proof. destruct (decode_scalar_8 k) as (j & -> & J1 & J2). change (2 ^ 255) with (8 * 2 ^ 252). set (T := 2 ^ 252) in *. change (2 ^ 251) with (2 ^ 251) in J1. assert (0 < 2 ^ 251) by reflexivity. set (T' := 2 ^ 251) in *. clearbody T T'. lia. Qed.

(** Multiples of the base point by products of scalars are neither neutral nor of order two. *)
Lemma not_zero k : 0 <= k -> ~ (ed_l c | k) -> ed_mul c k B <> ed_zero.
Proof.
  intros K N E. pose proof (l_pos c L_E25519.edwards25519_ok) as LP. rewrite <- (base_mod c L_E25519.edwards25519_ok k K) in E.
  apply (base_order c L_E25519.edwards25519_ok) in E; [|apply Z.mod_pos_bound; eapply Z.lt_trans; [|exact LP]; reflexivity].
  apply N. apply Z.mod_divide in E; [exact E|]. intros Q. rewrite Q in LP. discriminate LP.
Qed.
Lemma l_prime : prime (ed_l c). Proof. exact (eo_l c L_E25519.edwards25519_ok). Qed.
Lemma l_big : 2 ^ 252 < ed_l c. Proof. reflexivity. Qed.
Lemma not_small j : 0 < j -> j < 2 ^ 252 -> ~ (ed_l c | j).
Proof. intros J1 J2 D. apply Z.divide_pos_le in D; [|exact J1]. exact (Z.lt_irrefl _ (Z.lt_le_trans _ _ _ (Z.lt_trans _ _ _ J2 l_big) D)). Qed.
Lemma not_div_scalar a : ~ (ed_l c | decode_scalar a).
Proof.
  destruct (decode_scalar_8 a) as (j & -> & J1 & J2). intros D. apply (prime_mult _ l_prime) in D. destruct D as [D|D]; revert D; apply not_small; try reflexivity; [|exact J2].
  eapply Z.lt_le_trans; [|exact J1]. reflexivity.
Qed.
Lemma point_ok k : 0 <= k -> ~ (ed_l c | k) -> on_ed c (ed_mul c k B) /\ ed_mul c k B <> ed_zero /\ ed_add c (ed_mul c k B) (ed_mul c k B) <> ed_zero.
Proof.
  intros K N. pose proof L_E25519.edwards25519_ok as ok. pose proof (eo_b c ok) as OB. split; [|split].
  - apply mul_closed; assumption.
  - apply not_zero; assumption.
  - rewrite <- (mul_add c ok) by assumption. apply not_zero; [apply Z.add_nonneg_nonneg; exact K|].
    replace (k + k) with (2 * k) by (clear; lia). intros D. apply (prime_mult _ l_prime) in D. destruct D as [D|D]; [|exact (N D)].
    revert D. apply not_small; reflexivity.
Qed.

(** X25519 on the encoding of a point gives the encoding of the multiple. *)
Theorem X25519_is k P : on_ed c P -> P <> ed_zero -> ed_add c P P <> ed_zero ->
  X25519 k (le_bytes 32 (u_of P)) = le_bytes 32 (u_of (ed_mul c (decode_scalar k) P)).
Proof.
  intros ON N1 N2. unfold X25519. rewrite decode_u_enc, !u_of_is.
  pose proof (ladder_is c L_E25519.edwards25519_ok p_is d_is P (decode_scalar k) ON N1 N2 (decode_scalar_range k)) as L.
  destruct (fold_left _ _ _) as [[[x2 z2] x3] z3]. rewrite L. reflexivity.
Qed.

Lemma nine_is : u_nine = le_bytes 32 (u_of B).
Proof.
  assert (Y : ~ feq (ed_p c) (1 - snd B) 0) by (vm_compute; discriminate).
  assert (U : u_of B = 9).
  { rewrite u_of_is. apply (feq_small (ed_p c)); [|apply (uco_range c L_E25519.edwards25519_ok)|split; [discriminate|reflexivity]].
    apply (fcancel (ed_p c) (eo_p c L_E25519.edwards25519_ok) _ _ _ Y). rewrite (uco_eq c L_E25519.edwards25519_ok B Y). vm_compute. reflexivity. }
  rewrite U. reflexivity.
Qed.

Theorem X25519_base k : X25519 k u_nine = le_bytes 32 (u_of (ed_mul c (decode_scalar k) B)).
Proof.
  rewrite nine_is. pose proof L_E25519.edwards25519_ok as ok. apply X25519_is.
  - exact (eo_b c ok).
  - exact (eo_b0 c ok).
  - pose proof (not_zero 2 ltac:(discriminate) (not_small 2 eq_refl eq_refl)) as N. replace 2 with (1 + 1) in N by reflexivity.
    rewrite (mul_add c ok), (mul_1 c ok) in N by (try discriminate; exact (eo_b c ok)). exact N.
Qed.

Theorem X25519_shared a b : X25519 a (X25519 b u_nine) = le_bytes 32 (u_of (ed_mul c (decode_scalar a * decode_scalar b) B)).
Proof.
  pose proof L_E25519.edwards25519_ok as ok. rewrite X25519_base.
  destruct (point_ok _ (proj1 (decode_scalar_range b)) (not_div_scalar b)) as (ON & N1 & N2).
  rewrite (X25519_is a _ ON N1 N2). rewrite (mul_mul c ok) by (try apply decode_scalar_range; exact (eo_b c ok)). reflexivity.
Qed.

Theorem X25519_commutes a b : X25519 a (X25519 b u_nine) = X25519 b (X25519 a u_nine).
Proof. rewrite !X25519_shared, (Z.mul_comm (decode_scalar a)). reflexivity. Qed.

Lemma u_zero P : on_ed c P -> u_of P = 0 -> P = ed_zero \/ ed_add c P P = ed_zero.
Proof.
  pose proof L_E25519.edwards25519_ok as ok. intros ON U. destruct (feq_dec (ed_p c) (1 - snd P) 0) as [Y|Y].
  - left. exact (y_one c ok P ON Y).
  - right. apply (y_minus_one c ok P ON). rewrite <- (uco_eq c ok P Y), <- u_of_is, U. reflexivity.
Qed.
Theorem X25519_shared_not_zero a b : X25519 a (X25519 b u_nine) <> repeat 0 32.
Proof.
  rewrite X25519_shared. intros E. apply (f_equal le_val) in E. rewrite le_val_le_bytes in E.
  set (P := ed_mul c _ B) in E. pose proof (u_range P) as [R1 R2].
  change (256 ^ Z.of_nat 32) with (2 * 2 ^ 255) in E. rewrite (Z.mod_small (u_of P) (2 * 2 ^ 255)) in E by (set (T := 2 ^ 255) in *; clearbody T P; lia).
  change (le_val (repeat 0 32)) with 0 in E.
  assert (D : ~ (ed_l c | decode_scalar a * decode_scalar b)).
  { intros D. apply (prime_mult _ l_prime) in D. destruct D as [D|D]; exact (not_div_scalar _ D). }
  destruct (point_ok (decode_scalar a * decode_scalar b) (Z.mul_nonneg_nonneg _ _ (proj1 (decode_scalar_range a)) (proj1 (decode_scalar_range b))) D) as (ON & N1 & N2).
  destruct (u_zero P ON E); [exact (N1 H)|exact (N2 H)].
Qed.
