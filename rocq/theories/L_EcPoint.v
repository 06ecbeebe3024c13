(** The point routines compute chord-and-tangent addition. *)
Require Import ZArith Znumtheory Zpow_facts Field Setoid Morphisms Lia Zdiv.
Require Import Verif.Base Verif.S_Curve Verif.L_Fp Verif.L_Curve Verif.M_Ec Verif.S_Ec.
Local Open Scope Z_scope.

(** The constants of p256.rs:1069-1102 / p384.rs:899-942 are the curve's, in
    Montgomery form. *)
Section Point.
Variable c : curve.
Hypothesis cg : curve_group c.
Variable E : ec.
Notation p := (c_p c).
Notation b := (c_b c).
Notation F := (e_f E).
Variable R : Z.
Hypothesis FO : field_ok p R F.
Hypothesis pR : p < R.
Hypothesis CO : consts_ok c R (e_par E).
Local Infix "==" := (feq p) (at level 70).
Notation D x := (dm p R x).

Let pp : prime p := cg_p c cg.
Local Instance finv_c : Proper (feq p ==> feq p) (inv_mod p) := finv_m p pp.
Local Instance fdiv_c : Proper (feq p ==> feq p ==> feq p) (fdiv p) := fdiv_m p pp.
Add Field FpP : (fft p pp) (setoid (feq_equiv p) (feqe p), morphism (fmorph p), constants [Zcst]).

Lemma R_pos : 0 < R. Proof. destruct (co_R _ _ _ CO) as (k & K & ->). apply Z.pow_pos_nonneg; lia. Qed.

Lemma R_nz : ~ R == 0.
Proof.
  pose proof (cg_p3 c cg) as P3. rewrite feq_0_div by lia. intros H.
  destruct (co_R _ _ _ CO) as (k & K & HR). rewrite HR in H.
  apply prime_power_prime in H; [lia|exact K|exact pp|exact prime_2].
Qed.

Lemma Ri_nz : ~ inv_mod p R == 0.
Proof. apply finv_nz; [exact pp|exact R_nz]. Qed.

Lemma D_mul_eq r x y : r * R == x * y -> D r == D x * D y.
Proof.
  intros H. unfold dm. apply (fcancel p pp _ _ R R_nz).
  transitivity (r * R * inv_mod p R); [ring|]. rewrite H.
  transitivity (x * y * inv_mod p R * (inv_mod p R * R)); [|ring].
  rewrite (finv_ok p pp R R_nz). ring.
Qed.

Lemma D_inj x y : 0 <= x < p -> 0 <= y < p -> D x == D y -> x = y.
Proof.
  intros X Y H. apply (feq_small p); try assumption. apply (fcancel p pp _ _ _ Ri_nz H).
Qed.

Lemma D_feq x y : x == y -> D x == D y.
Proof. intros H. unfold dm. rewrite H. reflexivity. Qed.

Lemma D_0 : D 0 == 0. Proof. unfold dm. ring. Qed.

Lemma D_nz x : 0 <= x < p -> x <> 0 -> ~ D x == 0.
Proof.
  intros X N H. apply N. apply D_inj; [assumption|lia|]. rewrite H, D_0. reflexivity.
Qed.

Lemma D_z x : 0 <= x < p -> D x == 0 -> x = 0.
Proof. intros X H. apply D_inj; [assumption|lia|]. rewrite H, D_0. reflexivity. Qed.

Lemma D_R v : D (v * R) == v.
Proof. unfold dm. transitivity (v * (inv_mod p R * R)); [ring|]. rewrite (finv_ok p pp R R_nz). ring. Qed.

Lemma mod_range x : 0 <= x mod p < p.
Proof. pose proof (cg_p3 c cg). apply Z.mod_pos_bound. lia. Qed.

(** A reduced Montgomery number standing for v; and an almost reduced one. *)
Definition fe (x v : Z) : Prop := 0 <= x < p /\ D x == v.
Definition fa (x v : Z) : Prop := 0 <= x < R /\ D x == v.

Lemma fe_id x : 0 <= x < p -> fe x (D x).
Proof. split; [assumption|reflexivity]. Qed.

Lemma fe_fa x v : fe x v -> fa x v.
Proof. intros [H K]. split; [lia|exact K]. Qed.

Lemma fe_feq x v w : fe x v -> v == w -> fe x w.
Proof. intros [H K] W. split; [exact H|]. rewrite K. exact W. Qed.

Lemma fe_mul_fa x y v w : fa x v -> fe y w -> fe (f_montmul F x y) (v * w).
Proof.
  intros [X V] [Y W]. destruct (fo_montmul p R F FO x y X) as [A B]; [lia|nia|].
  split; [exact A|]. apply D_mul_eq in B. rewrite B, V, W. reflexivity.
Qed.

Lemma fe_mul_fe_fa x y v w : fe x v -> fa y w -> fe (f_montmul F x y) (v * w).
Proof.
  intros [X V] [Y W]. destruct (fo_montmul p R F FO x y) as [A B]; [lia|lia|nia|].
  split; [exact A|]. apply D_mul_eq in B. rewrite B, V, W. reflexivity.
Qed.

Lemma fe_mul x y v w : fe x v -> fe y w -> fe (f_montmul F x y) (v * w).
Proof. intros X Y. apply fe_mul_fa; [now apply fe_fa|exact Y]. Qed.

Lemma fe_sqr x v : fe x v -> fe (f_montsqr F x) (v * v).
Proof.
  intros [X V]. destruct (fo_montsqr p R F FO x X) as [A B].
  split; [exact A|]. apply D_mul_eq in B. rewrite B, V. reflexivity.
Qed.

Lemma fa_sqr x v : fe x v -> fa (f_amontsqr F x) (v * v).
Proof.
  intros [X V]. destruct (fo_amontsqr p R F FO x X) as [A B].
  split; [exact A|]. apply D_mul_eq in B. rewrite B, V. reflexivity.
Qed.

Lemma fe_mod x v : D x == v -> fe (x mod p) v.
Proof. intros H. split; [apply mod_range|]. rewrite <- H. apply D_feq, feq_mod. Qed.

Lemma fe_add x y v w : fe x v -> fe y w -> fe (f_add F x y) (v + w).
Proof.
  intros [X V] [Y W]. rewrite (fo_add p R F FO) by assumption. apply fe_mod.
  rewrite <- V, <- W. unfold dm. ring.
Qed.

Lemma fa_weakadd x y v w : fe x v -> fe y w -> fa (f_weakadd F x y) (v + w).
Proof.
  intros [X V] [Y W]. destruct (fo_weakadd p R F FO x y X Y) as [A B]. split; [exact A|].
  apply D_feq in B. rewrite B, <- V, <- W. unfold dm. ring.
Qed.

Lemma fe_sub x y v w : fe x v -> fe y w -> fe (f_sub F x y) (v - w).
Proof.
  intros [X V] [Y W]. rewrite (fo_sub p R F FO) by assumption. apply fe_mod.
  rewrite <- V, <- W. unfold dm. ring.
Qed.

Lemma fe_neg x v : fe x v -> fe (f_neg F x) (- v).
Proof.
  intros [X V]. rewrite (fo_neg p R F FO) by assumption. apply fe_mod.
  rewrite <- V. unfold dm. ring.
Qed.

Lemma fe_cmsub cc x d y v w : fe x v -> fe y w ->
  (cc, d) = (12, 9) \/ (cc, d) = (4, 1) \/ (cc, d) = (3, 8) ->
  fe (f_cmsub F cc x d y) (cc * v - d * w).
Proof.
  intros [X V] [Y W] H. rewrite (fo_cmsub p R F FO) by assumption. apply fe_mod.
  rewrite <- V, <- W. unfold dm. ring.
Qed.

Lemma fe_const v : fe ((v * R) mod p) v.
Proof. apply fe_mod, D_R. Qed.

Lemma fe_one : fe (ec_one_mont (e_par E)) 1.
Proof. rewrite (co_one _ _ _ CO). replace R with (1 * R) at 1 by lia. apply fe_const. Qed.

Lemma fe_a : fe (ec_a_mont (e_par E)) (- 3).
Proof. rewrite (co_a _ _ _ CO). apply fe_const. Qed.

Lemma fe_b : fe (ec_b_mont (e_par E)) b.
Proof. rewrite (co_b _ _ _ CO). apply fe_const. Qed.

Lemma demont_ok x v : fe x v -> f_demont F x = v mod p.
Proof.
  intros [X V]. destruct (fo_demont p R F FO x X) as [A B].
  rewrite <- (Z.mod_small (f_demont F x) p) by exact A.
  change (f_demont F x == v). rewrite <- V. unfold dm.
  apply (fcancel p pp _ _ R R_nz).
  transitivity (x * (inv_mod p R * R)); [|ring]. rewrite (finv_ok p pp R R_nz).
  transitivity x; [exact B|ring].
Qed.

Lemma tomont_ok x : 0 <= x < R -> fe (f_tomont F x) x.
Proof. intros X. rewrite (fo_tomont p R F FO) by exact X. apply fe_const. Qed.

(** demont, invert, back *)
Lemma fe_inv x v : fe x v -> fe (f_tomont F (f_inv F (f_demont F x))) (inv_mod p v).
Proof.
  intros X. pose proof (cg_p3 c cg). rewrite (demont_ok x v X).
  pose proof (mod_range v) as M. destruct (fo_inv p R F FO _ M) as [I0 I1].
  destruct (Z.eq_dec (v mod p) 0) as [Z|Z].
  - rewrite I0 by exact Z.
    assert (V : v == 0) by (unfold feq; rewrite Z.mod_0_l by lia; exact Z).
    eapply fe_feq; [apply tomont_ok; lia|]. rewrite V. unfold feq, inv_mod.
    rewrite Zpow_mod_correct by lia. rewrite Z.pow_0_l by lia. reflexivity.
  - destruct (I1 Z) as [A B]. eapply fe_feq; [apply tomont_ok; lia|].
    assert (V : ~ v == 0) by (unfold feq; rewrite Z.mod_0_l by lia; exact Z).
    apply (fcancel p pp _ _ v V). rewrite (finv_ok p pp v V).
    transitivity (f_inv F (v mod p) * (v mod p)); [apply fmul_m; [reflexivity|symmetry; apply feq_mod]|].
    unfold feq. rewrite B. symmetry. apply Zmod_1_l. lia.
Qed.

Lemma inv0 : inv_mod p 0 == 0.
Proof.
  pose proof (cg_p3 c cg). unfold feq, inv_mod.
  rewrite Zpow_mod_correct by lia. rewrite Z.pow_0_l by lia. reflexivity.
Qed.

(** *** addition *)
Ltac fe_solve :=
  repeat first
    [ eassumption | apply fe_sub | apply fe_add | apply fe_sqr
    | apply fe_mul_fa; [solve [apply fa_sqr; fe_solve | apply fa_weakadd; fe_solve]|]
    | apply fe_mul | apply fe_cmsub; [| |auto] ].

Definition jadd_x (x1 y1 z1 x2 y2 z2 : Z) :=
  (y2 * z1 * z1 * z1 - y1 * z2 * z2 * z2) * (y2 * z1 * z1 * z1 - y1 * z2 * z2 * z2)
  - (x2 * z1 * z1 - x1 * z2 * z2) * (x2 * z1 * z1 - x1 * z2 * z2) * (x2 * z1 * z1 + x1 * z2 * z2).

Definition jadd_y (x1 y1 z1 x2 y2 z2 : Z) :=
  let xd := x2 * z1 * z1 - x1 * z2 * z2 in
  (y2 * z1 * z1 * z1 - y1 * z2 * z2 * z2) * (x1 * z2 * z2 * (xd * xd) - jadd_x x1 y1 z1 x2 y2 z2)
  - xd * xd * xd * (y1 * z2 * z2 * z2).

Definition jadd_z (x1 y1 z1 x2 y2 z2 : Z) := (x2 * z1 * z1 - x1 * z2 * z2) * (z1 * z2).

Lemma jadd_vals X1 Y1 Z1 X2 Y2 Z2 x1 y1 z1 x2 y2 z2 :
  fe X1 x1 -> fe Y1 y1 -> fe Z1 z1 -> fe X2 x2 -> fe Y2 y2 -> fe Z2 z2 ->
  (Z1 = 0 <-> Z2 = 0) ->
  let '(X3, Y3, Z3) := montjadd E (X1, Y1, Z1) (X2, Y2, Z2) in
  fe X3 (jadd_x x1 y1 z1 x2 y2 z2) /\ fe Y3 (jadd_y x1 y1 z1 x2 y2 z2) /\ fe Z3 (jadd_z x1 y1 z1 x2 y2 z2).
Proof.
  intros A B C A' B' C' ZZ. unfold montjadd. cbv zeta.
  replace ((Z1 =? 0) && negb (Z2 =? 0)) with false by (destruct (Z.eqb_spec Z1 0), (Z.eqb_spec Z2 0); try reflexivity; lia).
  replace ((Z2 =? 0) && negb (Z1 =? 0)) with false by (destruct (Z.eqb_spec Z1 0), (Z.eqb_spec Z2 0); try reflexivity; lia).
  split; [|split]; eapply fe_feq; try solve [fe_solve]; unfold jadd_y, jadd_z, jadd_x; cbv zeta; ring.
Qed.

Lemma jmix_vals X1 Y1 Z1 X2 Y2 x1 y1 z1 x2 y2 :
  fe X1 x1 -> fe Y1 y1 -> fe Z1 z1 -> fe X2 x2 -> fe Y2 y2 -> Z1 <> 0 ->
  let '(X3, Y3, Z3) := montjmixadd E (X1, Y1, Z1) (X2, Y2) in
  fe X3 (jadd_x x1 y1 z1 x2 y2 1) /\ fe Y3 (jadd_y x1 y1 z1 x2 y2 1) /\ fe Z3 (jadd_z x1 y1 z1 x2 y2 1).
Proof.
  intros A B C A' B' ZZ. unfold montjmixadd. cbv zeta.
  destruct (Z.eqb_spec Z1 0) as [e|_]; [contradiction|].
  split; [|split]; eapply fe_feq; try solve [fe_solve]; unfold jadd_y, jadd_z, jadd_x; cbv zeta; ring.
Qed.

Lemma jdbl_vals X1 Y1 Z1 x1 y1 z1 :
  fe X1 x1 -> fe Y1 y1 -> fe Z1 z1 ->
  let m := 3 * (x1 - z1 * z1) * (x1 + z1 * z1) in
  let '(X3, Y3, Z3) := montjdouble E (X1, Y1, Z1) in
  fe X3 (m * m - 8 * (x1 * y1 * y1)) /\
  fe Y3 (m * (12 * (x1 * y1 * y1) - m * m) - 8 * (y1 * y1 * y1 * y1)) /\
  fe Z3 (2 * y1 * z1).
Proof.
  intros A B C m. unfold montjdouble. cbv zeta.
  split; [|split]; eapply fe_feq; try solve [fe_solve]; unfold m; ring.
Qed.

Lemma jac_is_fe X Y Z Q : jac_is c R (X, Y, Z) Q -> fe X (D X) /\ fe Y (D Y) /\ fe Z (D Z).
Proof. intros (A & B & C & _). split; [|split]; now apply fe_id. Qed.

(** The generic sum. *)
Lemma jadd_algebra X3 Y3 Z3 X1 Y1 z1 X2 Y2 z2 x1 y1 x2 y2 :
  on_curve c (Some (x1, y1)) -> on_curve c (Some (x2, y2)) ->
  ~ z1 == 0 -> ~ z2 == 0 ->
  X1 == x1 * (z1 * z1) -> Y1 == y1 * (z1 * z1 * z1) ->
  X2 == x2 * (z2 * z2) -> Y2 == y2 * (z2 * z2 * z2) ->
  fe X3 (jadd_x X1 Y1 z1 X2 Y2 z2) -> fe Y3 (jadd_y X1 Y1 z1 X2 Y2 z2) -> fe Z3 (jadd_z X1 Y1 z1 X2 Y2 z2) ->
  Some (x1, y1) <> Some (x2, y2) ->
  jac_is c R (X3, Y3, Z3) (pt_add c (Some (x1, y1)) (Some (x2, y2))).
Proof.
  intros O1 O2 N1 N2 EX1 EY1 EX2 EY2 [RX VX] [RY VY] [RZ VZ] NE.
  cbn [jac_is pt_add]. split; [exact RX|]. split; [exact RY|]. split; [exact RZ|].
  assert (VZ' : D Z3 == (x2 - x1) * (z1 * z2 * (z1 * z2) * (z1 * z2))).
  { rewrite VZ. unfold jadd_z. rewrite EX1, EX2. ring. }
  destruct (Z.eqb_spec x1 x2) as [->|N].
  - destruct (Z.eqb_spec ((y1 + y2) mod p) 0) as [Z|Z].
    + apply D_z; [exact RZ|]. rewrite VZ'. ring.
    + exfalso. destruct (same_x c cg _ _ _ O1 O2 Z) as (-> & _). congruence.
  - destruct (chord_slope c cg _ _ _ _ O1 O2 N) as (DX & L & _).
    set (l := (y2 - y1) * inv_mod p (x2 - x1)) in *. unfold pt_third.
    assert (Y2' : y2 == y1 + l * (x2 - x1)) by (rewrite L; ring).
    split.
    { intros H. assert (G : D Z3 == 0) by (rewrite H; apply D_0). rewrite VZ' in G. revert G.
      apply fnz_mul; [exact pp|exact DX|]. repeat first [assumption|apply fnz_mul; [exact pp| |]]. }
    split; [apply mod_range|]. split; [apply mod_range|].
    split.
    + change (D X3 == (l * l - x1 - x2) mod p * (D Z3 * D Z3)).
      rewrite feq_mod, VZ', VX. unfold jadd_x. rewrite EX1, EY1, EX2, EY2, Y2'. ring.
    + change (D Y3 == (l * (x1 - (l * l - x1 - x2) mod p) - y1) mod p * (D Z3 * D Z3 * D Z3)).
      rewrite !feq_mod, VZ', VY. unfold jadd_y, jadd_x. cbv zeta. rewrite EX1, EY1, EX2, EY2, Y2'. ring.
Qed.

Theorem montjadd_ok j1 j2 Q1 Q2 : on_curve c Q1 -> on_curve c Q2 ->
  jac_is c R j1 Q1 -> jac_is c R j2 Q2 -> (Q1 = Q2 -> Q1 = None) ->
  jac_is c R (montjadd E j1 j2) (pt_add c Q1 Q2).
Proof.
  destruct j1 as [[X1 Y1] Z1], j2 as [[X2 Y2] Z2]. intros O1 O2 J1 J2 NE.
  pose proof (jac_is_fe _ _ _ _ J1) as (A1 & B1 & C1). pose proof (jac_is_fe _ _ _ _ J2) as (A2 & B2 & C2).
  destruct Q1 as [[x1 y1]|], Q2 as [[x2 y2]|].
  - pose proof J1 as (_ & _ & _ & N1 & _ & _ & EX1 & EY1). pose proof J2 as (_ & _ & _ & N2 & _ & _ & EX2 & EY2).
    pose proof (jadd_vals _ _ _ _ _ _ _ _ _ _ _ _ A1 B1 C1 A2 B2 C2 ltac:(split; intros; contradiction)) as V.
    destruct (montjadd E (X1, Y1, Z1) (X2, Y2, Z2)) as [[X3 Y3] Z3]. destruct V as (VX & VY & VZ).
    apply (jadd_algebra X3 Y3 Z3 (D X1) (D Y1) (D Z1) (D X2) (D Y2) (D Z2)); try assumption.
    + apply D_nz; [apply C1|exact N1].
    + apply D_nz; [apply C2|exact N2].
    + intros H. specialize (NE H). discriminate NE.
  - pose proof J1 as (_ & _ & _ & N1 & _). pose proof J2 as (_ & _ & _ & N2).
    rewrite add_none_r. unfold montjadd. cbv zeta. subst Z2. cbn [Z.eqb negb andb].
    rewrite Bool.andb_false_r. apply Z.eqb_neq in N1. rewrite N1. exact J1.
  - pose proof J1 as (_ & _ & _ & N1). pose proof J2 as (_ & _ & _ & N2 & _).
    cbn [pt_add]. unfold montjadd. cbv zeta. subst Z1. apply Z.eqb_neq in N2. rewrite N2. exact J2.
  - pose proof J1 as (_ & _ & _ & N1). pose proof J2 as (_ & _ & _ & N2).
    pose proof (jadd_vals _ _ _ _ _ _ _ _ _ _ _ _ A1 B1 C1 A2 B2 C2 ltac:(tauto)) as V.
    destruct (montjadd E (X1, Y1, Z1) (X2, Y2, Z2)) as [[X3 Y3] Z3]. destruct V as (VX & VY & VZ).
    cbn [pt_add jac_is]. split; [apply VX|]. split; [apply VY|]. split; [apply VZ|].
    apply D_z; [apply VZ|]. rewrite (proj2 VZ). unfold jadd_z. rewrite N1, D_0. ring.
Qed.

Theorem montjmixadd_ok j1 a Q1 x2 y2 : on_curve c Q1 -> on_curve c (Some (x2, y2)) ->
  jac_is c R j1 Q1 -> aff_is c R a x2 y2 -> Q1 <> Some (x2, y2) ->
  jac_is c R (montjmixadd E j1 a) (pt_add c Q1 (Some (x2, y2))).
Proof.
  destruct j1 as [[X1 Y1] Z1], a as [X2 Y2]. intros O1 O2 J1 (A2 & B2 & RX & RY & EX2 & EY2) NE.
  cbn [fst snd] in *.
  pose proof (jac_is_fe _ _ _ _ J1) as (A1 & B1 & C1).
  destruct Q1 as [[x1 y1]|].
  - pose proof J1 as (_ & _ & _ & N1 & _ & _ & EX1 & EY1).
    pose proof (jmix_vals _ _ _ _ _ _ _ _ _ _ A1 B1 C1 (fe_id _ A2) (fe_id _ B2) N1) as V.
    destruct (montjmixadd E (X1, Y1, Z1) (X2, Y2)) as [[X3 Y3] Z3]. destruct V as (VX & VY & VZ).
    apply (jadd_algebra X3 Y3 Z3 (D X1) (D Y1) (D Z1) (D X2) (D Y2) 1); try assumption.
    + apply D_nz; [apply C1|exact N1].
    + apply fone, pp.
    + transitivity x2; [exact EX2|ring].
    + transitivity y2; [exact EY2|ring].
  - pose proof J1 as (_ & _ & _ & N1). unfold montjmixadd. cbv zeta. subst Z1. cbn [Z.eqb].
    cbn [pt_add jac_is]. destruct fe_one as [W1 W2].
    split; [exact A2|]. split; [exact B2|]. split; [exact W1|]. split.
    + intros H. apply (fone p pp). rewrite <- W2, H. apply D_0.
    + split; [exact RX|]. split; [exact RY|]. split.
      * change (D X2 == x2 * (D (ec_one_mont (e_par E)) * D (ec_one_mont (e_par E)))). rewrite W2.
        transitivity x2; [exact EX2|ring].
      * change (D Y2 == y2 * (D (ec_one_mont (e_par E)) * D (ec_one_mont (e_par E)) * D (ec_one_mont (e_par E)))).
        rewrite W2. transitivity y2; [exact EY2|ring].
Qed.

Theorem montjdouble_ok j Q : on_curve c Q -> jac_is c R j Q -> jac_is c R (montjdouble E j) (pt_add c Q Q).
Proof.
  destruct j as [[X Y] Z]. intros O J. pose proof (jac_is_fe _ _ _ _ J) as (A & B & C).
  pose proof (jdbl_vals _ _ _ _ _ _ A B C) as V. cbv zeta in V.
  destruct (montjdouble E (X, Y, Z)) as [[X3 Y3] Z3]. destruct V as ([RX VX] & [RY VY] & [RZ VZ]).
  destruct Q as [[x y]|]; cbn [jac_is pt_add].
  - pose proof J as (_ & _ & _ & N & _ & _ & EX & EY).
    change (D X == x * (D Z * D Z)) in EX. change (D Y == y * (D Z * D Z * D Z)) in EY.
    assert (NZ : ~ D Z == 0) by (apply D_nz; [apply C|exact N]).
    rewrite Z.eqb_refl. split; [exact RX|]. split; [exact RY|]. split; [exact RZ|].
    assert (VZ' : D Z3 == 2 * y * (D Z * D Z * D Z * D Z)) by (rewrite VZ, EY; ring).
    destruct (Z.eqb_spec ((y + y) mod p) 0) as [Y0|Y0].
    + apply D_z; [exact RZ|]. rewrite VZ'. transitivity ((y + y) mod p * (D Z * D Z * D Z * D Z)).
      { rewrite feq_mod. ring. } rewrite Y0. ring.
    + destruct (same_x c cg _ _ _ O O Y0) as (_ & N2).
      destruct (tangent_slope c cg x y N2) as (L & _).
      set (l := (3 * x * x - 3) * inv_mod p (2 * y)) in *. unfold pt_third.
      split.
      { intros H. assert (G : D Z3 == 0) by (rewrite H; apply D_0). rewrite VZ' in G. revert G.
        apply fnz_mul; [exact pp|exact N2|]. repeat first [assumption|apply fnz_mul; [exact pp| |]]. }
      split; [apply mod_range|]. split; [apply mod_range|].
      assert (M : 3 * (D X - D Z * D Z) * (D X + D Z * D Z) == l * (2 * y) * (D Z * D Z * D Z * D Z)).
      { rewrite L, EX. ring. }
      split.
      * change (D X3 == (l * l - x - x) mod p * (D Z3 * D Z3)).
        rewrite feq_mod, VZ', VX, M, EX, EY. ring.
      * change (D Y3 == (l * (x - (l * l - x - x) mod p) - y) mod p * (D Z3 * D Z3 * D Z3)).
        rewrite !feq_mod, VZ', VY, M, EX, EY. ring.
  - pose proof J as (_ & _ & _ & N). split; [exact RX|]. split; [exact RY|]. split; [exact RZ|].
    apply D_z; [exact RZ|]. rewrite VZ, N, D_0. ring.
Qed.

(** *** conversions *)
Lemma aff_is_fe a x y : aff_is c R a x y <-> fe (fst a) x /\ fe (snd a) y /\ 0 <= x < p /\ 0 <= y < p.
Proof.
  unfold aff_is, fe, feq. tauto.
Qed.

Lemma jac_from_affine_ok a x y : aff_is c R a x y -> jac_is c R (jac_from_affine E a) (Some (x, y)).
Proof.
  rewrite aff_is_fe. destruct a as [X Y]. cbn [fst snd jac_from_affine]. intros ([A VX] & [B VY] & RX & RY).
  destruct fe_one as [W1 W2]. cbn [jac_is]. split; [exact A|]. split; [exact B|]. split; [exact W1|].
  split.
  { intros H. apply (fone p pp). rewrite <- W2. cbn [snd] in H. rewrite H. apply D_0. }
  split; [exact RX|]. split; [exact RY|]. cbn [snd fst]. split.
  - change (D X == x * (D (ec_one_mont (e_par E)) * D (ec_one_mont (e_par E)))). rewrite W2, VX. ring.
  - change (D Y == y * (D (ec_one_mont (e_par E)) * D (ec_one_mont (e_par E)) * D (ec_one_mont (e_par E)))). rewrite W2, VY. ring.
Qed.

Lemma as_affine_ok j x y : jac_is c R j (Some (x, y)) -> aff_is c R (jac_as_affine E j) x y.
Proof.
  destruct j as [[X Y] Z]. intros J. pose proof (jac_is_fe _ _ _ _ J) as (A & B & C).
  destruct J as (_ & _ & _ & N & RX & RY & EX & EY).
  change (D X == x * (D Z * D Z)) in EX. change (D Y == y * (D Z * D Z * D Z)) in EY.
  assert (NZ : ~ D Z == 0) by (apply D_nz; [apply C|exact N]).
  rewrite aff_is_fe. unfold jac_as_affine. cbn [fst snd]. split; [|split; [|split; assumption]].
  - eapply fe_feq; [apply fe_mul; [exact A|]; apply fe_inv, fe_sqr; exact C|].
    rewrite EX. assert (NZ2 : ~ D Z * D Z == 0) by now apply fnz_mul.
    transitivity (x * (inv_mod p (D Z * D Z) * (D Z * D Z))); [ring|]. rewrite (finv_ok p pp _ NZ2). ring.
  - eapply fe_feq; [apply fe_mul; [exact B|]; apply fe_inv, fe_mul; [exact C|apply fe_sqr; exact C]|].
    rewrite EY. assert (NZ3 : ~ D Z * (D Z * D Z) == 0) by (repeat first [assumption|apply fnz_mul; [exact pp| |]]).
    transitivity (y * (inv_mod p (D Z * (D Z * D Z)) * (D Z * (D Z * D Z)))); [ring|]. rewrite (finv_ok p pp _ NZ3). ring.
Qed.

Lemma as_affine_infinity j : jac_is c R j None -> jac_as_affine E j = (0, 0).
Proof.
  destruct j as [[X Y] Z]. intros J. pose proof (jac_is_fe _ _ _ _ J) as (A & B & C).
  destruct J as (_ & _ & _ & N). subst Z. unfold jac_as_affine. f_equal.
  - assert (H : fe (f_montmul F X (f_tomont F (f_inv F (f_demont F (f_montsqr F 0))))) 0).
    { eapply fe_feq; [apply fe_mul; [exact A|]; apply fe_inv, fe_sqr; exact C|].
      rewrite D_0. transitivity (D X * inv_mod p 0); [|rewrite inv0; ring].
      apply fmul_m; [reflexivity|]. apply (finv_m p pp). ring. }
    apply D_z; apply H.
  - assert (H : fe (f_montmul F Y (f_tomont F (f_inv F (f_demont F (f_montmul F 0 (f_montsqr F 0)))))) 0).
    { eapply fe_feq; [apply fe_mul; [exact B|]; apply fe_inv, fe_mul; [exact C|apply fe_sqr; exact C]|].
      rewrite D_0. transitivity (D Y * inv_mod p 0); [|rewrite inv0; ring].
      apply fmul_m; [reflexivity|]. apply (finv_m p pp). ring. }
    apply D_z; apply H.
Qed.

Lemma aff_on_curve_ok X Y x y : fe X x -> fe Y y ->
  (aff_on_curve E (X, Y) = true <-> y * y == x * x * x - 3 * x + b).
Proof.
  intros HX HY. unfold aff_on_curve. cbv zeta. rewrite Z.eqb_eq.
  assert (L : fe (f_montsqr F Y) (y * y)) by (apply fe_sqr; exact HY).
  assert (G : fe (f_add F (f_montmul F (f_add F (f_montsqr F X) (ec_a_mont (e_par E))) X) (ec_b_mont (e_par E)))
               ((x * x + - 3) * x + b)).
  { apply fe_add; [|apply fe_b]. apply fe_mul; [|exact HX]. apply fe_add; [|apply fe_a]. apply fe_sqr; exact HX. }
  split.
  - intros H. rewrite H in L. transitivity ((x * x + - 3) * x + b); [|ring].
    rewrite <- (proj2 L). apply G.
  - intros H. apply D_inj; [apply L|apply G|]. rewrite (proj2 L), (proj2 G), H. ring.
Qed.

Lemma jac_neg_ok X Y Z Q : jac_is c R (X, Y, Z) Q -> jac_is c R (X, f_neg F Y, Z) (pt_neg c Q).
Proof.
  intros J. pose proof (jac_is_fe _ _ _ _ J) as (A & B & C). destruct J as (RX & RY & RZ & J).
  destruct (fe_neg _ _ B) as [NR NV]. cbn [jac_is]. split; [exact RX|]. split; [exact NR|]. split; [exact RZ|].
  destruct Q as [[x y]|]; cbn [pt_neg]; [|exact J]. destruct J as (N & QX & QY & EX & EY).
  split; [exact N|]. split; [exact QX|]. split; [apply mod_range|]. split; [exact EX|].
  change (D (f_neg F Y) == (- y) mod p * (D Z * D Z * D Z)). rewrite feq_mod, NV.
  change (D Y == y * (D Z * D Z * D Z)) in EY. rewrite EY. ring.
Qed.

Lemma aff_neg_ok a x y : aff_is c R a x y -> aff_is c R (fst a, f_neg F (snd a)) x ((- y) mod p).
Proof.
  rewrite !aff_is_fe. intros (A & B & QX & QY). cbn [fst snd]. split; [exact A|]. split; [|split; [exact QX|apply mod_range]].
  eapply fe_feq; [apply fe_neg; exact B|]. symmetry. apply feq_mod.
Qed.

Lemma jac_is_unique j Q1 Q2 : jac_is c R j Q1 -> jac_is c R j Q2 -> Q1 = Q2.
Proof.
  destruct j as [[X Y] Z]. intros J1 J2. pose proof (jac_is_fe _ _ _ _ J1) as (_ & _ & C).
  destruct J1 as (_ & _ & _ & J1), J2 as (_ & _ & _ & J2).
  destruct Q1 as [[x y]|], Q2 as [[x' y']|]; try reflexivity; try (destruct J1; contradiction); try (destruct J2; contradiction).
  destruct J1 as (N & RX & RY & EX & EY), J2 as (_ & RX' & RY' & EX' & EY').
  assert (NZ : ~ D Z == 0) by (apply D_nz; [apply C|exact N]).
  f_equal. f_equal; apply (feq_small p); try assumption.
  - apply (fcancel p pp _ _ (D Z * D Z)); [now apply fnz_mul|]. unfold feq. now rewrite <- EX, <- EX'.
  - apply (fcancel p pp _ _ (D Z * D Z * D Z)); [repeat first [assumption|apply fnz_mul; [exact pp| |]]|]. unfold feq. now rewrite <- EY, <- EY'.
Qed.

(** Equality of two Jacobian points, unless both are infinity. *)
Lemma jac_eq_ok j k Q1 Q2 : on_curve c Q1 -> on_curve c Q2 -> jac_is c R j Q1 -> jac_is c R k Q2 -> Q2 <> None ->
  (jac_eq E j k = true <-> Q1 = Q2).
Proof.
  intros O1 O2 J K N2. destruct Q2 as [[x2 y2]|]; [|congruence]. clear N2.
  destruct k as [[X Y] Z]. pose proof (jac_is_fe _ _ _ _ K) as (A & B & C).
  pose proof K as (_ & _ & _ & N & RX & RY & EX & EY).
  change (D X == x2 * (D Z * D Z)) in EX. change (D Y == y2 * (D Z * D Z * D Z)) in EY.
  assert (NZ : ~ D Z == 0) by (apply D_nz; [apply C|exact N]).
  assert (NZ2 : ~ D Z * D Z == 0) by now apply fnz_mul.
  assert (NZ3 : ~ D Z * (D Z * D Z) == 0) by now apply fnz_mul.
  assert (G : forall u v, fe (fst (jac_as_affine E j)) u -> fe (snd (jac_as_affine E j)) v ->
    (jac_eq E j (X, Y, Z) = true <-> u == x2 /\ v == y2)).
  { intros u v U V. unfold jac_eq. cbv zeta. rewrite Bool.andb_true_iff, !Z.eqb_eq.
    assert (GX : fe (f_montmul F (fst (jac_as_affine E j)) (f_montsqr F Z)) (u * (D Z * D Z)))
      by (apply fe_mul; [exact U|apply fe_sqr; exact C]).
    assert (GY : fe (f_montmul F (snd (jac_as_affine E j)) (f_montmul F Z (f_montsqr F Z))) (v * (D Z * (D Z * D Z))))
      by (apply fe_mul; [exact V|apply fe_mul; [exact C|apply fe_sqr; exact C]]).
    split; intros [HX HY]; split.
    - rewrite HX in GX. apply (fcancel p pp _ _ _ NZ2). rewrite <- (proj2 GX), EX. reflexivity.
    - rewrite HY in GY. apply (fcancel p pp _ _ _ NZ3). rewrite <- (proj2 GY), EY. ring.
    - apply D_inj; [apply GX|apply A|]. rewrite (proj2 GX), EX, HX. ring.
    - apply D_inj; [apply GY|apply B|]. rewrite (proj2 GY), EY, HY. ring. }
  destruct Q1 as [[x1 y1]|].
  - pose proof (as_affine_ok _ _ _ J) as AF. rewrite aff_is_fe in AF. destruct AF as (U & V & R1 & R2).
    rewrite (G _ _ U V). split.
    + intros [HX HY]. f_equal. f_equal; apply (feq_small p); assumption.
    + intros H. injection H as <- <-. split; reflexivity.
  - pose proof (as_affine_infinity _ J) as AF. pose proof (cg_p3 c cg).
    rewrite (G 0 0).
    + split; [|discriminate]. intros [HX HY]. exfalso. apply (origin_off c cg).
      replace 0 with x2 at 1 by (symmetry; apply (feq_small p); (assumption || lia)).
      replace 0 with y2 by (symmetry; apply (feq_small p); (assumption || lia)). exact O2.
    + rewrite AF. split; [cbn; lia|apply D_0].
    + rewrite AF. split; [cbn; lia|apply D_0].
Qed.
End Point.
