(** The group law of y^2 = x^3 - 3x + b modulo a prime: chord-and-tangent addition is closed, commutative,
    has inverses and is associative as soon as the curve is not singular.  The proof of associativity follows the
    function x^2 + c y + e x + a that vanishes at the three points added and at the opposite of their sum. *)
Require Import ZArith Znumtheory Zpow_facts Field Setoid Morphisms Lia Zdiv.
Require Import Verif.S_Curve Verif.L_Fp.
Local Open Scope Z_scope.

Section Weier.
Variable c : curve.
Notation p := (c_p c).
Notation b := (c_b c).
Local Infix "==" := (feq p) (at level 70).
Hypothesis pp : prime p.
Hypothesis p3 : 3 < p.

Local Instance finv_w : Proper (feq p ==> feq p) (inv_mod p) := finv_m p pp.
Local Instance fdiv_w : Proper (feq p ==> feq p ==> feq p) (fdiv p) := fdiv_m p pp.
Add Field FpW : (fft p pp) (setoid (feq_equiv p) (feqe p), morphism (fmorph p), constants [Zcst]).

Lemma two_nz : ~ 2 == 0.
Proof. unfold feq. pose proof p3. rewrite Z.mod_0_l, Z.mod_small by lia. lia. Qed.

Lemma modp_range x : 0 <= x mod p < p.
Proof. pose proof p3. apply Z.mod_pos_bound. lia. Qed.

Lemma third_on_curve l x1 y1 x2 :
  on_curve c (Some (x1, y1)) ->
  l * (2 * y1 + l * (x2 - x1)) == x1 * x1 + x1 * x2 + x2 * x2 - 3 ->
  on_curve c (pt_third p l x1 y1 x2).
Proof.
  intros (X & Y & E) A. unfold pt_third, on_curve.
  split; [apply modp_range|]. split; [apply modp_range|].
  change (y1 * y1 == x1 * x1 * x1 - 3 * x1 + b) in E.
  set (x3 := l * l - x1 - x2).
  change ((l * (x1 - x3 mod p) - y1) mod p * ((l * (x1 - x3 mod p) - y1) mod p) ==
          x3 mod p * (x3 mod p) * (x3 mod p) - 3 * (x3 mod p) + b).
  rewrite !feq_mod. apply feq_sub in E. apply feq_sub in A. apply feq_sub.
  transitivity ((x3 - x1) * (l * (2 * y1 + l * (x2 - x1)) - (x1 * x1 + x1 * x2 + x2 * x2 - 3))
                + (y1 * y1 - (x1 * x1 * x1 - 3 * x1 + b))).
  { unfold x3. ring. }
  rewrite A, E. ring.
Qed.

(** *** the slope *)
Lemma chord_slope x1 y1 x2 y2 :
  on_curve c (Some (x1, y1)) -> on_curve c (Some (x2, y2)) -> x1 <> x2 ->
  let l := (y2 - y1) * inv_mod p (x2 - x1) in
  ~ x2 - x1 == 0 /\ l * (x2 - x1) == y2 - y1 /\
  l * (2 * y1 + l * (x2 - x1)) == x1 * x1 + x1 * x2 + x2 * x2 - 3.
Proof.
  intros (X1 & Y1 & E1) (X2 & Y2 & E2) N l.
  change (y1 * y1 == x1 * x1 * x1 - 3 * x1 + b) in E1.
  change (y2 * y2 == x2 * x2 * x2 - 3 * x2 + b) in E2.
  assert (D : ~ x2 - x1 == 0).
  { intros H. apply (feq_sub p x2 x1) in H. apply N. symmetry. now apply (feq_small p). }
  assert (L : l * (x2 - x1) == y2 - y1).
  { unfold l. rewrite <- Z.mul_assoc, (finv_ok p pp) by exact D. ring. }
  split; [exact D|]. split; [exact L|].
  apply (fcancel p pp _ _ (x2 - x1)); [exact D|].
  transitivity (l * (x2 - x1) * (2 * y1 + l * (x2 - x1))); [ring|].
  rewrite L. apply feq_sub in E1. apply feq_sub in E2. apply feq_sub.
  transitivity ((y2 * y2 - (x2 * x2 * x2 - 3 * x2 + b)) - (y1 * y1 - (x1 * x1 * x1 - 3 * x1 + b))); [ring|].
  rewrite E1, E2. ring.
Qed.

Lemma same_x x y1 y2 : on_curve c (Some (x, y1)) -> on_curve c (Some (x, y2)) ->
  (y1 + y2) mod p <> 0 -> y1 = y2 /\ ~ 2 * y1 == 0.
Proof.
  intros (X1 & Y1 & E1) (X2 & Y2 & E2) N. pose proof p3.
  assert (S : ~ y1 + y2 == 0).
  { unfold feq. rewrite Z.mod_0_l by lia. exact N. }
  assert (E : (y1 - y2) * (y1 + y2) == 0).
  { transitivity (y1 * y1 - y2 * y2); [ring|]. unfold feq in *. rewrite Zminus_mod, E1, E2, Z.sub_diag. reflexivity. }
  destruct (fintegral p pp _ _ E) as [F|F]; [|contradiction].
  apply feq_sub in F. apply (feq_small p) in F; [|lia|lia]. split; [exact F|].
  subst y2. intros G. apply S. rewrite <- G. ring.
Qed.

Lemma tangent_slope x y : ~ 2 * y == 0 ->
  let l := (3 * x * x - 3) * inv_mod p (2 * y) in
  l * (2 * y) == 3 * x * x - 3 /\
  l * (2 * y + l * (x - x)) == x * x + x * x + x * x - 3.
Proof.
  intros N l. assert (L : l * (2 * y) == 3 * x * x - 3).
  { unfold l. rewrite <- Z.mul_assoc, (finv_ok p pp) by exact N. ring. }
  split; [exact L|]. transitivity (l * (2 * y)); [ring|]. rewrite L. ring.
Qed.

Lemma add_closed P Q : on_curve c P -> on_curve c Q -> on_curve c (pt_add c P Q).
Proof.
  destruct P as [[x1 y1]|], Q as [[x2 y2]|]; cbn [pt_add]; intros HP HQ; try assumption.
  destruct (Z.eqb_spec x1 x2) as [->|N].
  - destruct (Z.eqb_spec ((y1 + y2) mod p) 0) as [Z|Z]; [exact I|].
    destruct (same_x _ _ _ HP HQ Z) as (-> & N2).
    apply third_on_curve; [exact HP|]. now apply tangent_slope.
  - apply third_on_curve; [exact HP|]. now apply chord_slope.
Qed.

Lemma pt_eq x y x' y' : x == x' -> y == y' -> Some (x mod p, y mod p) = Some (x' mod p, y' mod p).
Proof. unfold feq. intros -> ->. reflexivity. Qed.

Lemma add_comm P Q : on_curve c P -> on_curve c Q -> pt_add c P Q = pt_add c Q P.
Proof.
  destruct P as [[x1 y1]|], Q as [[x2 y2]|]; cbn [pt_add]; intros HP HQ; try reflexivity.
  rewrite (Z.eqb_sym x2 x1), (Z.add_comm y2 y1).
  destruct (Z.eqb_spec x1 x2) as [->|N].
  - destruct (Z.eqb_spec ((y1 + y2) mod p) 0) as [Z|Z]; [reflexivity|].
    destruct (same_x _ _ _ HP HQ Z) as (-> & _). reflexivity.
  - destruct (chord_slope _ _ _ _ HP HQ N) as (D & L & _).
    destruct (chord_slope _ _ _ _ HQ HP (not_eq_sym N)) as (D' & L' & _).
    set (l := (y2 - y1) * inv_mod p (x2 - x1)) in *. set (l' := (y1 - y2) * inv_mod p (x1 - x2)) in *.
    assert (E : l == l').
    { apply (fcancel p pp _ _ (x2 - x1)); [exact D|]. rewrite L.
      transitivity (- (l' * (x1 - x2))); [rewrite L'|]; ring. }
    assert (X : l * l - x1 - x2 == l' * l' - x2 - x1) by (rewrite E; ring).
    unfold pt_third. apply pt_eq; [exact X|]. rewrite !feq_mod, <- X.
    apply feq_sub. transitivity (l * (x2 - x1) * (-1) + (l - l') * (x2 - (l * l - x1 - x2)) + (y2 - y1)); [ring|].
    rewrite L, E. ring.
Qed.

Lemma neg_on_curve P : on_curve c P -> on_curve c (pt_neg c P).
Proof.
  destruct P as [[x y]|]; cbn [pt_neg]; [|trivial]. intros (X & Y & E).
  split; [exact X|]. split; [apply modp_range|]. rewrite <- E.
  change ((- y) mod p * ((- y) mod p) == y * y). rewrite !feq_mod. ring.
Qed.

Lemma neg_neg P : on_curve c P -> pt_neg c (pt_neg c P) = P.
Proof.
  destruct P as [[x y]|]; cbn [pt_neg]; [|trivial]. intros (X & Y & E). f_equal. f_equal.
  apply (feq_small p); [|apply modp_range|exact Y]. rewrite !feq_mod. ring.
Qed.

Lemma add_neg P : on_curve c P -> pt_add c P (pt_neg c P) = None.
Proof.
  destruct P as [[x y]|]; cbn [pt_neg pt_add]; [|trivial]. intros (X & Y & E).
  rewrite Z.eqb_refl. replace ((y + (- y) mod p) mod p) with 0; [reflexivity|].
  pose proof p3. symmetry. change 0 with (0 mod p). change (y + (- y) mod p == 0).
  rewrite feq_mod. ring.
Qed.

Lemma add_none_r P : pt_add c P None = P.
Proof. destruct P as [[x y]|]; reflexivity. Qed.


(** *** the line of an addition *)
(** A point of the curve other than infinity, with its equation as a congruence *)
Lemma on_eq x y : on_curve c (Some (x, y)) -> y * y == x * x * x - 3 * x + b.
Proof. intros (X & Y & E). exact E. Qed.

(** the line y = l x + m meets the curve at x1, x2, x3: x^3 - 3x + b - (l x + m)^2 = (x - x1)(x - x2)(x - x3) *)
Definition vieta (l m x1 x2 x3 : Z) : Prop :=
  l * l == x1 + x2 + x3 /\ - (3) - 2 * l * m == x1 * x2 + x1 * x3 + x2 * x3 /\ b - m * m == - (x1 * x2 * x3).

Lemma third_eq l x1 y1 x2 : 0 <= x1 < p -> pt_third p l x1 y1 x2 = Some ((l * l - x1 - x2) mod p, (l * (x1 - (l * l - x1 - x2)) - y1) mod p).
Proof.
  intros X. unfold pt_third. f_equal. f_equal.
  change (l * (x1 - (l * l - x1 - x2) mod p) - y1 == l * (x1 - (l * l - x1 - x2)) - y1). rewrite feq_mod. reflexivity.
Qed.

Lemma add_line x1 y1 x2 y2 : on_curve c (Some (x1, y1)) -> on_curve c (Some (x2, y2)) ->
  Some (x2, y2) <> pt_neg c (Some (x1, y1)) ->
  exists l m x3 y3, vieta l m x1 x2 x3 /\ y1 == l * x1 + m /\ y2 == l * x2 + m /\
    pt_add c (Some (x1, y1)) (Some (x2, y2)) = Some (x3, y3) /\ y3 == - (l * x3 + m).
Proof.
  intros HP HQ N.
  assert (G : forall l, l * (2 * y1 + l * (x2 - x1)) == x1 * x1 + x1 * x2 + x2 * x2 - 3 -> y2 - y1 == l * (x2 - x1) ->
    pt_add c (Some (x1, y1)) (Some (x2, y2)) = pt_third p l x1 y1 x2 ->
    exists l m x3 y3, vieta l m x1 x2 x3 /\ y1 == l * x1 + m /\ y2 == l * x2 + m /\
    pt_add c (Some (x1, y1)) (Some (x2, y2)) = Some (x3, y3) /\ y3 == - (l * x3 + m)).
  { intros l S L E. pose proof (on_eq _ _ HP) as E1.
    exists l, (y1 - l * x1), ((l * l - x1 - x2) mod p), ((l * (x1 - (l * l - x1 - x2)) - y1) mod p).
    assert (S' : - (3) == l * (2 * y1 + l * (x2 - x1)) - (x1 * x1 + x1 * x2 + x2 * x2)) by (rewrite S; ring).
    assert (A2 : - (3) - 2 * l * (y1 - l * x1) == x1 * x2 + x1 * (l * l - x1 - x2) + x2 * (l * l - x1 - x2)) by (rewrite S'; ring).
    refine (conj (conj _ (conj _ _)) (conj _ (conj _ (conj _ _)))).
    - rewrite feq_mod. ring.
    - rewrite feq_mod. exact A2.
    - rewrite feq_mod. apply feq_sub.
      transitivity (- (y1 * y1 - (x1 * x1 * x1 - 3 * x1 + b)) - x1 * (- (3) - 2 * l * (y1 - l * x1) - (x1 * x2 + x1 * (l * l - x1 - x2) + x2 * (l * l - x1 - x2)))); [ring|].
      rewrite E1, A2. ring.
    - ring.
    - transitivity (y1 + (y2 - y1)); [ring|]. rewrite L. ring.
    - rewrite E. apply third_eq. apply HP.
    - rewrite !feq_mod. ring. }
  cbn [pt_add] in *. destruct (Z.eqb_spec x1 x2) as [->|D].
  - destruct (Z.eqb_spec ((y1 + y2) mod p) 0) as [Z|Z].
    + exfalso. apply N. cbn [pt_neg]. f_equal. f_equal. apply (feq_small p); [|apply HQ|apply modp_range].
      rewrite feq_mod. assert (Y : y1 + y2 == 0) by (unfold feq; rewrite Z, Z.mod_0_l by lia; reflexivity).
      transitivity (y1 + y2 - y1); [ring|]. rewrite Y. ring.
    + destruct (same_x _ _ _ HP HQ Z) as (E & N2). subst y2. destruct (tangent_slope x2 y1 N2) as [T1 T2].
      apply (G _ T2); [ring|reflexivity].
  - destruct (chord_slope _ _ _ _ HP HQ D) as (D1 & L & S). apply (G _ S); [symmetry; exact L|reflexivity].
Qed.

(** the line of an addition is unique: a line with these meeting points that passes through both gives the sum *)
Hypothesis ns : ~ b * b == 4.

Lemma three_nz : ~ 3 == 0.
Proof. unfold feq. rewrite Z.mod_0_l, Z.mod_small by lia. lia. Qed.

(** no point with a horizontal and a vertical tangent *)
Lemma smooth x y : on_curve c (Some (x, y)) -> y == 0 -> ~ 3 * x * x - 3 == 0.
Proof.
  intros H Y D. pose proof (on_eq _ _ H) as E. rewrite Y in E.
  assert (X : x * x == 1).
  { apply (fcancel p pp _ _ 3); [apply three_nz|]. apply feq_sub. transitivity (3 * x * x - 3); [ring|]. exact D. }
  assert (B : b == 2 * x). { transitivity (0 * 0 - x * (x * x) + 3 * x + (b - b) + (x * x * x - 3 * x + b) - 0 * 0); [ring|]. rewrite <- E, X. ring. }
  apply ns. rewrite B. transitivity (4 * (x * x)); [ring|]. rewrite X. ring.
Qed.

Lemma add_of_line l m x1 y1 x2 y2 x3 y3 :
  on_curve c (Some (x1, y1)) -> on_curve c (Some (x2, y2)) -> on_curve c (Some (x3, y3)) ->
  vieta l m x1 x2 x3 -> y1 == l * x1 + m -> y2 == l * x2 + m -> y3 == - (l * x3 + m) ->
  pt_add c (Some (x1, y1)) (Some (x2, y2)) = Some (x3, y3).
Proof.
  intros H1 H2 H3 (V1 & V2 & V3) L1 L2 L3.
  assert (N : Some (x2, y2) <> pt_neg c (Some (x1, y1))).
  { intros E. cbn [pt_neg] in E. injection E as EX EY. subst x2.
    assert (Y : y2 == - y1) by (rewrite EY; apply feq_mod).
    assert (Y0 : y1 == 0).
    { apply (fcancel p pp _ _ 2); [apply two_nz|]. transitivity (y1 - - y1); [ring|]. rewrite <- Y, L1, L2. ring. }
    apply (smooth _ _ H1 Y0).
    assert (A : - (3) == 2 * l * m + (x1 * x1 + x1 * x3 + x1 * x3)) by (rewrite <- V2; ring).
    transitivity (3 * x1 * x1 + - (3)); [ring|]. rewrite A.
    assert (X3 : x3 == l * l - x1 - x1) by (rewrite V1; ring). rewrite X3.
    transitivity (2 * l * (l * x1 + m)); [ring|]. rewrite <- L1, Y0. ring. }
  destruct (add_line _ _ _ _ H1 H2 N) as (k & q & x & y & (W1 & W2 & W3) & K1 & K2 & E & Y). rewrite E.
  assert (S : k == l).
  { destruct (feq_dec p x1 x2) as [X|X].
    - assert (EX : x1 = x2) by (apply (feq_small p); [exact X|apply H1|apply H2]). subst x2.
      assert (Y1 : ~ 2 * y1 == 0).
      { intros Z. apply N. cbn [pt_neg]. f_equal. f_equal. apply (feq_small p); [|apply H2|apply modp_range].
        rewrite feq_mod. rewrite L2, <- L1. transitivity (2 * y1 - y1); [ring|]. rewrite Z. ring. }
      apply (fcancel p pp _ _ (2 * y1)); [exact Y1|].
      assert (T : forall l m x, vieta l m x1 x1 x -> y1 == l * x1 + m -> l * (2 * y1) == 3 * x1 * x1 - 3).
      { intros l' m' x' (A1 & A2 & _) A. rewrite A.
        transitivity (l' * (2 * (l' * x1 + m')) + (- (3) - 2 * l' * m' - (- (3) - 2 * l' * m'))); [ring|]. rewrite A2 at 2.
        transitivity (2 * x1 * (l' * l') - 3 - (x1 * x1 + x1 * x' + x1 * x')); [ring|]. rewrite A1. ring. }
      rewrite (T k q x), (T l m x3); [reflexivity|split; auto|exact L1|split; auto|exact K1].
    - apply (fcancel p pp _ _ (x1 - x2)); [intros D; apply X, feq_sub, D|].
      transitivity (k * x1 + q - (k * x2 + q)); [ring|]. rewrite <- K1, <- K2, L1, L2. ring. }
  assert (M : q == m). { transitivity (k * x1 + q - k * x1); [ring|]. rewrite <- K1, S, L1. ring. }
  assert (HS : on_curve c (Some (x, y))) by (rewrite <- E; apply add_closed; assumption).
  assert (EX : x = x3).
  { apply (feq_small p); [|apply HS|apply H3]. transitivity (k * k - x1 - x2); [rewrite W1; ring|]. rewrite S, V1. ring. }
  subst x. f_equal. f_equal. apply (feq_small p); [|apply HS|apply H3]. rewrite Y, L3, S, M. reflexivity.
Qed.

Lemma neg_eq x1 y1 x2 y2 : on_curve c (Some (x1, y1)) -> on_curve c (Some (x2, y2)) -> x1 == x2 -> y1 == - y2 -> Some (x1, y1) = pt_neg c (Some (x2, y2)).
Proof.
  intros H1 H2 X Y. cbn [pt_neg]. f_equal. f_equal; apply (feq_small p); try apply H1; try apply H2; try apply modp_range; [exact X|].
  rewrite feq_mod. exact Y.
Qed.

(** *** cancellation *)
Lemma eq_pt_dec (P Q : point) : {P = Q} + {P <> Q}.
Proof. repeat decide equality; apply Z.eq_dec. Defined.

Lemma neg_none P : pt_neg c P = None -> P = None.
Proof. destruct P as [[x y]|]; [discriminate|reflexivity]. Qed.

Lemma add_sub P Q : on_curve c P -> on_curve c Q -> pt_add c (pt_add c P Q) (pt_neg c Q) = P.
Proof.
  intros HP HQ. destruct P as [[x1 y1]|].
  2:{ cbn [pt_add]. apply add_neg; assumption. }
  destruct Q as [[x2 y2]|]; [|apply add_none_r].
  destruct (eq_pt_dec (Some (x2, y2)) (pt_neg c (Some (x1, y1)))) as [E|N].
  { rewrite E at 1. rewrite add_neg by exact HP. rewrite E, neg_neg by exact HP. reflexivity. }
  destruct (add_line _ _ _ _ HP HQ N) as (l & m & x3 & y3 & (V1 & V2 & V3) & L1 & L2 & E & Y). rewrite E.
  assert (H3 : on_curve c (Some (x3, y3))) by (rewrite <- E; apply add_closed; assumption).
  pose proof (neg_on_curve _ HQ) as H2. cbn [pt_neg] in *.
  apply (add_of_line (- l) (- m) x3 y3 x2 ((- y2) mod p) x1 y1 H3 H2 HP).
  - split; [|split].
    + transitivity (l * l); [ring|]. rewrite V1. ring.
    + transitivity (- (3) - 2 * l * m); [ring|]. rewrite V2. ring.
    + transitivity (b - m * m); [ring|]. rewrite V3. ring.
  - rewrite Y. ring.
  - rewrite feq_mod, L2. ring.
  - rewrite L1. ring.
Qed.

Lemma neg_add P Q : on_curve c P -> on_curve c Q -> pt_neg c (pt_add c P Q) = pt_add c (pt_neg c P) (pt_neg c Q).
Proof.
  intros HP HQ. destruct P as [[x1 y1]|]; [|reflexivity]. destruct Q as [[x2 y2]|]; [|rewrite add_none_r; reflexivity].
  destruct (eq_pt_dec (Some (x2, y2)) (pt_neg c (Some (x1, y1)))) as [E|N].
  { rewrite E. rewrite add_neg by exact HP. rewrite add_neg by (apply neg_on_curve; exact HP). reflexivity. }
  destruct (add_line _ _ _ _ HP HQ N) as (l & m & x3 & y3 & (V1 & V2 & V3) & L1 & L2 & E & Y). rewrite E.
  assert (H3 : on_curve c (Some (x3, y3))) by (rewrite <- E; apply add_closed; assumption).
  pose proof (neg_on_curve _ HP) as G1. pose proof (neg_on_curve _ HQ) as G2. pose proof (neg_on_curve _ H3) as G3.
  cbn [pt_neg] in *. symmetry. apply (add_of_line (- l) (- m)); try assumption.
  - split; [|split].
    + transitivity (l * l); [ring|]. exact V1.
    + transitivity (- (3) - 2 * l * m); [ring|]. exact V2.
    + transitivity (b - m * m); [ring|]. exact V3.
  - rewrite feq_mod, L1. ring.
  - rewrite feq_mod, L2. ring.
  - rewrite feq_mod, Y. ring.
Qed.

(** *** the function through three points *)
(** For P, Q, R, with P + Q not opposite to R: x^2 + k y + e x + a vanishes at P, Q, R and at the opposite of (P + Q) + R, and its
    coefficients give the coordinates of the sum *)
Definition gv (k e a x y : Z) : Prop := x * x + k * y + e * x + a == 0.

Lemma chain x1 y1 x2 y2 x3 y3 : on_curve c (Some (x1, y1)) -> on_curve c (Some (x2, y2)) -> on_curve c (Some (x3, y3)) ->
  Some (x2, y2) <> pt_neg c (Some (x1, y1)) ->
  Some (x3, y3) <> pt_neg c (pt_add c (Some (x1, y1)) (Some (x2, y2))) ->
  exists k e a x5 y5, pt_add c (pt_add c (Some (x1, y1)) (Some (x2, y2))) (Some (x3, y3)) = Some (x5, y5) /\
    gv k e a x1 y1 /\ gv k e a x2 y2 /\ gv k e a x3 y3 /\
    x5 == k * k - 2 * e - x1 - x2 - x3 /\ x5 * x5 + e * x5 + a == k * y5 /\
    (x1 == x2 -> y1 == y2 -> 2 * y1 * (2 * x1 + e) + k * (3 * x1 * x1 - 3) == 0) /\
    (x2 == x3 -> y2 == y3 -> 2 * y2 * (2 * x2 + e) + k * (3 * x2 * x2 - 3) == 0).
Proof.
  intros H1 H2 H3 N1 N2.
  destruct (add_line _ _ _ _ H1 H2 N1) as (l & m & x4 & y4 & (V1 & V2 & V3) & L1 & L2 & E & Y4). rewrite E in *.
  assert (H4 : on_curve c (Some (x4, y4))) by (rewrite <- E; apply add_closed; assumption).
  destruct (add_line _ _ _ _ H4 H3 N2) as (l' & m' & x5 & y5 & (W1 & W2 & W3) & K1 & K2 & E' & Y5).
  assert (S : m + m' == - ((l + l') * x4)).
  { transitivity ((- (l * x4 + m) - (l' * x4 + m')) * - (1) - (l + l') * x4); [ring|]. rewrite <- K1, <- Y4. ring. }
  assert (M' : m' == - ((l + l') * x4) - m) by (rewrite <- S; ring).
  assert (M : m == - ((l + l') * x4) - m') by (rewrite <- S; ring).
  set (e := x4 + l * l'). set (k := - (l + l')). set (a := - (3) + l * m' + l' * m + e * x4).
  assert (G1 : forall x u y, x + u + x4 == l * l -> - (3) - 2 * l * m == x * u + x * x4 + u * x4 -> y == l * x + m -> gv k e a x y).
  { intros x u y A1 A2 A3. unfold gv, a, k, e. rewrite A3.
    transitivity (x * x - (l + l') * (l * x + m) + (x4 + l * l') * x + ((- (3) - 2 * l * m) + 2 * l * m + l * m' + l' * m + (x4 + l * l') * x4)); [ring|].
    rewrite A2, M'. transitivity ((x + x4) * (x + u + x4 - l * l)); [ring|]. rewrite A1. ring. }
  assert (G2 : forall x u y, x + u + x4 == l' * l' -> - (3) - 2 * l' * m' == x * u + x * x4 + u * x4 -> y == l' * x + m' -> gv k e a x y).
  { intros x u y A1 A2 A3. unfold gv, a, k, e. rewrite A3.
    transitivity (x * x - (l + l') * (l' * x + m') + (x4 + l * l') * x + ((- (3) - 2 * l' * m') + 2 * l' * m' + l * m' + l' * m + (x4 + l * l') * x4)); [ring|].
    rewrite A2, M. transitivity ((x + x4) * (x + u + x4 - l' * l')); [ring|]. rewrite A1. ring. }
  exists k, e, a, x5, y5. split; [exact E'|].
  split; [apply (G1 x1 x2); [rewrite V1; ring|rewrite V2; ring|exact L1]|].
  split; [apply (G1 x2 x1); [rewrite V1; ring|rewrite V2; ring|exact L2]|].
  split; [apply (G2 x3 x5); [rewrite W1; ring|rewrite W2; ring|exact K2]|].
  split. { unfold k, e. transitivity (l * l + l' * l' - 2 * x4 - x1 - x2 - x3); [rewrite V1, W1; ring|ring]. }
  split. { assert (G : gv k e a x5 (- y5)) by (apply (G2 x5 x3); [rewrite W1; ring|rewrite W2; ring|rewrite Y5; ring]). unfold gv in G.
    transitivity (x5 * x5 + k * - y5 + e * x5 + a + k * y5); [ring|]. rewrite G. ring. }
  split.
  - intros X Y. rewrite <- X in V1, V2.
    transitivity (2 * y1 * (2 * x1 + x4 + l * l') - (l + l') * ((- (3) - 2 * l * m) + 2 * l * m + 3 * x1 * x1)); [unfold k, e; ring|].
    rewrite V2. assert (X4 : x4 == l * l - x1 - x1) by (rewrite V1; ring).
    transitivity (2 * y1 * (2 * x1 + x4 + l * l') - (l + l') * (2 * l * (l * x1 + m) + (x1 + x1 + x4 - l * l) * (2 * x1) )); [ring|].
    rewrite <- L1. transitivity (2 * y1 * (2 * x1 + x4 - l * l) - (l + l') * (x1 + x1 + x4 - l * l) * (2 * x1)); [ring|]. rewrite X4. ring.
  - intros X Y. rewrite <- X in W1, W2, K2. rewrite <- Y in K2.
    assert (Y2 : 2 * y2 == (l + l') * (x2 - x4)).
    { transitivity (y2 + y2); [ring|]. rewrite L2 at 1. rewrite K2, M'. ring. }
    transitivity (2 * y2 * (2 * x2 + x4 + l * l') - l * ((- (3) - 2 * l' * m') + 2 * l' * m' + 3 * x2 * x2)
      - l' * ((- (3) - 2 * l * m) + 2 * l * m + 3 * x2 * x2)); [unfold k, e; ring|].
    rewrite V2, W2. assert (X1 : x1 == l * l - x2 - x4) by (rewrite V1; ring). assert (X5 : x5 == l' * l' - x4 - x2) by (rewrite W1; ring).
    assert (A : m == y2 - l * x2) by (rewrite L2; ring). assert (A' : m' == y2 - l' * x2) by (rewrite K2; ring).
    rewrite X1, X5, A, A'.
    transitivity (2 * y2 * (2 * x2 + x4 - l * l') - (l + l') * (x2 - x4) * (2 * x2 + x4 - l * l')); [ring|].
    rewrite Y2. ring.
Qed.

(** the line through P and Q meets the curve only at P, Q and the opposite of P + Q *)
Lemma on_line_third x1 y1 x2 y2 x3 y3 l m : on_curve c (Some (x1, y1)) -> on_curve c (Some (x2, y2)) -> on_curve c (Some (x3, y3)) ->
  Some (x2, y2) <> pt_neg c (Some (x1, y1)) ->
  ~ x3 == x1 -> ~ x3 == x2 ->
  y1 == l * x1 + m -> y2 == l * x2 + m -> y3 == l * x3 + m ->
  (x1 == x2 -> l * (2 * y1) == 3 * x1 * x1 - 3) ->
  Some (x3, y3) = pt_neg c (pt_add c (Some (x1, y1)) (Some (x2, y2))).
Proof.
  intros H1 H2 H3 N D1 D2 A1 A2 A3 T.
  destruct (add_line _ _ _ _ H1 H2 N) as (l' & m' & x4 & y4 & (V1 & V2 & V3) & L1 & L2 & E & Y4). rewrite E.
  assert (H4 : on_curve c (Some (x4, y4))) by (rewrite <- E; apply add_closed; assumption).
  assert (S : l' == l).
  { destruct (feq_dec p x1 x2) as [X|X].
    - assert (EX : x1 = x2) by (apply (feq_small p); [exact X|apply H1|apply H2]). subst x2. specialize (T X).
      assert (Y1 : ~ 2 * y1 == 0).
      { intros Z. apply N. apply neg_eq; try assumption. transitivity (2 * y1 - y1); [rewrite L2, <- L1; ring|]. rewrite Z. ring. }
      apply (fcancel p pp _ _ (2 * y1)); [exact Y1|]. rewrite T. rewrite L1.
      transitivity (l' * (2 * (l' * x1 + m')) + (- (3) - 2 * l' * m' - (- (3) - 2 * l' * m'))); [ring|]. rewrite V2 at 2.
      transitivity (2 * x1 * (l' * l') - 3 - (x1 * x1 + x1 * x4 + x1 * x4)); [ring|]. rewrite V1. ring.
    - apply (fcancel p pp _ _ (x1 - x2)); [intros D; apply X, feq_sub, D|].
      transitivity (l' * x1 + m' - (l' * x2 + m')); [ring|]. rewrite <- L1, <- L2, A1, A2. ring. }
  assert (M : m' == m). { transitivity (l' * x1 + m' - l' * x1); [ring|]. rewrite <- L1, S, A1. ring. }
  rewrite S, M in *.
  assert (Z : (x3 - x1) * (x3 - x2) * (x3 - x4) == 0).
  { transitivity (x3 * x3 * x3 - (x1 + x2 + x4) * (x3 * x3) + (x1 * x2 + x1 * x4 + x2 * x4) * x3 + - (x1 * x2 * x4)); [ring|].
    rewrite <- V1, <- V2, <- V3. transitivity (x3 * x3 * x3 - 3 * x3 + b - (l * x3 + m) * (l * x3 + m)); [ring|].
    rewrite <- A3, (on_eq _ _ H3). ring. }
  apply (fintegral p pp) in Z. destruct Z as [Z|Z].
  { apply (fintegral p pp) in Z. destruct Z as [Z|Z]; apply feq_sub in Z; contradiction. }
  apply feq_sub in Z. apply neg_eq; try assumption. rewrite A3, Y4, Z. ring.
Qed.

(** two functions of this kind through the same three points are the same *)
Lemma same_sum x1 y1 x2 y2 x3 y3 k e a k' e' a' :
  on_curve c (Some (x1, y1)) -> on_curve c (Some (x2, y2)) -> on_curve c (Some (x3, y3)) ->
  Some (x2, y2) <> pt_neg c (Some (x1, y1)) ->
  Some (x3, y3) <> pt_neg c (pt_add c (Some (x1, y1)) (Some (x2, y2))) ->
  ~ x3 == x1 -> ~ x3 == x2 ->
  gv k e a x1 y1 -> gv k e a x2 y2 -> gv k e a x3 y3 -> gv k' e' a' x1 y1 -> gv k' e' a' x2 y2 -> gv k' e' a' x3 y3 ->
  (x1 == x2 -> y1 == y2 /\ 2 * y1 * (2 * x1 + e) + k * (3 * x1 * x1 - 3) == 0 /\ 2 * y1 * (2 * x1 + e') + k' * (3 * x1 * x1 - 3) == 0) ->
  k == k' /\ e == e' /\ a == a' /\ ~ k == 0.
Proof.
  intros H1 H2 H3 N1 N2 D1 D2 G1 G2 G3 G1' G2' G3' T. unfold gv in *.
  assert (F : forall x y, x * x + k * y + e * x + a == 0 -> x * x + k' * y + e' * x + a' == 0 -> (k - k') * y + (e - e') * x + (a - a') == 0).
  { intros x y A B. transitivity (x * x + k * y + e * x + a - (x * x + k' * y + e' * x + a')); [ring|]. rewrite A, B. ring. }
  pose proof (F _ _ G1 G1') as F1. pose proof (F _ _ G2 G2') as F2. pose proof (F _ _ G3 G3') as F3. clear F.
  assert (Y1 : x1 == x2 -> ~ 2 * y1 == 0).
  { intros X Z. destruct (T X) as (Y & _). apply N1. apply neg_eq; try assumption; [symmetry; exact X|].
    rewrite <- Y. transitivity (2 * y1 - y1); [ring|]. rewrite Z. ring. }
  assert (K : k == k').
  { apply feq_sub. destruct (feq_dec p (k - k') 0) as [|NK]; [assumption|]. exfalso. apply N2.
    set (i := inv_mod p (k - k')). assert (I : i * (k - k') == 1) by (apply (finv_ok p pp); exact NK).
    assert (L : forall x y, (k - k') * y + (e - e') * x + (a - a') == 0 -> y == - i * (e - e') * x + - i * (a - a')).
    { intros x y A. transitivity (i * (k - k') * y); [rewrite I; ring|]. transitivity (i * ((k - k') * y + (e - e') * x + (a - a')) - i * (e - e') * x - i * (a - a')); [ring|]. rewrite A. ring. }
    apply (on_line_third _ _ _ _ _ _ (- i * (e - e')) (- i * (a - a'))); try assumption; [apply L, F1|apply L, F2|apply L, F3|].
    intros X. destruct (T X) as (Y & A & B). transitivity (- i * (2 * y1 * (2 * x1 + e) + k * (3 * x1 * x1 - 3) - (2 * y1 * (2 * x1 + e') + k' * (3 * x1 * x1 - 3))) + i * (k - k') * (3 * x1 * x1 - 3)); [ring|].
    rewrite A, B, I. ring. }
  assert (K0 : k - k' == 0) by (rewrite K; ring).
  assert (E0 : e - e' == 0).
  { destruct (feq_dec p x1 x2) as [X|X].
    - destruct (T X) as (Y & A & B). apply (fcancel p pp _ _ (2 * y1)); [apply Y1, X|].
      transitivity (2 * y1 * (2 * x1 + e) + k * (3 * x1 * x1 - 3) - (2 * y1 * (2 * x1 + e') + k' * (3 * x1 * x1 - 3)) - (k - k') * (3 * x1 * x1 - 3)); [ring|].
      rewrite A, B, K0. ring.
    - rewrite K0 in F1, F2. apply (fcancel p pp _ _ (x1 - x2)); [intros D; apply X, feq_sub, D|].
      transitivity ((0 * y1 + (e - e') * x1 + (a - a')) - (0 * y2 + (e - e') * x2 + (a - a'))); [ring|]. rewrite F1, F2. ring. }
  split; [exact K|]. split; [apply feq_sub, E0|]. split.
  { apply feq_sub. rewrite K0, E0 in F1. transitivity (0 * y1 + 0 * x1 + (a - a')); [ring|]. exact F1. }
  intros Z. rewrite Z in G1, G2, G3.
  assert (Q : e == - (x3 + x1)).
  { apply (fcancel p pp _ _ (x3 - x1)); [intros D; apply D1, feq_sub, D|].
    transitivity ((x3 * x3 + 0 * y3 + e * x3 + a) - (x1 * x1 + 0 * y1 + e * x1 + a) - (x3 + x1) * (x3 - x1)); [ring|]. rewrite G1, G3. ring. }
  assert (Q' : e == - (x3 + x2)).
  { apply (fcancel p pp _ _ (x3 - x2)); [intros D; apply D2, feq_sub, D|].
    transitivity ((x3 * x3 + 0 * y3 + e * x3 + a) - (x2 * x2 + 0 * y2 + e * x2 + a) - (x3 + x2) * (x3 - x2)); [ring|]. rewrite G2, G3. ring. }
  assert (X : x1 == x2). { transitivity (- (- (x3 + x1)) - x3); [ring|]. rewrite <- Q, Q'. ring. }
  destruct (T X) as (Y & A & _). rewrite Z in A. apply D1. apply feq_sub.
  destruct (fintegral p pp (2 * y1) (2 * x1 + e)) as [B|B]; [rewrite <- A; ring|exfalso; apply (Y1 X), B|].
  rewrite Q in B. transitivity (- (2 * x1 + - (x3 + x1))); [ring|]. rewrite B. ring.
Qed.

Lemma sub_add P Q : on_curve c P -> on_curve c Q -> pt_add c (pt_neg c P) (pt_add c P Q) = Q.
Proof.
  intros HP HQ. rewrite (add_comm P Q) by assumption. rewrite add_comm; [|apply neg_on_curve; exact HP|apply add_closed; assumption].
  apply add_sub; assumption.
Qed.

(** the case where the three points have different x, or the first two are equal *)
Lemma assoc_main x1 y1 x2 y2 x3 y3 :
  on_curve c (Some (x1, y1)) -> on_curve c (Some (x2, y2)) -> on_curve c (Some (x3, y3)) ->
  let P := Some (x1, y1) in let Q := Some (x2, y2) in let R := Some (x3, y3) in
  Q <> pt_neg c P -> R <> pt_neg c (pt_add c P Q) -> R <> pt_neg c Q -> P <> pt_neg c (pt_add c R Q) ->
  ~ x3 == x1 -> ~ x3 == x2 ->
  pt_add c (pt_add c P Q) R = pt_add c (pt_add c R Q) P.
Proof.
  intros H1 H2 H3 P Q R N1 N2 N3 N4 D1 D2.
  assert (N3' : Some (x2, y2) <> pt_neg c (Some (x3, y3))).
  { intros A. apply N3. unfold R, Q. rewrite A. symmetry. apply neg_neg, H3. }
  destruct (chain _ _ _ _ _ _ H1 H2 H3 N1 N2) as (k & e & a & x & y & E & G1 & G2 & G3 & X & Y & T & _).
  destruct (chain _ _ _ _ _ _ H3 H2 H1 N3' N4) as (k' & e' & a' & x' & y' & E' & G3' & G2' & G1' & X' & Y' & _ & T').
  assert (TT : x1 == x2 -> y1 == y2 /\ 2 * y1 * (2 * x1 + e) + k * (3 * x1 * x1 - 3) == 0 /\ 2 * y1 * (2 * x1 + e') + k' * (3 * x1 * x1 - 3) == 0).
  { intros EX. assert (EX' : x1 = x2) by (apply (feq_small p); [exact EX|apply H1|apply H2]).
    assert (EY : y1 == y2).
    { assert (Z : (y2 - y1) * (y2 - - y1) == 0).
      { transitivity (y2 * y2 - y1 * y1); [ring|]. rewrite (on_eq _ _ H1), (on_eq _ _ H2), EX'. ring. }
      apply (fintegral p pp) in Z. destruct Z as [Z|Z]; apply feq_sub in Z; [symmetry; exact Z|].
      exfalso. apply N1. apply neg_eq; try assumption. symmetry. exact EX. }
    split; [exact EY|]. split; [apply T; assumption|].
    assert (EY' : y1 = y2) by (apply (feq_small p); [exact EY|apply H1|apply H2]).
    rewrite EX', EY'. apply T'; symmetry; assumption. }
  destruct (same_sum x1 y1 x2 y2 x3 y3 k e a k' e' a' H1 H2 H3 N1 N2 D1 D2 G1 G2 G3 G1' G2' G3' TT) as (K & F & A & KN).
  unfold P, Q, R. rewrite E, E'.
  assert (S : on_curve c (Some (x, y))) by (rewrite <- E; apply add_closed; [apply add_closed|]; assumption).
  assert (S' : on_curve c (Some (x', y'))) by (rewrite <- E'; apply add_closed; [apply add_closed|]; assumption).
  assert (EX : x = x') by (apply (feq_small p); [rewrite X, X', K, F; ring|apply S|apply S']).
  f_equal. f_equal; [exact EX|]. subst x'. apply (feq_small p); [|apply S|apply S'].
  apply (fcancel p pp _ _ k); [exact KN|]. transitivity (k * y); [ring|]. rewrite <- Y, F, A, Y', K. ring.
Qed.

Theorem add_assoc P Q R : on_curve c P -> on_curve c Q -> on_curve c R ->
  pt_add c P (pt_add c Q R) = pt_add c (pt_add c P Q) R.
Proof.
  intros HP HQ HR.
  assert (CR : pt_add c P (pt_add c Q R) = pt_add c (pt_add c R Q) P).
  { rewrite (add_comm Q R) by assumption. apply add_comm; [assumption|apply add_closed; assumption]. }
  destruct (eq_pt_dec Q (pt_neg c P)) as [->|N1].
  { rewrite add_neg by assumption. rewrite CR. rewrite <- (neg_neg P) at 2 by assumption.
    rewrite add_sub by (try apply neg_on_curve; assumption). reflexivity. }
  destruct (eq_pt_dec R (pt_neg c Q)) as [->|N3].
  { rewrite add_neg by assumption. rewrite add_none_r, add_sub by assumption. reflexivity. }
  destruct (eq_pt_dec R (pt_neg c (pt_add c P Q))) as [->|N2].
  { rewrite add_neg by (apply add_closed; assumption). rewrite CR, neg_add by assumption.
    rewrite <- (neg_neg Q) at 2 by assumption.
    rewrite add_sub by (apply neg_on_curve; assumption). rewrite add_comm by (try apply neg_on_curve; assumption). apply add_neg; assumption. }
  destruct (eq_pt_dec P (pt_neg c (pt_add c R Q))) as [EP|N4].
  { rewrite CR. transitivity (@None (Z * Z)).
    - rewrite EP. apply add_neg, add_closed; assumption.
    - rewrite EP, neg_add by assumption.
      replace (pt_add c (pt_add c (pt_neg c R) (pt_neg c Q)) Q) with (pt_neg c R).
      + rewrite add_comm by (try apply neg_on_curve; assumption). symmetry. apply add_neg; assumption.
      + rewrite <- (neg_neg Q) at 2 by assumption. symmetry. apply add_sub; apply neg_on_curve; assumption. }
  destruct (eq_pt_dec P R) as [<-|N5]; [rewrite CR; reflexivity|].
  destruct (eq_pt_dec R (pt_neg c P)) as [->|N6].
  { rewrite (add_comm P Q) by assumption. rewrite add_sub by assumption. rewrite CR.
    rewrite (add_comm (pt_neg c P) Q) by (try apply neg_on_curve; assumption).
    rewrite <- (neg_neg P) at 2 by assumption. apply add_sub; [assumption|apply neg_on_curve; assumption]. }
  destruct P as [[x1 y1]|]; [|reflexivity]. destruct Q as [[x2 y2]|]; [|rewrite add_none_r; reflexivity].
  destruct R as [[x3 y3]|]; [|rewrite !add_none_r; reflexivity].
  assert (XY : forall u v u' v', on_curve c (Some (u, v)) -> on_curve c (Some (u', v')) -> Some (u, v) <> Some (u', v') ->
    Some (u, v) <> pt_neg c (Some (u', v')) -> ~ u == u').
  { intros u v u' v' A B D M E. assert (E' : u = u') by (apply (feq_small p); [exact E|apply A|apply B]). subst u'.
    assert (Z : (v - v') * (v - - v') == 0).
    { transitivity (v * v - v' * v'); [ring|]. rewrite (on_eq _ _ A), (on_eq _ _ B). ring. }
    apply (fintegral p pp) in Z. destruct Z as [Z|Z]; apply feq_sub in Z.
    - apply D. f_equal. f_equal. apply (feq_small p); [exact Z|apply A|apply B].
    - apply M. apply neg_eq; assumption. }
  assert (D1 : ~ x3 == x1) by (apply (XY x3 y3 x1 y1); auto).
  destruct (eq_pt_dec (Some (x3, y3)) (Some (x2, y2))) as [E32|N7].
  - (* R = Q: the mirror image of P = Q *)
    injection E32 as -> ->. symmetry. rewrite CR.
    assert (M : pt_add c (pt_add c (Some (x2, y2)) (Some (x2, y2))) (Some (x1, y1)) = pt_add c (pt_add c (Some (x1, y1)) (Some (x2, y2))) (Some (x2, y2))).
    { apply assoc_main; try assumption.
      - intros A. apply N1. rewrite A. symmetry. apply neg_neg. assumption.
      - intros A. apply D1. symmetry. exact A.
      - intros A. apply D1. symmetry. exact A. }
    symmetry. exact M.
  - rewrite CR. symmetry. apply assoc_main; try assumption. apply (XY x3 y3 x2 y2); auto.
Qed.
End Weier.

Section Multiples.
Variable c : curve.
Notation p := (c_p c).
Hypothesis pp : prime p.
Hypothesis p3 : 3 < p.
Hypothesis assoc : forall P Q R, on_curve c P -> on_curve c Q -> on_curve c R ->
  pt_add c P (pt_add c Q R) = pt_add c (pt_add c P Q) R.
Let add_closed := add_closed c pp p3.
Let add_comm := add_comm c pp p3.
Let neg_on_curve := neg_on_curve c pp p3.
Let neg_neg := neg_neg c pp p3.
Let add_neg := add_neg c pp p3.
Let add_none_r := add_none_r c.

(** *** multiples *)
Lemma iter_closed P m : on_curve c P -> on_curve c (Pos.iter (pt_add c P) None m).
Proof.
  intros H. apply Pos.iter_invariant; [|exact I]. intros Q HQ. now apply add_closed.
Qed.

Lemma mul_closed k P : on_curve c P -> on_curve c (pt_mul c k P).
Proof.
  intros H. destruct k; cbn [pt_mul]; [exact I|now apply iter_closed|].
  apply iter_closed. now apply neg_on_curve.
Qed.

Lemma mul_succ_pos k P : 0 <= k -> pt_mul c (k + 1) P = pt_add c P (pt_mul c k P).
Proof.
  intros H. destruct k as [|m|m]; [reflexivity| |lia].
  change (Z.pos m + 1) with (Z.pos (m + 1)). rewrite Pos.add_1_r. cbn [pt_mul]. apply Pos.iter_succ.
Qed.

Lemma mul_neg_pos k P : 0 <= k -> on_curve c P -> pt_mul c (- k) P = pt_mul c k (pt_neg c P).
Proof. intros H HP. destruct k; [reflexivity|reflexivity|lia]. Qed.

Lemma add_cancel_neg P Q : on_curve c P -> on_curve c Q -> pt_add c (pt_neg c P) (pt_add c P Q) = Q.
Proof.
  intros HP HQ. rewrite assoc by (try apply neg_on_curve; assumption).
  rewrite (add_comm (pt_neg c P) P) by (try apply neg_on_curve; assumption).
  rewrite add_neg by assumption. reflexivity.
Qed.

Lemma mul_succ k P : on_curve c P -> pt_mul c (k + 1) P = pt_add c P (pt_mul c k P).
Proof.
  intros HP. destruct (Z_le_gt_dec 0 k) as [H|H]; [now apply mul_succ_pos|].
  replace k with (- (- k - 1 + 1)) by lia.
  replace (- (- k - 1 + 1) + 1) with (- (- k - 1)) by lia.
  rewrite !mul_neg_pos by (lia || assumption).
  rewrite mul_succ_pos by lia.
  rewrite <- (neg_neg P) at 2 by assumption.
  rewrite add_cancel_neg; [reflexivity|now apply neg_on_curve|].
  apply mul_closed. now apply neg_on_curve.
Qed.

Lemma mul_pred k P : on_curve c P -> pt_mul c (k - 1) P = pt_add c (pt_neg c P) (pt_mul c k P).
Proof.
  intros HP. replace k with (k - 1 + 1) at 2 by lia. rewrite mul_succ by assumption.
  rewrite add_cancel_neg; [reflexivity|assumption|now apply mul_closed].
Qed.

Lemma mul_add a k P : on_curve c P -> pt_mul c (a + k) P = pt_add c (pt_mul c a P) (pt_mul c k P).
Proof.
  intros HP. revert a. apply Z.bi_induction.
  - intros x y ->. reflexivity.
  - reflexivity.
  - intros a. rewrite <- Z.add_1_r. replace (a + 1 + k) with (a + k + 1) by lia.
    rewrite !mul_succ by assumption.
    rewrite <- assoc by (try apply mul_closed; assumption).
    split; [intros ->; reflexivity|]. intros E.
    apply (f_equal (pt_add c (pt_neg c P))) in E.
    rewrite !add_cancel_neg in E by (try apply add_closed; try apply mul_closed; assumption). exact E.
Qed.

Lemma mul_0 P : pt_mul c 0 P = None. Proof. reflexivity. Qed.

Lemma mul_1 P : pt_mul c 1 P = P.
Proof. cbn. apply add_none_r. Qed.

Lemma mul_none k : pt_mul c k None = None.
Proof.
  destruct k; cbn [pt_mul]; [reflexivity| |];
  apply Pos.iter_invariant with (Inv := fun q => q = None); intros; subst; reflexivity.
Qed.

Lemma mul_mul a k P : on_curve c P -> pt_mul c (a * k) P = pt_mul c a (pt_mul c k P).
Proof.
  intros HP. revert a. apply Z.bi_induction.
  - intros x y ->. reflexivity.
  - reflexivity.
  - intros a. replace (Z.succ a * k) with (k + a * k) by lia. rewrite <- Z.add_1_r.
    rewrite mul_add by assumption. rewrite mul_succ by now apply mul_closed.
    split; [intros ->; reflexivity|]. intros E.
    apply (f_equal (pt_add c (pt_neg c (pt_mul c k P)))) in E.
    rewrite !add_cancel_neg in E by (repeat (apply mul_closed || assumption)). exact E.
Qed.

Lemma mul_opp k P : on_curve c P -> pt_mul c (- k) P = pt_neg c (pt_mul c k P).
Proof.
  intros HP. assert (H : pt_add c (pt_mul c k P) (pt_mul c (- k) P) = None).
  { rewrite <- mul_add by assumption. replace (k + - k) with 0 by lia. reflexivity. }
  apply (f_equal (pt_add c (pt_neg c (pt_mul c k P)))) in H.
  rewrite add_cancel_neg in H by (apply mul_closed; assumption). rewrite H. apply add_none_r.
Qed.

End Multiples.
