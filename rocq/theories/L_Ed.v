(** The group law of the curve of S_Ed: addition is total, closed, associative
    and commutative, and multiples behave.  No part of /repo is modelled. *)
Require Import ZArith Znumtheory Zpow_facts Setoid Morphisms Lia Zdiv.
Require Import Verif.Base Verif.L_Base Verif.S_Curve Verif.L_Fp Verif.S_Ed.
Local Open Scope Z_scope.

Lemma top_bit M a b y z : 0 <= y < M -> 0 <= z < M -> 0 <= a < 2 -> 0 <= b < 2 ->
  (y + M * a) mod (2 * M) = (z + M * b) mod (2 * M) -> y = z /\ a = b.
Proof.
  intros Y Z A B H. assert (a = 0 \/ a = 1) as [-> | ->] by lia; assert (b = 0 \/ b = 1) as [-> | ->] by lia;
  rewrite !Z.mod_small in H by lia; lia.
Qed.

Lemma parity_case p x1 x2 q : 2 < p -> 0 <= x1 < p -> 0 <= x2 < p -> x1 + x2 = q * p -> p mod 2 = 1 -> x1 mod 2 = x2 mod 2 -> x1 = x2.
Proof.
  intros P X1 X2 Q OD PAR. assert (q = 0 \/ q = 1) as [-> | ->] by nia; [lia|]. exfalso. clear - Q OD PAR. Z.div_mod_to_equations. lia.
Qed.

Section Ed.
Variable c : edcurve.
Hypothesis ok : ed_ok c.
Local Notation p := (ed_p c).
Local Notation d := (ed_d c).
Local Infix "==" := (feq p) (at level 70).
Let pp : prime p := eo_p c ok.

(** The curve equation as a number that vanishes. *)
Let E (x y : Z) : Z := d * x * x * y * y - (y * y - x * x - 1).

Lemma on_E x y : on_ed c (x, y) -> E x y == 0.
Proof.
  intros (_ & _ & H). unfold E. change (y * y - x * x == 1 + d * x * x * y * y) in H.
  transitivity (1 + d * x * x * y * y - (y * y - x * x)); [apply feq_ring; ring|]. rewrite H. apply feq_ring. ring.
Qed.

Lemma comb3 a b e f g h t : a == 0 -> b == 0 -> e == 0 -> t = f * a + g * b + h * e -> t == 0.
Proof. intros A B C ->. rewrite A, B, C. apply feq_ring. ring. Qed.

Lemma two_nz : ~ 2 == 0.
Proof. unfold feq. pose proof (eo_p2 c ok). rewrite Z.mod_small, Z.mod_0_l by lia. lia. Qed.
Lemma one_nz : ~ 1 == 0. Proof. exact (fone p pp). Qed.

(** Completeness: the denominators do not vanish. *)
Lemma square_ratio u v : ~ v == 0 -> u * u == d * v * v -> False.
Proof.
  intros V H. apply (eo_d c ok (u * inv_mod p v)). change ((u * inv_mod p v) * (u * inv_mod p v) == d).
  pose proof (finv_ok p pp v V) as I.
  transitivity (u * u * (inv_mod p v * inv_mod p v)); [apply feq_ring; ring|]. rewrite H.
  transitivity (d * (inv_mod p v * v) * (inv_mod p v * v)); [apply feq_ring; ring|]. rewrite I. apply feq_ring. ring.
Qed.

Lemma complete x1 y1 x2 y2 e : E x1 y1 == 0 -> E x2 y2 == 0 -> e * e == 1 -> ~ d * x1 * x2 * y1 * y2 == e.
Proof.
  intros E1 E2 EE T. destruct (eo_i c ok) as (i & Hi).
  assert (I : i * i + 1 == 0) by (unfold feq; rewrite Hi, Z.mod_0_l; [reflexivity|pose proof (eo_p2 c ok); lia]). clear Hi.
  assert (ENZ : ~ e == 0). { intros Q. rewrite Q in EE. apply one_nz. rewrite <- EE. reflexivity. }
  assert (NZ : ~ x1 * y1 == 0 /\ ~ y2 == 0).
  { split; intros Q; apply ENZ; rewrite <- T.
    - transitivity (d * x2 * y2 * (x1 * y1)); [apply feq_ring; ring|]. rewrite Q. apply feq_ring. ring.
    - rewrite Q. apply feq_ring. ring. }
  destruct NZ as [NZ Y2].
  assert (SQ : forall s, s * s = 1 -> (i * x1 + s * e * y1) * (i * x1 + s * e * y1) == d * (x1 * y1 * (i * x2 + s * y2)) * (x1 * y1 * (i * x2 + s * y2))).
  { intros s SS. apply feq_sub.
    set (t := d * x1 * x2 * y1 * y2) in *.
    assert (T0 : t - e == 0) by (rewrite T; apply feq_ring; ring).
    assert (EE0 : e * e - 1 == 0) by (rewrite EE; reflexivity).
    (* both squares expanded; s*s = 1 *)
    replace (_ - _) with
      ((i * i + 1) * (x1 * x1 - d * x1 * x1 * y1 * y1 * x2 * x2)
       + (e * e - 1) * (y1 * y1)
       - d * x1 * x1 * y1 * y1 * (y2 * y2 - x2 * x2)
       + (y1 * y1 - x1 * x1)
       - 2 * i * s * x1 * y1 * (t - e)
       + (s * s - 1) * (e * e * y1 * y1 - d * x1 * x1 * y1 * y1 * y2 * y2)) by (unfold t; ring).
    rewrite I, EE0, T0. rewrite SS.
    transitivity (y1 * y1 - x1 * x1 - d * x1 * x1 * y1 * y1 * (y2 * y2 - x2 * x2)); [apply feq_ring; ring|].
    (* d x1^2 y1^2 (1 + d x2^2 y2^2) = d x1^2 y1^2 + t^2 *)
    transitivity (- E x1 y1 + d * x1 * x1 * y1 * y1 * E x2 y2 + (1 - t * t)); [unfold E, t; apply feq_ring; ring|].
    rewrite E1, E2, T. transitivity (- (e * e - 1)); [apply feq_ring; ring|]. rewrite EE0. reflexivity. }
  destruct (feq_dec p (i * x2 + 1 * y2) 0) as [Z1|Z1].
  - destruct (feq_dec p (i * x2 + -1 * y2) 0) as [Z2|Z2].
    + apply (fnz_mul p pp _ _ two_nz Y2). transitivity (i * x2 + 1 * y2 - (i * x2 + -1 * y2)); [apply feq_ring; ring|].
      rewrite Z1, Z2. reflexivity.
    + apply (square_ratio (i * x1 + -1 * e * y1) (x1 * y1 * (i * x2 + -1 * y2))); [apply (fnz_mul p pp); auto|].
      rewrite (SQ (-1)) by reflexivity. apply feq_ring. ring.
  - apply (square_ratio (i * x1 + 1 * e * y1) (x1 * y1 * (i * x2 + 1 * y2))); [apply (fnz_mul p pp); auto|].
    rewrite (SQ 1) by reflexivity. apply feq_ring. ring.
Qed.

Lemma den_nz x1 y1 x2 y2 : E x1 y1 == 0 -> E x2 y2 == 0 ->
  ~ 1 + d * x1 * x2 * y1 * y2 == 0 /\ ~ 1 - d * x1 * x2 * y1 * y2 == 0.
Proof.
  intros A B. split; intros Q.
  - apply (complete x1 y1 x2 y2 (-1) A B); [reflexivity|]. apply feq_sub. rewrite <- Q. apply feq_ring. ring.
  - apply (complete x1 y1 x2 y2 1 A B); [reflexivity|]. symmetry. apply feq_sub. rewrite <- Q. apply feq_ring. ring.
Qed.

(** Certificates: the polynomial identities behind closure and associativity,
    as combinations of the curve equations. *)
Lemma cert_closed x1 y1 x2 y2 : E x1 y1 == 0 -> E x2 y2 == 0 ->
  let t := d * x1 * x2 * y1 * y2 in
  let X := x1 * y2 + x2 * y1 in let Y := y1 * y2 + x1 * x2 in
  d * X * X * Y * Y - (Y * Y * (1 + t) * (1 + t) - X * X * (1 - t) * (1 - t) - (1 + t) * (1 + t) * (1 - t) * (1 - t)) == 0.
Proof.
  intros A B t X Y. apply (comb3 (E x1 y1) (E x2 y2) 0
    (y2*y2*y2*y2 - 4*x2*x2*y2*y2 - 2*x2*x2*y2*y2*d + 2*x2*x2*y2*y2*y2*y2 + x2*x2*x2*x2 - 2*x2*x2*x2*x2*y2*y2 - 2*x2*x2*x2*x2*y2*y2*y2*y2*d - x2*x2*x2*x2*y2*y2*y2*y2*d*d - y1*y1*x2*x2*y2*y2*y2*y2*d + y1*y1*x2*x2*x2*x2*y2*y2*d + y1*y1*x2*x2*x2*x2*y2*y2*y2*y2*d*d + x1*x1*x2*x2*y2*y2*y2*y2*d - x1*x1*x2*x2*x2*x2*y2*y2*d - x1*x1*x2*x2*x2*x2*y2*y2*y2*y2*d*d + x1*x1*y1*y1*x2*x2*x2*x2*y2*y2*y2*y2*d*d*d)
    (1 + y2*y2 - x2*x2 + 2*x2*x2*y2*y2 + x2*x2*y2*y2*d - y1*y1*y2*y2 + y1*y1*x2*x2 - 2*y1*y1*x2*x2*y2*y2 - 2*y1*y1*x2*x2*y2*y2*d + y1*y1*y1*y1*x2*x2*y2*y2*d + x1*x1*y2*y2 - x1*x1*x2*x2 + 2*x1*x1*x2*x2*y2*y2 + 2*x1*x1*x2*x2*y2*y2*d + x1*x1*x1*x1*x2*x2*y2*y2*d) 0); [exact A|exact B|reflexivity|]. unfold E, t, X, Y. ring.
Qed.

Lemma cert_assoc_x x1 y1 x2 y2 x3 y3 : E x1 y1 == 0 -> E x2 y2 == 0 -> E x3 y3 == 0 ->
  let t12 := d * x1 * x2 * y1 * y2 in let t23 := d * x2 * x3 * y2 * y3 in
  let X12 := x1 * y2 + x2 * y1 in let Y12 := y1 * y2 + x1 * x2 in
  let X23 := x2 * y3 + x3 * y2 in let Y23 := y2 * y3 + x2 * x3 in
  (X12 * (1 - t12) * y3 + x3 * Y12 * (1 + t12)) * ((1 + t23) * (1 - t23) + d * x1 * y1 * X23 * Y23)
  - (x1 * Y23 * (1 + t23) + X23 * (1 - t23) * y1) * ((1 + t12) * (1 - t12) + d * X12 * Y12 * x3 * y3) == 0.
Proof.
  intros A B C t12 t23 X12 Y12 X23 Y23. apply (comb3 (E x1 y1) (E x2 y2) (E x3 y3)
    (y1*x2*y2*y2*y2*y2*x3*x3*y3*d + y1*x2*x2*y2*y2*y2*x3*d + y1*x2*x2*y2*y2*y2*x3*x3*x3*d + y1*x2*x2*x2*y2*y2*y3*d - y1*x2*x2*x2*y2*y2*y3*y3*y3*d - y1*x2*x2*x2*y2*y2*y2*y2*x3*x3*y3*d*d - y1*x2*x2*x2*x2*y2*x3*y3*y3*d - y1*x2*x2*x2*x2*y2*y2*y2*x3*y3*y3*d*d - x1*x2*y2*y2*y2*y2*x3*y3*y3*d + x1*x2*x2*y2*y2*y2*y3*d - x1*x2*x2*y2*y2*y2*y3*y3*y3*d + x1*x2*x2*x2*y2*y2*x3*d + x1*x2*x2*x2*y2*y2*x3*x3*x3*d + x1*x2*x2*x2*y2*y2*y2*y2*x3*y3*y3*d*d + x1*x2*x2*x2*x2*y2*x3*x3*y3*d + x1*x2*x2*x2*x2*y2*y2*y2*x3*x3*y3*d*d)
    (0 - y1*y2*x3 + y1*y2*x3*y3*y3 - y1*y2*x3*x3*x3 - y1*y2*x3*x3*x3*y3*y3*d - y1*x2*y3 + y1*x2*y3*y3*y3 - y1*x2*x3*x3*y3 - y1*x2*x3*x3*y3*y3*y3*d + y1*x2*y2*y2*x3*x3*y3*d + y1*x2*x2*y2*x3*y3*y3*d + y1*y1*y1*y2*x3 - y1*y1*y1*y2*x3*y3*y3 + y1*y1*y1*y2*x3*x3*x3 + y1*y1*y1*y2*x3*x3*x3*y3*y3*d + y1*y1*y1*x2*y3 - y1*y1*y1*x2*y3*y3*y3 + y1*y1*y1*x2*x3*x3*y3 + y1*y1*y1*x2*x3*x3*y3*y3*y3*d - y1*y1*y1*x2*y2*y2*x3*x3*y3*d - y1*y1*y1*x2*x2*y2*x3*y3*y3*d - x1*y2*y3 + x1*y2*y3*y3*y3 - x1*y2*x3*x3*y3 - x1*y2*x3*x3*y3*y3*y3*d - x1*x2*x3 + x1*x2*x3*y3*y3 - x1*x2*x3*x3*x3 - x1*x2*x3*x3*x3*y3*y3*d - x1*x2*y2*y2*x3*y3*y3*d - x1*x2*x2*y2*x3*x3*y3*d + x1*y1*y1*y2*y3 - x1*y1*y1*y2*y3*y3*y3 + x1*y1*y1*y2*x3*x3*y3 + x1*y1*y1*y2*x3*x3*y3*y3*y3*d + x1*y1*y1*x2*x3 - x1*y1*y1*x2*x3*y3*y3 + x1*y1*y1*x2*x3*x3*x3 + x1*y1*y1*x2*x3*x3*x3*y3*y3*d + x1*y1*y1*x2*y2*y2*x3*y3*y3*d - x1*y1*y1*x2*y2*y2*x3*x3*x3*y3*y3*d*d + x1*y1*y1*x2*x2*y2*x3*x3*y3*d + x1*y1*y1*x2*x2*y2*x3*x3*y3*y3*y3*d*d - x1*x1*y1*y2*x3 + x1*x1*y1*y2*x3*y3*y3 - x1*x1*y1*y2*x3*x3*x3 - x1*x1*y1*y2*x3*x3*x3*y3*y3*d - x1*x1*y1*x2*y3 + x1*x1*y1*x2*y3*y3*y3 - x1*x1*y1*x2*x3*x3*y3 - x1*x1*y1*x2*x3*x3*y3*y3*y3*d + x1*x1*y1*x2*y2*y2*x3*x3*y3*d + x1*x1*y1*x2*y2*y2*x3*x3*y3*y3*y3*d*d + x1*x1*y1*x2*x2*y2*x3*y3*y3*d - x1*x1*y1*x2*x2*y2*x3*x3*x3*y3*y3*d*d - x1*x1*x1*y2*y3 + x1*x1*x1*y2*y3*y3*y3 - x1*x1*x1*y2*x3*x3*y3 - x1*x1*x1*y2*x3*x3*y3*y3*y3*d - x1*x1*x1*x2*x3 + x1*x1*x1*x2*x3*y3*y3 - x1*x1*x1*x2*x3*x3*x3 - x1*x1*x1*x2*x3*x3*x3*y3*y3*d - x1*x1*x1*x2*y2*y2*x3*y3*y3*d - x1*x1*x1*x2*x2*y2*x3*x3*y3*d)
    (y1*y2*x3 - y1*y2*y2*y2*x3 + y1*x2*y3 - y1*x2*y2*y2*y3 + y1*x2*x2*y2*x3 + y1*x2*x2*x2*y3 - y1*y1*y1*y2*x3 + y1*y1*y1*y2*y2*y2*x3 - y1*y1*y1*x2*y3 + y1*y1*y1*x2*y2*y2*y3 - y1*y1*y1*x2*x2*y2*x3 - y1*y1*y1*x2*x2*x2*y3 + x1*y2*y3 - x1*y2*y2*y2*y3 + x1*x2*x3 - x1*x2*y2*y2*x3 + x1*x2*x2*y2*y3 + x1*x2*x2*x2*x3 - x1*y1*y1*y2*y3 + x1*y1*y1*y2*y2*y2*y3 - x1*y1*y1*x2*x3 + x1*y1*y1*x2*y2*y2*x3 + x1*y1*y1*x2*y2*y2*x3*d - x1*y1*y1*x2*x2*y2*y3 - x1*y1*y1*x2*x2*y2*y3*d - x1*y1*y1*x2*x2*x2*x3 + x1*x1*y1*y2*x3 - x1*x1*y1*y2*y2*y2*x3 + x1*x1*y1*x2*y3 - x1*x1*y1*x2*y2*y2*y3 - x1*x1*y1*x2*y2*y2*y3*d + x1*x1*y1*x2*x2*y2*x3 + x1*x1*y1*x2*x2*y2*x3*d + x1*x1*y1*x2*x2*x2*y3 + x1*x1*x1*y2*y3 - x1*x1*x1*y2*y2*y2*y3 + x1*x1*x1*x2*x3 - x1*x1*x1*x2*y2*y2*x3 + x1*x1*x1*x2*x2*y2*y3 + x1*x1*x1*x2*x2*x2*x3)); [exact A|exact B|exact C|]. unfold E, t12, t23, X12, Y12, X23, Y23. ring.
Qed.

Lemma cert_assoc_y x1 y1 x2 y2 x3 y3 : E x1 y1 == 0 -> E x2 y2 == 0 -> E x3 y3 == 0 ->
  let t12 := d * x1 * x2 * y1 * y2 in let t23 := d * x2 * x3 * y2 * y3 in
  let X12 := x1 * y2 + x2 * y1 in let Y12 := y1 * y2 + x1 * x2 in
  let X23 := x2 * y3 + x3 * y2 in let Y23 := y2 * y3 + x2 * x3 in
  (Y12 * (1 + t12) * y3 + X12 * (1 - t12) * x3) * ((1 + t23) * (1 - t23) - d * x1 * y1 * X23 * Y23)
  - (Y23 * (1 + t23) * y1 + X23 * (1 - t23) * x1) * ((1 + t12) * (1 - t12) - d * X12 * Y12 * x3 * y3) == 0.
Proof.
  intros A B C t12 t23 X12 Y12 X23 Y23. apply (comb3 (E x1 y1) (E x2 y2) (E x3 y3)
    (0 - y1*x2*y2*y2*y2*y2*x3*y3*y3*d + y1*x2*x2*y2*y2*y2*y3*d - y1*x2*x2*y2*y2*y2*y3*y3*y3*d + y1*x2*x2*x2*y2*y2*x3*d + y1*x2*x2*x2*y2*y2*x3*x3*x3*d + y1*x2*x2*x2*y2*y2*y2*y2*x3*y3*y3*d*d + y1*x2*x2*x2*x2*y2*x3*x3*y3*d + y1*x2*x2*x2*x2*y2*y2*y2*x3*x3*y3*d*d + x1*x2*y2*y2*y2*y2*x3*x3*y3*d + x1*x2*x2*y2*y2*y2*x3*d + x1*x2*x2*y2*y2*y2*x3*x3*x3*d + x1*x2*x2*x2*y2*y2*y3*d - x1*x2*x2*x2*y2*y2*y3*y3*y3*d - x1*x2*x2*x2*y2*y2*y2*y2*x3*x3*y3*d*d - x1*x2*x2*x2*x2*y2*x3*y3*y3*d - x1*x2*x2*x2*x2*y2*y2*y2*x3*y3*y3*d*d)
    (0 - y1*y2*y3 + y1*y2*y3*y3*y3 - y1*y2*x3*x3*y3 - y1*y2*x3*x3*y3*y3*y3*d - y1*x2*x3 + y1*x2*x3*y3*y3 - y1*x2*x3*x3*x3 - y1*x2*x3*x3*x3*y3*y3*d - y1*x2*y2*y2*x3*y3*y3*d - y1*x2*x2*y2*x3*x3*y3*d + y1*y1*y1*y2*y3 - y1*y1*y1*y2*y3*y3*y3 + y1*y1*y1*y2*x3*x3*y3 + y1*y1*y1*y2*x3*x3*y3*y3*y3*d + y1*y1*y1*x2*x3 - y1*y1*y1*x2*x3*y3*y3 + y1*y1*y1*x2*x3*x3*x3 + y1*y1*y1*x2*x3*x3*x3*y3*y3*d + y1*y1*y1*x2*y2*y2*x3*y3*y3*d + y1*y1*y1*x2*x2*y2*x3*x3*y3*d - x1*y2*x3 + x1*y2*x3*y3*y3 - x1*y2*x3*x3*x3 - x1*y2*x3*x3*x3*y3*y3*d - x1*x2*y3 + x1*x2*y3*y3*y3 - x1*x2*x3*x3*y3 - x1*x2*x3*x3*y3*y3*y3*d + x1*x2*y2*y2*x3*x3*y3*d + x1*x2*x2*y2*x3*y3*y3*d + x1*y1*y1*y2*x3 - x1*y1*y1*y2*x3*y3*y3 + x1*y1*y1*y2*x3*x3*x3 + x1*y1*y1*y2*x3*x3*x3*y3*y3*d + x1*y1*y1*x2*y3 - x1*y1*y1*x2*y3*y3*y3 + x1*y1*y1*x2*x3*x3*y3 + x1*y1*y1*x2*x3*x3*y3*y3*y3*d - x1*y1*y1*x2*y2*y2*x3*x3*y3*d - x1*y1*y1*x2*y2*y2*x3*x3*y3*y3*y3*d*d - x1*y1*y1*x2*x2*y2*x3*y3*y3*d + x1*y1*y1*x2*x2*y2*x3*x3*x3*y3*y3*d*d - x1*x1*y1*y2*y3 + x1*x1*y1*y2*y3*y3*y3 - x1*x1*y1*y2*x3*x3*y3 - x1*x1*y1*y2*x3*x3*y3*y3*y3*d - x1*x1*y1*x2*x3 + x1*x1*y1*x2*x3*y3*y3 - x1*x1*y1*x2*x3*x3*x3 - x1*x1*y1*x2*x3*x3*x3*y3*y3*d - x1*x1*y1*x2*y2*y2*x3*y3*y3*d + x1*x1*y1*x2*y2*y2*x3*x3*x3*y3*y3*d*d - x1*x1*y1*x2*x2*y2*x3*x3*y3*d - x1*x1*y1*x2*x2*y2*x3*x3*y3*y3*y3*d*d - x1*x1*x1*y2*x3 + x1*x1*x1*y2*x3*y3*y3 - x1*x1*x1*y2*x3*x3*x3 - x1*x1*x1*y2*x3*x3*x3*y3*y3*d - x1*x1*x1*x2*y3 + x1*x1*x1*x2*y3*y3*y3 - x1*x1*x1*x2*x3*x3*y3 - x1*x1*x1*x2*x3*x3*y3*y3*y3*d + x1*x1*x1*x2*y2*y2*x3*x3*y3*d + x1*x1*x1*x2*x2*y2*x3*y3*y3*d)
    (y1*y2*y3 - y1*y2*y2*y2*y3 + y1*x2*x3 - y1*x2*y2*y2*x3 + y1*x2*x2*y2*y3 + y1*x2*x2*x2*x3 - y1*y1*y1*y2*y3 + y1*y1*y1*y2*y2*y2*y3 - y1*y1*y1*x2*x3 + y1*y1*y1*x2*y2*y2*x3 - y1*y1*y1*x2*x2*y2*y3 - y1*y1*y1*x2*x2*x2*x3 + x1*y2*x3 - x1*y2*y2*y2*x3 + x1*x2*y3 - x1*x2*y2*y2*y3 + x1*x2*x2*y2*x3 + x1*x2*x2*x2*y3 - x1*y1*y1*y2*x3 + x1*y1*y1*y2*y2*y2*x3 - x1*y1*y1*x2*y3 + x1*y1*y1*x2*y2*y2*y3 + x1*y1*y1*x2*y2*y2*y3*d - x1*y1*y1*x2*x2*y2*x3 - x1*y1*y1*x2*x2*y2*x3*d - x1*y1*y1*x2*x2*x2*y3 + x1*x1*y1*y2*y3 - x1*x1*y1*y2*y2*y2*y3 + x1*x1*y1*x2*x3 - x1*x1*y1*x2*y2*y2*x3 - x1*x1*y1*x2*y2*y2*x3*d + x1*x1*y1*x2*x2*y2*y3 + x1*x1*y1*x2*x2*y2*y3*d + x1*x1*y1*x2*x2*x2*x3 + x1*x1*x1*y2*x3 - x1*x1*x1*y2*y2*y2*x3 + x1*x1*x1*x2*y3 - x1*x1*x1*x2*y2*y2*y3 + x1*x1*x1*x2*x2*y2*x3 + x1*x1*x1*x2*x2*x2*y3)); [exact A|exact B|exact C|]. unfold E, t12, t23, X12, Y12, X23, Y23. ring.
Qed.

Lemma zero_cancel a b : ~ a == 0 -> a * b == 0 -> b == 0.
Proof. intros N H. destruct (fintegral p pp _ _ H); tauto. Qed.

Lemma p_pos : 0 < p. Proof. pose proof (eo_p2 c ok). lia. Qed.

(** The sum is the pair of numbers in range with these cross-multiplied values. *)
Lemma add_spec x1 y1 x2 y2 : on_ed c (x1, y1) -> on_ed c (x2, y2) -> exists x3 y3,
  ed_add c (x1, y1) (x2, y2) = (x3, y3) /\ 0 <= x3 < p /\ 0 <= y3 < p /\
  x3 * (1 + d * x1 * x2 * y1 * y2) == x1 * y2 + x2 * y1 /\
  y3 * (1 - d * x1 * x2 * y1 * y2) == y1 * y2 + x1 * x2.
Proof.
  intros A B. unfold ed_add. eexists; eexists. split; [reflexivity|]. pose proof p_pos.
  split; [apply Z.mod_pos_bound; lia|]. split; [apply Z.mod_pos_bound; lia|].
  destruct (den_nz x1 y1 x2 y2 (on_E _ _ A) (on_E _ _ B)) as [P M]. rewrite !feq_mod.
  split; rewrite <- Z.mul_assoc, (finv_ok p pp) by assumption; apply feq_ring; ring.
Qed.

Lemma add_closed P Q : on_ed c P -> on_ed c Q -> on_ed c (ed_add c P Q).
Proof.
  destruct P as [x1 y1], Q as [x2 y2]. intros A B. destruct (add_spec x1 y1 x2 y2 A B) as (u & v & -> & RU & RV & HU & HV).
  split; [exact RU|]. split; [exact RV|]. destruct (den_nz x1 y1 x2 y2 (on_E _ _ A) (on_E _ _ B)) as [P M].
  pose proof (cert_closed x1 y1 x2 y2 (on_E _ _ A) (on_E _ _ B)) as C. cbv zeta in C. rewrite <- HU, <- HV in C.
  set (t := d * x1 * x2 * y1 * y2) in *. clearbody t. change (v * v - u * u == 1 + d * u * u * v * v). apply feq_sub.
  assert (K : (1 + t) * (1 + t) * (1 - t) * (1 - t) * (v * v - u * u - (1 + d * u * u * v * v)) == 0).
  { transitivity (- (d * (u * (1 + t)) * (u * (1 + t)) * (v * (1 - t)) * (v * (1 - t)) -
      (v * (1 - t) * (v * (1 - t)) * (1 + t) * (1 + t) - u * (1 + t) * (u * (1 + t)) * (1 - t) * (1 - t) - (1 + t) * (1 + t) * (1 - t) * (1 - t))));
      [apply feq_ring; ring|]. rewrite C. reflexivity. }
  apply zero_cancel in K; [exact K|]. repeat apply (fnz_mul p pp); assumption.
Qed.

Lemma eq_from_fractions a b n m : 0 <= a < p -> 0 <= b < p -> ~ n == 0 -> ~ m == 0 -> n * m * (a - b) == 0 -> a = b.
Proof.
  intros A B N M H. apply (feq_small p); auto. apply feq_sub. apply zero_cancel in H; [exact H|]. now apply (fnz_mul p pp).
Qed.

Theorem add_assoc P Q R : on_ed c P -> on_ed c Q -> on_ed c R -> ed_add c P (ed_add c Q R) = ed_add c (ed_add c P Q) R.
Proof.
  intros HP HQ HR. pose proof (add_closed _ _ HP HQ) as HPQ. pose proof (add_closed _ _ HQ HR) as HQR.
  destruct P as [x1 y1], Q as [x2 y2], R as [x3 y3].
  destruct (add_spec x1 y1 x2 y2 HP HQ) as (u & v & E1 & _ & _ & HU & HV).
  destruct (add_spec x2 y2 x3 y3 HQ HR) as (s & t & E2 & _ & _ & HS & HT).
  rewrite E1, E2 in *. clear E1 E2.
  destruct (add_spec x1 y1 s t HP HQR) as (a & b & -> & RA & RB & HA & HB).
  destruct (add_spec u v x3 y3 HPQ HR) as (a' & b' & -> & RA' & RB' & HA' & HB').
  apply on_E in HP, HQ, HR, HPQ, HQR.
  destruct (den_nz _ _ _ _ HP HQ) as [P12 M12]. destruct (den_nz _ _ _ _ HQ HR) as [P23 M23].
  destruct (den_nz _ _ _ _ HP HQR) as [PA MA]. destruct (den_nz _ _ _ _ HPQ HR) as [PB MB].
  pose proof (cert_assoc_x _ _ _ _ _ _ HP HQ HR) as CX. pose proof (cert_assoc_y _ _ _ _ _ _ HP HQ HR) as CY. cbv zeta in CX, CY.
  rewrite <- HU, <- HV, <- HS, <- HT in CX, CY.
  set (t12 := d * x1 * x2 * y1 * y2) in *. set (t23 := d * x2 * x3 * y2 * y3) in *.
  set (ta := d * x1 * s * y1 * t) in *. set (tb := d * u * x3 * v * y3) in *.
  assert (TA : d * x1 * y1 * (s * (1 + t23)) * (t * (1 - t23)) = (1 + t23) * (1 - t23) * ta) by (unfold ta; ring).
  assert (TB : d * (u * (1 + t12)) * (v * (1 - t12)) * x3 * y3 = (1 + t12) * (1 - t12) * tb) by (unfold tb; ring).
  rewrite TA, TB in CX, CY. clear TA TB HU HV HS HT HP HQ HR HPQ HQR.
  f_equal.
  - apply (eq_from_fractions a a' ((1 + t12) * (1 - t12) * ((1 + t23) * (1 - t23))) ((1 + ta) * (1 + tb))); auto;
      [repeat apply (fnz_mul p pp); assumption|apply (fnz_mul p pp); assumption|].
    transitivity ((1 + t12) * (1 - t12) * ((1 + t23) * (1 - t23)) * ((a * (1 + ta)) * (1 + tb) - (a' * (1 + tb)) * (1 + ta))); [apply feq_ring; ring|].
    rewrite HA, HA'. match type of CX with ?z == 0 => transitivity (- z); [apply feq_ring; ring|rewrite CX; reflexivity] end.
  - apply (eq_from_fractions b b' ((1 + t12) * (1 - t12) * ((1 + t23) * (1 - t23))) ((1 - ta) * (1 - tb))); auto;
      [repeat apply (fnz_mul p pp); assumption|apply (fnz_mul p pp); assumption|].
    transitivity ((1 + t12) * (1 - t12) * ((1 + t23) * (1 - t23)) * ((b * (1 - ta)) * (1 - tb) - (b' * (1 - tb)) * (1 - ta))); [apply feq_ring; ring|].
    rewrite HB, HB'. match type of CY with ?z == 0 => transitivity (- z); [apply feq_ring; ring|rewrite CY; reflexivity] end.
Qed.

Lemma add_comm P Q : ed_add c P Q = ed_add c Q P.
Proof.
  destruct P as [x1 y1], Q as [x2 y2]. unfold ed_add.
  replace (d * x2 * x1 * y2 * y1) with (d * x1 * x2 * y1 * y2) by ring.
  replace (x2 * y1 + x1 * y2) with (x1 * y2 + x2 * y1) by ring. replace (y2 * y1 + x2 * x1) with (y1 * y2 + x1 * x2) by ring. reflexivity.
Qed.

Lemma zero_on : on_ed c ed_zero.
Proof. pose proof (eo_p2 c ok). unfold ed_zero, on_ed. split; [lia|]. split; [lia|]. f_equal. ring. Qed.

Lemma inv_1 : inv_mod p 1 = 1.
Proof.
  unfold inv_mod. pose proof (eo_p2 c ok). rewrite Zpow_mod_correct by lia. rewrite Z.pow_1_l by lia. apply Z.mod_small. lia.
Qed.

Lemma add_0_l P : on_ed c P -> ed_add c ed_zero P = P.
Proof.
  destruct P as [x y]. intros (X & Y & _). unfold ed_add, ed_zero. rewrite !Z.mul_0_r, !Z.mul_0_l, Z.add_0_r, Z.sub_0_r, inv_1.
  rewrite Z.mul_1_l, !Z.mul_1_r, Z.add_0_l, Z.add_0_r. rewrite !Z.mod_small by lia. reflexivity.
Qed.
Lemma add_0_r P : on_ed c P -> ed_add c P ed_zero = P.
Proof. intros H. rewrite add_comm. now apply add_0_l. Qed.

Lemma neg_on P : on_ed c P -> on_ed c (ed_neg c P).
Proof.
  destruct P as [x y]. intros (X & Y & H). pose proof p_pos. split; [apply Z.mod_pos_bound; lia|]. split; [exact Y|].
  change (y * y - x * x == 1 + d * x * x * y * y) in H. change (y * y - (- x) mod p * ((- x) mod p) == 1 + d * ((- x) mod p) * ((- x) mod p) * y * y).
  rewrite feq_mod. transitivity (y * y - x * x); [apply feq_ring; ring|]. rewrite H. apply feq_ring. ring.
Qed.

Lemma add_neg P : on_ed c P -> ed_add c P (ed_neg c P) = ed_zero.
Proof.
  intros HP. pose proof (neg_on P HP) as HN. destruct P as [x y]. unfold ed_neg in *.
  destruct (add_spec _ _ _ _ HP HN) as (a & b & -> & RA & RB & HA & HB). apply on_E in HN. pose proof (on_E _ _ HP) as HE.
  destruct (den_nz _ _ _ _ HE HN) as [P M]. rewrite feq_mod in HA, HB, P, M. unfold ed_zero. pose proof (eo_p2 c ok). f_equal.
  - apply (feq_small p); [|exact RA|lia]. apply (zero_cancel (1 + d * x * - x * y * y)); [exact P|]. rewrite Z.mul_comm, HA. apply feq_ring. ring.
  - apply (feq_small p); [|exact RB|lia]. apply feq_sub. apply (zero_cancel (1 - d * x * - x * y * y)); [exact M|].
    transitivity (b * (1 - d * x * - x * y * y) - (1 + d * x * x * y * y)); [apply feq_ring; ring|]. rewrite HB.
    transitivity (- E x y); [unfold E; apply feq_ring; ring|]. rewrite HE. reflexivity.
Qed.

Lemma neg_neg P : on_ed c P -> ed_neg c (ed_neg c P) = P.
Proof.
  destruct P as [x y]. intros (X & _). unfold ed_neg. f_equal. apply (feq_small p); auto; [|apply Z.mod_pos_bound, p_pos].
  rewrite feq_mod, feq_mod. apply feq_ring. ring.
Qed.

Lemma add_cancel_r P Q R : on_ed c P -> on_ed c Q -> on_ed c R -> ed_add c P R = ed_add c Q R -> P = Q.
Proof.
  intros HP HQ HR H. assert (K : forall X, on_ed c X -> ed_add c (ed_add c X R) (ed_neg c R) = X).
  { intros X HX. rewrite <- add_assoc by auto using neg_on. rewrite add_neg by assumption. now apply add_0_r. }
  rewrite <- (K P HP), H. now apply K.
Qed.

Lemma mul_0 P : ed_mul c 0 P = ed_zero. Proof. reflexivity. Qed.
Lemma mul_succ k P : 0 <= k -> ed_mul c (Z.succ k) P = ed_add c P (ed_mul c k P).
Proof.
  intros K. unfold ed_mul. destruct k as [|k|k]; [reflexivity| |lia]. cbn [Z.succ Z.add Z.iter]. rewrite Pos.add_1_r. apply Pos.iter_succ.
Qed.
Lemma mul_closed k P : 0 <= k -> on_ed c P -> on_ed c (ed_mul c k P).
Proof.
  intros K HP. revert k K. apply natlike_ind; [exact zero_on|]. intros k K IH. rewrite mul_succ by assumption. now apply add_closed.
Qed.
Lemma mul_1 P : on_ed c P -> ed_mul c 1 P = P.
Proof. intros H. change 1 with (Z.succ 0). rewrite mul_succ by lia. now apply add_0_r. Qed.
Lemma mul_add a b P : 0 <= a -> 0 <= b -> on_ed c P -> ed_mul c (a + b) P = ed_add c (ed_mul c a P) (ed_mul c b P).
Proof.
  intros A B HP. revert a A. apply natlike_ind.
  - rewrite mul_0. symmetry. apply add_0_l. now apply mul_closed.
  - intros a A IH. replace (Z.succ a + b) with (Z.succ (a + b)) by lia. rewrite !mul_succ by lia. rewrite IH. apply add_assoc; auto using mul_closed.
Qed.
Lemma mul_zero k : 0 <= k -> ed_mul c k ed_zero = ed_zero.
Proof. revert k. apply natlike_ind; [reflexivity|]. intros k K IH. rewrite mul_succ, IH by assumption. apply add_0_l, zero_on. Qed.
Lemma mul_mul a b P : 0 <= a -> 0 <= b -> on_ed c P -> ed_mul c (a * b) P = ed_mul c a (ed_mul c b P).
Proof.
  intros A B HP. revert a A. apply natlike_ind; [reflexivity|]. intros a A IH.
  replace (Z.succ a * b) with (b + a * b) by lia. rewrite mul_add, IH, mul_succ by (nia || assumption). reflexivity.
Qed.
Lemma mul_mod_order k P l : 0 < l -> 0 <= k -> on_ed c P -> ed_mul c l P = ed_zero -> ed_mul c (k mod l) P = ed_mul c k P.
Proof.
  intros L K HP H. pose proof (Z.mod_pos_bound k l L). pose proof (Z.div_pos k l K L). rewrite (Z.div_mod k l) at 2 by lia.
  rewrite mul_add, (Z.mul_comm l), mul_mul, H, mul_zero by (nia || assumption). symmetry. apply add_0_l. now apply mul_closed.
Qed.

Local Notation B := (ed_b c).
Local Notation l := (ed_l c).
Lemma l_pos : 1 < l. Proof. pose proof (eo_l c ok) as H. apply prime_ge_2 in H. lia. Qed.
Lemma base_mod k : 0 <= k -> ed_mul c (k mod l) B = ed_mul c k B.
Proof. intros K. pose proof l_pos. apply mul_mod_order; auto; [lia|apply (eo_b c ok)|apply (eo_lb c ok)]. Qed.

(** The base point has order exactly l. *)
Lemma base_order k : 0 <= k < l -> ed_mul c k B = ed_zero -> k = 0.
Proof.
  intros K H. destruct (Z.eq_dec k 0) as [|N]; [assumption|]. exfalso. apply (eo_b0 c ok).
  assert (R : rel_prime k l) by (apply rel_prime_le_prime; [apply (eo_l c ok)|lia]).
  apply rel_prime_bezout in R. destruct R as [u v UV]. pose proof l_pos.
  assert (U : ((u mod l) * k) mod l = 1). { rewrite Zmult_mod_idemp_l. replace (u * k) with (1 + (- v) * l) by lia. rewrite Z_mod_plus_full. apply Z.mod_small. lia. }
  pose proof (Z.mod_pos_bound u l ltac:(lia)).
  rewrite <- (mul_1 B (eo_b c ok)), <- U, base_mod by nia. rewrite mul_mul, H by (try lia; apply (eo_b c ok)). apply mul_zero. lia.
Qed.
Lemma base_inj a b : 0 <= a < l -> 0 <= b < l -> ed_mul c a B = ed_mul c b B -> a = b.
Proof.
  assert (W : forall a b, 0 <= a <= b -> b < l -> ed_mul c a B = ed_mul c b B -> a = b).
  { intros x y X Y H. assert (y - x = 0); [|lia]. apply base_order; [lia|].
    apply (add_cancel_r _ _ (ed_mul c x B)); try (apply mul_closed; [lia|apply (eo_b c ok)]); [exact zero_on|].
    rewrite <- mul_add by (try lia; apply (eo_b c ok)). replace (y - x + x) with y by lia. rewrite <- H. symmetry. apply add_0_l.
    apply mul_closed; [lia|apply (eo_b c ok)]. }
  intros A Bb H. destruct (Z_le_gt_dec a b); [apply W; auto; lia|symmetry; apply W; auto; lia].
Qed.

(** Encodings determine the point. *)
Lemma enc_inj P Q : on_ed c P -> on_ed c Q -> ed_enc P = ed_enc Q -> P = Q.
Proof.
  destruct P as [x1 y1], Q as [x2 y2]. intros HP HQ H. pose proof HP as (X1 & Y1 & C1). pose proof HQ as (X2 & Y2 & C2).
  pose proof (eo_255 c ok) as P255. pose proof (eo_p2 c ok) as P2. unfold ed_enc in H.
  assert (YX : y1 = y2 /\ x1 mod 2 = x2 mod 2).
  { pose proof (Z.mod_pos_bound x1 2 ltac:(lia)). pose proof (Z.mod_pos_bound x2 2 ltac:(lia)).
    apply (f_equal le_val) in H. rewrite !le_val_le_bytes in H. change (256 ^ Z.of_nat 32) with (2 * 2 ^ 255) in H.
    apply (top_bit (2 ^ 255)); auto; split; try tauto; eapply Z.lt_trans; try exact P255; tauto. }
  clear P255.
  destruct YX as [<- PAR]. f_equal.
  assert (S : (x1 - x2) * (x1 + x2) * (1 + d * y1 * y1) == 0).
  { change (y1 * y1 - x1 * x1 == 1 + d * x1 * x1 * y1 * y1) in C1. change (y1 * y1 - x2 * x2 == 1 + d * x2 * x2 * y1 * y1) in C2.
    transitivity ((y1 * y1 - x2 * x2 - (1 + d * x2 * x2 * y1 * y1)) - (y1 * y1 - x1 * x1 - (1 + d * x1 * x1 * y1 * y1))); [apply feq_ring; ring|].
    rewrite C1, C2. apply feq_ring. ring. }
  assert (N : ~ 1 + d * y1 * y1 == 0).
  { destruct (eo_i c ok) as (i & Hi). assert (I : i * i + 1 == 0) by (unfold feq; rewrite Hi, Z.mod_0_l; [reflexivity|lia]).
    destruct (feq_dec p y1 0) as [Y0|Y0]; [rewrite Y0; intros Q; apply one_nz; rewrite <- Q; apply feq_ring; ring|].
    intros Q. apply (square_ratio i y1 Y0). apply feq_sub. transitivity (i * i + 1 - (1 + d * y1 * y1)); [apply feq_ring; ring|]. rewrite I, Q. reflexivity. }
  rewrite Z.mul_comm in S. apply zero_cancel in S; [|exact N].
  apply (fintegral p pp) in S. destruct S as [S|S]; [apply (feq_small p); auto; now apply feq_sub|].
  apply feq_0_div in S; [|lia]. destruct S as [q Q].
  assert (OD : p mod 2 = 1).
  { destruct (Z.mod_pos_bound p 2 ltac:(lia)). destruct (Z.eq_dec (p mod 2) 0) as [Z0|]; [|lia]. apply Z.mod_divide in Z0; [|lia].
    clear - Z0 P2 pp. destruct (prime_divisors p pp 2 Z0) as [|[|[|]]]; lia. }
  exact (parity_case p x1 x2 q P2 X1 X2 Q OD PAR).
Qed.

Lemma enc_len P : zlen (ed_enc P) = 32.
Proof. destruct P as [x y]. unfold ed_enc, zlen. rewrite le_bytes_length. reflexivity. Qed.
End Ed.
