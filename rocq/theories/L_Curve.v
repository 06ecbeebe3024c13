(** Chord-and-tangent addition on a curve with a [curve_group]: the facts of
    L_Weier restated, and what follows from the order of the points. *)
Require Import ZArith Znumtheory Zpow_facts Field Setoid Morphisms Lia Zdiv.
Require Import Verif.S_Curve Verif.L_Fp.
Require Verif.L_Weier.
Local Open Scope Z_scope.

Section Curve.
Variable c : curve.
Hypothesis cg : curve_group c.
Notation p := (c_p c).
Notation b := (c_b c).
Local Infix "==" := (feq p) (at level 70).

Let pp : prime p := cg_p c cg.
Lemma pgt : 3 < p. Proof. apply cg_p3, cg. Qed.

Local Instance finv_c : Proper (feq p ==> feq p) (inv_mod p) := finv_m p pp.
Local Instance fdiv_c : Proper (feq p ==> feq p ==> feq p) (fdiv p) := fdiv_m p pp.
Add Field FpC : (fft p pp) (setoid (feq_equiv p) (feqe p), morphism (fmorph p), constants [Zcst]).

Let assoc := L_Weier.add_assoc c pp pgt (cg_ns c cg).

Lemma two_nz : ~ 2 == 0.
Proof. exact (L_Weier.two_nz c pgt). Qed.
Lemma modp_range x : 0 <= x mod p < p.
Proof. exact (L_Weier.modp_range c pgt x). Qed.
Lemma third_on_curve l x1 y1 x2 :
  on_curve c (Some (x1, y1)) ->
  l * (2 * y1 + l * (x2 - x1)) == x1 * x1 + x1 * x2 + x2 * x2 - 3 ->
  on_curve c (pt_third p l x1 y1 x2).
Proof. exact (L_Weier.third_on_curve c pp pgt l x1 y1 x2). Qed.
(** *** the slope *)
Lemma chord_slope x1 y1 x2 y2 :
  on_curve c (Some (x1, y1)) -> on_curve c (Some (x2, y2)) -> x1 <> x2 ->
  let l := (y2 - y1) * inv_mod p (x2 - x1) in
  ~ x2 - x1 == 0 /\ l * (x2 - x1) == y2 - y1 /\
  l * (2 * y1 + l * (x2 - x1)) == x1 * x1 + x1 * x2 + x2 * x2 - 3.
Proof. exact (L_Weier.chord_slope c pp x1 y1 x2 y2). Qed.
Lemma same_x x y1 y2 : on_curve c (Some (x, y1)) -> on_curve c (Some (x, y2)) ->
  (y1 + y2) mod p <> 0 -> y1 = y2 /\ ~ 2 * y1 == 0.
Proof. exact (L_Weier.same_x c pp pgt x y1 y2). Qed.
Lemma tangent_slope x y : ~ 2 * y == 0 ->
  let l := (3 * x * x - 3) * inv_mod p (2 * y) in
  l * (2 * y) == 3 * x * x - 3 /\
  l * (2 * y + l * (x - x)) == x * x + x * x + x * x - 3.
Proof. exact (L_Weier.tangent_slope c pp x y). Qed.
Lemma add_closed P Q : on_curve c P -> on_curve c Q -> on_curve c (pt_add c P Q).
Proof. exact (L_Weier.add_closed c pp pgt P Q). Qed.
Lemma pt_eq x y x' y' : x == x' -> y == y' -> Some (x mod p, y mod p) = Some (x' mod p, y' mod p).
Proof. exact (L_Weier.pt_eq c x y x' y'). Qed.
Lemma add_comm P Q : on_curve c P -> on_curve c Q -> pt_add c P Q = pt_add c Q P.
Proof. exact (L_Weier.add_comm c pp pgt P Q). Qed.
Lemma neg_on_curve P : on_curve c P -> on_curve c (pt_neg c P).
Proof. exact (L_Weier.neg_on_curve c pp pgt P). Qed.
Lemma neg_neg P : on_curve c P -> pt_neg c (pt_neg c P) = P.
Proof. exact (L_Weier.neg_neg c pp pgt P). Qed.
Lemma add_neg P : on_curve c P -> pt_add c P (pt_neg c P) = None.
Proof. exact (L_Weier.add_neg c pp pgt P). Qed.
Lemma add_none_r P : pt_add c P None = P.
Proof. exact (L_Weier.add_none_r c P). Qed.
(** *** multiples *)
Lemma iter_closed P m : on_curve c P -> on_curve c (Pos.iter (pt_add c P) None m).
Proof. exact (L_Weier.iter_closed c pp pgt P m). Qed.
Lemma mul_closed k P : on_curve c P -> on_curve c (pt_mul c k P).
Proof. exact (L_Weier.mul_closed c pp pgt k P). Qed.
Lemma mul_succ_pos k P : 0 <= k -> pt_mul c (k + 1) P = pt_add c P (pt_mul c k P).
Proof. exact (L_Weier.mul_succ_pos c pp pgt assoc k P). Qed.
Lemma mul_neg_pos k P : 0 <= k -> on_curve c P -> pt_mul c (- k) P = pt_mul c k (pt_neg c P).
Proof. exact (L_Weier.mul_neg_pos c pp pgt assoc k P). Qed.
Lemma add_cancel_neg P Q : on_curve c P -> on_curve c Q -> pt_add c (pt_neg c P) (pt_add c P Q) = Q.
Proof. exact (L_Weier.add_cancel_neg c pp pgt assoc P Q). Qed.
Lemma mul_succ k P : on_curve c P -> pt_mul c (k + 1) P = pt_add c P (pt_mul c k P).
Proof. exact (L_Weier.mul_succ c pp pgt assoc k P). Qed.
Lemma mul_pred k P : on_curve c P -> pt_mul c (k - 1) P = pt_add c (pt_neg c P) (pt_mul c k P).
Proof. exact (L_Weier.mul_pred c pp pgt assoc k P). Qed.
Lemma mul_add a k P : on_curve c P -> pt_mul c (a + k) P = pt_add c (pt_mul c a P) (pt_mul c k P).
Proof. exact (L_Weier.mul_add c pp pgt assoc a k P). Qed.
Lemma mul_0 P : pt_mul c 0 P = None.
Proof. exact (L_Weier.mul_0 c P). Qed.
Lemma mul_1 P : pt_mul c 1 P = P.
Proof. exact (L_Weier.mul_1 c P). Qed.
Lemma mul_none k : pt_mul c k None = None.
Proof. exact (L_Weier.mul_none c k). Qed.
Lemma mul_mul a k P : on_curve c P -> pt_mul c (a * k) P = pt_mul c a (pt_mul c k P).
Proof. exact (L_Weier.mul_mul c pp pgt assoc a k P). Qed.
Lemma mul_opp k P : on_curve c P -> pt_mul c (- k) P = pt_neg c (pt_mul c k P).
Proof. exact (L_Weier.mul_opp c pp pgt assoc k P). Qed.

Lemma n_gt1 : 1 < c_n c. Proof. destruct (cg_n c cg); lia. Qed.

Lemma mul_n_multiple k P : on_curve c P -> pt_mul c (k * c_n c) P = None.
Proof. intros HP. rewrite mul_mul by assumption. rewrite (cg_order c cg) by assumption. apply mul_none. Qed.

Lemma mul_mod k P : on_curve c P -> pt_mul c (k mod c_n c) P = pt_mul c k P.
Proof.
  intros HP. pose proof n_gt1.
  rewrite (Z.div_mod k (c_n c)) at 2 by lia. rewrite Z.add_comm, mul_add by assumption.
  rewrite Z.mul_comm, mul_n_multiple by assumption. symmetry. apply add_none_r.
Qed.

Lemma mul_eq_mod a k P : on_curve c P -> a mod c_n c = k mod c_n c -> pt_mul c a P = pt_mul c k P.
Proof. intros HP E. rewrite <- (mul_mod a), <- (mul_mod k), E by assumption. reflexivity. Qed.

Lemma mul_none_iff k P : on_curve c P -> P <> None -> pt_mul c k P = None -> (c_n c | k).
Proof.
  intros HP NP E. pose proof n_gt1.
  destruct (Zdivide_dec (c_n c) k) as [D|D]; [exact D|]. exfalso. apply NP.
  assert (R : rel_prime (c_n c) k) by (apply prime_rel_prime; [apply cg_n, cg|exact D]).
  apply rel_prime_bezout in R. destruct R as [u v R].
  rewrite <- (mul_1 P), <- R, mul_add, mul_n_multiple by assumption.
  rewrite mul_mul, E by assumption. rewrite mul_none. reflexivity.
Qed.

Lemma mul_inj a k P : on_curve c P -> P <> None -> pt_mul c a P = pt_mul c k P -> (c_n c | a - k).
Proof.
  intros HP NP E. apply (mul_none_iff _ P HP NP). replace (a - k) with (a + - k) by lia.
  rewrite mul_add, mul_opp, E by assumption. apply add_neg. now apply mul_closed.
Qed.

Lemma origin_off : ~ on_curve c (Some (0, 0)).
Proof.
  intros (_ & _ & E). pose proof (cg_b c cg). change (0 mod p = b mod p) in E. rewrite Z.mod_0_l, (Z.mod_small b) in E by lia. lia.
Qed.
End Curve.
