(** A multiple of the base point of a curve of S_Ed, by a chain of doublings and additions whose results are given
    and checked against the equations of the addition; and a number that is not a square.  No part of /repo is
    modelled. *)
Require Import Verif.Base Verif.L_Base Verif.L_Mont Verif.L_Fermat Verif.L_Pock.
Require Import ZifyNat Znumtheory Setoid Morphisms Zdiv.
Require Import Verif.S_Curve Verif.L_Fp Verif.S_Ed Verif.L_Ed.

(** Euler's criterion, one way. *)
Lemma not_square p m e v : prime p -> p - 1 = 2 * e -> 0 < e -> feq p (m ^ e) v -> ~ feq p v 1 -> ~ feq p v 0 ->
  forall a, ~ feq p (a * a) m.
Proof.
  intros P PE E0 V N1 N0 a A. pose proof (prime_ge_2 _ P) as P2.
  assert (PW : feq p ((a * a) ^ e) (m ^ e)).
  { apply feq_sub, feq_0_div; [lia|]. apply cong_pow. apply feq_0_div; [lia|]. apply (proj1 (feq_sub p _ _)). exact A. }
  destruct (Zdivide_dec p a) as [D|D].
  - apply N0. rewrite <- V, <- PW. apply feq_0_div; [lia|]. replace e with (Z.succ (e - 1)) by lia. rewrite Z.pow_succ_r by lia.
    apply Z.divide_mul_l, Z.divide_mul_l. exact D.
  - apply N1. rewrite <- V, <- PW. pose proof (fermat p a P D) as F. rewrite PE, Z.pow_mul_r in F by lia.
    replace (a ^ 2) with (a * a) in F by (change 2 with (Z.succ 1); rewrite Z.pow_succ_r, Z.pow_1_r by lia; reflexivity).
    apply feq_sub, feq_0_div; [lia|]. exact F.
Qed.

Section EdChain.
Variable c : edcurve.
Hypothesis ok : ed_ok c.
Local Notation p := (ed_p c).
Local Notation d := (ed_d c).
Local Infix "==" := (feq p) (at level 70).
Let pp : prime p := eo_p c ok.
Variable mulp : Z -> Z.
Hypothesis HM : forall q, mulp q = q * p.

Lemma ed_mulp0 q : mulp q == 0.
Proof. apply feq_0_div; [pose proof (p_pos c ok); lia|]. rewrite HM. now exists q. Qed.

(** The sum is the only pair in range that meets the equations. *)
Lemma sum_is x1 y1 x2 y2 x3 y3 : on_ed c (x1, y1) -> on_ed c (x2, y2) -> 0 <= x3 < p -> 0 <= y3 < p ->
  x3 * (1 + d * x1 * x2 * y1 * y2) == x1 * y2 + x2 * y1 ->
  y3 * (1 - d * x1 * x2 * y1 * y2) == y1 * y2 + x1 * x2 -> ed_add c (x1, y1) (x2, y2) = (x3, y3).
Proof.
  intros A B RX RY EX EY. destruct (add_spec c ok x1 y1 x2 y2 A B) as (u & v & -> & RU & RV & EU & EV).
  destruct (den_nz c ok x1 y1 x2 y2 (on_E c _ _ A) (on_E c _ _ B)) as [P M].
  f_equal; apply (feq_small p); auto.
  - apply (fcancel p pp _ _ _ P). now rewrite EU, EX.
  - apply (fcancel p pp _ _ _ M). now rewrite EV, EY.
Qed.

(** One step: 0 to double, 1 to add the base point, anything else to subtract it; the sum; the quotients met in
    reducing the two products or squares, the product of those and its multiple by d, and in the two equations.
    Spec only. *)
Definition estep := (Z * Z * Z * Z * Z * Z * Z * Z * Z)%type.
(** Spec only. *)
Definition einr (x : Z) : bool := (0 <=? x) && (x <? p).
(** The run from the point (x, y), which is k times the base point.  Spec only. *)
Fixpoint erun (gx gy : Z) (ss : list estep) (k x y : Z) : option (Z * Z * Z) :=
  match ss with
  | [] => Some (k, x, y)
  | (kind, x3, y3, qa, qb, qt, qd, q1, q2) :: ss =>
      let k' := if kind =? 0 then 2 * k else if kind =? 1 then k + 1 else k - 1 in
      if einr x3 && einr y3 && (0 <? k') &&
        (if kind =? 0 then
           let A := Z.square x - mulp qa in
           let B := Z.square y - mulp qb in
           (x3 * (B - A) - 2 * (x * y) =? mulp q1) && (y3 * (2 - B + A) - B - A =? mulp q2)
         else
           let x2 := if kind =? 1 then gx else p - gx in
           let A := x * x2 - mulp qa in
           let B := y * gy - mulp qb in
           let t := d * (A * B - mulp qt) - mulp qd in
           (x3 * (1 + t) - x * gy - x2 * y =? mulp q1) && (y3 * (1 - t) - B - A =? mulp q2))
      then erun gx gy ss k' x3 y3 else None
  end.

Lemma esq q a : a - mulp q == a.
Proof. transitivity (a - 0); [|apply feq_ring; ring]. rewrite <- (ed_mulp0 q). reflexivity. Qed.
Lemma eeq q a e : a - e = mulp q -> a == e.
Proof. intros H. apply feq_sub. rewrite H. apply ed_mulp0. Qed.

Lemma neg_sub gx gy k : on_ed c (gx, gy) -> 0 < k ->
  ed_add c (ed_mul c k (gx, gy)) (ed_neg c (gx, gy)) = ed_mul c (k - 1) (gx, gy).
Proof.
  intros G K. replace k with (Z.succ (k - 1)) at 1 by lia. rewrite mul_succ by (assumption || lia).
  rewrite (L_Ed.add_comm c (gx, gy)), <- (L_Ed.add_assoc c ok) by (auto using neg_on, mul_closed; apply mul_closed; auto; lia).
  rewrite (L_Ed.add_neg c ok), (add_0_r c ok) by (auto; apply mul_closed; auto; lia). reflexivity.
Qed.

Lemma erun_ok gx gy (HG : on_ed c (gx, gy)) (GX : 0 < gx) : forall ss k x y k' x' y', 0 < k ->
  ed_mul c k (gx, gy) = (x, y) -> erun gx gy ss k x y = Some (k', x', y') -> ed_mul c k' (gx, gy) = (x', y').
Proof.
  induction ss as [|[[[[[[[[kind x3] y3] qa] qb] qt] qd] q1] q2] ss IH]; intros k x y k' x' y' K0 K R; cbn [erun] in R; cbv zeta in R.
  { injection R as <- <- <-. exact K. }
  match type of R with (if ?t then _ else _) = _ => destruct t eqn:T; [|discriminate R] end.
  apply andb_true_iff in T as [RX T]. apply andb_true_iff in RX as [RX KP]. apply andb_true_iff in RX as [RX RY]. apply Z.ltb_lt in KP. unfold einr in RX, RY.
  assert (HP : on_ed c (x, y)) by (rewrite <- K; apply (mul_closed c ok); [lia|assumption]).
  pose proof (on_E c x y HP) as EP.
  destruct (Z.eqb_spec kind 0) as [->|NK].
  - refine (IH _ _ _ _ _ _ _ _ R); [lia|]. clear IH R. cbv zeta in T. rewrite !Z.square_spec in T.
    apply andb_true_iff in T as [T1 T2]. apply Z.eqb_eq in T1, T2.
    replace (2 * k) with (k + k) by lia. rewrite (mul_add c ok), K by (assumption || lia).
    assert (T : d * x * x * y * y == y * y - x * x - 1) by (apply feq_sub; exact EP).
    apply sum_is; try assumption; [lia|lia| |].
    + rewrite T. apply eeq in T1. rewrite !esq in T1. transitivity (x3 * (y * y - x * x)); [apply feq_ring; ring|]. rewrite T1. apply feq_ring; ring.
    + rewrite T. set (B := y * y - mulp qb) in *. set (A := x * x - mulp qa) in *.
      assert (T2' : y3 * (2 - B + A) - (B + A) = mulp q2) by lia. apply eeq in T2'.
      assert (EA : A == x * x) by apply esq. assert (EB : B == y * y) by apply esq. rewrite EA, EB in T2'.
      transitivity (y3 * (2 - y * y + x * x)); [apply feq_ring; ring|]. rewrite T2'. apply feq_ring; ring.
  - set (x2 := if kind =? 1 then gx else p - gx) in *. cbv zeta in T. apply andb_true_iff in T as [T1 T2]. apply Z.eqb_eq in T1, T2.
    set (A := x * x2 - mulp qa) in *. set (B := y * gy - mulp qb) in *. set (t := d * (A * B - mulp qt) - mulp qd) in *.
    assert (EA : A == x * x2) by apply esq. assert (EB : B == y * gy) by apply esq.
    assert (Et : t == d * x * x2 * y * gy).
    { unfold t. rewrite esq. rewrite (esq qt). rewrite EA, EB. apply feq_ring. ring. }
    assert (SUM : on_ed c (x2, gy) -> ed_add c (x, y) (x2, gy) = (x3, y3)).
    { intros H2. apply sum_is; try assumption; [lia|lia| |]; rewrite <- Et.
      - apply (eeq q1). lia.
      - transitivity (B + A); [apply (eeq q2); lia|]. rewrite EA, EB. reflexivity. }
    destruct (Z.eqb_spec kind 1) as [->|N1].
    + refine (IH _ _ _ _ _ _ _ _ R); [lia|]. clear IH R. rewrite (mul_add c ok), K, (mul_1 c ok) by (assumption || lia). apply SUM. exact HG.
    + assert (NG : (x2, gy) = ed_neg c (gx, gy)).
      { cbn [ed_neg]. f_equal. destruct HG as (RG & _). unfold x2. replace (- gx) with (p - gx + (-1) * p) by lia.
        rewrite Z.mod_add by lia. rewrite Z.mod_small; lia. }
      refine (IH _ _ _ _ _ _ _ _ R); [exact KP|]. clear IH R.
      rewrite <- neg_sub, K, <- NG by assumption. apply SUM. rewrite NG. now apply (neg_on c ok).
Qed.

(** (l-1) B = -B, so l B is the neutral point. *)
Lemma ed_order l gx gy ss : on_ed c (gx, gy) -> 0 < gx -> 1 < l -> erun gx gy ss 1 gx gy = Some (l - 1, p - gx, gy) ->
  ed_mul c l (gx, gy) = ed_zero.
Proof.
  intros HG GX L R. pose proof (erun_ok gx gy HG GX ss 1 gx gy _ _ _ eq_refl (mul_1 c ok _ HG) R) as M.
  replace l with (1 + (l - 1)) by lia. rewrite (mul_add c ok), M, (mul_1 c ok) by (assumption || lia).
  assert (NG : (p - gx, gy) = ed_neg c (gx, gy)).
  { cbn [ed_neg]. f_equal. destruct HG as (RG & _). replace (- gx) with (p - gx + (-1) * p) by lia.
    rewrite Z.mod_add by lia. rewrite Z.mod_small; lia. }
  rewrite NG. now apply (L_Ed.add_neg c ok).
Qed.
End EdChain.

(** The curve with the point (0, -1), of order two, for base point: [ed_ok] for it needs no more than the field and d,
    and the addition is the same. *)
Lemma two_base p d : 2 < p -> ed_mul (EdCurve p d 2 (0, p - 1)) 2 (0, p - 1) = ed_zero.
Proof.
  intros P. assert (I : inv_mod p 1 = 1).
  { unfold inv_mod. rewrite Zpow_facts.Zpow_mod_correct by lia. rewrite Z.pow_1_l by lia. apply Z.mod_small. lia. }
  assert (A : forall y, 0 <= y < p -> ed_add (EdCurve p d 2 (0, p - 1)) (0, p - 1) (0, y) = (0, ((p - 1) * y) mod p)).
  { intros y Y. unfold ed_add. cbn [ed_p ed_d]. replace (1 + d * 0 * 0 * (p - 1) * y) with 1 by ring.
    replace (1 - d * 0 * 0 * (p - 1) * y) with 1 by ring. rewrite I. f_equal; f_equal; ring. }
  change (ed_mul (EdCurve p d 2 (0, p - 1)) 2 (0, p - 1)) with
    (ed_add (EdCurve p d 2 (0, p - 1)) (0, p - 1) (ed_add (EdCurve p d 2 (0, p - 1)) (0, p - 1) (0, 1))).
  rewrite (A 1), Z.mul_1_r, Z.mod_small, A by lia. unfold ed_zero. f_equal.
  replace ((p - 1) * (p - 1)) with (1 + (p - 2) * p) by ring. rewrite Z.mod_add, Z.mod_small by lia. reflexivity.
Qed.

Lemma two_ok p d : prime p -> 2 < p -> p < 2 ^ 255 -> (exists i, (i * i + 1) mod p = 0) -> (forall a, (a * a) mod p <> d mod p) ->
  ed_ok (EdCurve p d 2 (0, p - 1)).
Proof.
  intros P P2 P255 I D. constructor; cbn [ed_p ed_d ed_l ed_b]; try assumption.
  - clear P255. unfold on_ed. cbn [ed_p ed_d]. split; [lia|]. split; [lia|]. replace ((p - 1) * (p - 1) - 0 * 0) with (1 + (p - 2) * p) by ring.
    rewrite Z.mod_add by lia. f_equal. ring.
  - clear P255. unfold ed_zero. intros E. injection E as E. lia.
  - exact prime_2.
  - reflexivity.
  - apply two_base. exact P2.
Qed.

(** Multiples depend on the field and on d alone. *)
Lemma mul_same p d l b l' b' k P Q : P = Q -> ed_mul (EdCurve p d l b) k P = ed_zero -> ed_mul (EdCurve p d l' b') k Q = ed_zero.
Proof. intros <-. exact (fun H => H). Qed.
