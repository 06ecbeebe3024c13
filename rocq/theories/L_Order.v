(** The order of the points of y^2 = x^3 - 3x + b modulo a prime, from a base point of large prime order: the
    curve has at most 2p + 1 points, so when 3n > 2p + 1 and no point has order two every point has order
    dividing n.  Then two checkers: one for a multiple of the base point, one for the cubic having no root.
    No part of /repo is modelled. *)
Require Import Verif.Base Verif.L_Base Verif.L_Mont Verif.L_Fermat Verif.L_Pock.
Require Import ZifyNat Znumtheory Field Setoid Morphisms Zdiv.
Require Import Verif.S_Curve Verif.L_Fp Verif.L_Weier Verif.L_Ed.

Lemma pigeons (g : Z -> Z) N M : 0 <= N -> 0 <= M -> (forall k, 0 <= k < N -> 0 <= g k < M) ->
  (forall j k, 0 <= j < N -> 0 <= k < N -> g j = g k -> j = k) -> N <= M.
Proof.
  intros N0 M0 R I. set (l := map g (map Z.of_nat (seq 0 (Z.to_nat N)))).
  assert (H : (length l <= length (map Z.of_nat (seq 0 (Z.to_nat M))))%nat).
  { apply NoDup_incl_length.
    - unfold l. rewrite map_map.
      assert (G : forall n s, (s + n <= Z.to_nat N)%nat -> NoDup (map (fun x => g (Z.of_nat x)) (seq s n))).
      { induction n as [|n IH]; intros s S; cbn; constructor; [|apply IH; lia].
        intros X. apply in_map_iff in X as (j & E & J). apply in_seq in J. apply I in E; lia. }
      apply G. lia.
    - intros x X. unfold l in X. rewrite map_map in X. apply in_map_iff in X as (j & <- & J). apply in_seq in J.
      specialize (R (Z.of_nat j) ltac:(lia)). apply in_map_iff. exists (Z.to_nat (g (Z.of_nat j))). split; [lia|]. apply in_seq. lia. }
  unfold l in H. rewrite !map_length, !seq_length in H. lia.
Qed.

Section Order.
Variable c : curve.
Notation p := (c_p c).
Notation b := (c_b c).
Notation n := (c_n c).
Local Infix "==" := (feq p) (at level 70).
Hypothesis pp : prime p.
Hypothesis p3 : 3 < p.
Hypothesis ns : ~ b * b == 4.
Let assoc := L_Weier.add_assoc c pp p3 ns.

Local Instance finv_o : Proper (feq p ==> feq p) (inv_mod p) := finv_m p pp.
Local Instance fdiv_o : Proper (feq p ==> feq p ==> feq p) (fdiv p) := fdiv_m p pp.
Add Field FpO : (fft p pp) (setoid (feq_equiv p) (feqe p), morphism (fmorph p), constants [Zcst]).

(** A number for each point.  Spec only. *)
Definition code (P : point) : Z := match P with None => 2 * p | Some (x, y) => 2 * x + y mod 2 end.

Lemma code_range P : on_curve c P -> 0 <= code P < 2 * p + 1.
Proof. destruct P as [[x y]|]; cbn [code on_curve]; [|intros _; lia]. intros (X & Y & _). pose proof (Z.mod_pos_bound y 2 eq_refl). lia. Qed.

Lemma p_odd : p mod 2 = 1.
Proof.
  destruct (Z.eq_dec (p mod 2) 0) as [E|E]; [|pose proof (Z.mod_pos_bound p 2 eq_refl); lia].
  exfalso. assert (2 = p); [|lia]. apply prime_div_prime; [exact prime_2|exact pp|]. apply Z.mod_divide; lia.
Qed.

Lemma code_inj P Q : on_curve c P -> on_curve c Q -> code P = code Q -> P = Q.
Proof.
  destruct P as [[x y]|], Q as [[u v]|]; cbn [code]; intros HP HQ E; try reflexivity.
  - pose proof (Z.mod_pos_bound y 2 eq_refl). pose proof (Z.mod_pos_bound v 2 eq_refl).
    assert (x = u /\ y mod 2 = v mod 2) as [-> PAR] by lia. f_equal. f_equal.
    pose proof (on_eq c u y HP) as E1. pose proof (on_eq c u v HQ) as E2. destruct HP as (_ & Y & _), HQ as (_ & V & _).
    assert (D : (y - v) * (y + v) == 0). { transitivity (y * y - v * v); [ring|]. rewrite E1, E2. ring. }
    apply (fintegral p pp) in D as [D|D]; [apply (feq_small p); auto; now apply feq_sub|].
    apply feq_0_div in D; [|lia]. destruct D as [k K]. apply (L_Ed.parity_case p y v k); auto; [lia|]. exact p_odd.
  - destruct HP as (X & _). pose proof (Z.mod_pos_bound y 2 eq_refl). lia.
  - destruct HQ as (X & _). pose proof (Z.mod_pos_bound v 2 eq_refl). lia.
Qed.

Lemma cancel_r X Y Z : on_curve c X -> on_curve c Y -> on_curve c Z -> pt_add c X Z = pt_add c Y Z -> X = Y.
Proof.
  intros HX HY HZ E. rewrite <- (L_Weier.add_sub c pp p3 ns X Z), E, (L_Weier.add_sub c pp p3 ns Y Z) by assumption. reflexivity.
Qed.

Lemma mul_diff P Q i i' j j' : on_curve c P -> on_curve c Q ->
  pt_add c (pt_mul c i P) (pt_mul c j Q) = pt_add c (pt_mul c i' P) (pt_mul c j' Q) ->
  pt_mul c (i - i') P = pt_mul c (j' - j) Q.
Proof.
  intros HP HQ E. assert (C : forall k R, on_curve c R -> on_curve c (pt_mul c k R)) by (intros; now apply (L_Weier.mul_closed c pp p3)).
  replace (pt_mul c i P) with (pt_add c (pt_mul c (i - i') P) (pt_mul c i' P)) in E
    by (rewrite <- (L_Weier.mul_add c pp p3 assoc) by assumption; f_equal; lia).
  replace (pt_mul c j' Q) with (pt_add c (pt_mul c (j' - j) Q) (pt_mul c j Q)) in E
    by (rewrite <- (L_Weier.mul_add c pp p3 assoc) by assumption; f_equal; lia).
  rewrite assoc in E by auto. apply cancel_r in E; auto using (L_Weier.add_closed c pp p3).
  rewrite (L_Weier.add_comm c pp p3 (pt_mul c i' P)) in E by auto. apply cancel_r in E; auto.
Qed.

Hypothesis pn : prime n.
Hypothesis g_on : on_curve c (Some (c_g c)).
Hypothesis g_n : pt_mul c n (Some (c_g c)) = None.
Hypothesis disc : exists s, s * s == - (3) * (b * b - 4).
Hypothesis big : 2 * p + 1 < 3 * n.

Lemma g_order m : - n < m < n -> pt_mul c m (Some (c_g c)) = None -> m = 0.
Proof.
  intros M E. destruct (Z.eq_dec m 0) as [|NZ]; [assumption|exfalso]. pose proof (prime_ge_2 _ pn).
  destruct (rel_prime_bezout n m) as [u v UV].
  { apply prime_rel_prime; [assumption|]. intros D. destruct (Z_lt_le_dec m 0); [apply Z.divide_opp_r in D|]; apply Z.divide_pos_le in D; lia. }
  assert (H1 : pt_mul c (u * n + v * m) (Some (c_g c)) = None).
  { rewrite (L_Weier.mul_add c pp p3 assoc), !(L_Weier.mul_mul c pp p3 assoc), g_n, E, !L_Weier.mul_none by assumption. reflexivity. }
  rewrite UV, L_Weier.mul_1 in H1. discriminate H1.
Qed.

(** points of order two, and families of points T + j G *)
Lemma two_mul T : on_curve c T -> pt_mul c 2 T = pt_add c T T.
Proof. intros H. replace 2 with (1 + 1) by lia. rewrite (L_Weier.mul_add c pp p3 assoc), L_Weier.mul_1 by assumption. reflexivity. Qed.

Lemma root_on r : 0 <= r < p -> r * r * r - 3 * r + b == 0 -> on_curve c (Some (r, 0)).
Proof. intros R E. split; [assumption|]. split; [lia|]. symmetry. exact E. Qed.
Lemma root_two r : pt_add c (Some (r, 0)) (Some (r, 0)) = None.
Proof. cbn [pt_add]. rewrite Z.eqb_refl. rewrite Z.mod_0_l by lia. reflexivity. Qed.

Lemma no_cosets T1 T2 : on_curve c T1 -> on_curve c T2 -> pt_add c T1 T1 = None -> pt_add c T2 T2 = None ->
  T1 <> None -> T2 <> None -> T1 = T2.
Proof.
  intros O1 O2 D1 D2 N1 N2. destruct (L_Weier.eq_pt_dec T1 T2) as [E|NE]; [assumption|exfalso].
  pose proof (prime_ge_2 _ pn) as P2. set (G := Some (c_g c)) in *.
  assert (C : forall k R, on_curve c R -> on_curve c (pt_mul c k R)) by (intros; now apply (L_Weier.mul_closed c pp p3)).
  set (T := fun i => if i =? 0 then None else if i =? 1 then T1 else T2).
  assert (OT : forall i, on_curve c (T i)) by (intros i; unfold T; destruct (i =? 0); [exact I|]; destruct (i =? 1); assumption).
  assert (DT : forall i, pt_mul c 2 (T i) = None).
  { intros i. rewrite two_mul by auto. unfold T. destruct (i =? 0); [reflexivity|]; destruct (i =? 1); assumption. }
  assert (TI : forall i j, 0 <= i < 3 -> 0 <= j < 3 -> T i = T j -> i = j).
  { intros i j I J. assert (i = 0 \/ i = 1 \/ i = 2) as [->|[->| ->]] by lia; assert (j = 0 \/ j = 1 \/ j = 2) as [->|[->| ->]] by lia;
    unfold T; cbn; intros E; congruence. }
  set (f := fun k => pt_add c (T (k / n)) (pt_mul c (k mod n) G)).
  assert (HF : forall k, on_curve c (f k)) by (intros k; unfold f; apply (L_Weier.add_closed c pp p3); auto).
  enough (3 * n <= 2 * p + 1) by lia. apply (pigeons (fun k => code (f k))); [lia|lia|intros; apply code_range; auto|].
  intros j k J K E. apply code_inj in E; auto. unfold f in E.
  pose proof (Z.mod_pos_bound j n ltac:(lia)) as MJ. pose proof (Z.mod_pos_bound k n ltac:(lia)) as MK.
  pose proof (Z.div_mod j n ltac:(lia)) as DJ. pose proof (Z.div_mod k n ltac:(lia)) as DK.
  assert (QJ : 0 <= j / n < 3) by (split; [apply Z.div_pos; lia|apply Z.div_lt_upper_bound; lia]).
  assert (QK : 0 <= k / n < 3) by (split; [apply Z.div_pos; lia|apply Z.div_lt_upper_bound; lia]).
  (* doubling removes the T part *)
  assert (DBL : forall i m, pt_mul c 2 (pt_add c (T i) (pt_mul c m G)) = pt_mul c (2 * m) G).
  { intros i m. rewrite two_mul by (apply (L_Weier.add_closed c pp p3); auto).
    rewrite assoc by auto using (L_Weier.add_closed c pp p3).
    rewrite (L_Weier.add_comm c pp p3 (T i) (pt_mul c m G)) by auto.
    rewrite <- (assoc (pt_mul c m G) (T i) (T i)) by auto. rewrite <- (two_mul (T i)), DT by auto. rewrite L_Weier.add_none_r.
    rewrite <- (L_Weier.mul_add c pp p3 assoc) by assumption. f_equal. lia. }
  assert (M : j mod n = k mod n).
  { pose proof (f_equal (pt_mul c 2) E) as E2. rewrite !DBL in E2.
    assert (Z0 : pt_mul c (2 * (j mod n - k mod n)) G = None).
    { replace (2 * (j mod n - k mod n)) with (2 * (j mod n) + - (2 * (k mod n))) by lia.
      rewrite (L_Weier.mul_add c pp p3 assoc), (L_Weier.mul_opp c pp p3 assoc), E2 by assumption. apply (L_Weier.add_neg c pp p3). auto. }
    set (d := j mod n - k mod n) in *. assert (d = 0); [|lia].
    assert (NO : n mod 2 = 1).
    { destruct (Z.eq_dec (n mod 2) 0) as [X|X]; [|pose proof (Z.mod_pos_bound n 2 eq_refl); lia].
      exfalso. assert (2 = n); [|lia]. apply prime_div_prime; [exact prime_2|exact pn|]. apply Z.mod_divide; lia. }
    apply g_order; [lia|].
    replace d with (d * n + - ((n / 2) * (2 * d))) by (pose proof (Z.div_mod n 2 ltac:(lia)); nia).
    rewrite (L_Weier.mul_add c pp p3 assoc), (L_Weier.mul_opp c pp p3 assoc), !(L_Weier.mul_mul c pp p3 assoc _ _ G) by assumption.
    rewrite <- (L_Weier.mul_mul c pp p3 assoc 2 d G), Z0 by assumption. rewrite g_n, !L_Weier.mul_none. reflexivity. }
  rewrite M in E. apply cancel_r in E; auto. apply TI in E; auto. rewrite E, M in DJ. lia.
Qed.

(** A root of the cubic brings another one, since the discriminant is a square; that would be too many points. *)
Lemma no_root x : ~ x * x * x - 3 * x + b == 0.
Proof.
  intros R. destruct disc as [s S]. pose proof (L_Weier.two_nz c p3) as T2.
  assert (T3 : ~ 3 == 0). { unfold feq. rewrite Z.mod_0_l, Z.mod_small by lia. lia. }
  assert (B : b == - (x * x * x - 3 * x)). { transitivity (x * x * x - 3 * x + b - (x * x * x - 3 * x)); [ring|]. rewrite R. ring. }
  assert (NZ : ~ x * x - 1 == 0).
  { intros Z. apply ns. apply feq_sub. rewrite B. transitivity ((x * x - 1) * ((x * x - 1) * (x * x - 4))); [ring|]. rewrite Z. ring. }
  set (i := inv_mod p (x * x - 1)). assert (I : i * (x * x - 1) == 1) by (apply (finv_ok p pp); assumption).
  set (h := inv_mod p 2). assert (H : h * 2 == 1) by (apply (finv_ok p pp); assumption). clearbody i h.
  set (z := s * i).
  assert (Z2 : z * z == - (3) * (x * x - 4)).
  { unfold z. transitivity (s * s * (i * i)); [ring|]. rewrite S, B.
    transitivity (- (3) * (x * x - 4) * ((i * (x * x - 1)) * (i * (x * x - 1)))); [ring|]. rewrite I. ring. }
  clearbody z. set (u := (z - x) * h).
  assert (U2 : 2 * u == z - x). { unfold u. transitivity ((z - x) * (h * 2)); [ring|]. rewrite H. ring. }
  clearbody u.
  assert (RU : u * u * u - 3 * u + b == 0).
  { assert (Q : u * u + x * u + (x * x - 3) == 0).
    { apply (fcancel p pp _ _ (2 * 2)); [now apply (fnz_mul p pp)|].
      transitivity ((2 * u) * (2 * u) + 2 * x * (2 * u) + 4 * (x * x - 3)); [ring|]. rewrite U2.
      transitivity (z * z + 3 * (x * x - 4)); [ring|]. rewrite Z2. ring. }
    rewrite B. transitivity ((u - x) * (u * u + x * u + (x * x - 3))); [ring|]. rewrite Q. ring. }
  assert (NE : ~ u == x).
  { intros E. rewrite E in U2. assert (Z3 : z == 3 * x). { transitivity (z - x + x); [ring|]. rewrite <- U2. ring. }
    rewrite Z3 in Z2. apply NZ. apply (fcancel p pp _ _ (3 * (2 * 2))); [repeat apply (fnz_mul p pp); assumption|].
    transitivity (3 * x * (3 * x) - (- (3) * (x * x - 4))); [ring|]. rewrite Z2. ring. }
  pose proof (Z.mod_pos_bound x p ltac:(lia)) as MX. pose proof (Z.mod_pos_bound u p ltac:(lia)) as MU.
  assert (RX' : (x mod p) * (x mod p) * (x mod p) - 3 * (x mod p) + b == 0) by (rewrite feq_mod; exact R).
  assert (RU' : (u mod p) * (u mod p) * (u mod p) - 3 * (u mod p) + b == 0) by (rewrite feq_mod; exact RU).
  assert (E : Some (u mod p, 0) = Some (x mod p, 0)).
  { apply no_cosets; [apply root_on; assumption|apply root_on; assumption|apply root_two|apply root_two|discriminate|discriminate]. }
  injection E as E. exact (NE E).
Qed.

Lemma two_torsion T : on_curve c T -> pt_add c T T = None -> T = None.
Proof.
  destruct T as [[x y]|]; [|reflexivity]. intros H E. exfalso. cbn [pt_add] in E. rewrite Z.eqb_refl in E.
  destruct (Z.eqb_spec ((y + y) mod p) 0) as [D|D]; [|discriminate E].
  assert (D' : 2 * y == 0) by (unfold feq; rewrite Z.mod_0_l by lia; replace (2 * y) with (y + y) by lia; exact D).
  apply (fintegral p pp) in D' as [D'|D']; [exact (L_Weier.two_nz c p3 D')|]. apply (no_root x).
  rewrite <- (on_eq c x y H), D'. ring.
Qed.

Theorem order_all P : on_curve c P -> pt_mul c n P = None.
Proof.
  intros HP. destruct (L_Weier.eq_pt_dec (pt_mul c n P) None) as [E|NE]; [assumption|exfalso].
  pose proof (prime_ge_2 _ pn) as N2. set (G := Some (c_g c)) in *.
  assert (C : forall k R, on_curve c R -> on_curve c (pt_mul c k R)) by (intros; now apply (L_Weier.mul_closed c pp p3)).
  assert (TOR : forall d m, d = -2 \/ d = -1 \/ d = 1 \/ d = 2 -> pt_mul c d P <> pt_mul c m G).
  { intros d m D E. apply (f_equal (pt_mul c n)) in E. rewrite <- !(L_Weier.mul_mul c pp p3 assoc) in E by assumption.
    rewrite (Z.mul_comm n m), (Z.mul_comm n d), !(L_Weier.mul_mul c pp p3 assoc) in E by assumption.
    rewrite g_n, L_Weier.mul_none in E. set (T := pt_mul c n P) in *. assert (HT : on_curve c T) by (unfold T; auto).
    assert (T2 : pt_mul c 2 T = None -> False).
    { intros E2. apply NE. apply two_torsion; [assumption|]. replace 2 with (1 + 1) in E2 by lia.
      rewrite (L_Weier.mul_add c pp p3 assoc), L_Weier.mul_1 in E2 by assumption. exact E2. }
    destruct D as [->|[->|[->| ->]]].
    - apply T2. change (-2) with (- (2)) in E. rewrite (L_Weier.mul_opp c pp p3 assoc) in E by assumption.
      destruct (pt_mul c 2 T) as [[]|]; [discriminate E|reflexivity].
    - change (-1) with (- (1)) in E. rewrite (L_Weier.mul_opp c pp p3 assoc), L_Weier.mul_1 in E by assumption.
      destruct T as [[]|]; [discriminate E|contradiction].
    - rewrite L_Weier.mul_1 in E. contradiction.
    - contradiction. }
  set (f := fun k => pt_add c (pt_mul c (k / n) P) (pt_mul c (k mod n) G)).
  assert (HF : forall k, on_curve c (f k)) by (intros k; unfold f; apply (L_Weier.add_closed c pp p3); auto).
  enough (3 * n <= 2 * p + 1) by lia. apply (pigeons (fun k => code (f k))); [lia|lia|intros; apply code_range; auto|].
  intros j k J K E. apply code_inj in E; auto. unfold f in E. apply mul_diff in E; auto.
  pose proof (Z.mod_pos_bound j n ltac:(lia)) as MJ. pose proof (Z.mod_pos_bound k n ltac:(lia)) as MK.
  pose proof (Z.div_mod j n ltac:(lia)) as DJ. pose proof (Z.div_mod k n ltac:(lia)) as DK.
  assert (QJ : 0 <= j / n < 3) by (split; [apply Z.div_pos; lia|apply Z.div_lt_upper_bound; lia]).
  assert (QK : 0 <= k / n < 3) by (split; [apply Z.div_pos; lia|apply Z.div_lt_upper_bound; lia]).
  destruct (Z.eq_dec (j / n) (k / n)) as [S|S].
  - rewrite S, Z.sub_diag, L_Weier.mul_0 in E. symmetry in E. apply g_order in E; [|lia]. rewrite S in DJ. lia.
  - exfalso. apply (TOR (j / n - k / n) (k mod n - j mod n)); [lia|exact E].
Qed.

Lemma search (Q : Z -> Prop) (dec : forall k, {Q k} + {~ Q k}) N : {k | 0 <= k < N /\ Q k} + {forall k, 0 <= k < N -> ~ Q k}.
Proof.
  assert (H : forall m, {k | 0 <= k < Z.of_nat m /\ Q k} + {forall k, 0 <= k < Z.of_nat m -> ~ Q k}).
  { induction m as [|m [(k & K & D)|D]]; [right; lia|left; exists k; split; [lia|exact D]|].
    destruct (dec (Z.of_nat m)) as [Y|Y]; [left; exists (Z.of_nat m); split; [lia|exact Y]|right].
    intros k K. destruct (Z.eq_dec k (Z.of_nat m)) as [->|]; [exact Y|apply D; lia]. }
  destruct (H (Z.to_nat N)) as [(k & K & D)|D]; [left; exists k; split; [lia|exact D]|right; intros k K; apply D; lia].
Qed.

(** The base point generates the curve. *)
Theorem cyclic P : on_curve c P -> exists k, 0 <= k < n /\ P = pt_mul c k (Some (c_g c)).
Proof.
  intros HP. pose proof (prime_ge_2 _ pn) as N2. set (G := Some (c_g c)) in *.
  destruct (search (fun k => P = pt_mul c k G) (fun k => L_Weier.eq_pt_dec P (pt_mul c k G)) n) as [(k & K)|NO]; [eauto|exfalso].
  assert (C : forall k R, on_curve c R -> on_curve c (pt_mul c k R)) by (intros; now apply (L_Weier.mul_closed c pp p3)).
  assert (NM : forall m, P <> pt_mul c m G).
  { intros m E. apply (NO (m mod n)); [apply Z.mod_pos_bound; lia|]. rewrite E. rewrite (Z.div_mod m n) at 1 by lia.
    rewrite (L_Weier.mul_add c pp p3 assoc), Z.mul_comm, (L_Weier.mul_mul c pp p3 assoc), g_n, L_Weier.mul_none by assumption. reflexivity. }
  assert (NO2 : n mod 2 = 1).
  { destruct (Z.eq_dec (n mod 2) 0) as [X|X]; [|pose proof (Z.mod_pos_bound n 2 eq_refl); lia].
    exfalso. assert (2 = n); [|lia]. apply prime_div_prime; [exact prime_2|exact pn|]. apply Z.mod_divide; lia. }
  assert (INV : forall d e m, (d * e = 1 \/ d * e = 1 + n) -> pt_mul c d P = pt_mul c m G -> False).
  { intros d e m DE E. apply (f_equal (pt_mul c e)) in E. rewrite <- !(L_Weier.mul_mul c pp p3 assoc), (Z.mul_comm e d) in E by assumption.
    destruct DE as [DE|DE]; rewrite DE in E; [rewrite L_Weier.mul_1 in E; exact (NM _ E)|].
    rewrite (L_Weier.mul_add c pp p3 assoc), L_Weier.mul_1, (order_all P HP), L_Weier.add_none_r in E by assumption.
    exact (NM _ E). }
  set (f := fun k => pt_add c (pt_mul c (k / n) P) (pt_mul c (k mod n) G)).
  assert (HF : forall k, on_curve c (f k)) by (intros k; unfold f; apply (L_Weier.add_closed c pp p3); auto).
  enough (3 * n <= 2 * p + 1) by lia. apply (pigeons (fun k => code (f k))); [lia|lia|intros; apply code_range; auto|].
  intros j k J K E. apply code_inj in E; auto. unfold f in E. apply mul_diff in E; auto.
  pose proof (Z.mod_pos_bound j n ltac:(lia)) as MJ. pose proof (Z.mod_pos_bound k n ltac:(lia)) as MK.
  pose proof (Z.div_mod j n ltac:(lia)) as DJ. pose proof (Z.div_mod k n ltac:(lia)) as DK.
  assert (QJ : 0 <= j / n < 3) by (split; [apply Z.div_pos; lia|apply Z.div_lt_upper_bound; lia]).
  assert (QK : 0 <= k / n < 3) by (split; [apply Z.div_pos; lia|apply Z.div_lt_upper_bound; lia]).
  pose proof (Z.div_mod n 2 ltac:(lia)) as DN.
  assert (j / n - k / n = 0 \/ j / n - k / n = 1 \/ j / n - k / n = -1 \/ j / n - k / n = 2 \/ j / n - k / n = -2) as [S|S] by lia.
  - rewrite S, L_Weier.mul_0 in E. symmetry in E. apply g_order in E; [|lia]. assert (j / n = k / n) as S' by lia. rewrite S' in DJ. lia.
  - exfalso. destruct S as [S|[S|[S|S]]]; rewrite S in E.
    + apply (INV 1 1 _ ltac:(lia) E).
    + apply (INV (-1) (-1) _ ltac:(lia) E).
    + apply (INV 2 (n / 2 + 1) _ ltac:(lia) E).
    + apply (INV (-2) (- (n / 2) - 1) _ ltac:(lia) E).
Qed.
End Order.

(** *** a multiple of the base point, by a chain of doublings and additions of the base point or its opposite *)
Section Chain.
Variable c : curve.
Notation p := (c_p c).
Notation b := (c_b c).
Local Infix "==" := (feq p) (at level 70).
Hypothesis pp : prime p.
Hypothesis p3 : 3 < p.
Hypothesis ns : ~ b * b == 4.
Let assoc := L_Weier.add_assoc c pp p3 ns.
Variable mulp : Z -> Z.
Hypothesis HM : forall q, mulp q = q * p.

Local Instance finv_h : Proper (feq p ==> feq p) (inv_mod p) := finv_m p pp.
Local Instance fdiv_h : Proper (feq p ==> feq p ==> feq p) (fdiv p) := fdiv_m p pp.
Add Field FpH : (fft p pp) (setoid (feq_equiv p) (feqe p), morphism (fmorph p), constants [Zcst]).

(** One step: 0 to double, 1 to add the base point, anything else to subtract it; the slope of the line; the
    three quotients by p met in computing.  Spec only. *)
Definition pstep := (Z * Z * Z * Z * Z)%type.
(** Spec only. *)
Definition inr (x : Z) : bool := (0 <=? x) && (x <? p).
(** The run from the point (x, y), which is k times the base point.  Spec only. *)
Fixpoint prun (gx gy : Z) (ss : list pstep) (k x y : Z) : option (Z * Z * Z) :=
  match ss with
  | [] => Some (k, x, y)
  | (kind, l, q1, q2, q3) :: ss =>
      let x2 := if kind =? 0 then x else gx in
      let y2 := if kind =? 0 then y else if kind =? 1 then gy else p - gy in
      let x3 := Z.square l - x - x2 - mulp q2 in
      let y3 := l * (x - x3) - y - mulp q3 in
      if (if kind =? 0 then (0 <? y) && (2 * (l * y) - 3 * Z.square x + 3 =? mulp q1)
          else negb (x =? x2) && (l * (x2 - x) - (y2 - y) =? mulp q1)) && inr x3 && inr y3
      then prun gx gy ss (if kind =? 0 then 2 * k else if kind =? 1 then k + 1 else k - 1) x3 y3 else None
  end.

Lemma mulp0 q : mulp q == 0.
Proof. apply feq_0_div; [lia|]. rewrite HM. now exists q. Qed.

Lemma third_same l l' x1 y1 x2 : l == l' -> pt_third p l x1 y1 x2 = pt_third p l' x1 y1 x2.
Proof.
  intros E. assert (X : (l * l - x1 - x2) mod p = (l' * l' - x1 - x2) mod p) by (change (l * l - x1 - x2 == l' * l' - x1 - x2); rewrite E; reflexivity).
  unfold pt_third. rewrite X. f_equal. f_equal. set (u := (l' * l' - x1 - x2) mod p). clearbody u.
  change (l * (x1 - u) - y1 == l' * (x1 - u) - y1). rewrite E. reflexivity.
Qed.
Lemma third_val l x1 y1 x2 q2 q3 x3 y3 : x3 = l * l - x1 - x2 - mulp q2 -> y3 = l * (x1 - x3) - y1 - mulp q3 ->
  0 <= x3 < p -> 0 <= y3 < p -> pt_third p l x1 y1 x2 = Some (x3, y3).
Proof.
  intros X Y RX RY. unfold pt_third. assert (E : (l * l - x1 - x2) mod p = x3).
  { replace (l * l - x1 - x2) with (x3 + q2 * p) by (rewrite X, HM; lia). rewrite Z.mod_add by lia. now apply Z.mod_small. }
  rewrite E. f_equal. f_equal. replace (l * (x1 - x3) - y1) with (y3 + q3 * p) by (rewrite Y, HM; lia).
  rewrite Z.mod_add by lia. now apply Z.mod_small.
Qed.

Lemma dbl_ok l q1 x y : on_curve c (Some (x, y)) -> 0 < y -> 2 * (l * y) - 3 * (x * x) + 3 = mulp q1 ->
  pt_add c (Some (x, y)) (Some (x, y)) = pt_third p l x y x.
Proof.
  intros H Y E. destruct H as (RX & RY & H). cbn [pt_add]. rewrite Z.eqb_refl.
  assert (Y0 : ~ y == 0). { unfold feq. rewrite Z.mod_0_l, Z.mod_small by lia. lia. }
  assert (Y2 : ~ 2 * y == 0) by (apply (fnz_mul p pp); [exact (L_Weier.two_nz c p3)|assumption]).
  destruct (Z.eqb_spec ((y + y) mod p) 0) as [D|D].
  { exfalso. apply Y2. unfold feq. rewrite Z.mod_0_l by lia. replace (2 * y) with (y + y) by lia. exact D. }
  apply third_same. destruct (L_Weier.tangent_slope c pp x y Y2) as [T _]. apply (fcancel p pp _ _ _ Y2). rewrite T.
  pose proof (mulp0 q1) as M. rewrite <- E in M. apply feq_sub. rewrite <- M. transitivity (0 - (2 * (l * y) - 3 * (x * x) + 3)); [ring|].
  rewrite M. ring.
Qed.

Lemma chord_ok l q1 x y x2 y2 : on_curve c (Some (x, y)) -> on_curve c (Some (x2, y2)) -> x <> x2 ->
  l * (x2 - x) - (y2 - y) = mulp q1 -> pt_add c (Some (x, y)) (Some (x2, y2)) = pt_third p l x y x2.
Proof.
  intros H1 H2 N E. destruct (L_Weier.chord_slope c pp x y x2 y2 H1 H2 N) as (NZ & T & _). cbn [pt_add].
  destruct (Z.eqb_spec x x2) as [D|_]; [contradiction|]. apply third_same. apply (fcancel p pp _ _ _ NZ). rewrite T.
  pose proof (mulp0 q1) as M. rewrite <- E in M. apply feq_sub. transitivity (0 - (l * (x2 - x) - (y2 - y))); [ring|]. rewrite M. ring.
Qed.

Lemma prun_ok gx gy (HG : on_curve c (Some (gx, gy))) (GY : 0 < gy) : forall ss k x y k' x' y',
  pt_mul c k (Some (gx, gy)) = Some (x, y) -> prun gx gy ss k x y = Some (k', x', y') ->
  pt_mul c k' (Some (gx, gy)) = Some (x', y').
Proof.
  induction ss as [|[[[[kind l] q1] q2] q3] ss IH]; intros k x y k' x' y' K R; cbn [prun] in R.
  { injection R as <- <- <-. exact K. }
  set (x2 := if kind =? 0 then x else gx) in *.
  set (y2 := if kind =? 0 then y else if kind =? 1 then gy else p - gy) in *.
  set (x3 := Z.square l - x - x2 - mulp q2) in *. set (y3 := l * (x - x3) - y - mulp q3) in *.
  match type of R with (if ?t then _ else _) = _ => destruct t eqn:T; [|discriminate R] end.
  apply andb_true_iff in T as [T RY]. apply andb_true_iff in T as [T RX]. unfold inr in RX, RY.
  assert (HP : on_curve c (Some (x, y))) by (rewrite <- K; now apply (L_Weier.mul_closed c pp p3)).
  assert (TH : pt_third p l x y x2 = Some (x3, y3)).
  { apply (third_val l x y x2 q2 q3); [unfold x3; rewrite Z.square_spec; reflexivity|reflexivity|lia|lia]. }
  refine (IH _ _ _ _ _ _ _ R). clear IH R. rewrite <- TH.
  destruct (Z.eqb_spec kind 0) as [->|NK].
  - cbn in x2. apply andb_true_iff in T as [Y T]. rewrite Z.square_spec in T. apply Z.eqb_eq in T. apply Z.ltb_lt in Y.
    replace (2 * k) with (k + k) by lia. rewrite (L_Weier.mul_add c pp p3 assoc), K by assumption.
    apply (dbl_ok l q1); assumption.
  - apply andb_true_iff in T as [NX T]. apply Z.eqb_eq in T.
    assert (x <> x2) by (intros E; rewrite E, Z.eqb_refl in NX; discriminate NX).
    destruct (Z.eqb_spec kind 1) as [->|N1].
    + rewrite (L_Weier.mul_add c pp p3 assoc), K, L_Weier.mul_1 by assumption. apply (chord_ok l q1); assumption.
    + assert (NG : Some (x2, y2) = pt_neg c (Some (gx, gy))).
      { cbn [pt_neg]. f_equal. f_equal. destruct HG as (_ & RG & _). unfold y2.
        replace (- gy) with (p - gy + (-1) * p) by lia. rewrite Z.mod_add by lia. rewrite Z.mod_small; lia. }
      replace (k - 1) with (k + - (1)) by lia. rewrite (L_Weier.mul_add c pp p3 assoc), K by assumption.
      rewrite (L_Weier.mul_opp c pp p3 assoc), L_Weier.mul_1 by assumption. rewrite <- NG.
      apply (chord_ok l q1); try assumption. rewrite NG. now apply (L_Weier.neg_on_curve c pp p3).
Qed.

(** (n-1) G = -G, so n G is the point at infinity. *)
Lemma order_g n gx gy ss : on_curve c (Some (gx, gy)) -> 0 < gy -> prun gx gy ss 1 gx gy = Some (n - 1, gx, p - gy) ->
  pt_mul c n (Some (gx, gy)) = None.
Proof.
  intros HG GY R. pose proof (prun_ok gx gy HG GY ss 1 gx gy _ _ _ (L_Weier.mul_1 c _) R) as M.
  replace n with (1 + (n - 1)) by lia. rewrite (L_Weier.mul_add c pp p3 assoc), M, L_Weier.mul_1 by assumption.
  cbn [pt_add]. rewrite Z.eqb_refl. replace (gy + (p - gy)) with p by lia. rewrite Z.mod_same by lia. reflexivity.
Qed.
End Chain.
