(** R_q is a commutative ring, and decryption recovers the message when the noise is small. *)
Require Import Verif.Base Verif.L_Base Verif.L_Blocks Verif.S_Sha3 Verif.S_MlKem Verif.S_MlKemNoise Verif.L_MlKemEnc Verif.L_MlKem Verif.L_MlKemNtt.
Require Import ZifyNat Setoid Morphisms Ring.
Local Open Scope Z_scope.

(** *** equality of coefficients modulo q (Spec only.) *)
Definition peq (f g : list Z) : Prop := forall i, (i < n256)%nat -> coef f i == coef g i.
Global Instance peqE : Equivalence peq.
Proof. split; [intros f i Hi; reflexivity|intros f g H i Hi; symmetry; auto|intros f g h H K i Hi; etransitivity; eauto]. Qed.
Lemma pol_eq f g : pol f -> pol g -> peq f g -> f = g.
Proof. intros Pf Pg H. apply pol_ext; auto. intros b r Hb Hr. apply H. unfold n256. lia. Qed.
Lemma peq_NTT f g : peq f g -> NTT f = NTT g.
Proof.
  intros H. apply pol_ext; [apply pol_poly|apply pol_poly|]. intros b r Hb Hr. rewrite !coef_NTT by assumption. apply zsum_eqm. intros j Hj.
  rewrite (H (2 * j + r)%nat) by (unfold n256; lia). reflexivity.
Qed.
Lemma peq_poly f : peq (poly (coef f)) f. Proof. intros i Hi. now apply coef_eqm. Qed.
Lemma NTT_inj f g : NTT f = NTT g -> peq f g.
Proof.
  intros H. rewrite <- (peq_poly f), <- (peq_poly g). rewrite <- (NTT_inv_NTT (poly (coef f))), <- (NTT_inv_NTT (poly (coef g))) by apply pol_poly.
  rewrite (peq_NTT _ _ (peq_poly f)), (peq_NTT _ _ (peq_poly g)), H. reflexivity.
Qed.
Global Instance addP : Proper (peq ==> peq ==> peq) poly_add.
Proof. intros f f' H g g' K i Hi. rewrite !coef_add by assumption. now rewrite (H i Hi), (K i Hi). Qed.
Global Instance subP : Proper (peq ==> peq ==> peq) poly_sub.
Proof. intros f f' H g g' K i Hi. rewrite !coef_sub by assumption. now rewrite (H i Hi), (K i Hi). Qed.
Global Instance mulP : Proper (peq ==> peq ==> peq) ring_mul.
Proof. intros f f' H g g' K. apply NTT_inj. rewrite !NTT_mul. now rewrite (peq_NTT f f' H), (peq_NTT g g' K). Qed.
(** (Spec only.) *)
Definition popp (f : list Z) : list Z := poly_sub zero_poly f.
Definition pone : list Z := poly (fun i => if (i =? 0)%nat then 1 else 0).
Global Instance oppP : Proper (peq ==> peq) popp. Proof. intros f f' H. unfold popp. now rewrite H. Qed.
Lemma coef_zero i : (i < n256)%nat -> coef zero_poly i == 0. Proof. intros. unfold zero_poly. now rewrite coef_eqm. Qed.
Lemma mult_comm F G : MultiplyNTTs F G = MultiplyNTTs G F.
Proof.
  apply pol_ext; [apply pol_poly|apply pol_poly|]. intros b r Hb Hr. destruct (coef_mult F G b Hb) as [A0 A1], (coef_mult G F b Hb) as [B0 B1].
  destruct r as [|[|r]]; [rewrite A0, B0|rewrite A1, B1|lia]; apply eq_eqm; ring.
Qed.
Lemma mult_assoc F G H : MultiplyNTTs F (MultiplyNTTs G H) = MultiplyNTTs (MultiplyNTTs F G) H.
Proof.
  apply pol_ext; [apply pol_poly|apply pol_poly|]. intros b r Hb Hr.
  destruct (coef_mult F (MultiplyNTTs G H) b Hb) as [A0 A1], (coef_mult (MultiplyNTTs F G) H b Hb) as [B0 B1], (coef_mult F G b Hb) as [C0 C1], (coef_mult G H b Hb) as [D0 D1].
  destruct r as [|[|r]]; [rewrite A0, B0|rewrite A1, B1|lia]; rewrite C0, C1, D0, D1; apply eq_eqm; ring.
Qed.
Lemma mult_add F G H : MultiplyNTTs (poly_add F G) H = poly_add (MultiplyNTTs F H) (MultiplyNTTs G H).
Proof.
  apply pol_ext; [apply pol_poly|apply pol_poly|]. intros b r Hb Hr.
  destruct (coef_mult (poly_add F G) H b Hb) as [A0 A1], (coef_mult F H b Hb) as [B0 B1], (coef_mult G H b Hb) as [C0 C1].
  rewrite coef_add by (unfold n256; lia).
  destruct r as [|[|r]]; [rewrite A0, B0, C0|rewrite A1, B1, C1|lia]; rewrite !coef_add by (unfold n256; lia); apply eq_eqm; ring.
Qed.
Lemma NTT_one b : (b < 128)%nat -> coef (NTT pone) (2 * b + 0) == 1 /\ coef (NTT pone) (2 * b + 1) == 0.
Proof.
  intros Hb. rewrite !coef_NTT by lia. split.
  - rewrite (zsum_delta 128 0); [|lia|].
    + unfold pone. rewrite coef_eqm by (unfold n256; lia). reflexivity.
    + intros i Hi N. unfold pone. rewrite coef_eqm by (unfold n256; lia). replace (2 * i + 0 =? 0)%nat with false by (symmetry; apply Nat.eqb_neq; lia). reflexivity.
  - rewrite (zsum_eqm 128 _ (fun _ => 0)); [now rewrite zsum_zero|]. intros i Hi. unfold pone. rewrite coef_eqm by (unfold n256; lia).
    replace (2 * i + 1 =? 0)%nat with false by (symmetry; apply Nat.eqb_neq; lia). reflexivity.
Qed.
Lemma Rq_ring : ring_theory zero_poly pone poly_add ring_mul poly_sub popp peq.
Proof.
  constructor.
  - intros f i Hi. rewrite coef_add, coef_zero by assumption. reflexivity.
  - intros f g i Hi. rewrite !coef_add by assumption. apply eq_eqm. ring.
  - intros f g h i Hi. rewrite !coef_add by assumption. apply eq_eqm. ring.
  - intros f. apply NTT_inj. rewrite NTT_mul. apply pol_ext; [apply pol_poly|apply pol_poly|]. intros b r Hb Hr.
    destruct (coef_mult (NTT pone) (NTT f) b Hb) as [A0 A1], (NTT_one b Hb) as [N0 N1].
    destruct r as [|[|r]]; [rewrite A0|rewrite A1|lia]; rewrite N0, N1; apply eq_eqm; ring.
  - intros f g. apply NTT_inj. rewrite !NTT_mul. apply mult_comm.
  - intros f g h. apply NTT_inj. rewrite !NTT_mul. apply mult_assoc.
  - intros f g h. apply NTT_inj. rewrite NTT_add, !NTT_mul, NTT_add. apply mult_add.
  - intros f g i Hi. unfold popp. rewrite coef_add, !coef_sub, coef_zero by assumption. apply eq_eqm. ring.
  - intros f i Hi. unfold popp. rewrite coef_add, coef_sub, coef_zero by assumption. apply eq_eqm. ring.
Qed.
Lemma Rq_ext : ring_eq_ext poly_add ring_mul popp peq.
Proof. constructor; typeclasses eauto. Qed.
Add Ring RqRing : Rq_ring (setoid peqE Rq_ext).

(** *** inner products through the transform *)
Lemma NTT_zero : NTT zero_poly = zero_poly.
Proof.
  apply pol_ext; [apply pol_poly|apply pol_poly|]. intros b r Hb Hr. rewrite coef_NTT, coef_zero by (unfold n256; lia).
  rewrite (zsum_eqm 128 _ (fun _ => 0)); [now rewrite zsum_zero|]. intros j Hj. rewrite coef_zero by (unfold n256; lia). reflexivity.
Qed.
Lemma dot_NTT fs : forall gs, dot (map NTT fs) (map NTT gs) = NTT (inner fs gs).
Proof.
  unfold dot, inner. induction fs as [|f fs IH]; intros gs; [symmetry; apply NTT_zero|]. destruct gs as [|g gs]; [symmetry; apply NTT_zero|].
  cbn [map combine fold_right]. rewrite IH, NTT_add, NTT_mul. reflexivity.
Qed.
Lemma pol_inner fs gs : pol (inner fs gs).
Proof. unfold inner. destruct (combine fs gs) as [|[f g] l]; cbn [fold_right]; apply pol_poly. Qed.
Lemma NTTi_dot fs gs : NTT_inv (dot (map NTT fs) (map NTT gs)) = inner fs gs.
Proof. rewrite dot_NTT. apply NTT_inv_NTT, pol_inner. Qed.
Lemma row_back row : Forall pol row -> map NTT (map NTT_inv row) = row.
Proof. intros H. rewrite map_map. induction H as [|f row P H IH]; [reflexivity|]. cbn [map]. now rewrite NTT_NTT_inv, IH. Qed.

Section Scheme.
(** (Spec only.) *)
Variables a11 a12 a13 a21 a22 a23 a31 a32 a33 : list Z.
Let A := [[a11; a12; a13]; [a21; a22; a23]; [a31; a32; a33]].
Hypothesis HA : Forall (Forall pol) A.
Let AR := map (map NTT_inv) A.
Variables s1 s2 s3 e1 e2 e3 y1 y2 y3 g1 g2 g3 h mu : list Z.
Let s := [s1; s2; s3].
Let e := [e1; e2; e3].
Let y := [y1; y2; y3].
Let g := [g1; g2; g3].
Let t := vec_add (map (fun row => inner row s) AR) e.
Let u := vec_add (map (fun col => inner col y) (transpose AR)) g.
Let v := poly_add (poly_add (inner t y) h) mu.
Lemma HAs : pol a11 /\ pol a12 /\ pol a13 /\ pol a21 /\ pol a22 /\ pol a23 /\ pol a31 /\ pol a32 /\ pol a33.
Proof. clear - HA. unfold A in HA. repeat match goal with H : Forall _ (_ :: _) |- _ => inversion_clear H end. repeat split; assumption || apply H || idtac. all: match goal with P : pol ?a |- length ?a = _ => apply P | P : pol ?a |- canon ?a => apply P end. Qed.
Lemma t_ok : vec_add (mat_vec A (map NTT s)) (map NTT e) = map NTT t.
Proof.
  destruct HAs as (P1 & P2 & P3 & P4 & P5 & P6 & P7 & P8 & P9).
  unfold t, AR, mat_vec, A, e. cbn [map]. unfold vec_add. cbn [combine map]. rewrite !NTT_add. rewrite <- !dot_NTT. cbn [map]. rewrite !NTT_NTT_inv by assumption. reflexivity.
Qed.
Lemma u_ok : vec_add (map NTT_inv (mat_vec (transpose A) (map NTT y))) g = u.
Proof.
  destruct HAs as (P1 & P2 & P3 & P4 & P5 & P6 & P7 & P8 & P9).
  unfold u, AR, mat_vec, A. unfold transpose. cbn [map seq k3 nth]. unfold vec_add. cbn [combine map].
  rewrite <- !NTTi_dot. cbn [map]. rewrite !NTT_NTT_inv by assumption. reflexivity.
Qed.
Lemma w_ok v' u1 u2 u3 : pol mu ->
  poly_sub v' (NTT_inv (dot (map NTT s) (map NTT [u1; u2; u3]))) =
  poly_add mu (poly_sub (poly_add (poly_add (inner e y) h) (poly_sub v' v)) (inner s (vec_add g (vec_sub [u1; u2; u3] u)))).
Proof.
  intros Pm. apply pol_eq; [apply pol_poly|apply pol_poly|]. rewrite NTTi_dot.
  unfold v, t, u, AR, A, s, e, y, g. unfold transpose. cbn [map seq k3 nth]. unfold vec_add, vec_sub. cbn [combine map]. unfold inner. cbn [combine fold_right].
  ring.
Qed.
End Scheme.

(** *** rounding to the message bit *)
Lemma bit_ok b x : b = 0 \/ b = 1 -> small_coef x -> Compress 1 ((Decompress 1 b + x) mod q) = b.
Proof.
  intros Hb Hs. unfold small_coef in Hs. cbv zeta in Hs. unfold Compress, Decompress, round_div. change (2 ^ 1) with 2.
  assert (Q : q = 3329) by reflexivity. rewrite <- (Z.add_mod_idemp_r _ x) by apply q_nz. pose proof (Z.mod_pos_bound x q q_pos) as B. set (r := x mod q) in *. clearbody r.
  destruct Hb as [-> | ->].
  - change ((2 * (q * 0) + 2) / (2 * 2)) with 0. rewrite Z.add_0_l, (Z.mod_small r q) by assumption. rewrite Q in *. destruct (r <=? 1664) eqn:E.
    + replace ((2 * (2 * r) + 3329) / (2 * 3329)) with 0; [reflexivity|]. apply (Z.div_unique _ _ _ (2 * (2 * r) + 3329)); lia.
    + replace ((2 * (2 * r) + 3329) / (2 * 3329)) with 2; [reflexivity|]. apply (Z.div_unique _ _ _ (2 * (2 * r) + 3329 - 2 * (2 * 3329))); lia.
  - change ((2 * (q * 1) + 2) / (2 * 2)) with 1665. rewrite Q in *. destruct (r <=? 1664) eqn:E.
    + rewrite (Z.mod_small (1665 + r)) by lia. replace ((2 * (2 * (1665 + r)) + 3329) / (2 * 3329)) with 1; [reflexivity|]. apply (Z.div_unique _ _ _ (2 * (2 * (1665 + r)) + 3329 - 2 * 3329)); lia.
    + replace ((1665 + r) mod 3329) with (r - 1664) by (apply (Z.mod_unique _ _ 1); lia).
      replace ((2 * (2 * (r - 1664)) + 3329) / (2 * 3329)) with 1; [reflexivity|]. apply (Z.div_unique _ _ _ (2 * (2 * (r - 1664)) + 3329 - 2 * 3329)); lia.
Qed.
Lemma message_ok F n : length F = n256 -> Forall (fun b => b = 0 \/ b = 1) F -> length n = n256 -> Forall small_coef n ->
  map (Compress 1) (poly_add (map (Decompress 1) F) n) = F.
Proof.
  intros LF BF Ln Sn. apply (nth_ext _ _ 0 0); [rewrite map_length; unfold poly_add; rewrite poly_len; auto|]. rewrite map_length. unfold poly_add at 1. rewrite poly_len. intros i Hi.
  rewrite (nth_indep _ 0 (Compress 1 0)) by (rewrite map_length; unfold poly_add; rewrite poly_len; auto). rewrite map_nth.
  fold (coef (poly_add (map (Decompress 1) F) n) i). unfold poly_add. rewrite coef_poly by assumption.
  replace (coef (map (Decompress 1) F) i) with (Decompress 1 (nth i F 0)).
  2:{ unfold coef. rewrite <- (map_nth (Decompress 1)). reflexivity. }
  rewrite Forall_forall in BF, Sn. apply bit_ok; [apply BF, nth_In; lia|apply Sn, nth_In; lia].
Qed.
