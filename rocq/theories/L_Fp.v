(** The integers modulo a prime as a field, for the [ring] and [field]
    tactics: equality is congruence, so that no quotient type is needed. *)
Require Import ZArith Znumtheory Zpow_facts Field Setoid Morphisms Lia Zdiv.
Require Import Verif.S_Curve Verif.L_Mont Verif.L_Fermat.
Local Open Scope Z_scope.

(** Congruence modulo p.  No lines of /repo are modelled here. *)
Definition feq (p a b : Z) : Prop := a mod p = b mod p.

(** Division modulo p.  No lines of /repo are modelled here. *)
Definition fdiv (p x y : Z) : Z := x * inv_mod p y.

Global Instance feq_equiv p : Equivalence (feq p).
Proof. unfold feq; split; repeat intro; congruence. Qed.
Global Instance fadd_m p : Proper (feq p ==> feq p ==> feq p) Z.add.
Proof. unfold feq; intros a b H c d H0. rewrite Zplus_mod, H, H0, <- Zplus_mod; reflexivity. Qed.
Global Instance fmul_m p : Proper (feq p ==> feq p ==> feq p) Z.mul.
Proof. unfold feq; intros a b H c d H0. rewrite Zmult_mod, H, H0, <- Zmult_mod; reflexivity. Qed.
Global Instance fsub_m p : Proper (feq p ==> feq p ==> feq p) Z.sub.
Proof. unfold feq; intros a b H c d H0. rewrite Zminus_mod, H, H0, <- Zminus_mod; reflexivity. Qed.
Global Instance fopp_m p : Proper (feq p ==> feq p) Z.opp.
Proof. intros a b H. change (feq p (0 - a) (0 - b)). rewrite H. reflexivity. Qed.
Global Instance fmod_m p : Proper (feq p ==> feq p) (fun x => x mod p).
Proof. intros a b H. unfold feq in *. rewrite H. reflexivity. Qed.

Lemma feq_mod p a : feq p (a mod p) a.
Proof. unfold feq. apply Zmod_mod. Qed.

Lemma feq_small p a b : feq p a b -> 0 <= a < p -> 0 <= b < p -> a = b.
Proof. unfold feq. intros H A B. rewrite !Z.mod_small in H by lia. exact H. Qed.

Lemma feq_sub p a b : feq p a b <-> feq p (a - b) 0.
Proof.
  split; intros H.
  - rewrite H. unfold feq. f_equal. ring.
  - transitivity (a - b + b); [unfold feq; f_equal; ring|]. rewrite H. unfold feq. f_equal.
Qed.

Lemma feq_ring p a b : a = b -> feq p a b.
Proof. intros ->. reflexivity. Qed.

Lemma feq_dec p a b : {feq p a b} + {~ feq p a b}.
Proof. unfold feq. apply Z.eq_dec. Qed.

Lemma feq_0_div p a : p <> 0 -> (feq p a 0 <-> (p | a)).
Proof.
  intros P. unfold feq. rewrite Z.mod_0_l by lia. split.
  - apply Z.mod_divide; lia.
  - intros H. apply Z.mod_divide in H; lia.
Qed.

Section Fp.
Variable p : Z.
Hypothesis pp : prime p.
Local Infix "==" := (feq p) (at level 70).

Lemma fp1 : 1 < p. Proof. destruct pp; lia. Qed.

Lemma fintegral a b : a * b == 0 -> a == 0 \/ b == 0.
Proof.
  pose proof fp1. rewrite !feq_0_div by lia. intros E. now apply prime_mult.
Qed.

Lemma fnz_mul a b : ~ a == 0 -> ~ b == 0 -> ~ a * b == 0.
Proof. intros A B E. destruct (fintegral _ _ E); auto. Qed.

Global Instance finv_m : Proper (feq p ==> feq p) (inv_mod p).
Proof.
  unfold inv_mod, feq. intros x y H. pose proof fp1. rewrite !Zpow_mod_correct by lia.
  rewrite (Zpower_mod x), (Zpower_mod y), H by lia. reflexivity.
Qed.

Lemma fone : ~ 1 == 0.
Proof. unfold feq. pose proof fp1. rewrite Zmod_1_l, Zmod_0_l by lia. lia. Qed.

Lemma inv_mod_range x : 0 <= inv_mod p x < p.
Proof. unfold inv_mod. pose proof fp1. rewrite Zpow_mod_correct by lia. apply Z.mod_pos_bound; lia. Qed.

Lemma finv_ok x : ~ x == 0 -> inv_mod p x * x == 1.
Proof.
  intros H. pose proof fp1. rewrite feq_0_div in H by lia.
  unfold inv_mod, feq. rewrite Zpow_mod_correct by lia. rewrite Zmult_mod, Zmod_mod, <- Zmult_mod.
  pose proof (fermat p x pp H) as F. unfold cong in F.
  apply feq_0_div in F; [|lia]. apply feq_sub in F.
  replace (x ^ (p - 2) * x) with (x ^ (p - 1)); [exact F|].
  replace (p - 1) with (Z.succ (p - 2)) by lia. rewrite Z.pow_succ_r by lia. ring.
Qed.

Lemma finv_nz x : ~ x == 0 -> ~ inv_mod p x == 0.
Proof. intros H E. pose proof (finv_ok x H) as F. rewrite E in F. apply fone. rewrite <- F. reflexivity. Qed.

Lemma frt : ring_theory 0 1 Z.add Z.mul Z.sub Z.opp (feq p).
Proof. split; intros; unfold feq; f_equal; ring. Qed.

Global Instance fdiv_m : Proper (feq p ==> feq p ==> feq p) (fdiv p).
Proof. intros a b H c d H0. unfold fdiv. rewrite H, H0. reflexivity. Qed.

Lemma fft : field_theory 0 1 Z.add Z.mul Z.sub Z.opp (fdiv p) (inv_mod p) (feq p).
Proof. split; [apply frt|apply fone|reflexivity|apply finv_ok]. Qed.

Lemma feqe : ring_eq_ext Z.add Z.mul Z.opp (feq p).
Proof. split; repeat intro; [apply fadd_m|apply fmul_m|apply fopp_m]; assumption. Qed.

Lemma fmorph : ring_morph 0 1 Z.add Z.mul Z.sub Z.opp (feq p) 0 1 Z.add Z.mul Z.sub Z.opp Z.eqb (fun x => x).
Proof. split; intros; try reflexivity. apply Z.eqb_eq in H; subst; reflexivity. Qed.

Add Field FpF : fft (setoid (feq_equiv p) feqe, morphism fmorph, constants [Zcst]).

Lemma fcancel a b c : ~ c == 0 -> a * c == b * c -> a == b.
Proof.
  intros C E. apply feq_sub. apply feq_sub in E.
  assert (E' : (a - b) * c == 0) by (rewrite <- E; ring).
  destruct (fintegral _ _ E'); [assumption|contradiction].
Qed.
End Fp.
