(** A small curve meeting S_Curve.curve_group: y^2 = x^3 - 3x + 38 modulo 43,
    a group of 53 points.  It shows that the premises of the theorems about
    curves can be met; it models nothing in /repo. *)
Require Import Verif.Base Verif.S_Curve.
Require Import ZifyNat Znumtheory.

(** primes by trial division.  Spec only. *)
Definition prime_test (p : Z) : bool :=
  (1 <? p) && forallb (fun k => Z.gcd (Z.of_nat k) p =? 1) (seq 1 (Z.to_nat (p - 1))).

Lemma prime_test_ok p : prime_test p = true -> prime p.
Proof.
  unfold prime_test. intros H. apply andb_true_iff in H. destruct H as [H G]. rewrite forallb_forall in G.
  constructor; [lia|]. intros n Hn. apply Zgcd_1_rel_prime.
  specialize (G (Z.to_nat n)). rewrite Z2Nat.id in G by lia. apply Z.eqb_eq. apply G. apply in_seq. lia.
Qed.

(** the curve with base point (0, 9).  Spec only. *)
Definition tiny : curve := Curve 43 38 53 (0, 9).

(** k.(0,9) for k = 0 .. 52, by repeated addition.  Spec only. *)
Fixpoint steps (m : nat) (P : point) : list point :=
  match m with O => [] | S m => P :: steps m (pt_add tiny (Some (0, 9)) P) end.
(** Spec only. *)
Definition tiny_pts : list point := Eval vm_compute in steps 53 None.

(** Spec only. *)
Definition point_eqb (P Q : point) : bool :=
  match P, Q with
  | None, None => true
  | Some (x, y), Some (u, v) => (x =? u) && (y =? v)
  | _, _ => false
  end.

Lemma point_eqb_ok P Q : point_eqb P Q = true -> P = Q.
Proof. destruct P as [[x y]|], Q as [[u v]|]; cbn; intros H; try discriminate H; [|reflexivity]. assert (x = u /\ y = v) as [-> ->] by lia. reflexivity. Qed.

(** the point number [i].  Spec only. *)
Definition tiny_pt (i : nat) : point := nth i tiny_pts None.

(** every point of the curve is in the list *)
Lemma tiny_all : forallb (fun x => forallb (fun y =>
    negb ((Z.of_nat y * Z.of_nat y) mod 43 =? (Z.of_nat x * Z.of_nat x * Z.of_nat x - 3 * Z.of_nat x + 38) mod 43) ||
    existsb (fun i => point_eqb (tiny_pt i) (Some (Z.of_nat x, Z.of_nat y))) (seq 0 53)) (seq 0 43)) (seq 0 43) = true.
Proof. vm_compute. reflexivity. Qed.

Lemma tiny_log P : on_curve tiny P -> exists i, (i < 53)%nat /\ P = tiny_pt i.
Proof.
  destruct P as [[x y]|].
  - intros (X & Y & EQ). cbn [c_p c_b tiny] in *. pose proof tiny_all as A. rewrite forallb_forall in A.
    specialize (A (Z.to_nat x) ltac:(apply in_seq; lia)). rewrite forallb_forall in A.
    specialize (A (Z.to_nat y) ltac:(apply in_seq; lia)). rewrite !Z2Nat.id in A by lia.
    apply orb_true_iff in A. destruct A as [A|A]; [apply negb_true_iff, Z.eqb_neq in A; contradiction|].
    apply existsb_exists in A. destruct A as (i & Hi & HE). exists i. apply in_seq in Hi. split; [lia|].
    symmetry. apply point_eqb_ok. exact HE.
  - intros _. exists 0%nat. split; [lia|]. reflexivity.
Qed.

Theorem tiny_group : curve_group tiny.
Proof.
  constructor.
  - apply prime_test_ok. vm_compute. reflexivity.
  - cbn [c_p tiny]. lia.
  - apply prime_test_ok. vm_compute. reflexivity.
  - cbn [c_p c_b tiny]. lia.
  - cbn. repeat split; lia.
  - vm_compute. discriminate.
  - intros P OP. destruct (tiny_log P OP) as (i & Hi & ->).
    assert (A : forallb (fun i => point_eqb (pt_mul tiny 53 (tiny_pt i)) None) (seq 0 53) = true) by (vm_compute; reflexivity).
    rewrite forallb_forall in A. apply point_eqb_ok. apply (A i). apply in_seq. lia.
Qed.
