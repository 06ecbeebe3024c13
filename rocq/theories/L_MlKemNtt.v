(** The number-theoretic transform of FIPS 203 is an isomorphism of rings. *)
Require Import Verif.Base Verif.L_Base Verif.S_Sha3 Verif.S_MlKem Verif.S_MlKemNoise Verif.L_MlKemEnc Verif.L_MlKem.
Require Import ZifyNat Zdiv Znumtheory Setoid Morphisms.
Local Open Scope Z_scope.

(** congruence modulo q, as an inductive type so that rewriting does not look inside (Spec only.) *)
Inductive cq (a b : Z) : Prop := cq_intro : a mod q = b mod q -> cq a b.
Notation "a == b" := (cq a b) (at level 70).
Lemma q_pos : 0 < q. Proof. reflexivity. Qed.
Lemma q_nz : q <> 0. Proof. discriminate. Qed.
Global Instance eqE : Equivalence cq.
Proof. split; [intros a; constructor; reflexivity|intros a b [H]; constructor; auto|intros a b c [H] [K]; constructor; congruence]. Qed.
Global Instance plusM : Proper (cq ==> cq ==> cq) Z.add. Proof. intros a b [H] c d [K]. constructor. apply Zplus_eqm; auto. Qed.
Global Instance subM : Proper (cq ==> cq ==> cq) Z.sub. Proof. intros a b [H] c d [K]. constructor. apply Zminus_eqm; auto. Qed.
Global Instance mulM : Proper (cq ==> cq ==> cq) Z.mul. Proof. intros a b [H] c d [K]. constructor. apply Zmult_eqm; auto. Qed.
Global Instance oppM : Proper (cq ==> cq) Z.opp. Proof. intros a b [H]. constructor. apply Zopp_eqm; auto. Qed.
Lemma mod_eqm a : a mod q == a. Proof. constructor. apply Z.mod_mod, q_nz. Qed.
Lemma eq_eqm a b : a = b -> a == b. Proof. now intros ->. Qed.
Lemma cq_mod a b : a == b -> a mod q = b mod q. Proof. now intros [H]. Qed.

(** *** sums *)
Lemma zsum_eqm m f g : (forall i, (i < m)%nat -> f i == g i) -> zsum m f == zsum m g.
Proof. induction m as [|m IH]; intros H; cbn [zsum]; [reflexivity|]. apply plusM; [apply IH; intros; apply H; lia|apply H; lia]. Qed.
Lemma zsum_add m f g : zsum m (fun i => f i + g i) = zsum m f + zsum m g.
Proof. induction m as [|m IH]; cbn [zsum]; [reflexivity|]. rewrite IH. lia. Qed.
Lemma zsum_opp m f : zsum m (fun i => - f i) = - zsum m f.
Proof. induction m as [|m IH]; cbn [zsum]; [reflexivity|]. rewrite IH. lia. Qed.
Lemma zsum_zero m : zsum m (fun _ => 0) = 0.
Proof. induction m as [|m IH]; cbn [zsum]; lia. Qed.
Lemma zsum_one m : zsum m (fun _ => 1) = Z.of_nat m.
Proof. induction m as [|m IH]; cbn [zsum]; lia. Qed.
Lemma zsum_app m n f : zsum (m + n) f = zsum m f + zsum n (fun j => f (m + j)%nat).
Proof. induction n as [|n IH]; cbn [zsum]; [rewrite Nat.add_0_r; lia|]. rewrite Nat.add_succ_r. cbn [zsum]. rewrite IH. lia. Qed.
Lemma zsum_swap m n f : zsum m (fun i => zsum n (f i)) = zsum n (fun j => zsum m (fun i => f i j)).
Proof. induction m as [|m IH]; cbn [zsum]; [now rewrite zsum_zero|]. rewrite IH, <- zsum_add. reflexivity. Qed.
Lemma zsum_delta m k f : (k < m)%nat -> (forall i, (i < m)%nat -> i <> k -> f i == 0) -> zsum m f == f k.
Proof.
  intros Hk H. induction m as [|m IH]; [lia|]. cbn [zsum]. destruct (Nat.eq_dec k m) as [->|N].
  - assert (E : zsum m f == zsum m (fun _ => 0)) by (apply zsum_eqm; intros; apply H; lia). rewrite E, zsum_zero. apply eq_eqm. lia.
  - rewrite IH by (try lia; intros; apply H; lia). rewrite (H m) by lia. apply eq_eqm. lia.
Qed.
Lemma zsum_parity m f : zsum (2 * m) f = zsum m (fun j => f (2 * j)%nat) + zsum m (fun j => f (2 * j + 1)%nat).
Proof.
  induction m as [|m IH]; [reflexivity|]. replace (2 * S m)%nat with (S (S (2 * m))) by lia. cbn [zsum]. rewrite IH.
  replace (2 * m + 1)%nat with (S (2 * m)) by lia. lia.
Qed.

(** *** polynomials *)
Lemma poly_ext f g : (forall i, (i < n256)%nat -> f i == g i) -> poly f = poly g.
Proof. intros H. unfold poly. apply map_ext_in. intros i Hi. apply in_seq in Hi. apply cq_mod, H. lia. Qed.
Lemma coef_eqm f i : (i < n256)%nat -> coef (poly f) i == f i.
Proof. intros H. rewrite coef_poly by assumption. apply mod_eqm. Qed.
Lemma poly_self f : length f = n256 -> canon f -> poly (coef f) = f.
Proof.
  intros L C. apply (nth_ext _ _ 0 0); [rewrite poly_len; auto|]. rewrite poly_len. intros i Hi. fold (coef (poly (coef f)) i). rewrite coef_poly by assumption.
  apply Z.mod_small. unfold canon in C. rewrite Forall_forall in C. apply C. apply nth_In. lia.
Qed.
Ltac half i := pose proof (Nat.div_mod i 2 ltac:(lia)); pose proof (Nat.mod_upper_bound i 2 ltac:(lia)).

(** *** roots of unity *)
Definition om (b : nat) : Z := zeta ^ root_exp b.
Definition omi (b : nat) : Z := zeta_inv ^ root_exp b.
Lemma BitRev7_nonneg b : 0 <= BitRev7 b.
Proof.
  unfold BitRev7. induction (seq 0 7) as [|j l IH]; cbn [fold_right]; [lia|].
  destruct (Z.testbit _ _); [|lia]. pose proof (Z.pow_nonneg 2 (6 - Z.of_nat j)). lia.
Qed.
Lemma root_pos b : 0 < root_exp b. Proof. unfold root_exp. pose proof (BitRev7_nonneg b). lia. Qed.
Lemma pow_eqm a b n : 0 <= n -> a == b -> a ^ n == b ^ n.
Proof.
  intros Hn H. revert n Hn. apply natlike_ind; [reflexivity|]. intros n Hn IH. rewrite !Z.pow_succ_r by assumption. now rewrite IH, H.
Qed.
Lemma zeta128 : zeta ^ 128 == -1. Proof. constructor. vm_compute. reflexivity. Qed.
Lemma zeta_inv1 : zeta * zeta_inv == 1. Proof. constructor. reflexivity. Qed.
Lemma om_omi b : om b * omi b == 1.
Proof.
  unfold om, omi. rewrite <- Z.pow_mul_l. pose proof (root_pos b). rewrite (pow_eqm (zeta * zeta_inv) 1) by (lia || exact zeta_inv1).
  rewrite Z.pow_1_l by lia. reflexivity.
Qed.
Lemma om128 b : om b ^ 128 == -1.
Proof.
  unfold om. pose proof (root_pos b). rewrite <- Z.pow_mul_r, Z.mul_comm, Z.pow_mul_r by lia. rewrite (pow_eqm _ (-1)) by (lia || exact zeta128).
  unfold root_exp. rewrite Z.pow_add_r, Z.pow_mul_r by (pose proof (BitRev7_nonneg b); lia). change ((-1) ^ 2) with 1. rewrite Z.pow_1_l by apply BitRev7_nonneg. reflexivity.
Qed.
(** powers of zeta^2 *)
Fixpoint pows (n : nat) (x : Z) : list Z := match n with O => [] | S n' => x :: pows n' ((x * 289) mod q) end.
Lemma pows_nth n : forall x i, (i < n)%nat -> nth i (pows n x) 0 == x * 289 ^ Z.of_nat i.
Proof.
  induction n as [|n IH]; intros x i Hi; [lia|]. cbn [pows]. destruct i as [|i]; cbn [nth]; [rewrite Z.mul_1_r; reflexivity|].
  rewrite IH by lia. rewrite mod_eqm. rewrite Nat2Z.inj_succ, Z.pow_succ_r by lia. apply eq_eqm. ring.
Qed.
Lemma pows_len n : forall x, length (pows n x) = n. Proof. induction n; intros; cbn [pows length]; auto. Qed.
Lemma pows_ok : forallb (fun x => Z.gcd (x - 1) q =? 1) (pows 127 289) = true. Proof. vm_compute. reflexivity. Qed.
Lemma gcd_eqm a b : a == b -> Z.gcd a q = Z.gcd b q.
Proof. intros H. rewrite (Z.gcd_comm a), (Z.gcd_comm b). rewrite <- (Z.gcd_mod a), <- (Z.gcd_mod b) by apply q_nz. apply cq_mod in H. now rewrite H. Qed.
Lemma zeta2_unit k : (1 <= k < 128)%nat -> Z.gcd (289 ^ Z.of_nat k - 1) q = 1.
Proof.
  intros Hk. pose proof pows_ok as P. rewrite forallb_forall in P. pose proof (pows_nth 127 289 (k - 1) ltac:(lia)) as N.
  assert (I : In (nth (k - 1) (pows 127 289) 0) (pows 127 289)) by (apply nth_In; rewrite pows_len; lia).
  apply P, Z.eqb_eq in I. etransitivity; [|exact I]. apply gcd_eqm. rewrite N. rewrite <- Z.pow_succ_r by lia. replace (Z.succ (Z.of_nat (k - 1))) with (Z.of_nat k) by lia. reflexivity.
Qed.
(** geometric sums *)
Lemma geom x n : (x - 1) * zsum n (fun j => x ^ Z.of_nat j) = x ^ Z.of_nat n - 1.
Proof. induction n as [|n IH]; cbn [zsum]; [rewrite Z.mul_0_r; reflexivity|]. rewrite Z.mul_add_distr_l, IH, Nat2Z.inj_succ, Z.pow_succ_r by lia. ring. Qed.
Lemma geom_zero x : Z.gcd (x - 1) q = 1 -> x ^ 128 == 1 -> zsum 128 (fun j => x ^ Z.of_nat j) == 0.
Proof.
  intros G H. pose proof (geom x 128) as E. change (Z.of_nat 128) with 128 in E. set (S := zsum 128 _) in *. clearbody S.
  assert (D : (q | (x - 1) * S)). { rewrite E. apply Z.mod_divide; [apply q_nz|]. change 0 with (0 mod q). apply cq_mod. rewrite H. reflexivity. }
  apply Gauss in D; [|apply rel_prime_sym, Zgcd_1_rel_prime; exact G]. apply Z.mod_divide in D; [|apply q_nz]. constructor. exact D.
Qed.
Lemma order256 : zeta ^ 256 == 1. Proof. replace 256 with (128 * 2) by lia. rewrite Z.pow_mul_r by lia. rewrite (pow_eqm _ (-1)) by (lia || exact zeta128). reflexivity. Qed.
Lemma pow2_128 x : 0 <= x -> (zeta ^ (2 * x)) ^ 128 == 1.
Proof. intros. rewrite <- Z.pow_mul_r by lia. replace (2 * x * 128) with (256 * x) by lia. rewrite Z.pow_mul_r by lia. rewrite (pow_eqm _ 1) by (lia || exact order256). now rewrite Z.pow_1_l. Qed.
(** *** bit reversal permutes the block numbers *)
Definition rv (b : nat) : nat := Z.to_nat (BitRev7 b).
Lemma rv_ok : forallb (fun b => ((rv b <? 128)%nat && (rv (rv b) =? b)%nat)) (seq 0 128) = true. Proof. vm_compute. reflexivity. Qed.
Lemma rv_facts b : (b < 128)%nat -> (rv b < 128)%nat /\ rv (rv b) = b /\ BitRev7 b = Z.of_nat (rv b).
Proof.
  intros H. pose proof rv_ok as R. rewrite forallb_forall in R. specialize (R b ltac:(apply in_seq; lia)). apply andb_prop in R as [R1 R2].
  split; [lia|]. split; [lia|]. unfold rv. pose proof (BitRev7_nonneg b). lia.
Qed.
Lemma zsum_list m f : zsum m f = fold_right Z.add 0 (map f (seq 0 m)).
Proof.
  induction m as [|m IH]; [reflexivity|]. cbn [zsum]. rewrite seq_S, map_app, fold_right_app, IH. cbn [map fold_right Nat.add]. rewrite Z.add_0_r.
  generalize (f m). intros x. clear. induction (map f (seq 0 m)) as [|y l IH]; cbn [fold_right]; lia.
Qed.
Lemma perm_sum l l' : Permutation.Permutation l l' -> fold_right Z.add 0 l = fold_right Z.add 0 l'.
Proof. induction 1; cbn [fold_right]; lia. Qed.
Lemma zsum_rv f : zsum 128 (fun b => f (rv b)) = zsum 128 f.
Proof.
  rewrite !zsum_list. rewrite <- (map_map rv f). apply perm_sum, Permutation.Permutation_map. apply Permutation.NoDup_Permutation_bis.
  - apply (NoDup_map_inv rv). rewrite map_map.
    erewrite map_ext_in; [rewrite map_id; apply seq_NoDup|]. intros b Hb. apply in_seq in Hb. apply rv_facts. lia.
  - rewrite map_length. lia.
  - intros x Hx. apply in_map_iff in Hx as (b & <- & Hb). apply in_seq in Hb. apply in_seq. pose proof (rv_facts b ltac:(lia)). lia.
Qed.

(** *** orthogonality *)
Lemma zz n : 0 <= n -> zeta ^ n * zeta_inv ^ n == 1.
Proof. intros. rewrite <- Z.pow_mul_l. rewrite (pow_eqm _ 1) by (lia || exact zeta_inv1). rewrite Z.pow_1_l by lia. reflexivity. Qed.
(** zeta^a zeta^-b, for a - b even *)
Lemma quot a b d : 0 <= a -> 0 <= b -> a - b = 2 * d -> -128 < d < 128 -> d <> 0 ->
  exists k, (1 <= k < 128)%nat /\ zeta ^ a * zeta_inv ^ b == 289 ^ Z.of_nat k.
Proof.
  intros Ha Hb E Hd N. destruct (Z_lt_le_dec 0 d) as [P|P].
  - exists (Z.to_nat d). split; [lia|]. rewrite Z2Nat.id by lia. replace a with (2 * d + b) by lia. rewrite Z.pow_add_r, Z.pow_mul_r by lia.
    change (zeta ^ 2) with 289. rewrite <- Z.mul_assoc. rewrite zz by lia. now rewrite Z.mul_1_r.
  - exists (Z.to_nat (d + 128)). split; [lia|]. rewrite Z2Nat.id by lia.
    assert (X : zeta ^ a == zeta ^ a * zeta ^ 256) by (rewrite order256; now rewrite Z.mul_1_r). rewrite X. rewrite <- Z.pow_add_r by lia.
    replace (a + 256) with (2 * (d + 128) + b) by lia. rewrite Z.pow_add_r, (Z.pow_mul_r zeta 2) by lia.
    change (zeta ^ 2) with 289. rewrite <- Z.mul_assoc. rewrite zz by lia. now rewrite Z.mul_1_r.
Qed.
Lemma unit_sum k : (1 <= k < 128)%nat -> zsum 128 (fun j => (289 ^ Z.of_nat k) ^ Z.of_nat j) == 0.
Proof.
  intros Hk. apply geom_zero; [now apply zeta2_unit|]. change 289 with (zeta ^ 2). rewrite <- (Z.pow_mul_r zeta 2) by lia. apply pow2_128. lia.
Qed.
Lemma rows a b : (a < 128)%nat -> (b < 128)%nat -> a <> b -> zsum 128 (fun j => om a ^ Z.of_nat j * omi b ^ Z.of_nat j) == 0.
Proof.
  intros Ha Hb N. destruct (rv_facts a Ha) as (A1 & A2 & A3), (rv_facts b Hb) as (B1 & B2 & B3).
  destruct (quot (root_exp a) (root_exp b) (BitRev7 a - BitRev7 b)) as (k & Hk & E); try (unfold root_exp; lia).
  - intros X. apply N. rewrite <- A2, <- B2. f_equal. lia.
  - rewrite <- (unit_sum k Hk). apply zsum_eqm. intros j _. rewrite <- Z.pow_mul_l. apply pow_eqm; [lia|exact E].
Qed.
Lemma cols i j : (i < 128)%nat -> (j < 128)%nat -> i <> j -> zsum 128 (fun b => om b ^ Z.of_nat j * omi b ^ Z.of_nat i) == 0.
Proof.
  intros Hi Hj N. set (z := zeta ^ Z.of_nat j * zeta_inv ^ Z.of_nat i).
  destruct (quot (2 * Z.of_nat j) (2 * Z.of_nat i) (Z.of_nat j - Z.of_nat i)) as (k & Hk & E); try lia.
  assert (Z2 : z ^ 2 == 289 ^ Z.of_nat k). { unfold z. rewrite Z.pow_mul_l, <- !Z.pow_mul_r by lia. rewrite !(Z.mul_comm _ 2). exact E. }
  transitivity (zsum 128 (fun b => z * (fun c => (289 ^ Z.of_nat k) ^ Z.of_nat c) (rv b))).
  - apply zsum_eqm. intros b Hb. destruct (rv_facts b Hb) as (B1 & B2 & B3). cbv beta. unfold om, omi. pose proof (root_pos b).
    rewrite <- !Z.pow_mul_r, !(Z.mul_comm (root_exp b)), !Z.pow_mul_r by lia. rewrite <- Z.pow_mul_l. fold z. unfold root_exp.
    rewrite Z.pow_add_r, Z.pow_mul_r, Z.pow_1_r, B3 by lia. rewrite Z.mul_comm. apply mulM; [reflexivity|]. apply pow_eqm; [lia|exact Z2].
  - rewrite zsum_scale, (zsum_rv (fun c => (289 ^ Z.of_nat k) ^ Z.of_nat c)), unit_sum by assumption. now rewrite Z.mul_0_r.
Qed.
Lemma diag a j : om a ^ Z.of_nat j * omi a ^ Z.of_nat j == 1.
Proof. rewrite <- Z.pow_mul_l. rewrite (pow_eqm _ 1) by (lia || apply om_omi). rewrite Z.pow_1_l by lia. reflexivity. Qed.

(** *** the transform in terms of the roots *)
Lemma pow_root x b j : x ^ (root_exp b * Z.of_nat j) = (x ^ root_exp b) ^ Z.of_nat j.
Proof. pose proof (root_pos b). apply Z.pow_mul_r; lia. Qed.
Lemma coef_NTT f b r : (b < 128)%nat -> (r < 2)%nat -> coef (NTT f) (2 * b + r) == zsum 128 (fun j => coef f (2 * j + r) * om b ^ Z.of_nat j).
Proof.
  intros Hb Hr. unfold NTT. rewrite coef_eqm by (unfold n256; lia). replace ((2 * b + r) mod 2)%nat with r by (apply Nat.mod_unique with b; lia).
  replace ((2 * b + r) / 2)%nat with b by (apply Nat.div_unique with r; lia). apply eq_eqm, zsum_ext. intros j _. unfold om. now rewrite pow_root.
Qed.
Lemma coef_NTTi F j r : (j < 128)%nat -> (r < 2)%nat -> coef (NTT_inv F) (2 * j + r) == 3303 * zsum 128 (fun b => coef F (2 * b + r) * omi b ^ Z.of_nat j).
Proof.
  intros Hb Hr. unfold NTT_inv. rewrite coef_eqm by (unfold n256; lia). replace ((2 * j + r) mod 2)%nat with r by (apply Nat.mod_unique with j; lia).
  replace ((2 * j + r) / 2)%nat with j by (apply Nat.div_unique with r; lia). apply eq_eqm. f_equal. apply zsum_ext. intros b _. unfold omi. now rewrite pow_root.
Qed.
(** two canonical polynomials are equal when the coefficients agree modulo q *)
Definition pol (f : list Z) : Prop := length f = n256 /\ canon f.
Lemma pol_poly f : pol (poly f). Proof. split; [apply poly_len|apply canon_poly]. Qed.
Lemma pol_ext f g : pol f -> pol g -> (forall b r, (b < 128)%nat -> (r < 2)%nat -> coef f (2 * b + r) == coef g (2 * b + r)) -> f = g.
Proof.
  intros [Lf Cf] [Lg Cg] H. rewrite <- (poly_self f), <- (poly_self g) by assumption. apply poly_ext. intros i Hi. half i.
  replace i with (2 * (i / 2) + i mod 2)%nat by lia. apply H; unfold n256 in Hi; lia.
Qed.
Lemma NTT_inv_NTT f : pol f -> NTT_inv (NTT f) = f.
Proof.
  intros P. apply pol_ext; [apply pol_poly|exact P|]. intros i r Hi Hr. rewrite coef_NTTi by assumption.
  assert (E : zsum 128 (fun b => coef (NTT f) (2 * b + r) * omi b ^ Z.of_nat i) == 128 * coef f (2 * i + r)).
  { transitivity (zsum 128 (fun b => zsum 128 (fun j => coef f (2 * j + r) * (om b ^ Z.of_nat j * omi b ^ Z.of_nat i)))).
    - apply zsum_eqm. intros b Hb. rewrite coef_NTT by assumption. rewrite <- zsum_scale_l. apply eq_eqm, zsum_ext. intros. ring.
    - rewrite zsum_swap. rewrite (zsum_delta 128 i) by (try assumption; intros j Hj N; rewrite zsum_scale, cols by auto; now rewrite Z.mul_0_r).
      rewrite zsum_scale. rewrite (zsum_eqm 128 _ (fun _ => 1)) by (intros; apply diag). rewrite zsum_one. apply eq_eqm. lia. }
  rewrite E. rewrite Z.mul_assoc. assert (K : 3303 * 128 == 1) by (constructor; reflexivity). rewrite K. apply eq_eqm. lia.
Qed.
Lemma NTT_NTT_inv F : pol F -> NTT (NTT_inv F) = F.
Proof.
  intros P. apply pol_ext; [apply pol_poly|exact P|]. intros a r Ha Hr. rewrite coef_NTT by assumption.
  transitivity (zsum 128 (fun j => zsum 128 (fun b => 3303 * coef F (2 * b + r) * (om a ^ Z.of_nat j * omi b ^ Z.of_nat j)))).
  - apply zsum_eqm. intros j Hj. rewrite coef_NTTi by assumption. rewrite <- zsum_scale, <- zsum_scale_l. apply eq_eqm, zsum_ext. intros. ring.
  - rewrite zsum_swap. rewrite (zsum_delta 128 a) by (try assumption; intros b Hb N; rewrite zsum_scale, rows by auto; now rewrite Z.mul_0_r).
    rewrite zsum_scale. rewrite (zsum_eqm 128 _ (fun _ => 1)) by (intros; apply diag). rewrite zsum_one. change (Z.of_nat 128) with 128.
    replace (3303 * coef F (2 * a + r) * 128) with (3303 * 128 * coef F (2 * a + r)) by ring. assert (K : 3303 * 128 == 1) by (constructor; reflexivity). rewrite K. apply eq_eqm. lia.
Qed.

(** *** products *)
Lemma coef_mult F G b : (b < 128)%nat ->
  coef (MultiplyNTTs F G) (2 * b + 0) == coef F (2 * b + 0) * coef G (2 * b + 0) + coef F (2 * b + 1) * coef G (2 * b + 1) * om b /\
  coef (MultiplyNTTs F G) (2 * b + 1) == coef F (2 * b + 0) * coef G (2 * b + 1) + coef F (2 * b + 1) * coef G (2 * b + 0).
Proof.
  intros Hb. unfold MultiplyNTTs. split; rewrite coef_eqm by (unfold n256; lia).
  - replace ((2 * b + 0) mod 2)%nat with 0%nat by (apply Nat.mod_unique with b; lia).
    replace ((2 * b + 0) / 2)%nat with b by (apply Nat.div_unique with 0%nat; lia). cbn [Nat.eqb]. cbv zeta. rewrite !Nat.add_0_r. reflexivity.
  - replace ((2 * b + 1) mod 2)%nat with 1%nat by (apply Nat.mod_unique with b; lia).
    replace ((2 * b + 1) / 2)%nat with b by (apply Nat.div_unique with 1%nat; lia). cbn [Nat.eqb]. cbv zeta. rewrite !Nat.add_0_r. reflexivity.
Qed.
Lemma coef_add f g i : (i < n256)%nat -> coef (poly_add f g) i == coef f i + coef g i. Proof. apply coef_eqm. Qed.
Lemma coef_sub f g i : (i < n256)%nat -> coef (poly_sub f g) i == coef f i - coef g i. Proof. apply coef_eqm. Qed.
(** component [r] of X^i in Z[X] / (X^2 - om b) (Spec only.) *)
Definition xp (b r i : nat) : Z := if (i mod 2 =? r)%nat then om b ^ Z.of_nat (i / 2) else 0.
Lemma xp_even b r j : xp b r (2 * j) = if (r =? 0)%nat then om b ^ Z.of_nat j else 0.
Proof.
  unfold xp. replace ((2 * j) mod 2)%nat with 0%nat by (apply Nat.mod_unique with j; lia). replace ((2 * j) / 2)%nat with j by (apply Nat.div_unique with 0%nat; lia).
  rewrite Nat.eqb_sym. reflexivity.
Qed.
Lemma xp_odd b r j : xp b r (2 * j + 1) = if (r =? 1)%nat then om b ^ Z.of_nat j else 0.
Proof.
  unfold xp. replace ((2 * j + 1) mod 2)%nat with 1%nat by (apply Nat.mod_unique with j; lia). replace ((2 * j + 1) / 2)%nat with j by (apply Nat.div_unique with 1%nat; lia).
  rewrite Nat.eqb_sym. reflexivity.
Qed.
Lemma NTT_xp f b r : (b < 128)%nat -> (r < 2)%nat -> coef (NTT f) (2 * b + r) == zsum 256 (fun i => coef f i * xp b r i).
Proof.
  intros Hb Hr. rewrite coef_NTT by assumption. change 256%nat with (2 * 128)%nat. rewrite zsum_parity. destruct r as [|[|r]]; [| |lia].
  - rewrite (zsum_ext 128 (fun j => coef f (2 * j + 1) * xp b 0 (2 * j + 1)) (fun _ => 0)) by (intros; rewrite xp_odd; cbn; lia). rewrite zsum_zero, Z.add_0_r.
    apply eq_eqm, zsum_ext. intros j _. rewrite xp_even, Nat.add_0_r. reflexivity.
  - rewrite (zsum_ext 128 (fun j => coef f (2 * j) * xp b 1 (2 * j)) (fun _ => 0)) by (intros; rewrite xp_even; cbn; lia). rewrite zsum_zero, Z.add_0_l.
    apply eq_eqm, zsum_ext. intros j _. rewrite xp_odd. reflexivity.
Qed.
Lemma parity i : exists j, i = (2 * j)%nat \/ i = (2 * j + 1)%nat.
Proof. exists (i / 2)%nat. half i. lia. Qed.
Lemma xp_mul b i j : xp b 0 i * xp b 0 j + xp b 1 i * xp b 1 j * om b = xp b 0 (i + j) /\ xp b 0 i * xp b 1 j + xp b 1 i * xp b 0 j = xp b 1 (i + j).
Proof.
  destruct (parity i) as [i' [->| ->]], (parity j) as [j' [->| ->]].
  - replace (2 * i' + 2 * j')%nat with (2 * (i' + j'))%nat by lia. rewrite !xp_even. cbn [Nat.eqb]. rewrite Nat2Z.inj_add, Z.pow_add_r by lia. split; ring.
  - replace (2 * i' + (2 * j' + 1))%nat with (2 * (i' + j') + 1)%nat by lia. rewrite !xp_even, !xp_odd. cbn [Nat.eqb]. rewrite Nat2Z.inj_add, Z.pow_add_r by lia. split; ring.
  - replace (2 * i' + 1 + 2 * j')%nat with (2 * (i' + j') + 1)%nat by lia. rewrite !xp_even, !xp_odd. cbn [Nat.eqb]. rewrite Nat2Z.inj_add, Z.pow_add_r by lia. split; ring.
  - replace (2 * i' + 1 + (2 * j' + 1))%nat with (2 * (i' + j' + 1))%nat by lia. rewrite !xp_even, !xp_odd. cbn [Nat.eqb]. rewrite !Nat2Z.inj_add, !Z.pow_add_r by lia.
    change (Z.of_nat 1) with 1. rewrite Z.pow_1_r. split; ring.
Qed.
Lemma xp_wrap b r i : xp b r (256 + i) == - xp b r i.
Proof.
  destruct (parity i) as [j [->| ->]].
  - replace (256 + 2 * j)%nat with (2 * (128 + j))%nat by lia. rewrite !xp_even. destruct (r =? 0)%nat; [|reflexivity].
    rewrite Nat2Z.inj_add, Z.pow_add_r by lia. change (Z.of_nat 128) with 128. rewrite om128. apply eq_eqm. ring.
  - replace (256 + (2 * j + 1))%nat with (2 * (128 + j) + 1)%nat by lia. rewrite !xp_odd. destruct (r =? 1)%nat; [|reflexivity].
    rewrite Nat2Z.inj_add, Z.pow_add_r by lia. change (Z.of_nat 128) with 128. rewrite om128. apply eq_eqm. ring.
Qed.
Lemma conv_row f g b r i : (i < 256)%nat ->
  zsum 256 (fun k => (if (i <=? k)%nat then coef f i * coef g (k - i) else - (coef f i * coef g (256 + k - i))) * xp b r k) ==
  zsum 256 (fun j => coef f i * coef g j * xp b r (i + j)).
Proof.
  intros Hi. assert (E1 : forall F, zsum 256 F = zsum i F + zsum (256 - i) (fun j => F (i + j)%nat)) by (intros; rewrite <- zsum_app; f_equal; lia).
  assert (E2 : forall F, zsum 256 F = zsum (256 - i) F + zsum i (fun j => F (256 - i + j)%nat)) by (intros; rewrite <- zsum_app; f_equal; lia).
  rewrite E1. rewrite (E2 (fun j => coef f i * coef g j * xp b r (i + j))). rewrite Z.add_comm. apply plusM.
  - apply eq_eqm, zsum_ext. intros j Hj. replace (i <=? i + j)%nat with true by (symmetry; apply Nat.leb_le; lia). replace (i + j - i)%nat with j by lia. reflexivity.
  - apply zsum_eqm. intros k Hk. replace (i <=? k)%nat with false by (symmetry; apply Nat.leb_gt; lia).
    replace (i + (256 - i + k))%nat with (256 + k)%nat by lia. rewrite xp_wrap. replace (256 - i + k)%nat with (256 + k - i)%nat by lia. apply eq_eqm. ring.
Qed.
Lemma conv f g b r : (b < 128)%nat -> (r < 2)%nat ->
  coef (NTT (ring_mul f g)) (2 * b + r) == zsum 256 (fun i => zsum 256 (fun j => coef f i * coef g j * xp b r (i + j))).
Proof.
  intros Hb Hr. rewrite NTT_xp by assumption. transitivity (zsum 256 (fun k => zsum 256 (fun i =>
    (if (i <=? k)%nat then coef f i * coef g (k - i) else - (coef f i * coef g (256 + k - i))) * xp b r k))).
  - apply zsum_eqm. intros k Hk. unfold ring_mul. rewrite coef_eqm by exact Hk. rewrite zsum_scale_l. reflexivity.
  - rewrite zsum_swap. apply zsum_eqm. intros i Hi. now apply conv_row.
Qed.
Lemma zsum_prod m n f g : zsum m f * zsum n g = zsum m (fun i => zsum n (fun j => f i * g j)).
Proof. rewrite <- zsum_scale_l. apply zsum_ext. intros. now rewrite zsum_scale. Qed.
(** the transform takes products in R_q to products of the blocks *)
Lemma NTT_mul f g : NTT (ring_mul f g) = MultiplyNTTs (NTT f) (NTT g).
Proof.
  apply pol_ext; [apply pol_poly|apply pol_poly|]. intros b r Hb Hr. rewrite conv by assumption.
  destruct (coef_mult (NTT f) (NTT g) b Hb) as [M0 M1]. destruct r as [|[|r]]; [| |lia].
  - rewrite M0. rewrite !NTT_xp by lia. rewrite !zsum_prod. rewrite <- zsum_scale_l, <- zsum_add. apply eq_eqm, zsum_ext. intros i _.
    rewrite <- zsum_scale_l, <- zsum_add. apply zsum_ext. intros j _. rewrite <- (proj1 (xp_mul b i j)). ring.
  - rewrite M1. rewrite !NTT_xp by lia. rewrite !zsum_prod. rewrite <- zsum_add. apply eq_eqm, zsum_ext. intros i _.
    rewrite <- zsum_add. apply zsum_ext. intros j _. rewrite <- (proj2 (xp_mul b i j)). ring.
Qed.
Lemma NTT_add f g : NTT (poly_add f g) = poly_add (NTT f) (NTT g).
Proof.
  apply pol_ext; [apply pol_poly|apply pol_poly|]. intros b r Hb Hr. rewrite coef_add by (unfold n256; lia). rewrite !coef_NTT by assumption.
  rewrite <- zsum_add. apply zsum_eqm. intros j Hj. rewrite coef_add by (unfold n256; lia). apply eq_eqm. ring.
Qed.
Lemma NTTi_add f g : NTT_inv (poly_add f g) = poly_add (NTT_inv f) (NTT_inv g).
Proof.
  apply pol_ext; [apply pol_poly|apply pol_poly|]. intros b r Hb Hr. rewrite coef_add by (unfold n256; lia). rewrite !coef_NTTi by assumption.
  rewrite <- Z.mul_add_distr_l, <- zsum_add. apply mulM; [reflexivity|]. apply zsum_eqm. intros j Hj. rewrite coef_add by (unfold n256; lia). apply eq_eqm. ring.
Qed.
Lemma NTTi_mul F G : pol F -> pol G -> NTT_inv (MultiplyNTTs F G) = ring_mul (NTT_inv F) (NTT_inv G).
Proof.
  intros PF PG. rewrite <- (NTT_inv_NTT (ring_mul _ _)) by apply pol_poly. rewrite NTT_mul. now rewrite !NTT_NTT_inv.
Qed.
