(** Fermat's little theorem and the arithmetic behind RSA, over Z. *)
Require Import Verif.Base Verif.L_Base Verif.L_PosInt Verif.L_Mont.
Require Import ZifyNat Znumtheory Permutation.

Definition prodl (l : list Z) : Z := fold_right Z.mul 1 l.
Lemma prodl_perm l m : Permutation l m -> prodl l = prodl m.
Proof. unfold prodl. induction 1; cbn [fold_right]; [reflexivity|congruence|ring|congruence]. Qed.
Lemma prime_mul_dvd p a b : prime p -> (p | a * b) -> (p | a) \/ (p | b).
Proof. intros. now apply prime_mult. Qed.
Lemma prime_prodl p l : prime p -> (p | prodl l) -> exists a, In a l /\ (p | a).
Proof.
  intros P. induction l as [|a l IH]; cbn; intros H.
  - exfalso. destruct P as [P1 _]. apply Z.divide_1_r_nonneg in H; lia.
  - apply prime_mul_dvd in H as [H|H]; [exists a; auto|destruct (IH H) as (b & Hb & D); exists b; auto|assumption].
Qed.
Lemma small_dvd p a : 0 <= a < p -> (p | a) -> a = 0.
Proof. intros H D. destruct (Z.eq_dec a 0); [assumption|]. apply Z.divide_pos_le in D; lia. Qed.

Theorem fermat p a : prime p -> ~ (p | a) -> cong p (a ^ (p - 1)) 1.
Proof.
  intros P Ha. assert (P2 : 2 <= p) by now apply prime_ge_2.
  set (L := map Z.of_nat (seq 1 (Z.to_nat (p - 1)))). set (M := map (fun i => a * i mod p) L).
  assert (InL : forall x, In x L <-> 1 <= x < p).
  { intros x. unfold L. rewrite in_map_iff. split.
    - intros (i & <- & Hi). apply in_seq in Hi. lia.
    - intros H. exists (Z.to_nat x). split; [lia|]. apply in_seq. lia. }
  assert (NL : NoDup L).
  { unfold L. apply FinFun.Injective_map_NoDup; [intros x y; lia|apply seq_NoDup]. }
  assert (NM : NoDup M).
  { unfold M.
    assert (G : forall l, NoDup l -> (forall x, In x l -> 1 <= x < p) -> NoDup (map (fun i => a * i mod p) l)).
    { induction l as [|x l IH]; intros N I; cbn; constructor.
      - intros H. apply in_map_iff in H as (y & E & Hy). inversion N; subst.
        apply mod_cong in E; [|lia]. unfold cong in E. replace (a * y - a * x) with (a * (y - x)) in E by ring.
        apply prime_mul_dvd in E as [E|E]; auto.
        assert (1 <= x < p) by (apply I; now left). assert (1 <= y < p) by (apply I; now right).
        destruct (Z.lt_trichotomy y x) as [Q|[Q|Q]]; [|subst; contradiction|].
        + apply Z.divide_opp_r in E. apply small_dvd in E; lia.
        + apply small_dvd in E; lia.
      - inversion N; subst. apply IH; auto. intros y Hy. apply I. now right. }
    apply G; [exact NL|]. intros x. apply InL. }
  assert (IM : incl M L).
  { intros y Hy. apply in_map_iff in Hy as (x & <- & Hx). apply InL in Hx. apply InL.
    pose proof (Z.mod_pos_bound (a * x) p ltac:(lia)). destruct (Z.eq_dec (a * x mod p) 0) as [E|]; [|lia].
    apply Z.mod_divide in E; [|lia]. apply prime_mul_dvd in E as [E|E]; auto; [contradiction|]. apply small_dvd in E; lia. }
  assert (PM : Permutation M L) by (apply NoDup_Permutation_bis; auto; unfold M; now rewrite map_length).
  assert (C : forall l, cong p (prodl (map (fun i => a * i mod p) l)) (a ^ zlen l * prodl l)).
  { induction l as [|x l IH]; [apply cong_refl|]. cbn [map prodl fold_right]. rewrite zlen_cons, Z.pow_add_r, Z.pow_1_r by (pose proof (zlen_nonneg l); lia).
    replace (a * a ^ zlen l * (x * fold_right Z.mul 1 l)) with (a * x * (a ^ zlen l * prodl l)) by (unfold prodl; ring).
    apply cong_mul; [apply cong_mod; lia|exact IH]. }
  specialize (C L). fold M in C. rewrite (prodl_perm _ _ PM) in C.
  assert (zlen L = p - 1) as EL by (unfold L, zlen; rewrite map_length, seq_length; lia). rewrite EL in C.
  apply cong_cancel with (prodl L).
  - apply prime_rel_prime; [assumption|]. intros D. apply prime_prodl in D as (x & Hx & Dx); [|assumption]. apply InL in Hx. apply small_dvd in Dx; lia.
  - apply cong_sym. rewrite Z.mul_1_l. exact C.
Qed.

(** exponents may be reduced modulo p-1, even for bases divisible by p, as long as they are positive *)
Lemma pow_mod_phi p x k : prime p -> 0 <= k -> forall a, 0 < a -> cong p (x ^ (a + k * (p - 1))) (x ^ a).
Proof.
  intros P Hk a Ha. assert (2 <= p) by now apply prime_ge_2. destruct (Zdivide_dec p x) as [D|D].
  - assert (Z0 : forall e, 0 < e -> cong p (x ^ e) 0).
    { intros e He. unfold cong. rewrite Z.sub_0_r. replace e with (1 + (e - 1)) by lia. rewrite Z.pow_add_r by lia. rewrite Z.pow_1_r. now apply Z.divide_mul_l. }
    apply cong_trans with 0; [apply Z0; nia|apply cong_sym, Z0; lia].
  - rewrite Z.pow_add_r, (Z.mul_comm k), Z.pow_mul_r by nia.
    rewrite <- (Z.mul_1_r (x ^ a)) at 2. apply cong_mul; [apply cong_refl|].
    apply cong_trans with (1 ^ k); [apply cong_pow; now apply fermat|]. rewrite Z.pow_1_l by lia. apply cong_refl.
Qed.
Lemma pow_cong_phi p x a b : prime p -> 0 < a -> 0 < b -> cong (p - 1) a b -> cong p (x ^ a) (x ^ b).
Proof.
  intros P Ha Hb [k E]. assert (2 <= p) by now apply prime_ge_2. destruct (Z.le_gt_cases 0 k).
  - replace a with (b + k * (p - 1)) by lia. apply pow_mod_phi; auto.
  - replace b with (a + (- k) * (p - 1)) by lia. apply cong_sym, pow_mod_phi; auto; lia.
Qed.
Lemma crt_cong p q a b : rel_prime p q -> cong p a b -> cong q a b -> cong (p * q) a b.
Proof.
  intros R [k Hk] [j Hj]. assert (D : (p | j)).
  { apply Gauss with q; [exists k; lia|assumption]. } destruct D as [i ->]. exists i. unfold cong. lia.
Qed.
Lemma primes_rel p q : prime p -> prime q -> p <> q -> rel_prime p q.
Proof.
  intros P Q N. apply prime_rel_prime; [assumption|]. intros D. apply prime_div_prime in D; auto.
Qed.
