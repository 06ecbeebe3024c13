(** Primality certificates (Pocklington's criterion) and modular powers computed with the quotients given, so
    that checking a power costs one squaring and one product with the modulus per bit.  No part of /repo is
    modelled: this settles that the numbers in the standards are the primes they are said to be. *)
Require Import Verif.Base Verif.L_Base Verif.L_Mont Verif.L_Fermat.
Require Import ZifyNat Znumtheory.

(** a^e less multiples of N: [mulN q] is q N and [hs] the quotients, most significant bit of e first; the
    second component is what is left of [hs].  Spec only. *)
Fixpoint pw (mulN : Z -> Z) (a : Z) (e : positive) (hs : list Z) : Z * list Z :=
  match e with
  | xH => (a, hs)
  | xO e =>
      let '(r, hs) := pw mulN a e hs in
      match hs with q :: hs => (Z.square r - mulN q, hs) | [] => (Z.square r, []) end
  | xI e =>
      let '(r, hs) := pw mulN a e hs in
      match hs with q :: hs => (a * Z.square r - mulN q, hs) | [] => (a * Z.square r, []) end
  end.

Lemma cong_pow n a b k : cong n a b -> cong n (a ^ k) (b ^ k).
Proof.
  intros H. destruct (Z_lt_le_dec k 0) as [K|K]; [rewrite !Z.pow_neg_r by lia; exists 0; lia|].
  revert k K. apply natlike_ind; [exists 0; reflexivity|]. intros k K IH. rewrite !Z.pow_succ_r by lia.
  destruct H as [u H], IH as [v IH]. exists (u * a ^ k + v * b). replace a with (b + u * n) at 1 by lia.
  replace (a ^ k) with (b ^ k + v * n) at 1 by lia. replace (a ^ k) with (b ^ k + v * n) by lia. ring.
Qed.

Lemma pw_ok mulN N a (HM : forall q, mulN q = q * N) : forall e hs, cong N (fst (pw mulN a e hs)) (a ^ Zpos e).
Proof.
  induction e as [e IH|e IH|]; intros hs; cbn [pw].
  - specialize (IH hs). destruct (pw mulN a e hs) as [r l]. cbn [fst] in IH.
    replace (Zpos e~1) with (1 + (Zpos e + Zpos e)) by lia. rewrite !Z.pow_add_r, Z.pow_1_r by lia.
    destruct IH as [u U]. set (m := a ^ Zpos e) in *. clearbody m. assert (r = m + u * N) by lia. subst r.
    destruct l as [|q l]; cbn [fst]; rewrite ?HM, Z.square_spec;
      [exists (a * (2 * m * u + u * u * N))|exists (a * (2 * m * u + u * u * N) - q)]; ring.
  - specialize (IH hs). destruct (pw mulN a e hs) as [r l]. cbn [fst] in IH.
    replace (Zpos e~0) with (Zpos e + Zpos e) by lia. rewrite !Z.pow_add_r by lia.
    destruct IH as [u U]. set (m := a ^ Zpos e) in *. clearbody m. assert (r = m + u * N) by lia. subst r.
    destruct l as [|q l]; cbn [fst]; rewrite ?HM, Z.square_spec;
      [exists (2 * m * u + u * u * N)|exists (2 * m * u + u * u * N - q)]; ring.
  - cbn [fst]. rewrite Z.pow_1_r. exists 0. lia.
Qed.

Lemma cong_tr n a b d : cong n a b -> cong n b d -> cong n a d.
Proof. intros [u U] [v V]. exists (u + v). lia. Qed.
Lemma cong_sy n a b : cong n a b -> cong n b a.
Proof. intros [u U]. exists (- u). lia. Qed.

(** An element of prime order q modulo a prime r forces q | r - 1. *)
Lemma order_div r q b : prime r -> prime q -> cong r (b ^ q) 1 -> ~ cong r b 1 -> (q | r - 1).
Proof.
  intros R Q B1 BN. destruct (Zdivide_dec q (r - 1)) as [D|D]; [assumption|exfalso]. apply BN.
  assert (R2 := prime_ge_2 _ R). assert (Q2 := prime_ge_2 _ Q).
  assert (NB : ~ (r | b)).
  { intros [u ->]. apply cong_sy in B1. destruct B1 as [v V]. assert (r = 1); [|lia]. apply Z.divide_1_r_nonneg; [lia|].
    exists (v + u * (u * r) ^ (q - 1)). replace q with (Z.succ (q - 1)) in V by lia. rewrite Z.pow_succ_r in V by lia. lia. }
  destruct (rel_prime_bezout q (r - 1)) as [u v UV]; [apply prime_rel_prime; assumption|].
  (* s q = 1 + t (r - 1), s, t >= 0 *)
  set (s := u mod (r - 1) + (r - 1)). set (t := q - v + q * (- (u / (r - 1)))).
  assert (M := Z.mod_pos_bound u (r - 1) ltac:(lia)). assert (E := Z.div_mod u (r - 1) ltac:(lia)).
  assert (S : s * q = 1 + t * (r - 1)) by (unfold s, t; nia).
  assert (S0 : 0 <= s) by (unfold s; lia). assert (T0 : 0 <= t) by nia. clearbody s t.
  apply cong_tr with (b ^ (1 + t * (r - 1))).
  - rewrite Z.pow_add_r, Z.pow_1_r, Z.mul_comm with (n := t), Z.pow_mul_r by nia.
    pose proof (cong_pow r _ _ t (fermat r b R NB)) as [w W]. rewrite Z.pow_1_l in W by lia. exists (- (w * b)). nia.
  - rewrite <- S, Z.mul_comm, Z.pow_mul_r by lia. pose proof (cong_pow r _ _ s B1) as H. rewrite Z.pow_1_l in H by lia. exact H.
Qed.

Lemma prime_divisor n : 1 < n -> exists r, prime r /\ (r | n).
Proof.
  intros N. revert N. assert (H : forall m, 0 <= m -> forall n, n <= m -> 1 < n -> exists r, prime r /\ (r | n)).
  { apply (natlike_ind (fun m => forall n, n <= m -> 1 < n -> exists r, prime r /\ (r | n))); [intros; lia|].
    intros m M IH k K1 K2. destruct (prime_dec k) as [P|P]; [exists k; split; [assumption|apply Z.divide_refl]|].
    apply not_prime_divide in P; [|assumption]. destruct P as (d & D1 & D2).
    destruct (IH d) as (r & R & RD); [lia|lia|]. exists r. split; [assumption|]. now apply Z.divide_trans with d. }
  intros N. apply (H n); lia.
Qed.

Lemma prime_sqrt N : 1 < N -> (forall r, prime r -> (r | N) -> N < r * r) -> prime N.
Proof.
  intros N1 H. destruct (prime_dec N) as [P|P]; [assumption|exfalso].
  apply not_prime_divide in P; [|assumption]. destruct P as (d & D1 & [e E]).
  assert (1 < e) by nia. destruct (Z_le_gt_dec d e) as [L|L].
  - destruct (prime_divisor d) as (r & R & RD); [lia|]. assert (r <= d) by (apply Z.divide_pos_le; [lia|assumption]).
    assert (R2 := prime_ge_2 _ R). specialize (H r R). assert (N < r * r) by (apply H; rewrite E; now apply Z.divide_mul_r). nia.
  - destruct (prime_divisor e) as (r & R & RD); [lia|]. assert (r <= e) by (apply Z.divide_pos_le; [lia|assumption]).
    assert (R2 := prime_ge_2 _ R). specialize (H r R). assert (N < r * r) by (apply H; rewrite E; now apply Z.divide_mul_l). nia.
Qed.

Lemma primes_prod : forall l n, Forall prime l -> NoDup l -> Forall (fun q => (q | n)) l -> (prodl l | n).
Proof.
  induction l as [|q l IH]; intros n P D F; [apply Z.divide_1_l|]. inversion P; inversion D; inversion F; subst.
  cbn [prodl fold_right]. change (fold_right Z.mul 1 l) with (prodl l).
  destruct (IH n) as [k K]; try assumption. assert (G : (q | k)).
  { assert (X : (q | k * prodl l)) by now rewrite <- K. apply prime_mul_dvd in X as [X|X]; try assumption. exfalso.
    apply prime_prodl in X as (a & IA & AD); [|assumption]. rewrite Forall_forall in *.
    assert (q = a) as -> by (apply prime_div_prime; auto). contradiction. }
  destruct G as [j ->]. exists j. rewrite K. ring.
Qed.

(** For each prime factor q of N - 1 used: q, the cofactor (N-1)/q, the quotients for a^cofactor, and u, k with
    (a^cofactor - 1) u - k N = 1.  Spec only. *)
Definition factor := (Z * positive * list Z * Z * Z)%type.
(** Spec only. *)
Definition fac_q (f : factor) : Z := let '(q, _, _, _, _) := f in q.
(** Spec only. *)
Definition fac_ok (mulN : Z -> Z) (N a : Z) (f : factor) : bool :=
  let '(q, m, hs, u, k) := f in
  (q * Zpos m =? N - 1) && ((fst (pw mulN a m hs) - 1) * u - mulN k =? 1).
(** Spec only. *)
Fixpoint nodupb (l : list Z) : bool := match l with [] => true | x :: l => negb (existsb (Z.eqb x) l) && nodupb l end.
Lemma nodupb_ok l : nodupb l = true -> NoDup l.
Proof.
  induction l as [|x l IH]; cbn; intros H; constructor; apply andb_true_iff in H as [H1 H2]; [|auto].
  intros I. rewrite (proj2 (existsb_exists _ l)) in H1; [discriminate|]. exists x. split; [assumption|apply Z.eqb_refl].
Qed.
(** Spec only. *)
Definition pock_check (mulN : Z -> Z) (N a : Z) (hs : list Z) (fs : list factor) : bool :=
  (1 <? N) && (fst (pw mulN a (Z.to_pos (N - 1)) hs) =? 1) && forallb (fac_ok mulN N a) fs &&
  nodupb (map fac_q fs) && (N <? Z.square (prodl (map fac_q fs))).

Theorem pock mulN N a hs fs (HM : forall q, mulN q = q * N) :
  Forall prime (map fac_q fs) -> pock_check mulN N a hs fs = true -> prime N.
Proof.
  unfold pock_check. intros P H. repeat (apply andb_true_iff in H as [H ?]).
  rename H into N1, H0 into SQ, H1 into ND, H2 into FS, H3 into PW. apply nodupb_ok in ND.
  apply Z.ltb_lt in N1, SQ. apply Z.eqb_eq in PW. rewrite Z.square_spec in SQ.
  assert (A1 : cong N (a ^ (N - 1)) 1).
  { pose proof (pw_ok mulN N a HM (Z.to_pos (N - 1)) hs) as C. rewrite PW, Z2Pos.id in C by lia. now apply cong_sy. }
  apply prime_sqrt; [assumption|]. intros r R RN. assert (R2 := prime_ge_2 _ R).
  assert (D : (prodl (map fac_q fs) | r - 1)).
  { apply primes_prod; try assumption. apply Forall_forall. intros q IQ. apply in_map_iff in IQ as (f & <- & IF).
    rewrite forallb_forall in FS. specialize (FS f IF). rewrite Forall_forall in P. specialize (P (fac_q f) (in_map _ _ _ IF)).
    destruct f as [[[[q m] h] u] k]. cbn [fac_q] in *. unfold fac_ok in FS. apply andb_true_iff in FS as [E G].
    apply Z.eqb_eq in E, G. pose proof (pw_ok mulN N a HM m h) as C. set (b := fst (pw mulN a m h)) in *. clearbody b.
    rewrite HM in G. apply (order_div r q (a ^ Zpos m)); try assumption.
    - rewrite <- Z.pow_mul_r, Z.mul_comm, E by lia. destruct A1 as [w W], RN as [x X]. exists (w * x). rewrite W, X. ring.
    - intros [w W]. destruct C as [v V], RN as [x X].
      assert (1 = r * ((w + v * x) * u - k * x)) by (rewrite <- G; replace b with (1 + w * r + v * (x * r)) by (rewrite <- X; lia); rewrite X; ring).
      assert (r = 1) by (apply Z.divide_1_r_nonneg; [lia|]; exists ((w + v * x) * u - k * x); lia). lia. }
  apply Z.divide_pos_le in D; [|lia]. 
  assert (0 < prodl (map fac_q fs)). { clear - P. induction P; cbn; [lia|]. pose proof (prime_ge_2 _ H). unfold prodl in IHP. nia. }
  nia.
Qed.

(** Trial division up to 256.  Spec only. *)
Definition small_test (q : Z) : bool :=
  (1 <? q) && (q <? 65536) && forallb (fun i => (q <=? Z.of_nat i) || negb (q mod Z.of_nat i =? 0)) (seq 2 255).
Lemma small_prime q : small_test q = true -> prime q.
Proof.
  unfold small_test. intros H. repeat (apply andb_true_iff in H as [H ?]). rewrite forallb_forall in H0.
  apply prime_sqrt; [lia|]. intros r R [k K]. assert (R2 := prime_ge_2 _ R). destruct (Z_le_gt_dec r 256) as [L|L]; [|nia].
  specialize (H0 (Z.to_nat r) ltac:(apply in_seq; lia)). rewrite Z2Nat.id in H0 by lia.
  rewrite K, Z.mod_mul in H0 by lia. cbn [Z.eqb negb] in H0. rewrite <- K in H0. nia.
Qed.
